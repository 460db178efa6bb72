(** C45, C65: the command-line tool's writers and parsers.

    [word] is the regex class [\w]; only its ASCII part matters and is fixed by
    [ascii_word_law].  [keep_last = false] is the splitting behaviour of
    [regex] 0.2, the version the tool is built with. *)
From Coq Require Import List NArith Bool.
From Verif Require Import Base TextModel CliModel CliSpec CliProofs.
Import ListNotations.
Open Scope N_scope.

(** ** C45 *)
Theorem C45_codepoints : forall word s, ascii_word_law word -> Forall scalar s ->
  codepoints word false (write_as_codepoints s) = Ret s.
Proof. exact (fun word s law H => codepoints_round_trip word law false s H (or_intror eq_refl)). Qed.
Print Assumptions C45_codepoints.

Theorem C45_utf8_hex : forall word s, ascii_word_law word -> Forall scalar s ->
  utf8_hex word false (write_as_utf8_hex s) = Ret s.
Proof. exact (fun word s law H => utf8_hex_round_trip word law false s H (or_intror eq_refl)). Qed.
Print Assumptions C45_utf8_hex.

Theorem C45_utf16_hex : forall word s, ascii_word_law word -> Forall scalar s ->
  utf16_hex word false (write_as_utf16_hex s) = Ret s.
Proof. exact (fun word s law H => utf16_hex_round_trip word law false s H (or_intror eq_refl)). Qed.
Print Assumptions C45_utf16_hex.

(** With a splitter that yields a trailing empty piece (later versions of
    [regex]) everything but the empty text still makes the round trip ... *)
Theorem C45_nonempty_any_splitter : forall word keep_last s, ascii_word_law word -> Forall scalar s -> s <> [] ->
  codepoints word keep_last (write_as_codepoints s) = Ret s /\
  utf8_hex word keep_last (write_as_utf8_hex s) = Ret s /\
  utf16_hex word keep_last (write_as_utf16_hex s) = Ret s.
Proof.
  exact (fun word k s law H N => conj (codepoints_round_trip word law k s H (or_introl N))
          (conj (utf8_hex_round_trip word law k s H (or_introl N)) (utf16_hex_round_trip word law k s H (or_introl N)))).
Qed.
Print Assumptions C45_nonempty_any_splitter.

(** ... and the empty text makes the parsers panic. *)
Theorem C45_empty_with_later_regex : forall word,
  codepoints word true (write_as_codepoints []) = Panic /\
  utf8_hex word true (write_as_utf8_hex []) = Panic /\
  utf16_hex word true (write_as_utf16_hex []) = Panic.
Proof. exact empty_panics. Qed.
Print Assumptions C45_empty_with_later_regex.

(** Whatever a parser returns, on any input, is valid text. *)
Theorem C45_parsed_text_valid : forall word keep_last x s,
  codepoints word keep_last x = Ret s \/ utf8_hex word keep_last x = Ret s \/ utf16_hex word keep_last x = Ret s ->
  Forall scalar s.
Proof. exact parsed_is_valid. Qed.
Print Assumptions C45_parsed_text_valid.

Definition sample_word (c : N) : bool :=
  ((0x30 <=? c) && (c <=? 0x39)) || ((0x41 <=? c) && (c <=? 0x5A)) || (c =? 0x5F) || ((0x61 <=? c) && (c <=? 0x7A)).
Example C45_example :
  write_as_codepoints [0x41; 0x1F600] = [0x55; 0x2B; 0x30; 0x30; 0x34; 0x31; 0x20; 0x55; 0x2B; 0x31; 0x46; 0x36; 0x30; 0x30] /\
  codepoints sample_word false (write_as_codepoints [0x41; 0x1F600]) = Ret [0x41; 0x1F600] /\
  utf16_hex sample_word false (write_as_utf16_hex [0x41; 0x1F600]) = Ret [0x41; 0x1F600] /\
  utf8_hex sample_word false [0x30; 0x78; 0x46; 0x46] = Panic.
Proof. vm_compute. auto. Qed.

(** ** C65 *)
Theorem C65_literals_denote_the_text : forall literal s, Forall scalar s ->
  denotes (write_with_control_n_unicode_braces_escape s) s /\
  denotes (write_with_control_braces_escape literal s) s /\
  denotes (write_with_all_braces_escape s) s.
Proof. exact escapes_denote. Qed.
Print Assumptions C65_literals_denote_the_text.

Theorem C65_reading_is_deterministic : forall s t t', reads s t -> reads s t' -> t = t'.
Proof. exact (fun s t t' H H' => reads_fun s t H t' H'). Qed.
Print Assumptions C65_reading_is_deterministic.

Theorem C65_injective : forall s t, Forall scalar s -> Forall scalar t ->
  (write_with_control_n_unicode_braces_escape s = write_with_control_n_unicode_braces_escape t -> s = t) /\
  (forall literal, write_with_control_braces_escape literal s = write_with_control_braces_escape literal t -> s = t) /\
  (write_with_all_braces_escape s = write_with_all_braces_escape t -> s = t).
Proof. exact escapes_injective. Qed.
Print Assumptions C65_injective.

Theorem C65_ascii_output : forall s, Forall scalar s ->
  Forall (fun x => x < 128) (write_with_control_n_unicode_braces_escape s) /\
  Forall (fun x => x < 128) (write_with_all_braces_escape s).
Proof. exact escapes_ascii. Qed.
Print Assumptions C65_ascii_output.

Example C65_example : (* a, quote, e-acute *)
  write_with_control_n_unicode_braces_escape [0x61; 0x22; 0xE9] =
    [0x22; 0x61; 0x5C; 0x22; 0x5C; 0x75; 0x7B; 0x65; 0x39; 0x7D; 0x22].
Proof. vm_compute. reflexivity. Qed.

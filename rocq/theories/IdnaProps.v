(** IDNA properties: C23-C28, C61-C64. *)
From Coq Require Import List NArith ZArith Lia Bool.
From Verif Require Import Base Enums TableTypes UcdModel NormModel PunyModel PunySpec PunyProofs IdnaModel IdnaSpec IdnaTables IdnaLemmas.
Import ListNotations.
Open Scope N_scope.

(** C23 *)
Theorem C23_ascii_only : forall checked d f a, Forall scalar d -> to_ascii checked d f = Ret (inl a) ->
  Forall (fun c => c < 128) a.
Proof. exact to_ascii_ascii. Qed.
Print Assumptions C23_ascii_only.

(** Every label of the result is the ASCII form of a valid label, the labels
    being those of to_unicode when processing is not transitional. *)
Theorem C23_labels : forall checked d f a, Forall scalar d -> len d <= 13256071 -> to_ascii checked d f = Ret (inl a) ->
  exists us xs, labels_of a xs /\ Forall2 a_label us xs /\ Forall (valid_label (use_std3 f)) us /\
    (transitional f = false -> exists u, to_unicode d f = Ret (u, []) /\ labels_of u us).
Proof. exact to_ascii_labels. Qed.
Print Assumptions C23_labels.

(** "Bücher.de" gives "xn--bcher-kva.de" *)
Example C23_ex : to_ascii true [0x42; 0xFC; 0x63; 0x68; 0x65; 0x72; 0x2E; 0x64; 0x65] (mkFlags true false true) =
  Ret (inl [0x78; 0x6E; 0x2D; 0x2D; 0x62; 0x63; 0x68; 0x65; 0x72; 0x2D; 0x6B; 0x76; 0x61; 0x2E; 0x64; 0x65]).
Proof. vm_cast_no_check (eq_refl (@Ret (str + list Error) (inl [0x78; 0x6E; 0x2D; 0x2D; 0x62; 0x63; 0x68; 0x65; 0x72; 0x2D; 0x6B; 0x76; 0x61; 0x2E; 0x64; 0x65]))). Qed.

(** C24 *)
Theorem C24_dns_length : forall checked d f a, Forall scalar d -> verify_dns f = true ->
  to_ascii checked d f = Ret (inl a) -> dns_ok a.
Proof. exact dns_enforced. Qed.
Print Assumptions C24_dns_length.

Theorem C24_dns_exact : forall checked d s t a, Forall scalar d ->
  (to_ascii checked d (mkFlags s t true) = Ret (inl a) <->
   to_ascii checked d (mkFlags s t false) = Ret (inl a) /\ dns_ok a).
Proof. exact to_ascii_dns. Qed.
Print Assumptions C24_dns_exact.

(** 64 letters are too long for a label. *)
Example C24_ex : to_ascii true (repeat 97 63 ++ [0x2E]) (mkFlags true false true) = Ret (inl (repeat 97 63 ++ [0x2E])) /\
  to_ascii true (repeat 97 64) (mkFlags true false true) = Ret (inr [TooLongForDns]) /\
  to_ascii true [0x61; 0x2E; 0x2E; 0x62] (mkFlags true false true) = Ret (inr [TooShortForDns]).
Proof. split; [vm_compute; reflexivity|]. split; vm_compute; reflexivity. Qed.

(** C25 *)
Theorem C25_mapping_total : forall c, scalar c -> exists m, mapping_of c = Ret m.
Proof. exact mapping_total. Qed.
Print Assumptions C25_mapping_total.

(** The replacement text consists of at most 18 characters. *)
Theorem C25_mapping_text : forall c m, scalar c -> mapping_of c = Ret m ->
  Forall scalar (text_of m) /\ (length (text_of m) <= 18)%nat.
Proof. exact mapping_text. Qed.
Print Assumptions C25_mapping_text.

Example C25_ex : mapping_of 0xDF = Ret (IM_Deviation [0x73; 0x73]) /\ mapping_of 0xAD = Ret IM_Ignored /\
  mapping_of 0x10FFFF = Ret IM_Disallowed /\ length (text_of (match mapping_of 0xFDFA with Ret m => m | Panic => IM_Valid end)) = 18%nat.
Proof. repeat split; vm_compute; reflexivity. Qed.

(** C26: up to 13256071 characters, so that no count leaves 32 bits. *)
Theorem C26_to_unicode_total : forall d f, Forall scalar d -> len d <= 13256071 -> exists r, to_unicode d f = Ret r.
Proof. exact to_unicode_total. Qed.
Print Assumptions C26_to_unicode_total.

Theorem C26_to_ascii_total : forall d f, Forall scalar d -> len d <= 13256071 -> exists r, to_ascii false d f = Ret r.
Proof. exact to_ascii_total. Qed.
Print Assumptions C26_to_ascii_total.

(** In a build with overflow checks there is a name on which it panics. *)
Theorem C26_overflow_checks_refuted : exists d f, Forall scalar d /\ to_ascii true d f = Panic /\
  exists e, to_ascii false d f = Ret (inr e).
Proof. exact to_ascii_panics. Qed.
Print Assumptions C26_overflow_checks_refuted.

(** Such a panic only replaces a Punycode error. *)
Theorem C26_overflow_checks_partial : forall d f, Forall scalar d -> len d <= 13256071 ->
  to_ascii true d f = to_ascii false d f \/
  (to_ascii true d f = Panic /\ exists e, to_ascii false d f = Ret (inr e) /\ In PunycodeError e).
Proof. exact to_ascii_checked. Qed.
Print Assumptions C26_overflow_checks_partial.

(** A broken Punycode label is an error. *)
Example C26_ex : to_ascii false [0x78; 0x6E; 0x2D; 0x2D; 0xE9] (mkFlags true false true) =
  Ret (inr [PunycodeError; TooShortForDns]).
Proof. vm_compute; reflexivity. Qed.

(** C27 *)
Theorem C27_valid_labels : forall d f u, Forall scalar d -> to_unicode d f = Ret (u, []) ->
  exists ls, labels_of u ls /\ Forall (valid_label (use_std3 f)) ls.
Proof. exact to_unicode_valid. Qed.
Print Assumptions C27_valid_labels.

Example C27_ex : to_unicode [0x78; 0x6E; 0x2D; 0x2D; 0x62; 0x63; 0x68; 0x65; 0x72; 0x2D; 0x6B; 0x76; 0x61] (mkFlags true false true) =
  Ret ([0x62; 0xFC; 0x63; 0x68; 0x65; 0x72], []) /\
  to_unicode [0x2D; 0x61] (mkFlags true false true) = Ret ([0x2D; 0x61], [ValidityCriteria]).
Proof. split; vm_compute; reflexivity. Qed.

(** C28 *)
Theorem C28_case : forall checked f d d', map fold_case d = map fold_case d' ->
  to_ascii checked d f = to_ascii checked d' f /\ to_unicode d f = to_unicode d' f.
Proof. exact case_insensitive. Qed.
Print Assumptions C28_case.

(** "XN--BCHER-KVA" and "xn--bcher-kva" *)
Example C28_ex : map fold_case [0x58; 0x4E; 0x2D; 0x2D; 0x42; 0x43; 0x48; 0x45; 0x52; 0x2D; 0x4B; 0x56; 0x41] =
  map fold_case [0x78; 0x6E; 0x2D; 0x2D; 0x62; 0x63; 0x68; 0x65; 0x72; 0x2D; 0x6B; 0x76; 0x61].
Proof. reflexivity. Qed.

(** C61: right-to-left names. *)
Theorem C61_bidi_refuted : exists d f u, Forall scalar d /\ to_unicode d f = Ret (u, []) /\ Exists rtl_char u /\
  forall ls, labels_of u ls -> ~ Forall (fun l => l = [] \/ bidi_rule l) ls.
Proof. exact to_unicode_bidi_refuted. Qed.
Print Assumptions C61_bidi_refuted.

Theorem C61_bidi_partial : forall d f u, Forall scalar d -> no_alef d -> to_unicode d f = Ret (u, []) -> Exists rtl_char u ->
  exists ls, labels_of u ls /\ Forall (fun l => l = [] \/ bidi_rule l) ls.
Proof. exact to_unicode_bidi. Qed.
Print Assumptions C61_bidi_partial.

(** The rule itself is RFC 5893's. *)
Theorem C61_rule : forall l, passes_bidi l true = true <-> l = [] \/ bidi_rule l.
Proof. exact IdnaProofs.passes_bidi_iff. Qed.
Print Assumptions C61_rule.

(** Alef followed by a digit is accepted, a digit followed by alef is not. *)
Example C61_ex : to_unicode [0x5D0; 0x30] (mkFlags true false true) = Ret ([0x5D0; 0x30], []) /\
  to_unicode [0x30; 0x5D0] (mkFlags true false true) = Ret ([0x30; 0x5D0], [ValidityCriteria]).
Proof. split; vm_compute; reflexivity. Qed.

(** C62: converting the result again. *)
Theorem C62_ascii_stable_refuted : exists d f a, Forall scalar d /\ to_ascii true d f = Ret (inl a) /\
  forall b, to_ascii true a f <> Ret (inl b).
Proof. exact ascii_stable_refuted. Qed.
Print Assumptions C62_ascii_stable_refuted.

(** Also for pure ASCII names. *)
Theorem C62_ascii_name_refuted : exists d f a, Forall (fun c => c < 128) d /\ to_ascii true d f = Ret (inl a) /\
  forall b, to_ascii true a f <> Ret (inl b).
Proof. exact double_prefix_refuted. Qed.
Print Assumptions C62_ascii_name_refuted.

Theorem C62_ascii_stable_partial : forall checked d f a u ls, Forall scalar d -> no_alef d -> transitional f = false ->
  to_ascii checked d f = Ret (inl a) -> to_unicode d f = Ret (u, []) -> labels_of u ls ->
  Forall (fun l => len l <= 3855 /\ (Forall (fun c => c < 128) l -> forall r, l <> [0x78; 0x6E; 0x2D; 0x2D] ++ r)) ls ->
  to_unicode a f = Ret (u, []) /\ to_ascii checked a f = Ret (inl a).
Proof. exact ascii_stable. Qed.
Print Assumptions C62_ascii_stable_partial.

Theorem C62_unicode_stable_partial : forall d f u ls, Forall scalar d -> no_alef d -> to_unicode d f = Ret (u, []) -> labels_of u ls ->
  Forall (fun l => forall r, l <> [0x78; 0x6E; 0x2D; 0x2D] ++ r) ls -> to_unicode u f = Ret (u, []).
Proof. exact unicode_stable. Qed.
Print Assumptions C62_unicode_stable_partial.

Example C62_ex : to_unicode [0x42; 0xFC] (mkFlags true false true) = Ret ([0x62; 0xFC], []) /\
  to_ascii true [0x42; 0xFC] (mkFlags true false true) = Ret (inl [0x78; 0x6E; 0x2D; 0x2D; 0x62; 0x2D; 0x65; 0x68; 0x61]).
Proof. split; vm_compute; reflexivity. Qed.

(** C63 *)
Theorem C63_to_ascii_succeeds : forall checked d s u ls, Forall scalar d ->
  to_unicode d (mkFlags s false false) = Ret (u, []) -> labels_of u ls -> Forall (fun l => len l <= 3855) ls ->
  exists a, to_ascii checked d (mkFlags s false false) = Ret (inl a).
Proof. exact to_ascii_succeeds. Qed.
Print Assumptions C63_to_ascii_succeeds.

Example C63_ex : to_unicode [0x42; 0xFC] (mkFlags true false false) = Ret ([0x62; 0xFC], []) /\ labels_of [0x62; 0xFC] [[0x62; 0xFC]].
Proof. split; [vm_compute; reflexivity|]. constructor. intros [H|[H|[]]]; discriminate H. Qed.

(** C64 *)
Theorem C64_to_unicode : forall d f u, Forall scalar d ->
  (to_unicode d f = Ret (u, []) <-> exists us, uts46 (use_std3 f) false d us /\ labels_of u us).
Proof. exact to_unicode_uts46. Qed.
Print Assumptions C64_to_unicode.

Theorem C64_to_ascii : forall checked d s t a, Forall scalar d ->
  (to_ascii checked d (mkFlags s t false) = Ret (inl a) <->
   exists us xs, uts46 s t d us /\ labels_of a xs /\
     Forall2 (fun u x => (Forall (fun c => c < 128) u /\ x = u) \/
       (~ Forall (fun c => c < 128) u /\ exists p, encode checked u = Ret (Some p) /\ x = [0x78; 0x6E; 0x2D; 0x2D] ++ p)) us xs).
Proof. exact to_ascii_uts46. Qed.
Print Assumptions C64_to_ascii.

(** Transitional processing replaces the sharp s. *)
Example C64_ex : to_ascii true [0xDF] (mkFlags true true true) = Ret (inl [0x73; 0x73]) /\
  to_ascii true [0xDF] (mkFlags true false true) = Ret (inl [0x78; 0x6E; 0x2D; 0x2D; 0x7A; 0x63; 0x61]).
Proof. split; vm_compute; reflexivity. Qed.

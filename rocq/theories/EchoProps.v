(** C86: the program [unic-echo].

    [word] is the regex class [\w], [keep_last] how the regex crate splits (see
    C45) and [literal] which characters Rust prints as they are (see C65); the
    theorems hold for all of them.  [given args x] says that the arguments,
    with a space between them, are [x]. *)
From Coq Require Import String List NArith Bool.
From Verif Require Import Base CliSpec EchoModel EchoSpec EchoProofs.
Import ListNotations.
Open Scope list_scope.
Open Scope N_scope.

(** Whatever text the input stands for in the input format asked for, the
    program shows that text in the output format asked for. *)
Theorem C86_writes : forall word keep_last literal args i o mi mo x t no_newline, ascii_word_law word ->
  given args x -> asks ident input_manners i mi -> asks ident output_manners o mo ->
  stands mi x t -> Forall scalar t -> t <> [] \/ keep_last = false ->
  exists out, echo word keep_last literal args i o no_newline = Written (out ++ if no_newline then [] else [10]) /\
    shows mo t out.
Proof. exact echo_writes. Qed.
Print Assumptions C86_writes.

(** Its output in an interchange format, given back in that format, by way of
    any division into arguments at spaces, is the same as the text itself. *)
Theorem C86_converts : forall word keep_last literal args args' f mi mo t a o no_newline, ascii_word_law word ->
  given args t -> Forall scalar t -> t <> [] \/ keep_last = false ->
  asks ident input_manners (Some f) mi -> asks ident output_manners o mo ->
  echo word keep_last literal args None (Some f) true = Written a -> given args' a ->
  echo word keep_last literal args' (Some f) o no_newline = echo word keep_last literal args None o no_newline.
Proof. exact echo_converts. Qed.
Print Assumptions C86_converts.

(** A value that is no name of a format is never taken for one, *)
Theorem C86_rejects : forall word keep_last literal args i o no_newline,
  (~ exists mi, asks ident input_manners i mi) \/ (~ exists mo, asks ident output_manners o mo) ->
  echo word keep_last literal args i o no_newline = Usage \/ echo word keep_last literal args i o no_newline = Panicked.
Proof. exact echo_rejects. Qed.
Print Assumptions C86_rejects.

(** and no value is the name of two different ones. *)
Theorem C86_unambiguous : forall arg m m',
  (asks ident input_manners arg m -> asks ident input_manners arg m' -> m = m') /\
  (asks ident output_manners arg m -> asks ident output_manners arg m' -> m = m').
Proof. exact options_unambiguous. Qed.
Print Assumptions C86_unambiguous.

(** Two separators in a row, like a comma and a space, end the program with a
    panic in every input format but the plain one. *)
Theorem C86_two_separators_panic : forall word keep_last literal args i o no_newline m a x y b, ascii_word_law word ->
  given args (a ++ [x; y] ++ b) -> separator x -> separator y ->
  asks ident input_manners i m -> m <> AsText ->
  echo word keep_last literal args i o no_newline = Panicked.
Proof. exact echo_panics. Qed.
Print Assumptions C86_two_separators_panic.

(** [unic-echo -i CodePoints u+48 1f600 -o js6-escape] and the like *)
Definition ascii_word (c : N) : bool :=
  ((0x30 <=? c) && (c <=? 0x39)) || ((0x41 <=? c) && (c <=? 0x5A)) || (c =? 0x5F) || ((0x61 <=? c) && (c <=? 0x7A)).
Example C86_example :
  echo ascii_word false (fun _ => true) [ident "u+48"; ident "1f600"] (Some (ident "CodePoints")) (Some (ident "js6-escape")) false
    = Written ([34; 72] ++ ident "\u{1f600}" ++ [34; 10]) /\
  echo ascii_word false (fun _ => true) [ident "F0 9F 98 80"] (Some (ident "utf8-hex")) (Some (ident "UTF-16-hex")) true
    = Written (ident "0xD83D 0xDE00") /\
  echo ascii_word false (fun _ => true) [ident "a"; ident "b"] None None false = Written [97; 32; 98; 10] /\
  echo ascii_word false (fun _ => true) [ident "41, 42"] (Some (ident "codepoints")) None false = Panicked /\
  echo ascii_word false (fun _ => true) [ident "a"] (Some (ident "utf-7")) None false = Usage.
Proof. vm_compute. auto. Qed.
Example C86_example_stands : stands AsCodes (ident "u+48 1f600") [0x48; 0x1F600].
Proof.
  assert (H1 : hex_number (ident "48") 0x48) by (apply (hex_more [52] 4 56 8); [now apply hex_one|reflexivity]).
  assert (H2 : hex_number (ident "1f600") 0x1F600).
  { apply (hex_more (ident "1f60") 0x1F60 48 0); [|reflexivity]. apply (hex_more (ident "1f6") 0x1F6 48 0); [|reflexivity].
    apply (hex_more (ident "1f") 0x1F 54 6); [|reflexivity]. apply (hex_more (ident "1") 1 102 15); [|reflexivity].
    now apply hex_one. }
  apply (entered_more code_entered 0x48 (ident "u+48") 32 0x1F600 [] (ident "1f600")).
  - exists (ident "48"). split; [exact H1|auto].
  - split; [reflexivity|]. intros H. destruct H as [[H _]|[[H _]|[H|[[H _]|H]]]]; try (now apply H); discriminate H.
  - constructor. exists (ident "1f600"). split; [exact H2|auto].
Qed.

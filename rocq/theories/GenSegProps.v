(** C85: the segmentation tests are divided as the Unicode test files say. *)
From Coq Require Import String List NArith Bool.
From Verif Require Import Base GenRegex GenModel GenSpec GenBinarySpec GenSegModel GenSegSpec GenSeg GenSegTests GenSegExamples.
Import ListNotations.
Open Scope list_scope.
Open Scope N_scope.

(** WordBreakTest.txt.  [uword] and [uspace] are the [regex] crate's [\w] and [\s]. *)
Theorem C85_words : forall uword uspace,
  (forall c, c < 128 -> uword c = word c) -> (forall c, c < 128 -> uspace c = space c) ->
  (forall b, uword (sign b) = false /\ uspace (sign b) = false) ->
  forall f, Forall good_test_line f ->
  exists out, emit_words uword uspace (tests_text f) = Ret out /\
    Forall2 (fun l o => fst o = test_chars_of l /\ divides (test_chars_of l) (break_after l) (snd o)) (usable_tests f) out.
Proof. exact words_written. Qed.
Print Assumptions C85_words.

(** GraphemeBreakTest.txt: legacy clusters are also divided where only a rule for
    extended clusters forbids it; they are left out if there is no such place. *)
Theorem C85_graphemes : forall uword uspace,
  (forall c, c < 128 -> uword c = word c) -> (forall c, c < 128 -> uspace c = space c) ->
  (forall b, uword (sign b) = false /\ uspace (sign b) = false) ->
  forall f, Forall good_test_line f ->
  exists out, emit_graphemes uword uspace (tests_text f) = Ret out /\
    Forall2 (fun l o => let '(s, extended, legacy) := o in
      s = test_chars_of l /\ divides s (break_after l) extended /\
      match legacy with
      | None => forall k r, (0 < k < length l)%nat -> rule_after l k r -> ~ extended_only r
      | Some ls => divides s (fun k => break_after l k \/ exists r, rule_after l k r /\ extended_only r) ls
      end) (usable_tests f) out.
Proof. exact graphemes_written. Qed.
Print Assumptions C85_graphemes.

(** Dividing is unique, so the above says everything about the segments. *)
Theorem C85_unique : forall s cut ls ls', divides s cut ls -> divides s cut ls' -> ls = ls'.
Proof. exact divides_unique. Qed.
Print Assumptions C85_unique.

Example C85_example : Forall good_test_line example_file /\
  emit_graphemes word space (tests_text example_file) =
    Ret [([13; 10; 0x61; 0x903], [[13; 10]; [0x61; 0x903]], Some [[13; 10]; [0x61]; [0x903]])].
Proof. split; [exact example_good|vm_compute; reflexivity]. Qed.


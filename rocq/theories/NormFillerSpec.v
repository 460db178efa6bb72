(** Specification vocabulary for the exact effect of Hangul composition on U+11A7.
    U+11A7 is the code point before the first trailing consonant; it is an ordinary
    character for the standard, but the implementation absorbs it into an LV syllable. *)
From Coq Require Import List NArith Relations.
From Verif Require Import HangulSpec.
Import ListNotations.
Open Scope N_scope.

(** One U+11A7 directly after a leading consonant and a vowel is removed. *)
Inductive absorb : list N -> list N -> Prop :=
| absorb_intro p l v q : l < 19 -> v < 21 ->
    absorb (p ++ leading l :: vowel v :: 0x11A7 :: q) (p ++ leading l :: vowel v :: q).

(** There is none to remove. *)
Definition no_filler (s : list N) : Prop :=
  forall p l v q, l < 19 -> v < 21 -> s <> p ++ leading l :: vowel v :: 0x11A7 :: q.

Definition without_fillers (s t : list N) : Prop :=
  clos_refl_trans _ absorb s t /\ no_filler t.

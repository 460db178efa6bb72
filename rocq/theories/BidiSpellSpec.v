(** How a text is spelled in its canonical decomposition. *)
From Coq Require Import List NArith.
Import ListNotations.
From Verif Require Import Base Enums UcdModel NormModel BidiModel BidiSpec.

(** number of characters of the decomposition of [c] *)
Definition spelled (c : N) : nat := match nfd [c] with Some l => length l | None => 0 end.
(** none of the three Balinese vowel signs of class L whose decomposition begins with a mark *)
Definition steady (s : list N) : Prop := ~ In 0x1B3B%N s /\ ~ In 0x1B3D%N s /\ ~ In 0x1B43%N s.
(** no combining mark is left-to-right *)
Definition inheriting (d : list N) : Prop := forall c, In c d -> ccc c <> 0%N -> bidi_class c <> cL.

(** Specification vocabulary for blocks (chapter 3.4 of the Unicode Standard, UAX #44). *)
From Coq Require Import List NArith Bool.
From Verif Require Import Base RangeModel.
Import ListNotations.
Open Scope N_scope.

Definition in_block (b : CharRange * str) (c : N) : Prop := r_low (fst b) <= c /\ c <= r_high (fst b).

(** UAX44-LM3: block names are compared without case, white space, hyphens and underscores. *)
Definition loose_char (c : N) : list N :=
  if (c =? 0x20) || (c =? 0x2D) || (c =? 0x5F) then []
  else if (0x41 <=? c) && (c <=? 0x5A) then [c + 0x20] else [c].
Definition loose_name (n : list N) : list N := flat_map loose_char n.

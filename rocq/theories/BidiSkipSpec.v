(** Specification vocabulary for the arithmetic of embedding levels. *)
From Coq Require Import NArith.

(** [m] is the least number with the property *)
Definition least (P : N -> Prop) (m : N) : Prop := P m /\ forall k, P k -> (m <= k)%N.

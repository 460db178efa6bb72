(** Where a neutral run is cut off from what is before it. *)
From Coq Require Import List NArith.
Import ListNotations.
From Verif Require Import Base Enums UcdModel BidiSpec.

(** the sequence begins here, or a character that takes part in N1 is directly before *)
Definition border (pre : list BidiClass) : Prop :=
  pre = [] \/ exists p z, pre = p ++ [z] /\ kept z = true /\ neutral z = false.
(** going back over neutral and removed characters, the last one met is removed *)
Definition cut_off (pre : list BidiClass) : Prop := exists p x q,
  pre = p ++ x :: q /\ border p /\ kept x = false /\ Forall (fun c => neutral c = true \/ kept c = false) q.

From Coq Require Import List NArith Sorted.
From Verif Require Import Base RangeModel TableModel.
Import ListNotations.
Open Scope N_scope.

(** A finite map from characters, listed by increasing key. *)
Definition sorted_map {T} (m : list (N * T)) : Prop :=
  StronglySorted N.lt (map fst m) /\ Forall scalar (map fst m).

Definition sorted_set (s : list N) : Prop := StronglySorted N.lt s /\ Forall scalar s.

(** No two neighbouring entries could have been one entry. *)
Fixpoint maximally_merged {T} (l : list (CharRange * T)) : Prop :=
  match l with
  | (r1, v1) :: (((r2, v2) :: _) as l') =>
      ~ (v1 = v2 /\ r_low r2 = r_high r1 + 1) /\ maximally_merged l'
  | _ => True
  end.

(** Facts about the generated enumerations: the value lists are complete and the
    equality tests decide equality. *)
From Coq Require Import List NArith Bool.
From Verif Require Import Base Enums.
Import ListNotations.
Open Scope N_scope.

Ltac enum_all := intros v; destruct v; cbv; tauto.
(** [index] is injective because [nth] in the list of all values inverts it. *)
Ltac enum_eqb eqb index all d :=
  intros x y; unfold eqb; rewrite N.eqb_eq; split; [|congruence];
  intros H;
  assert (forall v, nth (N.to_nat (index v)) all d = v) as Hinv
    by (let v := fresh in intros v; destruct v; reflexivity);
  rewrite <- (Hinv x), <- (Hinv y), H; reflexivity.

Lemma GC_all_complete : forall v, In v GC_all. Proof. enum_all. Qed.
Lemma BC_all_complete : forall v, In v BC_all. Proof. enum_all. Qed.
Lemma GCB_all_complete : forall v, In v GCB_all. Proof. enum_all. Qed.
Lemma WB_all_complete : forall v, In v WB_all. Proof. enum_all. Qed.
Lemma SB_all_complete : forall v, In v SB_all. Proof. enum_all. Qed.
Lemma DT_all_complete : forall v, In v DT_all. Proof. enum_all. Qed.

Lemma GC_eqb_eq : forall x y, GC_eqb x y = true <-> x = y.
Proof. enum_eqb GC_eqb GC_index GC_all GC_Unassigned. Qed.
Lemma BC_eqb_eq : forall x y, BC_eqb x y = true <-> x = y.
Proof. enum_eqb BC_eqb BC_index BC_all BC_LeftToRight. Qed.
Lemma GCB_eqb_eq : forall x y, GCB_eqb x y = true <-> x = y.
Proof. enum_eqb GCB_eqb GCB_index GCB_all GCB_Other. Qed.
Lemma WB_eqb_eq : forall x y, WB_eqb x y = true <-> x = y.
Proof. enum_eqb WB_eqb WB_index WB_all WB_Other. Qed.
Lemma SB_eqb_eq : forall x y, SB_eqb x y = true <-> x = y.
Proof. enum_eqb SB_eqb SB_index SB_all SB_Other. Qed.
Lemma DT_eqb_eq : forall x y, DT_eqb x y = true <-> x = y.
Proof. enum_eqb DT_eqb DT_index DT_all DT_Canonical. Qed.

(** Cutting a text at one of its boundaries, and putting two cut texts together. *)
From Coq Require Import List NArith Lia Bool Arith.
Import ListNotations.
From Verif Require Import Base Enums UcdModel BidiModel GraphSpec SegLemmas.
Open Scope nat_scope.

Lemma concat_inj (a : list str) : forall b c d : list str, Forall (fun p => p <> []) (a ++ b) -> a ++ b = c ++ d -> concat a = concat c -> a = c.
Proof.
  induction a as [|x a IH]; intros b c d N H E.
  - destruct c as [|y c]; [reflexivity|]. cbn in H, E. subst b. inversion N; subst. destruct y; [contradiction|discriminate E].
  - destruct c as [|y c].
    + inversion N; subst. cbn in E. destruct x; [contradiction|discriminate E].
    + cbn in H, E. injection H as -> H. apply app_inv_head in E. inversion N; subst. f_equal. apply (IH b c d); auto.
Qed.

Lemma indexed_inj ps : forall o qs, indexed o ps = indexed o qs -> ps = qs.
Proof.
  induction ps as [|p ps IH]; intros o [|q qs] H; try discriminate; [reflexivity|].
  cbn in H. injection H as -> H. f_equal. eapply IH. exact H.
Qed.

Section Concat.
Context (bd : str -> str -> bool).
Hypothesis bd_start : forall t, bd [] t = true.
Hypothesis bd_end : forall t, bd t [] = true.
(** a boundary hides what is before it and what is after it *)
Hypothesis drop_left : forall p m r, m <> [] -> bd p (m ++ r) = true -> bd (p ++ m) r = bd m r.
Hypothesis drop_right : forall p m q, m <> [] -> bd (p ++ m) q = true -> bd p (m ++ q) = bd p m.

Lemma segments_app a b ps qs : bd a b = true -> segments bd a ps -> segments bd b qs -> segments bd (a ++ b) (ps ++ qs).
Proof using bd_end bd_start drop_left drop_right.
  intros B (C1 & N1 & I1) (C2 & N2 & I2). split; [rewrite concat_app; congruence|]. split; [apply Forall_app; auto|].
  intros pre post H. destruct (app_split _ _ _ _ H) as [(m & E1 & E2)|(m & E1 & E2)].
  - (* in the second text *)
    destruct m as [|x m].
    { rewrite app_nil_r in E1. cbn in E2. subst pre. rewrite <- E2. split; [intros _|intros _; exact B]. exists ps, qs. auto. }
    subst pre. rewrite E2 in B, I2. rewrite (drop_left a (x :: m) post ltac:(discriminate) B), (I2 _ _ eq_refl). split.
    + intros (u & w & E & F). exists (ps ++ u), w. rewrite <- app_assoc, concat_app. split; congruence.
    + intros (u & w & E & F). destruct (app_split _ _ _ _ E) as [(l & E3 & E4)|(l & E3 & E4)].
      * exists l, w. split; [exact E4|]. rewrite E3, concat_app, C1 in F. apply app_inv_head in F. exact F.
      * exfalso. rewrite E3, concat_app in C1. rewrite <- C1, F in *. apply (f_equal (@length _)) in F. rewrite !app_length in F. cbn in F. lia.
  - destruct m as [|x m].
    { rewrite app_nil_r in E1. cbn in E2. rewrite E2, <- E1. split; [intros _|intros _; exact B]. exists ps, qs. auto. }
    rewrite E1 in B, I1, C1. rewrite E2. rewrite (drop_right pre (x :: m) b ltac:(discriminate) B), (I1 _ _ eq_refl). split.
    + intros (u & w & E & F). exists u, (w ++ qs). rewrite E, app_assoc. auto.
    + intros (u & w & E & F). destruct (app_split _ _ _ _ E) as [(l & E3 & E4)|(l & E3 & E4)].
      * exfalso. rewrite E3, concat_app, C1 in F. apply (f_equal (@length _)) in F. rewrite !app_length in F. cbn in F. lia.
      * exists u, l. auto.
Qed.

Lemma segments_cut s ps qs : segments bd s (ps ++ qs) ->
  bd (concat ps) (concat qs) = true /\ segments bd (concat ps) ps /\ segments bd (concat qs) qs.
Proof using bd_end bd_start drop_left drop_right.
  intros SG. pose proof SG as (C & N & I). rewrite concat_app in C.
  assert (B : bd (concat ps) (concat qs) = true) by (apply (I _ _ (eq_sym C)); exists ps, qs; auto).
  destruct (segments_exist bd bd_start bd_end (concat ps)) as [us SU], (segments_exist bd bd_start bd_end (concat qs)) as [ws SW].
  pose proof (segments_app _ _ _ _ B SU SW) as SG2. rewrite C in SG2.
  pose proof (segments_unique bd _ _ _ SG SG2) as E.
  assert (E1 : ps = us) by (apply (concat_inj ps qs us ws N E); symmetry; apply SU).
  subst us. apply app_inv_head in E. subst ws. auto.
Qed.

Lemma segments_single s ps : segments bd s ps -> Forall (fun p => segments bd p [p]) ps.
Proof using bd_end bd_start drop_left drop_right.
  intros SG. apply Forall_forall. intros p H. apply in_split in H. destruct H as (a & b & ->).
  destruct (segments_cut _ _ _ SG) as (_ & _ & S2). change (p :: b) with ([p] ++ b) in S2.
  destruct (segments_cut _ _ _ S2) as (_ & S3 & _). cbn [concat] in S3. rewrite app_nil_r in S3. exact S3.
Qed.
End Concat.

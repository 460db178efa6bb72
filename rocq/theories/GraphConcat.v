(** A grapheme cluster boundary hides what is beyond it. *)
From Coq Require Import List NArith Lia Bool Arith.
Import ListNotations.
From Verif Require Import Base Enums TableTypes UcdModel BidiModel BidiLemmas GraphModel GraphSpec SegLemmas SegConcat GraphProofs GraphIter.
Open Scope nat_scope.

Lemma gb_after_head ext P a A A' : gb_boundary ext P (a :: A) = gb_boundary ext P (a :: A').
Proof. destruct P as [|b B]; [reflexivity|]. rewrite !pair_rule. reflexivity. Qed.

Lemma grapheme_drop_right ext p m q : m <> [] -> grapheme_boundary ext (p ++ m) q = true ->
  grapheme_boundary ext p (m ++ q) = grapheme_boundary ext p m.
Proof. intros N _. destruct m as [|y m]; [contradiction|]. unfold grapheme_boundary. cbn [app map]. apply gb_after_head. Qed.

(** a boundary before a regional indicator has an even number of them before it *)
Lemma ri_even ext P A : gb_boundary ext P (GCB_RegionalIndicator :: A) = true -> Nat.even (ri_run P) = true.
Proof.
  destruct P as [|b B]; [reflexivity|]. rewrite pair_rule. intros H.
  destruct b; try reflexivity. exact H.
Qed.
(** a boundary before an Extend has no emoji base before it *)
Lemma extend_no_base ext P A : gb_boundary ext P (GCB_Extend :: A) = true -> emoji_base_extend P = false.
Proof.
  destruct P as [|b B]; [reflexivity|]. rewrite pair_rule. intros H.
  destruct b; try reflexivity; discriminate H.
Qed.
Lemma emoji_pair b a : check_pair b a = PEmoji -> b = GCB_Extend.
Proof. destruct b, a; try reflexivity; discriminate. Qed.
Lemma regional_pair b a : check_pair b a = PRegional -> b = GCB_RegionalIndicator.
Proof. destruct b, a; try reflexivity; discriminate. Qed.

Lemma grapheme_drop_left ext p m r : m <> [] -> grapheme_boundary ext p (m ++ r) = true ->
  grapheme_boundary ext (p ++ m) r = grapheme_boundary ext m r.
Proof.
  intros N H. destruct r as [|a r]; [rewrite !boundary_end; reflexivity|].
  destruct (snoc_inv m N) as (m' & x & ->). rewrite app_assoc, !boundary_pair, !pair_rule.
  destruct (check_pair (gcb x) (gcb a)) eqn:CP; try reflexivity.
  - apply regional_pair in CP. rewrite CP, cb_app. unfold grapheme_boundary in H. fold (classes_before p) in H.
    cbn [ri_run]. change (any_of [GCB_RegionalIndicator] GCB_RegionalIndicator) with true. cbv iota.
    assert (E : Nat.even (ri_run (map gcb (rev m') ++ classes_before p)) = Nat.even (ri_run (classes_before m'))).
    { unfold classes_before at 2. rewrite <- map_rev. destruct (all_class_dec GCB_RegionalIndicator (rev m')) as [A|A].
      - rewrite (ri_run_all _ _ A). pose proof (ri_run_all _ [] A) as E2. rewrite app_nil_r in E2. rewrite E2, !Nat.even_add.
        cbn [ri_run Nat.even]. rewrite (ri_even ext _ (map gcb (tl ((m' ++ [x]) ++ a :: r)))); [reflexivity|].
        destruct m' as [|y m']; cbn [app tl map] in H |- *.
        + fold gcb in CP. change grapheme_cluster_break with gcb in H. rewrite CP in H. exact H.
        + apply (proj1 (all_class_rev _ (y :: m'))) in A. inversion A as [|? ? A1 A2]; subst. change grapheme_cluster_break with gcb in H. rewrite A1 in H. exact H.
      - rewrite (ri_run_app _ _ A). reflexivity. }
    rewrite !Nat.even_succ, <- !Nat.negb_even, E. reflexivity.
  - apply emoji_pair in CP. rewrite cb_app. unfold grapheme_boundary in H. fold (classes_before p) in H.
    f_equal. unfold classes_before at 2. rewrite <- map_rev. destruct (all_class_dec GCB_Extend (rev m')) as [A|A].
    + rewrite (emoji_all _ _ A). pose proof (emoji_all _ [] A) as E2. rewrite app_nil_r in E2. rewrite E2. cbn [emoji_base_extend].
      apply (extend_no_base ext _ (map gcb (tl ((m' ++ [x]) ++ a :: r)))).
      destruct m' as [|y m']; cbn [app tl map] in H |- *; change grapheme_cluster_break with gcb in H.
      * rewrite CP in H. exact H.
      * apply (proj1 (all_class_rev _ (y :: m'))) in A. inversion A as [|? ? A1 A2]; subst. rewrite A1 in H. exact H.
    + rewrite (emoji_app _ _ A). reflexivity.
Qed.

(** ** The iterators *)
Lemma graphemes_iff ext s ps : grapheme_indices ext s = Ret (Some (indexed 0 ps)) <-> segments (grapheme_boundary ext) s ps.
Proof.
  destruct (graphemes_forward ext s) as (qs & SG & H). split.
  - intros E. rewrite H in E. injection E as E. apply indexed_inj in E. subst. exact SG.
  - intros SG2. rewrite (segments_unique _ _ _ _ SG2 SG). exact H.
Qed.

Lemma graphemes_app ext a b ps qs :
  grapheme_indices ext a = Ret (Some (indexed 0 ps)) -> grapheme_indices ext b = Ret (Some (indexed 0 qs)) ->
  (grapheme_indices ext (a ++ b) = Ret (Some (indexed 0 (ps ++ qs))) <-> grapheme_boundary ext a b = true).
Proof.
  rewrite !graphemes_iff. intros S1 S2. split.
  - intros (_ & _ & I). apply (I a b eq_refl). exists ps, qs. split; [reflexivity|]. symmetry. apply S1.
  - intros B. apply segments_app; auto using boundary_start, boundary_end, grapheme_drop_left, grapheme_drop_right.
Qed.
Lemma graphemes_cut ext s ps qs : grapheme_indices ext s = Ret (Some (indexed 0 (ps ++ qs))) ->
  grapheme_indices ext (concat ps) = Ret (Some (indexed 0 ps)) /\ grapheme_indices ext (concat qs) = Ret (Some (indexed 0 qs)).
Proof.
  rewrite !graphemes_iff. intros SG.
  destruct (segments_cut _ (boundary_start ext) (boundary_end ext) (grapheme_drop_left ext) (grapheme_drop_right ext) _ _ _ SG) as (_ & H). exact H.
Qed.
Lemma graphemes_single ext s ps : grapheme_indices ext s = Ret (Some (indexed 0 ps)) ->
  Forall (fun p => grapheme_indices ext p = Ret (Some [(0, p)])) ps.
Proof.
  rewrite graphemes_iff. intros SG.
  pose proof (segments_single _ (boundary_start ext) (boundary_end ext) (grapheme_drop_left ext) (grapheme_drop_right ext) _ _ SG) as F.
  eapply Forall_impl; [|exact F]. intros p H. cbv beta in H. apply graphemes_iff in H. exact H.
Qed.

(** Canonically equivalent texts have canonically equivalent clusters. *)
From Coq Require Import List NArith ZArith Lia Bool ZifyBool ZifyN Relations.
From Verif Require Import Base RangeModel TableTypes Enums EnumFacts UcdModel HangulModel HangulSpec HangulProofs BidiModel
  NormSpec NormOrder NormModel NormTables NormBubble NormIter NormRecomp NormAlgebra NormFillerSpec NormFiller NormPiecesSpec PieceTables NormCut
  GraphModel GraphSpec SegLemmas SegConcat GraphProofs GraphIter GraphConcat ClusterState SpellTables NormPieces ClusterEquivSpec.
Import ListNotations.
Open Scope nat_scope.

(** ** One character and its decomposition *)
Definition follows (q q' : gstate) : Prop :=
  match q, q' with
  | QPlain b m, QPlain b' m' => m = m' /\ (b = true -> b' = true) /\ (b' = true -> m = true)
  | QPlain _ _, _ | _, QPlain _ _ => False
  | _, _ => q = q'
  end.
Definition allowed (ext : bool) (l : list GraphemeClusterBreak) : Prop := ext = true \/ ~ In GCB_SpacingMark l.
Lemma allowed_app ext l m : allowed ext (l ++ m) <-> allowed ext l /\ allowed ext m.
Proof. unfold allowed. rewrite in_app_iff. tauto. Qed.
Lemma allowed_cons ext g l : allowed ext (g :: l) <-> allowed ext [g] /\ allowed ext l.
Proof. exact (allowed_app ext [g] l). Qed.

Lemma marks_run ext l : forall b m, forallb hangs_g l = true -> allowed ext l -> 
  qcuts ext (QPlain b m) l = repeat false (length l) /\ calm (QPlain b m) l = true /\
  exists b', qrun (QPlain b m) l = QPlain b' m /\ (b' = true -> b = true) /\ (forallb is_extend l = true -> b' = b).
Proof.
  induction l as [|g l IH]; intros b m H A; [cbn; eauto 6|]. cbn [forallb] in H. apply andb_true_iff in H as [H1 H2].
  apply allowed_cons in A as [A1 A2]. cbn [qcuts calm qrun fold_left length repeat forallb]. destruct g; try discriminate; cbn [qstep qbase qmarked is_extend].
  - destruct (IH b m H2 A2) as (E1 & E2 & b' & E3 & E4 & E5). rewrite E1, E2. repeat split; try reflexivity. exists b'. auto.
  - destruct (IH false m H2 A2) as (E1 & E2 & b' & E3 & E4 & E5). rewrite E1, E2.
    destruct A1 as [->|A1]; [|exfalso; apply A1; now left]. repeat split; try reflexivity. exists b'. split; [assumption|]. split; [|discriminate].
    intros X. apply E4 in X. discriminate.
Qed.

Definition expands (ext : bool) (g : GraphemeClusterBreak) (l : list GraphemeClusterBreak) : Prop :=
  forall q q', follows q q' -> calm q [g] = true ->
  qcuts ext q' l = qcut ext q g :: repeat false (pred (length l)) /\ calm q' l = true /\ follows (qstep q g) (qrun q' l).

Lemma expands_same ext g : expands ext g [g].
Proof.
  intros q q' F Q. cbn [qcuts length pred repeat qrun fold_left]. unfold follows in F.
  destruct q as [| | | | | | | | |b m]; destruct q' as [| | | | | | | | |b' m']; try discriminate; try contradiction.
  1-9: split; [reflexivity|]; split; [exact Q|]; destruct g; cbn; auto 6; split; auto; discriminate.
  destruct F as (-> & F1 & F2). split; [destruct g; reflexivity|]. split.
  - destruct g; try reflexivity. cbn in Q |- *. destruct b, b', m'; try reflexivity; try discriminate; intuition discriminate.
  - destruct g; cbn; auto 6; repeat split; auto; discriminate.
Qed.
Lemma expands_lv ext : expands ext GCB_LV [GCB_L; GCB_V].
Proof.
  intros q q' F Q. unfold follows in F.
  destruct q as [| | | | | | | | |b m]; destruct q' as [| | | | | | | | |b' m']; try discriminate; try contradiction; repeat split; destruct ext; reflexivity.
Qed.
Lemma expands_lvt ext : expands ext GCB_LVT [GCB_L; GCB_V; GCB_T].
Proof.
  intros q q' F Q. unfold follows in F.
  destruct q as [| | | | | | | | |b m]; destruct q' as [| | | | | | | | |b' m']; try discriminate; try contradiction; repeat split; destruct ext; reflexivity.
Qed.

Lemma follows_marked q q' : follows q q' -> qmarked q = qmarked q' /\ (qbase q = true -> qbase q' = true) /\ (qbase q' = true -> qmarked q = true).
Proof.
  intros F. unfold follows in F. destruct q as [| | | | | | | | |b m]; destruct q' as [| | | | | | | | |b' m']; try discriminate; try contradiction; cbn; try (split; [reflexivity|split; discriminate]).
  exact F.
Qed.
Lemma follows_cut ext q q' g : follows q q' -> qcut ext q g = qcut ext q' g.
Proof.
  intros F. unfold follows in F. destruct q as [| | | | | | | | |b m]; destruct q' as [| | | | | | | | |b' m']; try discriminate; try contradiction; try reflexivity.
  destruct F as (-> & _). destruct g; reflexivity.
Qed.
Lemma hang_cut q g : hangs_g g = true -> qcut true q g = qcut true q GCB_Extend.
Proof. destruct g; try discriminate; [reflexivity|destruct q; reflexivity]. Qed.
Lemma hang_step q g : hangs_g g = true -> qstep q g = QPlain (is_extend g && qbase q) (qmarked q).
Proof. destruct g; try discriminate; reflexivity. Qed.
Lemma hang_calm q g : hangs_g g = true -> calm q [g] = true.
Proof. destruct g; try discriminate; reflexivity. Qed.

Lemma allowed_cut ext q g h : hangs_g g = true -> hangs_g h = true -> allowed ext [g] -> allowed ext [h] -> qcut ext q g = qcut ext q h.
Proof.
  intros H1 H2 A1 A2. destruct ext; [rewrite (hang_cut q g), (hang_cut q h); auto|].
  destruct A1 as [|A1], A2 as [|A2]; try discriminate. destruct g; try discriminate H1; [|exfalso; apply A1; now left].
  destruct h; try discriminate H2; [|exfalso; apply A2; now left]. reflexivity.
Qed.

Lemma expands_shape ext g l : shape_g g l = true -> allowed ext (g :: l) -> expands ext g l.
Proof.
  intros SH A q q' F Q. destruct l as [|x r]; [discriminate|]. cbn [shape_g] in SH. apply andb_true_iff in SH as [Hr Hx].
  apply allowed_cons in A as [Ag A]. apply allowed_cons in A as [Ax Ar].
  destruct (follows_marked q q' F) as (M1 & M2 & M3).
  assert (C : g = GCB_Other /\ x = GCB_Other \/ (hangs_g g = true /\ hangs_g x = true /\ (is_extend g = true -> is_extend x = true /\ forallb is_extend r = true))).
  { destruct g; try discriminate.
    all: try solve [left; split; [reflexivity|]; destruct x; try discriminate; reflexivity].
    all: try solve [right; cbn [forallb] in Hx; apply andb_true_iff in Hx as [Hx1 Hx2]; split; [reflexivity|]; split; [destruct x; try discriminate; reflexivity|auto]].
    right. split; [reflexivity|]. split; [assumption|discriminate]. }
  cbn [qcuts calm length pred qrun fold_left]. destruct C as [[-> ->]|(H1 & H2 & H3)].
  - destruct (marks_run ext r false false Hr Ar) as (E1 & E2 & b' & E3 & E4 & E5). cbn [qstep].
    rewrite E1, E2. unfold qrun in E3. rewrite E3. rewrite (follows_cut ext q q' _ F). repeat split; auto. discriminate.
  - rewrite !hang_step by assumption. destruct (marks_run ext r (is_extend x && qbase q') (qmarked q') Hr Ar) as (E1 & E2 & b' & E3 & E4 & E5).
    rewrite E1. rewrite (allowed_cut ext q' x g), <- (follows_cut ext q q' _ F) by assumption. split; [reflexivity|]. split.
    + rewrite E2, andb_true_r. pose proof (hang_calm q' x H2) as X. cbn [calm] in X. rewrite andb_true_r in X. exact X.
    + unfold qrun in E3. rewrite E3. cbn [follows]. split; [assumption|]. split.
      * intros X. apply andb_true_iff in X as [X1 X2]. destruct (H3 X1) as [Y1 Y2]. rewrite E5 by assumption. rewrite Y1, M2 by assumption. reflexivity.
      * intros X. apply E4, andb_true_iff in X as [_ X]. auto.
Qed.

Lemma expands_char ext c : allowed ext (grapheme_cluster_break c :: gclasses (decompose false c)) ->
  expands ext (grapheme_cluster_break c) (gclasses (decompose false c)).
Proof.
  intros A. destruct (canonical_cases c) as [E|[E|(E & _)]].
  - rewrite E. apply expands_same.
  - apply block_cover in E as (l & v & t & B & ->). rewrite decompose_block_eq by assumption. unfold jamo_of. pose proof B as (B1 & B2 & B3).
    assert (X1 : grapheme_cluster_break (leading l) = GCB_L) by (apply gcb_l; unfold isL, leading; lia).
    assert (X2 : grapheme_cluster_break (vowel v) = GCB_V) by (apply gcb_v; unfold isV, vowel; lia).
    destruct t as [|t].
    + cbn [map]. rewrite X1, X2, gcb_lv by assumption. apply expands_lv.
    + assert (X3 : grapheme_cluster_break (trailing (N.pos t)) = GCB_T) by (apply gcb_t; unfold isT, trailing; lia).
      rewrite (gcb_lvt l v (N.pos t)) by (try assumption; discriminate). cbn [map]. rewrite X1, X2, X3. apply expands_lvt.
  - apply expands_shape; assumption.
Qed.

(** ** A text and its decomposition *)
Notation dclasses s := (gclasses (flat_map (decompose false) s)).
Lemma repeat_more (b : bool) n m : repeat b n ++ repeat b m = repeat b (n + m).
Proof. symmetry. apply repeat_app. Qed.
Lemma cons_split {A} (a b : A) l m : a :: l = b :: m -> a = b /\ l = m.
Proof. intros H. split; congruence. Qed.
Lemma expands_none ext s : forall q q', follows q q' -> calm q (gclasses s) = true -> allowed ext (gclasses s) -> allowed ext (dclasses s) ->
  (qcuts ext q (gclasses s) = repeat false (length s) -> qcuts ext q' (dclasses s) = repeat false (length (dclasses s))) /\
  calm q' (dclasses s) = true /\ follows (qrun q (gclasses s)) (qrun q' (dclasses s)).
Proof.
  induction s as [|c s IH]; intros q q' F Q A1 A2; [cbn; auto|].
  cbn [flat_map map] in A1, A2 |- *. rewrite map_app in A2 |- *. apply allowed_cons in A1 as [A1 A1s]. apply allowed_app in A2 as [A2 A2s].
  change (calm q ([grapheme_cluster_break c] ++ gclasses s) = true) in Q. rewrite calm_app in Q. apply andb_true_iff in Q as [Q1 Q2].
  destruct (expands_char ext c (proj2 (allowed_cons _ _ _) (conj A1 A2)) q q' F Q1) as (E1 & E2 & E3).
  destruct (IH _ _ E3 Q2 A1s A2s) as (I1 & I2 & I3). rewrite calm_app, E2, I2, qrun_app. split; [|split; [reflexivity|exact I3]].
  cbn [qcuts length repeat]. intros H. destruct (cons_split _ _ _ _ H) as [H1 H2]. rewrite qcuts_app, E1, (I1 H2), H1, app_length.
  destruct (decompose_nonempty false c) as (x & r & ->). cbn [map length pred]. generalize (gclasses r). intros l. change (false :: repeat false (length l)) with (repeat false (S (length l))). apply repeat_more.
Qed.

Lemma mark1_flat p : p <> [] -> mark1 (flat_map (decompose false) p) = true :: repeat false (pred (length (flat_map (decompose false) p))).
Proof.
  destruct p as [|c p]; [contradiction|]. intros _. cbn [flat_map]. destruct (decompose_nonempty false c) as (x & r & ->). reflexivity.
Qed.
Lemma expands_piece ext p q q' : p <> [] -> follows q q' -> calm q (gclasses p) = true -> allowed ext (gclasses p) -> allowed ext (dclasses p) ->
  qcuts ext q (gclasses p) = mark1 p ->
  qcuts ext q' (dclasses p) = mark1 (flat_map (decompose false) p).
Proof.
  intros NE F Q A1 A2 H. rewrite mark1_flat by assumption. destruct p as [|c p]; [contradiction|]. cbn [mark1] in H.
  cbn [flat_map map] in A1, A2, H |- *. rewrite map_app in A2 |- *. apply allowed_cons in A1 as [A1 A1s]. apply allowed_app in A2 as [A2 A2s].
  cbn [map] in Q. change (calm q ([grapheme_cluster_break c] ++ gclasses p) = true) in Q. rewrite calm_app in Q. apply andb_true_iff in Q as [Q1 Q2].
  destruct (expands_char ext c (proj2 (allowed_cons _ _ _) (conj A1 A2)) q q' F Q1) as (E1 & E2 & E3).
  destruct (expands_none ext p _ _ E3 Q2 A1s A2s) as (I1 & I2 & I3).
  cbn [qcuts] in H. destruct (cons_split _ _ _ _ H) as [H1 H2]. rewrite qcuts_app, E1, (I1 H2), H1. rewrite app_length.
  destruct (decompose_nonempty false c) as (x & r & ->). cbn [app map length pred]. rewrite !map_length, repeat_more. reflexivity.
Qed.

Lemma expands_pieces ext ps : forall q q', Forall (fun p => p <> []) ps -> follows q q' -> calm q (gclasses (concat ps)) = true ->
  allowed ext (gclasses (concat ps)) -> allowed ext (dclasses (concat ps)) ->
  qcuts ext q (gclasses (concat ps)) = marks ps ->
  qcuts ext q' (dclasses (concat ps)) = marks (map (flat_map (decompose false)) ps).
Proof.
  induction ps as [|p ps IH]; intros q q' NE F Q A1 A2 H; [reflexivity|]. inversion NE as [|? ? N1 N2]; subst.
  cbn [concat map marks flat_map] in *. fold (marks ps) in H. fold (marks (map (flat_map (decompose false)) ps)).
  rewrite flat_map_app, map_app in A2 |- *. rewrite map_app in Q, A1, H. rewrite calm_app in Q. rewrite qcuts_app in H |- *.
  apply andb_true_iff in Q as [Q1 Q2]. apply allowed_app in A1 as [A1 A1s]. apply allowed_app in A2 as [A2 A2s].
  apply app_len_inj in H as [H1 H2]; [|rewrite qcuts_length, map_length, mark1_length; reflexivity].
  rewrite (expands_piece ext p q q') by assumption. f_equal.
  destruct (expands_none ext p q q' F Q1 A1 A2) as (_ & _ & F'). exact (IH _ _ N2 F' Q2 A1s A2s H2).
Qed.

(** ** Reordering *)
Lemma hang_commute q g h : hangs_g g = true -> hangs_g h = true -> qstep (qstep q g) h = qstep (qstep q h) g.
Proof. intros H1 H2. rewrite !hang_step by assumption. cbn [qbase qmarked]. f_equal. destruct (is_extend g), (is_extend h), (qbase q); reflexivity. Qed.
Lemma hang_second ext q g h : hangs_g g = true -> hangs_g h = true -> allowed ext [h] -> qcut ext (qstep q g) h = false.
Proof.
  intros H1 H2 A. rewrite (hang_step q g) by assumption. destruct h; try discriminate; [reflexivity|].
  destruct A as [->|A]; [reflexivity|exfalso; apply A; now left].
Qed.
Lemma nonstarter_hangs_g c : ccc c <> 0%N -> hangs_g (grapheme_cluster_break c) = true.
Proof. intros H. apply nonstarter_hangs in H. unfold hangs in H. apply andb_true_iff in H. apply H. Qed.
Lemma exchange_run ext l m : exchange ccc l m -> forall q, allowed ext (gclasses l) ->
  qcuts ext q (gclasses l) = qcuts ext q (gclasses m) /\ calm q (gclasses l) = calm q (gclasses m) /\
  qrun q (gclasses l) = qrun q (gclasses m) /\ allowed ext (gclasses m).
Proof.
  intros [p a b r [R1 R2]] q A.
  assert (Ha : hangs_g (grapheme_cluster_break a) = true) by (apply nonstarter_hangs_g; lia).
  assert (Hb : hangs_g (grapheme_cluster_break b) = true) by (apply nonstarter_hangs_g; lia).
  rewrite map_app in A |- *. apply allowed_app in A as [Ap A]. cbn [map] in A |- *.
  apply allowed_cons in A as [Aa A]. apply allowed_cons in A as [Ab Ar].
  rewrite map_app. cbn [map]. rewrite !qcuts_app, !calm_app, !qrun_app. set (q1 := qrun q (gclasses p)).
  cbn [qcuts calm qrun fold_left]. rewrite (hang_commute q1 _ _ Ha Hb), (hang_second ext q1 _ _ Ha Hb Ab), (hang_second ext q1 _ _ Hb Ha Aa).
  rewrite (allowed_cut ext q1 _ _ Ha Hb Aa Ab). split; [reflexivity|]. split.
  - pose proof (hang_calm q1 _ Ha) as X1. pose proof (hang_calm (qstep q1 (grapheme_cluster_break a)) _ Hb) as X2.
    pose proof (hang_calm q1 _ Hb) as X3. pose proof (hang_calm (qstep q1 (grapheme_cluster_break b)) _ Ha) as X4.
    cbn [calm] in X1, X2, X3, X4. rewrite andb_true_r in X1, X2, X3, X4. rewrite X1, X2, X3, X4. reflexivity.
  - split; [reflexivity|]. apply allowed_app. split; [assumption|]. apply allowed_cons. split; [assumption|]. apply allowed_cons. auto.
Qed.
Lemma exchanges_run ext l m : clos_refl_trans _ (exchange ccc) l m -> forall q, allowed ext (gclasses l) ->
  qcuts ext q (gclasses l) = qcuts ext q (gclasses m) /\ calm q (gclasses l) = calm q (gclasses m) /\
  qrun q (gclasses l) = qrun q (gclasses m) /\ allowed ext (gclasses m).
Proof.
  induction 1 as [l m E|l|l m n _ IH1 _ IH2]; intros q A; [now apply exchange_run|auto|].
  destruct (IH1 q A) as (E1 & E2 & E3 & A'). destruct (IH2 q A') as (F1 & F2 & F3 & A''). rewrite E1, E2, E3. auto.
Qed.

(** ** The clusters of the decomposition *)
Lemma D_nonempty p : p <> [] -> D false p <> [].
Proof.
  intros N H. apply (f_equal (@length _)) in H. rewrite D_length in H. destruct p as [|c p]; [contradiction|]. cbn [flat_map] in H.
  destruct (decompose_nonempty false c) as (x & r & E). rewrite E in H. discriminate.
Qed.
Lemma mark1_len p p' : length p = length p' -> mark1 p = mark1 p'.
Proof. destruct p, p'; try discriminate; [reflexivity|]. cbn. intros [= ->]. reflexivity. Qed.
Lemma marks_D ps : marks (map (D false) ps) = marks (map (flat_map (decompose false)) ps).
Proof.
  induction ps as [|p ps IH]; [reflexivity|]. cbn [map marks flat_map]. fold (marks (map (D false) ps)). fold (marks (map (flat_map (decompose false)) ps)).
  rewrite IH. f_equal. apply mark1_len, D_length.
Qed.
Lemma each_D ps : each nfd ps = Some (concat (map (D false) ps)).
Proof. induction ps as [|p ps IH]; [reflexivity|]. cbn [each map concat]. rewrite nfd_eq, IH. reflexivity. Qed.

Lemma clusters_D ext s ps : calm QStart (gclasses s) = true -> allowed ext (gclasses s) -> allowed ext (dclasses s) ->
  concat (map (D false) ps) = D false s ->
  segments (grapheme_boundary ext) s ps -> segments (grapheme_boundary ext) (D false s) (map (D false) ps).
Proof.
  intros Q A1 A2 ED SG. apply (segments_marks _ (boundary_end ext)) in SG as (E & NE & M). apply (segments_marks _ (boundary_end ext)).
  split; [assumption|]. split.
  { clear - NE. induction NE as [|p ps N1 _ IH]; constructor; [now apply D_nonempty|assumption]. }
  rewrite (bcuts_qcuts ext s []) in M by assumption. cbn [map rev qof] in M. subst s.
  pose proof (expands_pieces ext ps QStart QStart NE eq_refl Q A1 A2 M) as X.
  destruct (expands_none ext (concat ps) QStart QStart eq_refl Q A1 A2) as (_ & Q' & _).
  destruct (exchanges_run ext _ _ (order_exchanges ccc (flat_map (decompose false) (concat ps))) QStart A2) as (Y1 & Y2 & _ & _).
  fold (D false (concat ps)) in Y1, Y2. rewrite (bcuts_qcuts ext _ []).
  - cbn [map rev qof]. rewrite <- Y1, X. symmetry. apply marks_D.
  - cbn [map rev qof]. rewrite <- Y2. assumption.
Qed.

(** ** Calm texts *)
Lemma not_modifier g b : GCB_eqb g GCB_EModifier = false -> implb (match g with GCB_EModifier => true | _ => false end) b = true.
Proof. destruct g; intros H; try reflexivity. discriminate. Qed.
Lemma calm_split post : forall q, calm q (gclasses post) = true \/
  exists m e r, post = m ++ e :: r /\ emoji_modifier e /\ qbase (qrun q (gclasses m)) <> qmarked (qrun q (gclasses m)).
Proof.
  induction post as [|c r IH]; intros q; [left; reflexivity|]. cbn [map calm].
  destruct (IH (qstep q (grapheme_cluster_break c))) as [H|(m & e & r' & -> & H1 & H2)].
  - rewrite H, andb_true_r. destruct (Bool.bool_dec (qbase q) (qmarked q)) as [E|E].
    + left. rewrite E, eqb_reflx. now rewrite implb_true_r.
    + destruct (GCB_eqb (grapheme_cluster_break c) GCB_EModifier) eqn:Em.
      * right. exists [], c, r. split; [reflexivity|]. split; [exact (proj1 (GCB_eqb_eq _ _) Em)|exact E].
      * left. exact (not_modifier _ _ Em).
  - right. exists (c :: m), e, r'. repeat split; auto.
Qed.
Lemma marked_step q g : qmarked (qstep q g) = true ->
  (g = GCB_EBase \/ g = GCB_EBaseGAZ) \/ (g = GCB_Extend /\ qmarked q = true) \/ (g = GCB_SpacingMark /\ qmarked q = true).
Proof. destruct g; cbn [qstep qmarked]; try discriminate; auto 6. destruct q; discriminate. Qed.
Lemma base_step q g : g = GCB_EBase \/ g = GCB_EBaseGAZ -> qbase (qstep q g) = true.
Proof. intros [-> | ->]; reflexivity. Qed.
Lemma base_marked_step q g : (qbase q = true -> qmarked q = true) -> qbase (qstep q g) = true -> qmarked (qstep q g) = true.
Proof. intros H. destruct g; cbn [qstep qbase qmarked]; auto; try discriminate. destruct q; discriminate. Qed.
Lemma qmarked_split m : qmarked (qrun QStart (gclasses m)) = true ->
  exists pre b ms, m = pre ++ b :: ms /\ emoji_base b /\ Forall combining_mark ms /\
  (Forall (fun c => grapheme_cluster_break c = GCB_Extend) ms -> qbase (qrun QStart (gclasses m)) = true).
Proof.
  induction m as [|c m IH] using rev_ind; [discriminate|]. rewrite map_app, qrun_app. cbn [map qrun fold_left]. fold (qrun QStart (gclasses m)).
  intros H. destruct (marked_step _ _ H) as [G|[(G & H')|(G & H')]].
  - exists m, c, []. split; [reflexivity|]. split; [exact G|]. split; [constructor|]. intros _. exact (base_step _ _ G).
  - destruct (IH H') as (pre & b & ms & -> & B & F & X). exists pre, b, (ms ++ [c]). rewrite <- app_assoc. repeat split; auto.
    + apply Forall_app. split; [assumption|]. constructor; [left; exact G|constructor].
    + intros Y. apply Forall_app in Y as [Y _]. rewrite G. cbn [qstep qbase]. auto.
  - destruct (IH H') as (pre & b & ms & -> & B & F & X). exists pre, b, (ms ++ [c]). rewrite <- app_assoc. repeat split; auto.
    + apply Forall_app. split; [assumption|]. constructor; [right; exact G|constructor].
    + intros Y. apply Forall_app in Y as [_ Y]. exfalso. pose proof (Forall_inv Y) as Z. cbv beta in Z. rewrite Z in G. discriminate G.
Qed.
Lemma qbase_marked m : qbase (qrun QStart (gclasses m)) = true -> qmarked (qrun QStart (gclasses m)) = true.
Proof.
  induction m as [|c m IH] using rev_ind; [discriminate|]. rewrite map_app, qrun_app. cbn [map qrun fold_left]. fold (qrun QStart (gclasses m)).
  now apply base_marked_step.
Qed.
Lemma spacing_split ms : Forall combining_mark ms -> ~ Forall (fun c => grapheme_cluster_break c = GCB_Extend) ms ->
  exists m1 x m2, ms = m1 ++ x :: m2 /\ Forall combining_mark m1 /\ grapheme_cluster_break x = GCB_SpacingMark /\ Forall combining_mark m2.
Proof.
  induction 1 as [|c ms [H|H] F IH]; intros N.
  - exfalso. apply N. constructor.
  - destruct IH as (m1 & x & m2 & -> & H1 & H2 & H3). { intros X. apply N. constructor; assumption. }
    exists (c :: m1), x, m2. repeat split; auto. constructor; [left; exact H|assumption].
  - exists [], c, ms. repeat split; auto.
Qed.
Lemma calm_text s : ~ modifier_after_spacing_mark s -> calm QStart (gclasses s) = true.
Proof.
  intros N. destruct (calm_split s QStart) as [H|(m & e & r & -> & H1 & H2)]; [assumption|]. exfalso. apply N.
  destruct (qbase (qrun QStart (gclasses m))) eqn:B.
  - rewrite (qbase_marked m B) in H2. contradiction.
  - destruct (qmarked (qrun QStart (gclasses m))) eqn:M; [|contradiction]. destruct (qmarked_split m M) as (pre & b & ms & -> & Bb & F & X).
    destruct (spacing_split ms F) as (m1 & x & m2 & -> & F1 & Sx & F2). { intros Y. rewrite (X Y) in B. discriminate. }
    exists pre, b, m1, x, m2, e, r. repeat split; auto. rewrite <- !app_assoc. cbn [app]. rewrite <- app_assoc. reflexivity.
Qed.

(** ** Theorems *)
Lemma nfd_clusters s ps : ~ modifier_after_spacing_mark s -> grapheme_indices true s = Ret (Some (indexed 0 ps)) ->
  exists d qs, nfd s = Some d /\ Forall2 (fun p q => nfd p = Some q) ps qs /\ grapheme_indices true d = Ret (Some (indexed 0 qs)).
Proof.
  intros N H. exists (D false s), (map (D false) ps). split; [apply nfd_eq|]. split.
  - clear H. induction ps as [|p ps IH]; constructor; [apply nfd_eq|assumption].
  - pose proof (clusters_nfd s ps H) as E. rewrite nfd_eq, each_D in E. apply graphemes_iff. apply graphemes_iff in H.
    apply clusters_D; try (now left); try assumption; [now apply calm_text|congruence].
Qed.

Lemma canonical_clusters s t ps qs : nfd s = nfd t -> ~ modifier_after_spacing_mark s -> ~ modifier_after_spacing_mark t ->
  grapheme_indices true s = Ret (Some (indexed 0 ps)) -> grapheme_indices true t = Ret (Some (indexed 0 qs)) ->
  Forall2 (fun p q => nfd p = nfd q) ps qs.
Proof.
  intros E N1 N2 H1 H2. destruct (nfd_clusters s ps N1 H1) as (d & ps' & D1 & F1 & G1). destruct (nfd_clusters t qs N2 H2) as (d' & qs' & D2 & F2 & G2).
  assert (d' = d) as -> by congruence. rewrite G1 in G2. injection G2 as G2. apply indexed_inj in G2. subst qs'.
  clear - F1 F2. revert qs F2. induction F1 as [|p p' ps ps' E F IH]; intros qs F2; inversion F2; subst; constructor; [congruence|auto].
Qed.

Lemma C_of_D p q : D false p = D false q -> C false p = C false q.
Proof. unfold C. intros ->. reflexivity. Qed.
Lemma each_C ps : each nfc ps = Some (concat (map (C false) ps)).
Proof. induction ps as [|p ps IH]; [reflexivity|]. cbn [each map concat]. rewrite nfc_eq, IH. reflexivity. Qed.
Lemma same_cut (ps : list str) : forall qs, concat ps = concat qs -> Forall2 (fun p q => length (flat_map (decompose false) p) = length (flat_map (decompose false) q)) ps qs -> ps = qs.
Proof.
  intros qs E F. induction F as [|p q ps qs L F IH]; [reflexivity|]. cbn [concat] in E.
  assert (X : forall m : str, length (flat_map (decompose false) m) = 0 -> m = []).
  { intros [|c m] Z; [reflexivity|]. cbn [flat_map] in Z. destruct (decompose_nonempty false c) as (x & r & Ex). rewrite Ex in Z. discriminate. }
  assert (p = q) as ->.
  { destruct (app_split _ _ _ _ E) as [(m & -> & _)|(m & -> & _)]; rewrite flat_map_app, app_length in L;
      rewrite (X m) by lia; now rewrite app_nil_r. }
  f_equal. apply IH. apply app_inv_head in E. exact E.
Qed.
(** composition drops U+11A7 after a syllable, which is never at the beginning of a cluster *)
Fixpoint fcuts (ext : bool) (q : gstate) (l : list GraphemeClusterBreak) : list bool :=
  match l with [] => [] | g :: r => qcut_with (qbase q) ext q g :: fcuts ext (qstep q g) r end.
Lemma bcuts_fcuts ext post : forall pre, bcuts (grapheme_boundary ext) pre post = fcuts ext (qof (rev (gclasses pre))) (gclasses post).
Proof.
  induction post as [|c r IH]; intros pre; [reflexivity|]. cbn [bcuts map fcuts].
  assert (E : qof (rev (gclasses (pre ++ [c]))) = qstep (qof (rev (gclasses pre))) (grapheme_cluster_break c)).
  { rewrite map_app, rev_app_distr. reflexivity. }
  rewrite <- E, <- IH. f_equal. unfold grapheme_boundary. cbn [map]. apply qcut_rule.
Qed.
Lemma fcuts_app ext l : forall q m, fcuts ext q (l ++ m) = fcuts ext q l ++ fcuts ext (qrun q l) m.
Proof. induction l as [|g l IH]; intros q m; [reflexivity|]. cbn [app fcuts]. rewrite IH. reflexivity. Qed.
Definition after_jamo (st : N) (q : gstate) : Prop := (st = 1%N -> q = QL) /\ (st = 2%N -> q = QV).
Lemma lead_g c : lead c = true -> grapheme_cluster_break c = GCB_L.
Proof. intros H. apply gcb_l. unfold lead in H. unfold isL. lia. Qed.
Lemma vow_g c : vow c = true -> grapheme_cluster_break c = GCB_V.
Proof. intros H. apply gcb_v. left. unfold vow in H. unfold isV. lia. Qed.
Lemma after_next st q c : after_jamo (next st c) (qstep q (grapheme_cluster_break c)).
Proof.
  unfold next. destruct (lead c) eqn:L; [rewrite (lead_g c L); split; [reflexivity|discriminate]|].
  destruct ((st =? 1)%N && vow c) eqn:V; [|split; discriminate]. apply andb_true_iff in V as [_ V]. rewrite (vow_g c V). split; [discriminate|reflexivity].
Qed.
Lemma strip_inside ext p : forall st q, after_jamo st q -> fcuts ext q (gclasses p) = repeat false (length p) ->
  fcuts ext q (gclasses (strip st p)) = repeat false (length (strip st p)) /\ qrun q (gclasses (strip st p)) = qrun q (gclasses p).
Proof.
  induction p as [|c p IH]; intros st q A F; [split; reflexivity|]. cbn [map fcuts length repeat] in F. apply cons_split in F as [F1 F2].
  cbn [strip]. destruct ((st =? 2)%N && (c =? 0x11A7)%N) eqn:X.
  - apply andb_true_iff in X as [X1 X2]. apply N.eqb_eq in X1, X2. subst st c. rewrite (proj2 A eq_refl) in *.
    rewrite (gcb_v 0x11A7) in F2 by now right. cbn [map qrun fold_left]. rewrite (gcb_v 0x11A7) by now right. cbn [qstep] in F2 |- *.
    apply IH; [|exact F2]. split; [discriminate|reflexivity].
  - destruct (IH (next st c) _ (after_next st q c) F2) as [I1 I2]. cbn [map fcuts length repeat]. rewrite F1, I1. split; [reflexivity|exact I2].
Qed.
Lemma after_strip p : forall st q, after_jamo st q -> exists st', after_jamo st' (qrun q (gclasses p)) /\ forall r, strip st (p ++ r) = strip st p ++ strip st' r.
Proof.
  induction p as [|c p IH]; intros st q A; [exists st; split; [exact A|reflexivity]|]. cbn [app strip map qrun fold_left].
  destruct ((st =? 2)%N && (c =? 0x11A7)%N) eqn:X.
  - apply andb_true_iff in X as [X1 X2]. apply N.eqb_eq in X1, X2. subst st c.
    apply IH. rewrite (gcb_v 0x11A7) by now right. split; [discriminate|reflexivity].
  - destruct (IH (next st c) _ (after_next st q c)) as (st' & A' & E). exists st'. split; [exact A'|]. intros r. now rewrite E.
Qed.
Lemma strip_cut ext st q y b : after_jamo st q -> qcut_with (qbase q) ext q (grapheme_cluster_break y) = true -> strip st (y :: b) = strip 0 (y :: b).
Proof.
  intros [A1 A2] Q. cbn [strip]. change (0 =? 2)%N with false. cbn [andb].
  assert (next st y = next 0 y) as N.
  { unfold next. destruct (lead y); [reflexivity|]. change (0 =? 1)%N with false. cbn [andb]. destruct (st =? 1)%N eqn:E1; [|reflexivity].
    apply N.eqb_eq in E1. rewrite (A1 E1) in Q. destruct (vow y) eqn:V; [|reflexivity]. rewrite (vow_g y V) in Q. discriminate Q. }
  destruct ((st =? 2)%N && (y =? 0x11A7)%N) eqn:X; [|now rewrite N].
  apply andb_true_iff in X as [X1 X2]. apply N.eqb_eq in X1, X2. subst y. rewrite (A2 X1), (gcb_v 0x11A7) in Q by now right. discriminate Q.
Qed.
Lemma strip_pieces ext ps : forall st q, after_jamo st q -> Forall (fun p => p <> []) ps -> fcuts ext q (gclasses (concat ps)) = marks ps ->
  strip st (concat ps) = concat (map (strip 0) ps) /\ fcuts ext q (gclasses (strip st (concat ps))) = marks (map (strip 0) ps).
Proof.
  induction ps as [|p ps IH]; intros st q A NE F; [split; reflexivity|]. inversion NE as [|? ? N1 N2]; subst. destruct p as [|c p]; [contradiction|].
  cbn [concat map marks flat_map mark1 app fcuts] in *. fold (marks ps) in F. apply cons_split in F as [F1 F2].
  rewrite (strip_cut ext st q c (p ++ concat ps) A F1). cbn [strip]. change (0 =? 2)%N with false. cbn [andb].
  pose proof (after_next 0 q c) as A'. destruct (after_strip p _ _ A') as (st' & A'' & E). rewrite E.
  rewrite map_app, fcuts_app in F2.
  assert (L : length (fcuts ext (qstep q (grapheme_cluster_break c)) (gclasses p)) = length (repeat false (length p))).
  { rewrite repeat_length. generalize (qstep q (grapheme_cluster_break c)). clear. induction p as [|x p IH]; intros q; [reflexivity|]. cbn. now rewrite IH. }
  pose proof (app_len_inj _ _ _ _ F2 L) as [F3 F4].
  destruct (strip_inside ext p _ _ A' F3) as [I1 I2]. destruct (IH st' _ A'' N2 F4) as [J1 J2].
  rewrite J1 in J2 |- *. split; [reflexivity|]. cbn [map fcuts mark1 app]. rewrite F1, map_app, fcuts_app, I1, I2, J2. reflexivity.
Qed.
Lemma clusters_strip ext s ps : segments (grapheme_boundary ext) s ps -> segments (grapheme_boundary ext) (strip 0 s) (map (strip 0) ps).
Proof.
  intros SG. apply (segments_marks _ (boundary_end ext)) in SG as (E & NE & M). apply (segments_marks _ (boundary_end ext)).
  rewrite bcuts_fcuts in M |- *. cbn [map rev qof] in M |- *. subst s.
  destruct (strip_pieces ext ps 0%N QStart) as [I1 I2]; [split; discriminate|assumption|assumption|].
  split; [symmetry; exact I1|]. split; [|exact I2].
  clear - NE. induction NE as [|p ps N1 _ IH]; constructor; [|assumption]. destruct p; [contradiction|]. cbn [strip]. change (0 =? 2)%N with false. discriminate.
Qed.
Lemma nfc_clusters s t ps qs : nfc s = Some t -> ~ modifier_after_spacing_mark s -> ~ modifier_after_spacing_mark t ->
  grapheme_indices true s = Ret (Some (indexed 0 ps)) -> grapheme_indices true t = Ret (Some (indexed 0 qs)) ->
  Forall2 (fun p q => nfc p = Some q) ps qs.
Proof.
  intros E N1 N2 H1 H2. rewrite nfc_eq in E. injection E as <-.
  pose proof (clusters_nfc s ps H1) as X. rewrite nfc_eq, each_C in X. injection X as X.
  assert (Cs : concat qs = C false s) by (apply graphemes_iff in H2; apply H2).
  destruct (nfd_clusters s ps N1 H1) as (d & ps' & D1 & F1 & G1). destruct (nfd_clusters _ qs N2 H2) as (d' & qs' & D2 & F2 & G2).
  rewrite nfd_eq in D1, D2. injection D1 as <-. injection D2 as <-.
  apply graphemes_iff, clusters_strip in G1. rewrite <- D_C_strip in G1. apply graphemes_iff in G1. rewrite G1 in G2. injection G2 as G2. apply indexed_inj in G2. subst qs'.
  assert (map (C false) ps = qs) as <-.
  { apply same_cut; [congruence|]. clear - F1 F2. revert qs F2. induction F1 as [|p p' ps ps' E F IH]; intros qs F2; inversion F2; subst; cbn [map]; constructor.
    - rewrite nfd_eq in *. apply (f_equal (fun o => match o with Some l => l | None => [] end)) in E. cbn beta iota in E. subst p'.
      rewrite <- !(D_length false), D_C_strip. congruence.
    - auto. }
  clear. induction ps as [|p ps IH]; constructor; [apply nfc_eq|assumption].
Qed.

Lemma legacy_clusters s ps d : nfd s = Some d -> Forall (fun c => ~ spacing_mark c) (s ++ d) -> grapheme_indices false s = Ret (Some (indexed 0 ps)) ->
  exists qs, Forall2 (fun p q => nfd p = Some q) ps qs /\ grapheme_indices false d = Ret (Some (indexed 0 qs)).
Proof.
  intros E F H. rewrite nfd_eq in E. injection E as <-. exists (map (D false) ps). split.
  - clear. induction ps as [|p ps IH]; constructor; [apply nfd_eq|assumption].
  - apply Forall_app in F as [F1 F2]. destruct (legacy_nfd s ps F1 H) as (E & _). rewrite nfd_eq, each_D in E. apply graphemes_iff. apply graphemes_iff in H.
    rewrite Forall_forall in F1, F2. apply clusters_D; try assumption; [| | |congruence].
    + apply calm_text. intros (pre & b & m1 & x & m2 & e & post & -> & _ & _ & Sx & _). apply (F1 x); [|exact Sx].
      apply in_or_app. right. right. apply in_or_app. right. now left.
    + right. intros I. apply in_map_iff in I as (c & I1 & I2). exact (F1 c I2 I1).
    + right. intros I. apply in_map_iff in I as (c & I1 & I2). apply (F2 c); [|exact I1].
      apply (Permutation.Permutation_in c (order_perm ccc _)). exact I2.
Qed.

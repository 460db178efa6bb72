(** The forms of a text and of its clusters and words. *)
From Coq Require Import List NArith ZArith Lia Bool ZifyBool ZifyN.
From Verif Require Import Base RangeModel TableTypes Enums EnumFacts UcdModel HangulModel HangulSpec HangulProofs BidiModel
  NormSpec NormOrder NormModel NormTables NormBubble NormIter NormRecomp NormAlgebra NormPiecesSpec PieceTables NormCut
  GraphModel GraphSpec SegLemmas SegConcat GraphIter GraphConcat WordModel WordSpec WordConcat WordEdge.
Import ListNotations.
Open Scope N_scope.

Lemma D_cut k a z y b : control z = true \/ hangs y = false -> D k ((a ++ [z]) ++ y :: b) = D k (a ++ [z]) ++ D k (y :: b).
Proof.
  intros [H|H].
  - rewrite <- !app_assoc. cbn [app]. rewrite !(proj1 (alone_app k a z _ H)). rewrite <- !app_assoc. reflexivity.
  - apply D_app_starter. destruct (decompose_nonempty k y) as (x & r & Ey). rewrite Ey.
    destruct (N.eq_dec (ccc x) 0) as [E|E]; [assumption|]. rewrite (head_hangs k y x r Ey) in H by auto. discriminate.
Qed.

(** ** From the places where a text is cut to the pieces *)
Definition edges (R : N -> N -> Prop) (ps : list str) : Prop :=
  forall l p q r a z y b, ps = l ++ p :: q :: r -> p = a ++ [z] -> q = y :: b -> R z y.

Lemma pieces_form (F : str -> list N) (f : str -> option (list N)) (R : N -> N -> Prop) : (forall s, f s = Some (F s)) -> F [] = [] ->
  (forall a z y b, R z y -> F ((a ++ [z]) ++ y :: b) = F (a ++ [z]) ++ F (y :: b)) ->
  forall ps, Forall (fun p => p <> []) ps -> edges R ps -> f (concat ps) = each f ps.
Proof.
  intros Hf H0 HR. induction ps as [|p ps IH]; intros NE ED; cbn [concat each]; [rewrite Hf, H0; reflexivity|].
  inversion NE as [|? ? N1 N2]; subst. rewrite <- IH; [|assumption|].
  2:{ intros l p' q r a z y b -> . apply (ED (p :: l) p' q r). reflexivity. }
  rewrite !Hf. f_equal. destruct ps as [|q ps]; [cbn [concat]; rewrite H0, !app_nil_r; reflexivity|].
  destruct (exists_last N1) as (a & z & ->). inversion N2 as [|? ? N3 _]; subst. destruct q as [|y b]; [contradiction|].
  cbn [concat]. rewrite <- app_comm_cons. apply HR. apply (ED [] (a ++ [z]) (y :: b) ps a z y b); reflexivity.
Qed.

Lemma edges_impl (R S : N -> N -> Prop) s ps : concat ps = s -> (forall z y, In z s -> In y s -> R z y -> S z y) -> edges R ps -> edges S ps.
Proof.
  intros E H ED l p q r a z y b E1 E2 E3. apply H; [| |exact (ED l p q r a z y b E1 E2 E3)].
  - rewrite <- E, E1, E2, concat_app. cbn [concat]. apply in_or_app. right. apply in_or_app. left. apply in_or_app. right. now left.
  - rewrite <- E, E1, E3, concat_app. cbn [concat]. apply in_or_app. right. apply in_or_app. right. now left.
Qed.

(** ** Clusters *)
Definition gcut (ext : bool) (z y : N) : Prop := exists P A, gb_boundary ext (grapheme_cluster_break z :: P) (grapheme_cluster_break y :: A) = true.
Lemma cluster_edges ext s ps : grapheme_indices ext s = Ret (Some (indexed 0 ps)) ->
  concat ps = s /\ Forall (fun p => p <> []) ps /\ edges (gcut ext) ps.
Proof.
  intros H. apply graphemes_iff in H as (E & NE & B). split; [assumption|]. split; [assumption|].
  intros l p q r a z y b E1 E2 E3. subst p q ps.
  assert (E4 : s = concat (l ++ [a ++ [z]]) ++ concat ((y :: b) :: r)) by (rewrite <- E, <- concat_app, <- app_assoc; reflexivity).
  assert (X : grapheme_boundary ext (concat (l ++ [a ++ [z]])) (concat ((y :: b) :: r)) = true).
  { apply (B _ _ E4). exists (l ++ [a ++ [z]]), ((y :: b) :: r). rewrite <- app_assoc. auto. }
  unfold grapheme_boundary in X. rewrite concat_app in X. cbn [concat] in X. rewrite app_nil_r, app_assoc, map_app, rev_app_distr in X.
  cbn [map rev app] in X. eexists. eexists. exact X.
Qed.

Lemma gb_hangs gz gy P A : gb_boundary true (gz :: P) (gy :: A) = true -> ctl_g gz = true \/ hangs_g gy = false.
Proof. unfold gb_boundary, first_rule, gb_rules. intros H. destruct gy; try (right; reflexivity); destruct gz; try (left; reflexivity); vm_compute in H; discriminate. Qed.
Lemma gb_hangs_legacy gz gy P A : gy <> GCB_SpacingMark -> gb_boundary false (gz :: P) (gy :: A) = true -> ctl_g gz = true \/ hangs_g gy = false.
Proof.
  unfold gb_boundary, first_rule, gb_rules. intros NS H. destruct gy; try (right; reflexivity); try contradiction (NS eq_refl);
    destruct gz; try (left; reflexivity); vm_compute in H; discriminate.
Qed.
Lemma gb_lv ext gz gy P A : gb_boundary ext (gz :: P) (gy :: A) = true -> (gz = GCB_L -> gy = GCB_V -> False) /\
  (gz = GCB_V \/ gz = GCB_LV -> gy = GCB_V \/ gy = GCB_T -> False).
Proof.
  intros H. unfold gb_boundary, first_rule, gb_rules in H. split.
  - intros -> ->. vm_compute in H. discriminate.
  - intros [-> | ->] [-> | ->]; vm_compute in H; discriminate.
Qed.
Lemma hangs_false y : hangs_g (grapheme_cluster_break y) = false -> hangs y = false.
Proof. unfold hangs. intros ->. reflexivity. Qed.
Lemma gcut_hangs z y : gcut true z y -> control z = true \/ hangs y = false.
Proof. intros (P & A & H). destruct (gb_hangs _ _ _ _ H) as [H1|H1]; [left; exact H1|right; exact (hangs_false y H1)]. Qed.
Lemma gcut_hangs_legacy z y : ~ spacing_mark y -> gcut false z y -> control z = true \/ hangs y = false.
Proof. intros NS (P & A & H). destruct (gb_hangs_legacy _ _ _ _ NS H) as [H1|H1]; [left; exact H1|right; exact (hangs_false y H1)]. Qed.
Lemma gcut_lv ext z y : gcut ext z y -> (grapheme_cluster_break z = GCB_L -> grapheme_cluster_break y = GCB_V -> False) /\
  (grapheme_cluster_break z = GCB_V \/ grapheme_cluster_break z = GCB_LV -> grapheme_cluster_break y = GCB_V \/ grapheme_cluster_break y = GCB_T -> False).
Proof. intros (P & A & H). exact (gb_lv _ _ _ _ _ H). Qed.

Definition ordinary (k : bool) (z : N) : Prop := k = true -> ~ compat_letter z /\ ~ circled_letter z.
Lemma gcut_syllable ext k z y : ordinary k z -> ordinary k y -> gcut ext z y -> ~ syllable_across k z y.
Proof.
  intros Oz Oy G (l & e & x & r & Ez & Ey & M). destruct (gcut_lv _ _ _ G) as [G1 G2].
  assert (HX : isV x = true \/ isT x = true).
  { unfold meets in M. destruct (isV x); [auto|]. destruct (isT x); [auto|]. rewrite !andb_false_r in M. discriminate. }
  assert (HE : isL e = true \/ isV e = true \/ isT e = true).
  { unfold meets in M. destruct (isL e); [auto|]. destruct (isV e); [auto|]. cbn [andb orb] in M.
    right. right. unfold isT. apply andb_true_iff in M as [M _]. lia. }
  assert (y = x).
  { destruct (head_jamo k y x r Ey HX) as [|(K & L & _)]; [assumption|]. destruct (Oy K) as [N1 _]. exfalso. apply N1. unfold letters in L. unfold compat_letter. lia. }
  subst y.
  assert (GX : isT x = true -> grapheme_cluster_break x = GCB_V \/ grapheme_cluster_break x = GCB_T).
  { intros T. destruct (N.eq_dec x 0x11A7) as [E|E]; [left; apply gcb_v; auto|right; now apply gcb_t]. }
  destruct (end_jamo k z e l Ez HE) as [->|[(a & b & Ha & Hb & -> & V)|[(S1 & T & NT)|(K & [[L _]|L])]]].
  - unfold meets in M. apply orb_true_iff in M as [M|M]; apply andb_true_iff in M as [M1 M2].
    + apply G1; [now apply gcb_l|apply gcb_v; auto].
    + apply G2; [|now apply GX]. left. apply gcb_v. apply orb_true_iff in M1 as [M1|M1]; [auto|]. right. lia.
  - unfold meets in M. apply orb_true_iff in M as [M|M]; apply andb_true_iff in M as [M1 M2].
    + unfold isL, isV in *. lia.
    + apply G2; [|now apply GX]. right. now apply gcb_lv.
  - unfold meets in M. unfold isL, isV, isT in *. lia.
  - destruct (Oz K) as [N1 _]. apply N1. unfold letters in L. unfold compat_letter. lia.
  - destruct (Oz K) as [_ N1]. apply N1. unfold circled in L. unfold circled_letter. lia.
Qed.

Lemma gcut_norm k z y : ordinary k z -> ordinary k y -> gcut true z y -> norm_cut k z y.
Proof. intros Oz Oy G. destruct (gcut_hangs z y G) as [H|H]; [left; assumption|right]. split; [assumption|]. now apply (gcut_syllable true). Qed.
Lemma gcut_norm_legacy k z y : ~ spacing_mark y -> ordinary k z -> ordinary k y -> gcut false z y -> norm_cut k z y.
Proof. intros NS Oz Oy G. destruct (gcut_hangs_legacy z y NS G) as [H|H]; [left; assumption|right]. split; [assumption|]. now apply (gcut_syllable false). Qed.

Lemma D_nil k : D k [] = []. Proof. reflexivity. Qed.
Lemma C_nil k : C k [] = []. Proof. reflexivity. Qed.

Lemma D_pieces k s ps f : (forall s, f s = Some (D k s)) -> concat ps = s -> Forall (fun p => p <> []) ps ->
  edges (fun z y => control z = true \/ hangs y = false) ps -> f s = each f ps.
Proof. intros Hf <- NE ED. exact (pieces_form (D k) f _ Hf (D_nil k) (fun a z y b H => D_cut k a z y b H) ps NE ED). Qed.
Lemma C_pieces k s ps f : (forall s, f s = Some (C k s)) -> concat ps = s -> Forall (fun p => p <> []) ps ->
  edges (norm_cut k) ps -> f s = each f ps.
Proof. intros Hf <- NE ED. exact (pieces_form (C k) f _ Hf (C_nil k) (fun a z y b H => proj2 (forms_cut k a z y b H)) ps NE ED). Qed.

Lemma clusters_nfd s ps : grapheme_indices true s = Ret (Some (indexed 0 ps)) -> nfd s = each nfd ps.
Proof.
  intros H. destruct (cluster_edges _ _ _ H) as (E & NE & ED). apply (D_pieces false s ps nfd nfd_eq E NE).
  apply (edges_impl _ _ s ps E) with (2 := ED). intros z y _ _. apply gcut_hangs.
Qed.
Lemma clusters_nfkd s ps : grapheme_indices true s = Ret (Some (indexed 0 ps)) -> nfkd s = each nfkd ps.
Proof.
  intros H. destruct (cluster_edges _ _ _ H) as (E & NE & ED). apply (D_pieces true s ps nfkd nfkd_eq E NE).
  apply (edges_impl _ _ s ps E) with (2 := ED). intros z y _ _. apply gcut_hangs.
Qed.
Lemma ordinary_false z : ordinary false z. Proof. discriminate. Qed.
Lemma clusters_nfc s ps : grapheme_indices true s = Ret (Some (indexed 0 ps)) -> nfc s = each nfc ps.
Proof.
  intros H. destruct (cluster_edges _ _ _ H) as (E & NE & ED). apply (C_pieces false s ps nfc nfc_eq E NE).
  apply (edges_impl _ _ s ps E) with (2 := ED). intros z y _ _. apply gcut_norm; apply ordinary_false.
Qed.
Lemma clusters_nfkc s ps : Forall (fun c => ~ compat_letter c /\ ~ circled_letter c) s ->
  grapheme_indices true s = Ret (Some (indexed 0 ps)) -> nfkc s = each nfkc ps.
Proof.
  intros F H. destruct (cluster_edges _ _ _ H) as (E & NE & ED). apply (C_pieces true s ps nfkc nfkc_eq E NE).
  apply (edges_impl _ _ s ps E) with (2 := ED). rewrite Forall_forall in F. intros z y Hz Hy. apply gcut_norm; intros _; auto.
Qed.

(** legacy clusters *)
Lemma legacy_nfd s ps : Forall (fun c => ~ spacing_mark c) s -> grapheme_indices false s = Ret (Some (indexed 0 ps)) ->
  nfd s = each nfd ps /\ nfkd s = each nfkd ps /\ nfc s = each nfc ps.
Proof.
  intros F H. destruct (cluster_edges _ _ _ H) as (E & NE & ED). rewrite Forall_forall in F.
  assert (ED' : edges (fun z y => control z = true \/ hangs y = false) ps).
  { apply (edges_impl _ _ s ps E) with (2 := ED). intros z y _ Hy. apply gcut_hangs_legacy. auto. }
  split; [exact (D_pieces false s ps nfd nfd_eq E NE ED')|]. split; [exact (D_pieces true s ps nfkd nfkd_eq E NE ED')|].
  apply (C_pieces false s ps nfc nfc_eq E NE). apply (edges_impl _ _ s ps E) with (2 := ED). intros z y _ Hy.
  apply gcut_norm_legacy; auto; apply ordinary_false.
Qed.
Lemma legacy_nfkc s ps : Forall (fun c => ~ spacing_mark c /\ ~ compat_letter c /\ ~ circled_letter c) s ->
  grapheme_indices false s = Ret (Some (indexed 0 ps)) -> nfkc s = each nfkc ps.
Proof.
  intros F H. destruct (cluster_edges _ _ _ H) as (E & NE & ED). rewrite Forall_forall in F.
  apply (C_pieces true s ps nfkc nfkc_eq E NE). apply (edges_impl _ _ s ps E) with (2 := ED). intros z y Hz Hy.
  destruct (F z Hz) as (_ & F1), (F y Hy) as (F2 & F3). apply gcut_norm_legacy; auto; intros _; auto.
Qed.

(** ** Words *)
Lemma fpieces_nonempty s ps : fpieces s ps -> Forall (fun p => p <> []) ps.
Proof. induction 1 as [|p r ps F _ IH]; constructor; [|assumption]. destruct F as (_ & _ & _ & _ & N & _). assumption. Qed.
Lemma word_edges s ps : word_bound_indices s = Ret (Some (indexed 0 ps)) ->
  concat ps = s /\ Forall (fun p => p <> []) ps /\ edges apart ps.
Proof.
  intros H. apply words_iff in H. split; [now apply fpieces_concat|]. split; [now apply (fpieces_nonempty s)|].
  intros l p q r a z y b -> -> ->. change (l ++ (a ++ [z]) :: (y :: b) :: r) with (l ++ [a ++ [z]] ++ ((y :: b) :: r)) in H. rewrite app_assoc in H.
  apply (fpieces_edge _ _ _ (concat l ++ a) z y (b ++ concat r) H); [|reflexivity].
  rewrite concat_app. cbn [concat]. rewrite app_nil_r, app_assoc. reflexivity.
Qed.

Lemma newline_nl w : newline w = true -> nl_w w = true.
Proof. destruct w; try discriminate; reflexivity. Qed.
Lemma no_extend w : extend_format_zwj w = false -> hangs_w w = false.
Proof. destruct w; try discriminate; reflexivity. Qed.
Lemma apart_hangs z y : apart z y -> control z = true \/ hangs y = false.
Proof.
  intros [H|[H _]]; [left; apply newline_control; exact (newline_nl _ H)|].
  right. unfold hangs. apply no_extend in H. unfold wb in H. rewrite H. apply andb_false_r.
Qed.
Definition word_ordinary (k : bool) (z : N) : Prop := k = true -> ~ circled_letter z.
Lemma apart_norm k z y : word_ordinary k z -> apart z y -> norm_cut k z y.
Proof.
  intros O A. destruct (apart_hangs z y A) as [H|H]; [left; assumption|].
  destruct A as [A|[_ A]]; [left; apply newline_control; exact (newline_nl _ A)|].
  right. split; [assumption|]. intros (l & e & x & r & Ez & Ey & M).
  assert (HX : isV x = true \/ isT x = true).
  { unfold meets in M. destruct (isV x); [auto|]. destruct (isT x); [auto|]. rewrite !andb_false_r in M. discriminate. }
  assert (HE : isL e = true \/ isV e = true \/ isT e = true).
  { unfold meets in M. destruct (isL e); [auto|]. destruct (isV e); [auto|]. cbn [andb orb] in M.
    right. right. unfold isT. apply andb_true_iff in M as [M _]. lia. }
  assert (WY : word_break y = WB_ALetter).
  { destruct (head_jamo k y x r Ey HX) as [->|(_ & _ & W)]; [|assumption]. unfold isV, isT in HX. apply wb_jamo; lia. }
  assert (WZ : word_break z = WB_ALetter).
  { destruct (end_jamo k z e l Ez HE) as [->|[(a & b & Ha & Hb & -> & _)|[(S1 & _)|(K & [[_ W]|L])]]].
    - unfold isL, isV, isT in HE. apply wb_jamo; lia.
    - apply wb_syllable, block_cover. exists a, b, 0. split; [unfold valid_block; lia|reflexivity].
    - now apply wb_syllable.
    - assumption.
    - exfalso. apply (O K). unfold circled in L. unfold circled_letter. lia. }
  unfold wb in A. rewrite WY, WZ in A. cbn [letter andb] in A. congruence.
Qed.

Lemma words_forms s ps : word_bound_indices s = Ret (Some (indexed 0 ps)) ->
  nfd s = each nfd ps /\ nfkd s = each nfkd ps /\ nfc s = each nfc ps.
Proof.
  intros H. destruct (word_edges _ _ H) as (E & NE & ED).
  assert (ED' : edges (fun z y => control z = true \/ hangs y = false) ps).
  { apply (edges_impl _ _ s ps E) with (2 := ED). intros z y _ _. apply apart_hangs. }
  split; [exact (D_pieces false s ps nfd nfd_eq E NE ED')|]. split; [exact (D_pieces true s ps nfkd nfkd_eq E NE ED')|].
  apply (C_pieces false s ps nfc nfc_eq E NE). apply (edges_impl _ _ s ps E) with (2 := ED). intros z y _ _. apply apart_norm. discriminate.
Qed.
Lemma words_nfkc s ps : Forall (fun c => ~ circled_letter c) s -> word_bound_indices s = Ret (Some (indexed 0 ps)) -> nfkc s = each nfkc ps.
Proof.
  intros F H. destruct (word_edges _ _ H) as (E & NE & ED). rewrite Forall_forall in F.
  apply (C_pieces true s ps nfkc nfkc_eq E NE). apply (edges_impl _ _ s ps E) with (2 := ED). intros z y Hz _. apply apart_norm. intros _. auto.
Qed.

(** ** Where it fails *)
Lemma clusters_nfkc_fails : exists s ps, grapheme_indices true s = Ret (Some (indexed 0 ps)) /\ nfkc s <> each nfkc ps.
Proof. exists [0x3131; 0x314F], [[0x3131]; [0x314F]]. split; [vm_compute; reflexivity|]. vm_compute. discriminate. Qed.
Lemma words_nfkc_fails : exists s ps, word_bound_indices s = Ret (Some (indexed 0 ps)) /\ nfkc s <> each nfkc ps.
Proof. exists [0x3260; 0x314F], [[0x3260]; [0x314F]]. split; [vm_compute; reflexivity|]. vm_compute. discriminate. Qed.
Lemma legacy_fails : exists s ps, grapheme_indices false s = Ret (Some (indexed 0 ps)) /\ nfc s <> each nfc ps.
Proof. exists [0x1B05; 0x1B35], [[0x1B05]; [0x1B35]]. split; [vm_compute; reflexivity|]. vm_compute. discriminate. Qed.
Lemma legacy_fails_nfd : exists s ps, grapheme_indices false s = Ret (Some (indexed 0 ps)) /\ nfd s <> each nfd ps.
Proof. exists [0x61; 0x301; 0x1D166], [[0x61; 0x301]; [0x1D166]]. split; [vm_compute; reflexivity|]. vm_compute. discriminate. Qed.

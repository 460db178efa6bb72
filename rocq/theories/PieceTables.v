(** What the tables say about decompositions, compositions and the two break properties together. *)
From Coq Require Import List NArith ZArith Lia Bool ZifyBool ZifyN.
From Verif Require Import Base RangeModel TableModel TableSpec TableProofs TableLemmas TableTypes Enums TablesNormal TablesSegment TablesWords
  UcdModel UcdProofs UcdLemmas TablePiecewise TableTree HangulModel HangulSpec HangulProofs
  NormSpec NormModel NormTables NormBubble EnumFacts.
Import ListNotations.
Open Scope N_scope.

(** ** Fast lookups *)
Definition gcb_tree := tree_of (entries GRAPHEME_CLUSTER_BREAK).
Definition wb_tree := tree_of (entries WORD_BREAK).
Definition fgcb (c : N) := match tree_find gcb_tree c with Some v => v | None => GCB_Other end.
Definition fwb (c : N) := match tree_find wb_tree c with Some v => v | None => WB_Other end.
Lemma gcb_tree_complete : tree_complete (entries GRAPHEME_CLUSTER_BREAK) = true.
Proof. vm_cast_no_check (eq_refl true). Qed.
Lemma wb_tree_complete : tree_complete (entries WORD_BREAK) = true.
Proof. vm_cast_no_check (eq_refl true). Qed.
Lemma gcb_lookup c : grapheme_cluster_break c = match lookup GRAPHEME_CLUSTER_BREAK c with Some v => v | None => GCB_Other end.
Proof. unfold grapheme_cluster_break. rewrite lookup_or_lookup by use_wf. reflexivity. Qed.
Lemma wb_lookup c : word_break c = match lookup WORD_BREAK c with Some v => v | None => WB_Other end.
Proof. unfold word_break. rewrite lookup_or_lookup by use_wf. reflexivity. Qed.
Lemma fgcb_ok c : fgcb c = grapheme_cluster_break c.
Proof.
  rewrite gcb_lookup. unfold fgcb, gcb_tree.
  rewrite (tree_lookup GRAPHEME_CLUSTER_BREAK c wf_GRAPHEME_CLUSTER_BREAK gcb_tree_complete). reflexivity.
Qed.
Lemma fwb_ok c : fwb c = word_break c.
Proof.
  rewrite wb_lookup. unfold fwb, wb_tree.
  rewrite (tree_lookup WORD_BREAK c wf_WORD_BREAK wb_tree_complete). reflexivity.
Qed.

(** ** Attached characters *)
Definition hangs_g (g : GraphemeClusterBreak) : bool := match g with GCB_Extend | GCB_SpacingMark => true | _ => false end.
Definition hangs_w (w : WordBreak) : bool := match w with WB_Extend => true | _ => false end.
Definition hangs (c : N) : bool := hangs_g (grapheme_cluster_break c) && hangs_w (word_break c).

Definition nz (o : option N) : bool := match o with Some v => negb (v =? 0) | None => false end.
Lemma ccc_gcb_check : check2 CANONICAL_COMBINING_CLASS_VALUES GRAPHEME_CLUSTER_BREAK
  (fun a b => implb (nz a) (match b with Some g => hangs_g g | None => false end)) = true.
Proof. vm_cast_no_check (eq_refl true). Qed.
Lemma ccc_wb_check : check2 CANONICAL_COMBINING_CLASS_VALUES WORD_BREAK
  (fun a b => implb (nz a) (match b with Some g => hangs_w g | None => false end)) = true.
Proof. vm_cast_no_check (eq_refl true). Qed.

Lemma ccc_nz c : ccc c <> 0 -> nz (lookup CANONICAL_COMBINING_CLASS_VALUES c) = true.
Proof.
  rewrite <- fccc_ok. unfold cccg, fccc, ccc_tree.
  rewrite (tree_lookup CANONICAL_COMBINING_CLASS_VALUES c wf_CANONICAL_COMBINING_CLASS_VALUES ccc_tree_complete).
  destruct (lookup CANONICAL_COMBINING_CLASS_VALUES c) as [v|]; cbn [nz]; [|contradiction]. destruct (N.eqb_spec v 0); [contradiction|reflexivity].
Qed.
Definition some_hangs_g (o : option GraphemeClusterBreak) : bool := match o with Some g => hangs_g g | None => false end.
Definition some_hangs_w (o : option WordBreak) : bool := match o with Some g => hangs_w g | None => false end.
Lemma some_hangs_g_or o : some_hangs_g o = hangs_g (match o with Some v => v | None => GCB_Other end).
Proof. destruct o; reflexivity. Qed.
Lemma some_hangs_w_or o : some_hangs_w o = hangs_w (match o with Some v => v | None => WB_Other end).
Proof. destruct o; reflexivity. Qed.
Lemma nonstarter_hangs c : ccc c <> 0 -> hangs c = true.
Proof.
  intros H. apply ccc_nz in H. unfold hangs. rewrite gcb_lookup, wb_lookup, <- some_hangs_g_or, <- some_hangs_w_or.
  pose proof (piecewise2 _ _ _ wf_CANONICAL_COMBINING_CLASS_VALUES wf_GRAPHEME_CLUSTER_BREAK ccc_gcb_check c) as P.
  pose proof (piecewise2 _ _ _ wf_CANONICAL_COMBINING_CLASS_VALUES wf_WORD_BREAK ccc_wb_check c) as Q.
  cbv beta in P, Q. rewrite H in P, Q. apply andb_true_iff. split; [exact P|exact Q].
Qed.

Definition fhangs (c : N) : bool := hangs_g (fgcb c) && hangs_w (fwb c).
Lemma fhangs_ok c : fhangs c = hangs c.
Proof. unfold fhangs, hangs. now rewrite fgcb_ok, fwb_ok. Qed.
(** two vowel signs of the class Extend that stand at the beginning of decompositions, but do not combine *)
Definition loose (c : N) : bool := (c =? 0x0E4D) || (c =? 0x0ECD).
Lemma seconds_check : forallb (fun t => fhangs (snd (fst t)) && negb (loose (snd (fst t)))) triples = true.
Proof. vm_cast_no_check (eq_refl true). Qed.
Lemma second_hangs a b r : In (a, b, r) triples -> hangs b = true /\ loose b = false.
Proof.
  intros H. pose proof seconds_check as F. rewrite forallb_forall in F. specialize (F _ H). cbn [fst snd] in F. rewrite fhangs_ok in F.
  apply andb_true_iff in F as [F1 F2]. split; [assumption|]. now apply negb_true_iff.
Qed.
Lemma loose_ccc_check : (cccg fccc 0x0E4D =? 0) && (cccg fccc 0x0ECD =? 0) = true.
Proof. vm_cast_no_check (eq_refl true). Qed.
Lemma loose_starter c : loose c = true -> ccc c = 0.
Proof.
  intros H. pose proof loose_ccc_check as F. rewrite !fccc_ok in F. apply andb_true_iff in F as [F1 F2]. apply N.eqb_eq in F1, F2.
  unfold loose in H. apply orb_true_iff in H as [H|H]; apply N.eqb_eq in H; now subst c.
Qed.

(** ** Hangul *)
Definition isL (c : N) : bool := (0x1100 <=? c) && (c <=? 0x1112).
Definition isV (c : N) : bool := (0x1161 <=? c) && (c <=? 0x1175).
Definition isT (c : N) : bool := (0x11A7 <=? c) && (c <=? 0x11C2).

(** the compatibility letters whose decomposition begins with a vowel or a trailing consonant, or ends in a jamo *)
Definition letters (c : N) : bool := ((0x3131 <=? c) && (c <=? 0x318E)) || ((0xFFA0 <=? c) && (c <=? 0xFFDC)).
Definition circled (c : N) : bool := (0x3260 <=? c) && (c <=? 0x327E).

Definition last_of (l : list N) : N := last l 0.
Section Entry.
  Variable g : N -> GraphemeClusterBreak.
  Variable w : N -> WordBreak.
  Variable dec : bool -> N -> list N.
  Definition hangs_in (c : N) : bool := hangs_g (g c) && hangs_w (w c).
  Definition is_aletter (v : WordBreak) : bool := match v with WB_ALetter => true | _ => false end.
  Definition entry_in (k : bool) (c : N) : bool :=
    implb (hangs_in (hd 0 (dec k c)) && negb (loose (hd 0 (dec k c)))) (hangs_in c)
    && implb (isV (hd 0 (dec k c)) || isT (hd 0 (dec k c))) (k && letters c && is_aletter (w c))
    && implb (isL (last_of (dec k c)) || isV (last_of (dec k c)) || isT (last_of (dec k c)))
         (k && ((letters c && is_aletter (w c)) || circled c)).
  Variable g' : N -> GraphemeClusterBreak.
  Variable w' : N -> WordBreak.
  Variable dec' : bool -> N -> list N.
  Hypothesis Hg : forall c, g c = g' c.
  Hypothesis Hw : forall c, w c = w' c.
  Hypothesis Hd : forall k c, dec k c = dec' k c.
  Lemma entry_facts k c : entry_in k c = true ->
    (forall x l, dec' k c = x :: l -> hangs_g (g' x) && hangs_w (w' x) = true -> loose x = false -> hangs_g (g' c) && hangs_w (w' c) = true) /\
    (forall x l, dec' k c = x :: l -> isV x = true \/ isT x = true -> k = true /\ letters c = true /\ w' c = WB_ALetter) /\
    (forall x l, dec' k c = l ++ [x] -> isL x = true \/ isV x = true \/ isT x = true ->
       k = true /\ ((letters c = true /\ w' c = WB_ALetter) \/ circled c = true)).
  Proof.
    unfold entry_in, hangs_in. rewrite !Hd, !Hg, !Hw. intros H. apply andb_true_iff in H as [H H3]. apply andb_true_iff in H as [H1 H2].
    assert (A : is_aletter (w' c) = true -> w' c = WB_ALetter) by (destruct (w' c); try discriminate; reflexivity).
    split; [|split].
    - intros x l E X L. rewrite E in H1. cbn [hd] in H1. rewrite X, L in H1. exact H1.
    - intros x l E X. rewrite E in H2. cbn [hd] in H2.
      assert (isV x || isT x = true) as HX by (destruct X as [-> | ->]; [reflexivity|apply orb_true_r]). rewrite HX in H2. cbn [implb] in H2.
      apply andb_true_iff in H2 as [H2 H2c]. apply andb_true_iff in H2 as [H2a H2b]. auto.
    - intros x l E X. rewrite E in H3. unfold last_of in H3. rewrite last_last in H3.
      assert (isL x || isV x || isT x = true) as HX by (destruct X as [-> |[-> | ->]]; rewrite ?orb_true_r; reflexivity).
      rewrite HX in H3. cbn [implb] in H3. apply andb_true_iff in H3 as [H3a H3]. split; [assumption|].
      apply orb_true_iff in H3 as [H3|H3]; [left|now right]. apply andb_true_iff in H3 as [H3b H3c]. auto.
  Qed.
End Entry.
Definition entry_ok_g (k : bool) (c : N) : bool := entry_in fgcb fwb (decg fcanon fcompat) k c.
Lemma entry_sound k c : entry_ok_g k c = true ->
    (forall x l, decompose k c = x :: l -> hangs x = true -> loose x = false -> hangs c = true) /\
    (forall x l, decompose k c = x :: l -> isV x = true \/ isT x = true -> k = true /\ letters c = true /\ word_break c = WB_ALetter) /\
    (forall x l, decompose k c = l ++ [x] -> isL x = true \/ isV x = true \/ isT x = true ->
       k = true /\ ((letters c = true /\ word_break c = WB_ALetter) \/ circled c = true)).
Proof. exact (entry_facts fgcb fwb (decg fcanon fcompat) grapheme_cluster_break word_break decompose fgcb_ok fwb_ok (decg_decompose _ _ fcanon_ok fcompat_ok) k c). Qed.
Lemma canon_pieces_check k : check_entries (entries CANONICAL_DECOMPOSITION_MAPPING) (fun c _ => entry_ok_g k c) = true.
Proof. destruct k; vm_cast_no_check (eq_refl true). Qed.
Lemma compat_pieces_check : check_entries (entries COMPATIBILITY_DECOMPOSITION_MAPPING) (fun c _ => entry_ok_g true c) = true.
Proof. vm_cast_no_check (eq_refl true). Qed.

Lemma pieces_cases k c : stable k c \/ is_syllable c = true \/ entry_ok_g k c = true.
Proof.
  destruct (is_syllable c) eqn:Es; [auto|].
  destruct (canonical_decomposition c) as [l|] eqn:Ec.
  - right. right. exact (check_entries_sound _ _ c l wf_CANONICAL_DECOMPOSITION_MAPPING (canon_pieces_check k) Ec).
  - destruct k.
    + destruct (compatibility_decomposition c) as [l|] eqn:Ek.
      * right. right. unfold compatibility_decomposition in Ek.
        destruct (lookup COMPATIBILITY_DECOMPOSITION_MAPPING c) as [[ty l']|] eqn:El; [|discriminate].
        exact (check_entries_sound _ _ c (ty, l') wf_COMPATIBILITY_DECOMPOSITION_MAPPING compat_pieces_check El).
      * left. split; [assumption|]. auto.
    + left. split; [assumption|]. split; [assumption|discriminate].
Qed.

(** ** Classes of jamo and syllables *)
Definition constant_on {V} (eqv : V -> V -> bool) (l : list (N * N * V)) (lo hi : N) (v : V) : bool :=
  existsb (fun e => (fst (fst e) <=? lo) && (hi <=? snd (fst e)) && eqv (snd e) v) l.
Lemma constant_on_sound {V} (eqv : V -> V -> bool) (E : forall x y, eqv x y = true -> x = y) (t : CharDataTable V) lo hi v c : wf_table t ->
  constant_on eqv (entries t) lo hi v = true -> lo <= c -> c <= hi -> lookup t c = Some v.
Proof.
  intros Hwf Hf H1 H2. apply existsb_exists in Hf as (e & He & Hr). apply andb_true_iff in Hr as [Hr Hv]. apply andb_true_iff in Hr as [Ha Hb].
  apply E in Hv. subst v. rewrite lookup_scan by assumption.
  destruct (scan (entries t) c) as [w|] eqn:S1.
  - apply scan_some in S1 as (e' & He' & Hc & <-). f_equal. f_equal. apply (entries_disjoint t e' e c Hwf He' He Hc). split; lia.
  - exfalso. apply (scan_none _ _ S1 e He). split; lia.
Qed.

Lemma l_check : constant_on GCB_eqb (entries GRAPHEME_CLUSTER_BREAK) 0x1100 0x1112 GCB_L = true.
Proof. vm_cast_no_check (eq_refl true). Qed.
Lemma v_check : constant_on GCB_eqb (entries GRAPHEME_CLUSTER_BREAK) 0x1161 0x11A7 GCB_V = true.
Proof. vm_cast_no_check (eq_refl true). Qed.
Lemma t_check : constant_on GCB_eqb (entries GRAPHEME_CLUSTER_BREAK) 0x11A8 0x11C2 GCB_T = true.
Proof. vm_cast_no_check (eq_refl true). Qed.
Lemma lv_check : forallb (fun n => GCB_eqb (fgcb (0xAC00 + 28 * N.of_nat n)) GCB_LV) (seq 0 399) = true.
Proof. vm_cast_no_check (eq_refl true). Qed.
Lemma jamo_letters : constant_on WB_eqb (entries WORD_BREAK) 0x1100 0x11C2 WB_ALetter = true.
Proof. vm_cast_no_check (eq_refl true). Qed.
Lemma syllable_letters : constant_on WB_eqb (entries WORD_BREAK) 0xAC00 0xD7A3 WB_ALetter = true.
Proof. vm_cast_no_check (eq_refl true). Qed.

Lemma gcb_eqb_sound x y : GCB_eqb x y = true -> x = y. Proof. apply GCB_eqb_eq. Qed.
Lemma wb_eqb_sound x y : WB_eqb x y = true -> x = y. Proof. apply WB_eqb_eq. Qed.

Lemma gcb_l c : isL c = true -> grapheme_cluster_break c = GCB_L.
Proof. intros H. unfold isL in H. rewrite gcb_lookup, (constant_on_sound _ gcb_eqb_sound _ _ _ _ c wf_GRAPHEME_CLUSTER_BREAK l_check) by lia. reflexivity. Qed.
Lemma gcb_v c : isV c = true \/ c = 0x11A7 -> grapheme_cluster_break c = GCB_V.
Proof. intros H. unfold isV in H. rewrite gcb_lookup, (constant_on_sound _ gcb_eqb_sound _ _ _ _ c wf_GRAPHEME_CLUSTER_BREAK v_check) by lia. reflexivity. Qed.
Lemma gcb_t c : isT c = true -> c <> 0x11A7 -> grapheme_cluster_break c = GCB_T.
Proof. intros H N. unfold isT in H. rewrite gcb_lookup, (constant_on_sound _ gcb_eqb_sound _ _ _ _ c wf_GRAPHEME_CLUSTER_BREAK t_check) by lia. reflexivity. Qed.
Lemma gcb_lv l v : l < 19 -> v < 21 -> grapheme_cluster_break (block l v 0) = GCB_LV.
Proof.
  intros Hl Hv. pose proof lv_check as F. rewrite forallb_forall in F. specialize (F (N.to_nat (l * 21 + v))).
  rewrite N2Nat.id, fgcb_ok in F. apply gcb_eqb_sound. replace (block l v 0) with (0xAC00 + 28 * (l * 21 + v)) by (unfold block; lia).
  apply F. apply in_seq. lia.
Qed.
Lemma wb_jamo c : 0x1100 <= c -> c <= 0x11C2 -> word_break c = WB_ALetter.
Proof. intros H1 H2. rewrite wb_lookup, (constant_on_sound _ wb_eqb_sound _ _ _ _ c wf_WORD_BREAK jamo_letters H1 H2). reflexivity. Qed.
Lemma wb_syllable c : is_syllable c = true -> word_break c = WB_ALetter.
Proof.
  intros H. unfold is_syllable in H. hconsts.
  rewrite wb_lookup, (constant_on_sound _ wb_eqb_sound _ _ _ _ c wf_WORD_BREAK syllable_letters) by lia. reflexivity.
Qed.

(** ** Heads and ends of decompositions *)
Lemma decompose_nonempty k c : exists x l, decompose k c = x :: l.
Proof. pose proof (decompose_length k c). destruct (decompose k c) as [|x l]; [cbn in *; lia|eauto]. Qed.

(** a character whose decomposition begins with a combining character is attached itself *)
Lemma head_hangs k c x l : decompose k c = x :: l -> ccc x <> 0 \/ (exists a r, In (a, x, r) triples) -> hangs c = true.
Proof.
  intros E H.
  assert (hangs x = true /\ loose x = false) as [H1 H2].
  { destruct H as [H|(a & r & H)]; [|now apply (second_hangs a x r)]. split; [now apply nonstarter_hangs|].
    destruct (loose x) eqn:L; [|reflexivity]. apply loose_starter in L. contradiction. }
  destruct (pieces_cases k c) as [C|[C|C]].
  - rewrite decompose_stable in E by assumption. injection E as <- <-. assumption.
  - apply block_cover in C as (l' & v & t & Hb & ->). rewrite decompose_block_eq in E by assumption.
    assert (In x (jamo_of l' v t)) as Hx by (rewrite E; now left). apply jamo_bounds in Hx as [B1 B2]; [|assumption].
    exfalso. unfold hangs in H1. rewrite (wb_jamo x B1 B2) in H1. now rewrite andb_comm in H1.
  - exact (proj1 (entry_sound k c C) x l E H1 H2).
Qed.

(** a character whose decomposition begins with a vowel or a trailing consonant *)
Lemma head_jamo k c x l : decompose k c = x :: l -> isV x = true \/ isT x = true ->
  c = x \/ (k = true /\ letters c = true /\ word_break c = WB_ALetter).
Proof.
  intros E H. destruct (pieces_cases k c) as [C|[C|C]].
  - rewrite decompose_stable in E by assumption. injection E as <- <-. now left.
  - exfalso. apply block_cover in C as (l' & v & t & (B1 & B2 & B3) & ->). rewrite decompose_block_eq in E by (unfold valid_block; auto).
    unfold jamo_of in E. assert (leading l' = x) as <- by (destruct t; congruence). unfold isV, isT, leading in H. lia.
  - right. exact (proj1 (proj2 (entry_sound k c C)) x l E H).
Qed.

(** a character whose decomposition ends in a jamo *)
Lemma end_jamo k c x l : decompose k c = l ++ [x] -> isL x = true \/ isV x = true \/ isT x = true ->
  c = x \/ (exists a b, a < 19 /\ b < 21 /\ c = block a b 0 /\ isV x = true) \/ (is_syllable c = true /\ isT x = true /\ x <> 0x11A7) \/
  (k = true /\ ((letters c = true /\ word_break c = WB_ALetter) \/ circled c = true)).
Proof.
  intros E H. destruct (pieces_cases k c) as [C|[C|C]].
  - rewrite decompose_stable in E by assumption. destruct l as [|y [|]]; try discriminate. injection E as <-. now left.
  - right. pose proof C as C'. apply block_cover in C as (l' & v & t & (B1 & B2 & B3) & ->). rewrite decompose_block_eq in E by (unfold valid_block; auto).
    unfold jamo_of in E. destruct t as [|t].
    + left. exists l', v. repeat split; auto. apply (f_equal (@rev N)) in E. rewrite rev_app_distr in E. cbn [rev app] in E.
      assert (vowel v = x) as <- by congruence. unfold isV, vowel. lia.
    + right. left. split; [assumption|]. apply (f_equal (@rev N)) in E. rewrite rev_app_distr in E. cbn [rev app] in E.
      assert (trailing (N.pos t) = x) as <- by congruence. unfold isT, trailing. split; lia.
  - right. right. right. exact (proj2 (proj2 (entry_sound k c C)) x l E H).
Qed.

(** ** Controls *)
Definition ctl_g (g : GraphemeClusterBreak) : bool := match g with GCB_Control | GCB_CR | GCB_LF => true | _ => false end.
Definition ctl (o : option GraphemeClusterBreak) : bool := match o with Some g => ctl_g g | None => false end.
Definition absent {V} (o : option V) : bool := match o with Some _ => false | None => true end.
Lemma absent_none {V} (o : option V) : absent o = true -> o = None.
Proof. destruct o; [discriminate|reflexivity]. Qed.
Lemma ctl_hangs g : ctl_g g = true -> hangs_g g = true -> False.
Proof. destruct g; discriminate. Qed.
Lemma true_negb b : b = true -> negb b = true -> False.
Proof. destruct b; discriminate. Qed.
Lemma ctl_ccc : check2 GRAPHEME_CLUSTER_BREAK CANONICAL_COMBINING_CLASS_VALUES (fun a b => implb (ctl a) (negb (nz b))) = true.
Proof. vm_cast_no_check (eq_refl true). Qed.
Lemma ctl_canon : check2 GRAPHEME_CLUSTER_BREAK CANONICAL_DECOMPOSITION_MAPPING (fun a b => implb (ctl a) (absent b)) = true.
Proof. vm_cast_no_check (eq_refl true). Qed.
Lemma ctl_compat : check2 GRAPHEME_CLUSTER_BREAK COMPATIBILITY_DECOMPOSITION_MAPPING (fun a b => implb (ctl a) (absent b)) = true.
Proof. vm_cast_no_check (eq_refl true). Qed.
Lemma ctl_comp : check2 GRAPHEME_CLUSTER_BREAK CANONICAL_COMPOSITION_MAPPING (fun a b => implb (ctl a) (absent b)) = true.
Proof. vm_cast_no_check (eq_refl true). Qed.
Definition nl_w (w : WordBreak) : bool := match w with WB_Newline | WB_CR | WB_LF => true | _ => false end.
Lemma newline_ctl : check2 WORD_BREAK GRAPHEME_CLUSTER_BREAK (fun a b => implb (match a with Some w => nl_w w | None => false end) (ctl b)) = true.
Proof. vm_cast_no_check (eq_refl true). Qed.

Definition control (c : N) : bool := ctl_g (grapheme_cluster_break c).
Lemma control_lookup c : control c = true -> ctl (lookup GRAPHEME_CLUSTER_BREAK c) = true.
Proof. unfold control. rewrite gcb_lookup. destruct (lookup GRAPHEME_CLUSTER_BREAK c); [auto|discriminate]. Qed.
Lemma newline_control c : nl_w (word_break c) = true -> control c = true.
Proof.
  rewrite wb_lookup. unfold control. rewrite gcb_lookup. intros H.
  pose proof (piecewise2 _ _ _ wf_WORD_BREAK wf_GRAPHEME_CLUSTER_BREAK newline_ctl c) as P. cbv beta in P.
  destruct (lookup WORD_BREAK c); [|discriminate]. rewrite H in P. cbn [implb] in P. destruct (lookup GRAPHEME_CLUSTER_BREAK c); [assumption|discriminate].
Qed.

Lemma ctl_word : check2 GRAPHEME_CLUSTER_BREAK WORD_BREAK (fun a b => implb (ctl a) (match b with Some WB_ALetter => false | _ => true end)) = true.
Proof. vm_cast_no_check (eq_refl true). Qed.
Lemma control_word c : control c = true -> word_break c <> WB_ALetter.
Proof.
  intros H. apply control_lookup in H. rewrite wb_lookup.
  pose proof (piecewise2 _ _ _ wf_GRAPHEME_CLUSTER_BREAK wf_WORD_BREAK ctl_word c) as P. cbv beta in P. rewrite H in P. cbn [implb] in P.
  intros E. destruct (lookup WORD_BREAK c) as [w|]; [subst w|]; discriminate.
Qed.

(** A control character stands alone: it does not decompose and combines with nothing. *)
Lemma control_alone c : control c = true ->
  (forall k, decompose k c = [c]) /\ ccc c = 0 /\ (forall x, compose c x = None) /\ (forall o, compose o c = None).
Proof.
  intros H. pose proof (control_word c H) as W. pose proof (control_lookup c H) as L.
  pose proof (piecewise2 _ _ _ wf_GRAPHEME_CLUSTER_BREAK wf_CANONICAL_COMBINING_CLASS_VALUES ctl_ccc c) as P1.
  pose proof (piecewise2 _ _ _ wf_GRAPHEME_CLUSTER_BREAK wf_CANONICAL_DECOMPOSITION_MAPPING ctl_canon c) as P2.
  pose proof (piecewise2 _ _ _ wf_GRAPHEME_CLUSTER_BREAK wf_COMPATIBILITY_DECOMPOSITION_MAPPING ctl_compat c) as P3.
  pose proof (piecewise2 _ _ _ wf_GRAPHEME_CLUSTER_BREAK wf_CANONICAL_COMPOSITION_MAPPING ctl_comp c) as P4.
  cbv beta in P1, P2, P3, P4. rewrite L in P1, P2, P3, P4. cbn [implb] in P1, P2, P3, P4.
  assert (S1 : is_syllable c = false).
  { apply not_true_iff_false. intros S1. apply W, wb_syllable, S1. }
  assert (J : ~ (0x1100 <= c /\ c <= 0x11C2)) by (intros [J1 J2]; apply W, wb_jamo; assumption).
  split; [|split; [|split]].
  - intros k. apply decompose_stable. split; [assumption|]. unfold canonical_decomposition, compatibility_decomposition.
    rewrite (absent_none _ P2), (absent_none _ P3). split; reflexivity.
  - destruct (N.eq_dec (ccc c) 0) as [E|E]; [assumption|]. apply ccc_nz in E. exfalso. exact (true_negb _ E P1).
  - intros x. destruct (compose c x) as [r|] eqn:E; [|reflexivity]. exfalso. apply compose_cases in E as [E|[(l & v & Hl & Hv & E & _)|E]].
    + inversion E as [l v Hl Hv E1|l v t (B1 & B2 & B3) Ht E1].
      * apply J. unfold leading in E1. lia.
      * assert (is_syllable c = true) by (apply block_cover; exists l, v, 0; split; [unfold valid_block; lia|congruence]). congruence.
    + assert (is_syllable c = true) by (apply block_cover; exists l, v, 0; split; [unfold valid_block; lia|assumption]). congruence.
    + unfold triples in E. apply in_flat_map in E as (e & He & E). apply in_map_iff in E as (f & E & _).
      assert (fst (fst e) = c) by congruence.
      destruct triples_singleton as [Hs _]. unfold singleton_entries in Hs. rewrite forallb_forall in Hs. specialize (Hs e He). apply N.eqb_eq in Hs.
      apply absent_none in P4. rewrite lookup_scan in P4 by use_wf.
      apply (scan_none _ _ P4 e He). split; lia.
  - intros o. destruct (compose o c) as [r|] eqn:E; [|reflexivity]. exfalso. apply compose_cases in E as [E|[(l & v & Hl & Hv & _ & E & _)|E]].
    + apply J. inversion E as [l v Hl Hv E1 E2|l v t (B1 & B2 & B3) Ht E1 E2]; unfold vowel, trailing in *; lia.
    + apply J. lia.
    + apply second_hangs in E as [E _]. unfold hangs in E. apply andb_true_iff in E as [E _]. exact (ctl_hangs _ H E).
Qed.

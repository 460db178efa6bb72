(** Derived properties against their definitions, for every character. *)
From Coq Require Import List NArith ZArith Lia Bool ZifyBool ZifyN.
From Verif Require Import Base RangeModel TableModel TableSpec TableProofs TablePiecewise Enums EnumFacts TableTypes
  TablesNormal TablesBidi TablesSegment TablesBinary TablesCategory UcdModel UcdSpec UcdProofs DerivedSpec.
Import ListNotations.
Open Scope N_scope.

Definition rtab (l : list (N * N)) : CharDataTable unit := Range (map (fun p => (mkRange (fst p) (snd p), tt)) l).
Definition has {A} (o : option A) : bool := match o with Some _ => true | None => false end.
Lemma rtab_in l c : wf_table (rtab l) -> in_ranges l c = has (lookup (rtab l) c).
Proof.
  intros W. rewrite lookup_scan by assumption. clear W. unfold rtab, entries.
  induction l as [|[a b] l IH]; [reflexivity|]. cbn [in_ranges existsb map fst snd scan r_low r_high].
  destruct ((a <=? c) && (c <=? b)); [reflexivity|]. exact IH.
Qed.
Ltac wft := use_wf.
Definition gcd (o : option GeneralCategory) := match o with Some g => g | None => GC_Unassigned end.
Definition bcd (o : option BidiClass) := match o with Some g => g | None => BC_LeftToRight end.
Definition gbd (o : option GraphemeClusterBreak) := match o with Some g => g | None => GCB_Other end.
Definition wbd (o : option WordBreak) := match o with Some g => g | None => WB_Other end.
Definition sbd (o : option SentenceBreak) := match o with Some g => g | None => SB_Other end.
Definition numd (o : option N) := match o with Some g => g | None => 0 end.

Lemma m_has {V} (t : CharDataTable V) c : wf_table t -> member t c = has (lookup t c).
Proof. intros H. rewrite member_lookup by assumption. reflexivity. Qed.
Lemma gc_lookup c : general_category c = gcd (lookup GENERAL_CATEGORY c).
Proof. unfold general_category. rewrite lookup_or_lookup by wft. reflexivity. Qed.
Lemma bc_lookup c : bidi_class c = bcd (lookup BIDI_CLASS_TABLE c).
Proof. unfold bidi_class. rewrite lookup_or_lookup by wft. reflexivity. Qed.
Lemma gb_lookup c : grapheme_cluster_break c = gbd (lookup GRAPHEME_CLUSTER_BREAK c).
Proof. unfold grapheme_cluster_break. rewrite lookup_or_lookup by wft. reflexivity. Qed.
Lemma wb_lookup c : word_break c = wbd (lookup WORD_BREAK c).
Proof. unfold word_break. rewrite lookup_or_lookup by wft. reflexivity. Qed.
Lemma sb_lookup c : sentence_break c = sbd (lookup SENTENCE_BREAK c).
Proof. unfold sentence_break. rewrite lookup_or_lookup by wft. reflexivity. Qed.
Lemma ccc_lookup c : ccc c = numd (lookup CANONICAL_COMBINING_CLASS_VALUES c).
Proof. Local Transparent ccc. unfold ccc. rewrite lookup_or_lookup by wft. reflexivity. Qed.

Notation "a === b" := (eqb a b) (at level 70, only parsing).
Definition imp (a b : bool) : bool := negb a || b.
Lemma imp_true a b : imp a b = true -> a = true -> b = true.
Proof. destruct a, b; cbn; congruence. Qed.
(** ** Case *)
Lemma cased_check : check4 CASED LOWERCASE UPPERCASE GENERAL_CATEGORY
  (fun a l u g => has a === (has l || has u || gc_in [GC_TitlecaseLetter] (gcd g))) = true.
Proof. vm_cast_no_check (eq_refl true). Qed.
Lemma cased_formula c : is_cased c = is_lowercase c || is_uppercase c || GC_eqb (general_category c) GC_TitlecaseLetter.
Proof.
  unfold is_cased, is_lowercase, is_uppercase. rewrite !m_has by wft. rewrite gc_lookup.
  pose proof (piecewise4 _ _ _ _ _ wf_CASED wf_LOWERCASE wf_UPPERCASE wf_GENERAL_CATEGORY cased_check c) as H.
  cbv beta in H. apply eqb_prop in H. rewrite H. unfold gc_in. cbn [existsb]. now rewrite orb_false_r.
Qed.
Lemma ignorable_check : check3 CASE_IGNORABLE GENERAL_CATEGORY WORD_BREAK
  (fun a g w => has a === (gc_in [GC_NonspacingMark; GC_EnclosingMark; GC_Format; GC_ModifierLetter; GC_ModifierSymbol] (gcd g) ||
    existsb (WB_eqb (wbd w)) [WB_MidLetter; WB_MidNumLet; WB_SingleQuote])) = true.
Proof. vm_cast_no_check (eq_refl true). Qed.
Lemma ignorable_formula c : is_case_ignorable c =
  gc_in [GC_NonspacingMark; GC_EnclosingMark; GC_Format; GC_ModifierLetter; GC_ModifierSymbol] (general_category c) ||
  existsb (WB_eqb (word_break c)) [WB_MidLetter; WB_MidNumLet; WB_SingleQuote].
Proof.
  unfold is_case_ignorable. rewrite m_has by wft. rewrite gc_lookup, wb_lookup.
  pose proof (piecewise3 _ _ _ _ wf_CASE_IGNORABLE wf_GENERAL_CATEGORY wf_WORD_BREAK ignorable_check c) as H. cbv beta in H. exact (eqb_prop _ _ H).
Qed.
Lemma lowercased_check : check3 CHANGES_WHEN_LOWERCASED UPPERCASE GENERAL_CATEGORY
  (fun a u g => imp (has a) (has u || gc_in [GC_TitlecaseLetter] (gcd g))) = true.
Proof. vm_cast_no_check (eq_refl true). Qed.
Lemma lowercased_upper c : changes_when_lowercased c = true -> is_uppercase c || gc_in [GC_TitlecaseLetter] (general_category c) = true.
Proof.
  unfold changes_when_lowercased, is_uppercase. rewrite !m_has by wft. rewrite gc_lookup.
  pose proof (piecewise3 _ _ _ _ wf_CHANGES_WHEN_LOWERCASED wf_UPPERCASE wf_GENERAL_CATEGORY lowercased_check c) as H. cbv beta in H. exact (imp_true _ _ H).
Qed.
Lemma uppercased_check : check3 CHANGES_WHEN_UPPERCASED LOWERCASE GENERAL_CATEGORY
  (fun a u g => imp (has a) (has u || gc_in [GC_TitlecaseLetter] (gcd g))) = true.
Proof. vm_cast_no_check (eq_refl true). Qed.
Lemma uppercased_lower c : changes_when_uppercased c = true -> is_lowercase c || gc_in [GC_TitlecaseLetter] (general_category c) = true.
Proof.
  unfold changes_when_uppercased, is_lowercase. rewrite !m_has by wft. rewrite gc_lookup.
  pose proof (piecewise3 _ _ _ _ wf_CHANGES_WHEN_UPPERCASED wf_LOWERCASE wf_GENERAL_CATEGORY uppercased_check c) as H. cbv beta in H. exact (imp_true _ _ H).
Qed.

(** ** Letters and identifiers *)
Lemma alphabetic_check : check4 ALPHABETIC LOWERCASE UPPERCASE GENERAL_CATEGORY
  (fun a l u g => imp (has l || has u || gc_in letters (gcd g)) (has a) &&
    imp (has a) (gc_in (letters ++ [GC_NonspacingMark; GC_SpacingMark; GC_OtherSymbol]) (gcd g))) = true.
Proof. vm_cast_no_check (eq_refl true). Qed.
Lemma alphabetic_bounds c :
  (is_lowercase c || is_uppercase c || gc_in letters (general_category c) = true -> is_alphabetic c = true) /\
  (is_alphabetic c = true -> gc_in (letters ++ [GC_NonspacingMark; GC_SpacingMark; GC_OtherSymbol]) (general_category c) = true).
Proof.
  unfold is_alphabetic, is_lowercase, is_uppercase. rewrite !m_has by wft. rewrite gc_lookup.
  pose proof (piecewise4 _ _ _ _ _ wf_ALPHABETIC wf_LOWERCASE wf_UPPERCASE wf_GENERAL_CATEGORY alphabetic_check c) as H.
  cbv beta in H. apply andb_true_iff in H as [H1 H2]. split; apply imp_true; assumption.
Qed.
Lemma id_start_check : check4 ID_START GENERAL_CATEGORY PATTERN_SYNTAX (rtab other_id_start)
  (fun a g s o => has a === ((gc_in letters (gcd g) || has o) && negb (has s))) = true.
Proof. vm_cast_no_check (eq_refl true). Qed.
Lemma wf_start : wf_table (rtab other_id_start). Proof. apply wf_entriesb_sound. vm_compute. reflexivity. Qed.
Lemma id_start_formula c : is_id_start c = (gc_in letters (general_category c) || in_ranges other_id_start c) && negb (is_pattern_syntax c).
Proof.
  unfold is_id_start, is_pattern_syntax. rewrite !m_has by wft. rewrite gc_lookup, (rtab_in _ c wf_start).
  pose proof (piecewise4 _ _ _ _ _ wf_ID_START wf_GENERAL_CATEGORY wf_PATTERN_SYNTAX wf_start id_start_check c) as H. cbv beta in H. exact (eqb_prop _ _ H).
Qed.
Lemma wf_continue : wf_table (rtab other_id_continue). Proof. apply wf_entriesb_sound. vm_compute. reflexivity. Qed.
Lemma id_continue_check : check4 ID_CONTINUE ID_START GENERAL_CATEGORY (rtab other_id_continue)
  (fun a i g o => has a === (has i || gc_in [GC_NonspacingMark; GC_SpacingMark; GC_DecimalNumber; GC_ConnectorPunctuation] (gcd g) || has o)) = true.
Proof. vm_cast_no_check (eq_refl true). Qed.
Lemma id_continue_formula c : is_id_continue c = is_id_start c ||
  gc_in [GC_NonspacingMark; GC_SpacingMark; GC_DecimalNumber; GC_ConnectorPunctuation] (general_category c) || in_ranges other_id_continue c.
Proof.
  unfold is_id_continue, is_id_start. rewrite !m_has by wft. rewrite gc_lookup, (rtab_in _ c wf_continue).
  pose proof (piecewise4 _ _ _ _ _ wf_ID_CONTINUE wf_ID_START wf_GENERAL_CATEGORY wf_continue id_continue_check c) as H. cbv beta in H. exact (eqb_prop _ _ H).
Qed.
Lemma wf_cspace : wf_table (rtab control_space). Proof. apply wf_entriesb_sound. vm_compute. reflexivity. Qed.
Lemma white_space_check : check3 WHITE_SPACE GENERAL_CATEGORY (rtab control_space)
  (fun a g o => has a === (gc_in [GC_SpaceSeparator; GC_LineSeparator; GC_ParagraphSeparator] (gcd g) || has o)) = true.
Proof. vm_cast_no_check (eq_refl true). Qed.
Lemma white_space_formula c : is_white_space c =
  gc_in [GC_SpaceSeparator; GC_LineSeparator; GC_ParagraphSeparator] (general_category c) || in_ranges control_space c.
Proof.
  unfold is_white_space. rewrite !m_has by wft. rewrite gc_lookup, (rtab_in _ c wf_cspace).
  pose proof (piecewise3 _ _ _ _ wf_WHITE_SPACE wf_GENERAL_CATEGORY wf_cspace white_space_check c) as H. cbv beta in H. exact (eqb_prop _ _ H).
Qed.
Lemma wf_pspace : wf_table (rtab pattern_space). Proof. apply wf_entriesb_sound. vm_compute. reflexivity. Qed.
Lemma pattern_space_check : check2 PATTERN_WHITE_SPACE (rtab pattern_space) (fun a o => has a === has o) = true.
Proof. vm_cast_no_check (eq_refl true). Qed.
Lemma pattern_space_formula c : is_pattern_whitespace c = in_ranges pattern_space c.
Proof.
  unfold is_pattern_whitespace. rewrite !m_has by wft. rewrite (rtab_in _ c wf_pspace).
  pose proof (piecewise2 _ _ _ wf_PATTERN_WHITE_SPACE wf_pspace pattern_space_check c) as H. cbv beta in H. exact (eqb_prop _ _ H).
Qed.

(** ** Marks *)
Lemma ccc_check : check2 CANONICAL_COMBINING_CLASS_VALUES GENERAL_CATEGORY (fun k g => imp (negb (numd k =? 0)) (gc_is_mark (gcd g))) = true.
Proof. vm_cast_no_check (eq_refl true). Qed.
Lemma ccc_mark c : ccc c <> 0 -> gc_is_mark (general_category c) = true.
Proof.
  rewrite ccc_lookup, gc_lookup. intros H.
  pose proof (piecewise2 _ _ _ wf_CANONICAL_COMBINING_CLASS_VALUES wf_GENERAL_CATEGORY ccc_check c) as P. cbv beta in P. apply (imp_true _ _ P). apply negb_true_iff. now apply N.eqb_neq.
Qed.
Lemma wf_ltr : wf_table (rtab ltr_marks). Proof. apply wf_entriesb_sound. vm_compute. reflexivity. Qed.
Lemma nsm_check : check3 BIDI_CLASS_TABLE GENERAL_CATEGORY (rtab ltr_marks)
  (fun b g o => BC_eqb (bcd b) BC_NonspacingMark === (gc_in nonspacing (gcd g) && negb (has o))) = true.
Proof. vm_cast_no_check (eq_refl true). Qed.
Lemma nsm_formula c : BC_eqb (bidi_class c) BC_NonspacingMark = gc_in nonspacing (general_category c) && negb (in_ranges ltr_marks c).
Proof.
  rewrite gc_lookup, bc_lookup, (rtab_in _ c wf_ltr).
  pose proof (piecewise3 _ _ _ _ wf_BIDI_CLASS_TABLE wf_GENERAL_CATEGORY wf_ltr nsm_check c) as H. cbv beta in H. exact (eqb_prop _ _ H).
Qed.
Lemma extend_check : check4 GRAPHEME_CLUSTER_BREAK WORD_BREAK SENTENCE_BREAK GENERAL_CATEGORY
  (fun b w s g => imp (gc_in nonspacing (gcd g)) (GCB_eqb (gbd b) GCB_Extend) &&
    (WB_eqb (wbd w) WB_Extend === (GCB_eqb (gbd b) GCB_Extend || gc_in [GC_SpacingMark] (gcd g))) &&
    (GCB_eqb (gbd b) GCB_ZWJ === WB_eqb (wbd w) WB_ZWJ) &&
    (SB_eqb (sbd s) SB_Extend === (WB_eqb (wbd w) WB_Extend || WB_eqb (wbd w) WB_ZWJ))) = true.
Proof. vm_cast_no_check (eq_refl true). Qed.
Lemma extend_formula c :
  (gc_in nonspacing (general_category c) = true -> GCB_eqb (grapheme_cluster_break c) GCB_Extend = true) /\
  WB_eqb (word_break c) WB_Extend = GCB_eqb (grapheme_cluster_break c) GCB_Extend || gc_in [GC_SpacingMark] (general_category c) /\
  GCB_eqb (grapheme_cluster_break c) GCB_ZWJ = WB_eqb (word_break c) WB_ZWJ /\
  SB_eqb (sentence_break c) SB_Extend = WB_eqb (word_break c) WB_Extend || WB_eqb (word_break c) WB_ZWJ.
Proof.
  rewrite gc_lookup, gb_lookup, wb_lookup, sb_lookup.
  pose proof (piecewise4 _ _ _ _ _ wf_GRAPHEME_CLUSTER_BREAK wf_WORD_BREAK wf_SENTENCE_BREAK wf_GENERAL_CATEGORY extend_check c) as H. cbv beta in H.
  apply andb_true_iff in H as [H H4]. apply andb_true_iff in H as [H H3]. apply andb_true_iff in H as [H1 H2].
  split; [exact (imp_true _ _ H1)|]. split; [exact (eqb_prop _ _ H2)|]. split; [exact (eqb_prop _ _ H3)|exact (eqb_prop _ _ H4)].
Qed.

(** ** Segmentation *)
Lemma emoji_check : check4 GRAPHEME_CLUSTER_BREAK WORD_BREAK EMOJI_MODIFIER EMOJI_MODIFIER_BASE
  (fun b w m e => (GCB_eqb (gbd b) GCB_EModifier === has m) && (WB_eqb (wbd w) WB_EModifier === has m) &&
    ((GCB_eqb (gbd b) GCB_EBase || GCB_eqb (gbd b) GCB_EBaseGAZ) === has e) &&
    (GCB_eqb (gbd b) GCB_EBase === WB_eqb (wbd w) WB_EBase) && (GCB_eqb (gbd b) GCB_EBaseGAZ === WB_eqb (wbd w) WB_EBaseGAZ) &&
    (GCB_eqb (gbd b) GCB_GlueAfterZwj === WB_eqb (wbd w) WB_GlueAfterZwj)) = true.
Proof. vm_cast_no_check (eq_refl true). Qed.
Lemma emoji_formula c :
  GCB_eqb (grapheme_cluster_break c) GCB_EModifier = is_emoji_modifier c /\ WB_eqb (word_break c) WB_EModifier = is_emoji_modifier c /\
  GCB_eqb (grapheme_cluster_break c) GCB_EBase || GCB_eqb (grapheme_cluster_break c) GCB_EBaseGAZ = is_emoji_modifier_base c /\
  GCB_eqb (grapheme_cluster_break c) GCB_EBase = WB_eqb (word_break c) WB_EBase /\
  GCB_eqb (grapheme_cluster_break c) GCB_EBaseGAZ = WB_eqb (word_break c) WB_EBaseGAZ /\
  GCB_eqb (grapheme_cluster_break c) GCB_GlueAfterZwj = WB_eqb (word_break c) WB_GlueAfterZwj.
Proof.
  unfold is_emoji_modifier, is_emoji_modifier_base. rewrite !m_has by wft. rewrite gb_lookup, wb_lookup.
  pose proof (piecewise4 _ _ _ _ _ wf_GRAPHEME_CLUSTER_BREAK wf_WORD_BREAK wf_EMOJI_MODIFIER wf_EMOJI_MODIFIER_BASE emoji_check c) as H. cbv beta in H.
  apply andb_true_iff in H as [H H6]. apply andb_true_iff in H as [H H5]. apply andb_true_iff in H as [H H4].
  apply andb_true_iff in H as [H H3]. apply andb_true_iff in H as [H1 H2].
  repeat split; apply eqb_prop; assumption.
Qed.
Lemma wf_ri : wf_table (rtab indicators). Proof. apply wf_entriesb_sound. vm_compute. reflexivity. Qed.
Lemma ri_check : check3 GRAPHEME_CLUSTER_BREAK WORD_BREAK (rtab indicators)
  (fun b w o => (GCB_eqb (gbd b) GCB_RegionalIndicator === has o) && (WB_eqb (wbd w) WB_RegionalIndicator === has o)) = true.
Proof. vm_cast_no_check (eq_refl true). Qed.
Lemma ri_formula c : GCB_eqb (grapheme_cluster_break c) GCB_RegionalIndicator = in_ranges indicators c /\
  WB_eqb (word_break c) WB_RegionalIndicator = in_ranges indicators c.
Proof.
  rewrite gb_lookup, wb_lookup, (rtab_in _ c wf_ri).
  pose proof (piecewise3 _ _ _ _ wf_GRAPHEME_CLUSTER_BREAK wf_WORD_BREAK wf_ri ri_check c) as H. cbv beta in H.
  apply andb_true_iff in H as [H1 H2]. split; apply eqb_prop; assumption.
Qed.
Lemma sb_case_check : check4 SENTENCE_BREAK LOWERCASE UPPERCASE GENERAL_CATEGORY
  (fun s l u g => (SB_eqb (sbd s) SB_Upper === (has u || gc_in [GC_TitlecaseLetter] (gcd g))) &&
    (SB_eqb (sbd s) SB_Lower === (has l && negb (gc_in [GC_NonspacingMark] (gcd g))))) = true.
Proof. vm_cast_no_check (eq_refl true). Qed.
Lemma sb_case_formula c : SB_eqb (sentence_break c) SB_Upper = is_uppercase c || gc_in [GC_TitlecaseLetter] (general_category c) /\
  SB_eqb (sentence_break c) SB_Lower = is_lowercase c && negb (gc_in [GC_NonspacingMark] (general_category c)).
Proof.
  unfold is_lowercase, is_uppercase. rewrite !m_has by wft. rewrite sb_lookup, gc_lookup.
  pose proof (piecewise4 _ _ _ _ _ wf_SENTENCE_BREAK wf_LOWERCASE wf_UPPERCASE wf_GENERAL_CATEGORY sb_case_check c) as H. cbv beta in H.
  apply andb_true_iff in H as [H1 H2]. split; apply eqb_prop; assumption.
Qed.
Lemma sb_space_check : check2 SENTENCE_BREAK WHITE_SPACE
  (fun s w => existsb (SB_eqb (sbd s)) [SB_Sp; SB_Sep; SB_CR; SB_LF] === has w) = true.
Proof. vm_cast_no_check (eq_refl true). Qed.
Lemma sb_space_formula c : existsb (SB_eqb (sentence_break c)) [SB_Sp; SB_Sep; SB_CR; SB_LF] = is_white_space c.
Proof.
  unfold is_white_space. rewrite m_has by wft. rewrite sb_lookup.
  pose proof (piecewise2 _ _ _ wf_SENTENCE_BREAK wf_WHITE_SPACE sb_space_check c) as H. cbv beta in H. exact (eqb_prop _ _ H).
Qed.

(** *** Hangul *)
Definition lv_ranges : list (N * N) := map (fun n => (0xAC00 + 28 * N.of_nat n, 0xAC00 + 28 * N.of_nat n)) (seq 0 399).
Lemma lv_ranges_in c : in_ranges lv_ranges c = lv_syllable c.
Proof.
  apply eq_true_iff_eq. unfold in_ranges, lv_ranges, lv_syllable, syllable. rewrite existsb_exists. split.
  - intros (p & Hp & Hc). apply in_map_iff in Hp as (n & <- & Hn). apply in_seq in Hn. cbn [fst snd] in Hc.
    assert (c = 0xAC00 + 28 * N.of_nat n) as -> by lia.
    replace (0xAC00 + 28 * N.of_nat n - 0xAC00) with (N.of_nat n * 28) by lia. rewrite N.mod_mul by lia. lia.
  - intros H. apply andb_true_iff in H as [H1 H2]. apply N.eqb_eq in H2.
    pose proof (N.div_mod (c - 0xAC00) 28 ltac:(lia)) as D. rewrite H2 in D.
    set (q := (c - 0xAC00) / 28) in *. exists (0xAC00 + 28 * q, 0xAC00 + 28 * q). split; [|cbn [fst snd]; lia].
    apply in_map_iff. exists (N.to_nat q). rewrite N2Nat.id. split; [reflexivity|]. apply in_seq. lia.
Qed.
Lemma wf_lv : wf_table (rtab lv_ranges). Proof. apply wf_entriesb_sound. vm_compute. reflexivity. Qed.
Definition syll_range : list (N * N) := [(0xAC00, 0xD7A3)].
Lemma wf_syll : wf_table (rtab syll_range). Proof. apply wf_entriesb_sound. vm_compute. reflexivity. Qed.
Lemma syll_in c : in_ranges syll_range c = syllable c.
Proof. unfold in_ranges, syll_range, syllable. cbn [existsb fst snd]. apply orb_false_r. Qed.
Lemma hangul_check1 : check3 GRAPHEME_CLUSTER_BREAK (rtab lv_ranges) (rtab syll_range)
  (fun b l s => (GCB_eqb (gbd b) GCB_LV === has l) && (GCB_eqb (gbd b) GCB_LVT === (has s && negb (has l)))) = true.
Proof. vm_cast_no_check (eq_refl true). Qed.
Lemma wf_l : wf_table (rtab type_l). Proof. apply wf_entriesb_sound. vm_compute. reflexivity. Qed.
Lemma wf_v : wf_table (rtab type_v). Proof. apply wf_entriesb_sound. vm_compute. reflexivity. Qed.
Lemma wf_t : wf_table (rtab type_t). Proof. apply wf_entriesb_sound. vm_compute. reflexivity. Qed.
Lemma hangul_check2 : check4 GRAPHEME_CLUSTER_BREAK (rtab type_l) (rtab type_v) (rtab type_t)
  (fun b l v t => (GCB_eqb (gbd b) GCB_L === has l) && (GCB_eqb (gbd b) GCB_V === has v) && (GCB_eqb (gbd b) GCB_T === has t)) = true.
Proof. vm_cast_no_check (eq_refl true). Qed.
Lemma hangul_formula c :
  GCB_eqb (grapheme_cluster_break c) GCB_LV = lv_syllable c /\
  GCB_eqb (grapheme_cluster_break c) GCB_LVT = syllable c && negb (lv_syllable c) /\
  GCB_eqb (grapheme_cluster_break c) GCB_L = in_ranges type_l c /\
  GCB_eqb (grapheme_cluster_break c) GCB_V = in_ranges type_v c /\
  GCB_eqb (grapheme_cluster_break c) GCB_T = in_ranges type_t c.
Proof.
  rewrite <- lv_ranges_in, <- syll_in, gb_lookup.
  rewrite (rtab_in _ c wf_lv), (rtab_in _ c wf_syll), (rtab_in _ c wf_l), (rtab_in _ c wf_v), (rtab_in _ c wf_t).
  pose proof (piecewise3 _ _ _ _ wf_GRAPHEME_CLUSTER_BREAK wf_lv wf_syll hangul_check1 c) as H. cbv beta in H.
  pose proof (piecewise4 _ _ _ _ _ wf_GRAPHEME_CLUSTER_BREAK wf_l wf_v wf_t hangul_check2 c) as K. cbv beta in K.
  apply andb_true_iff in H as [H1 H2]. apply andb_true_iff in K as [K K3]. apply andb_true_iff in K as [K1 K2].
  repeat split; apply eqb_prop; assumption.
Qed.

(** ** Bidi and emoji *)
Lemma wf_imp : wf_table (rtab implicit_marks). Proof. apply wf_entriesb_sound. vm_compute. reflexivity. Qed.
Lemma bidi_control_check : check3 BIDI_CONTROL BIDI_CLASS_TABLE (rtab implicit_marks)
  (fun a b o => has a === (existsb (BC_eqb (bcd b)) explicit_classes || has o)) = true.
Proof. vm_cast_no_check (eq_refl true). Qed.
Lemma bidi_control_formula c : is_bidi_control c = existsb (BC_eqb (bidi_class c)) explicit_classes || in_ranges implicit_marks c.
Proof.
  unfold is_bidi_control. rewrite m_has by wft. rewrite bc_lookup, (rtab_in _ c wf_imp).
  pose proof (piecewise3 _ _ _ _ wf_BIDI_CONTROL wf_BIDI_CLASS_TABLE wf_imp bidi_control_check c) as H. cbv beta in H. exact (eqb_prop _ _ H).
Qed.
Lemma bidi_more_check : check3 BIDI_MIRRORED BIDI_CLASS_TABLE GENERAL_CATEGORY
  (fun a b g => imp (has a) (BC_eqb (bcd b) BC_OtherNeutral && (gc_is_punctuation (gcd g) || gc_is_symbol (gcd g))) &&
    imp (BC_eqb (bcd b) BC_ParagraphSeparator) (gc_in [GC_Control; GC_ParagraphSeparator] (gcd g)) &&
    imp (gc_in [GC_ParagraphSeparator] (gcd g)) (BC_eqb (bcd b) BC_ParagraphSeparator)) = true.
Proof. vm_cast_no_check (eq_refl true). Qed.
Lemma bidi_more c :
  (is_bidi_mirrored c = true -> bidi_class c = BC_OtherNeutral /\ gc_is_punctuation (general_category c) || gc_is_symbol (general_category c) = true) /\
  (bidi_class c = BC_ParagraphSeparator -> gc_in [GC_Control; GC_ParagraphSeparator] (general_category c) = true) /\
  (general_category c = GC_ParagraphSeparator -> bidi_class c = BC_ParagraphSeparator).
Proof.
  unfold is_bidi_mirrored. rewrite m_has by wft. rewrite bc_lookup, gc_lookup.
  pose proof (piecewise3 _ _ _ _ wf_BIDI_MIRRORED wf_BIDI_CLASS_TABLE wf_GENERAL_CATEGORY bidi_more_check c) as H. cbv beta in H.
  apply andb_true_iff in H as [H H3]. apply andb_true_iff in H as [H1 H2]. split; [|split].
  - intros E. apply (imp_true _ _ H1) in E. apply andb_true_iff in E as [E1 E2]. split; [now apply BC_eqb_eq|exact E2].
  - intros E. apply (imp_true _ _ H2). now apply BC_eqb_eq.
  - intros E. apply BC_eqb_eq. apply (imp_true _ _ H3). rewrite E. reflexivity.
Qed.
Lemma wf_comp : wf_table (rtab components). Proof. apply wf_entriesb_sound. vm_compute. reflexivity. Qed.
Lemma component_check : check2 EMOJI_COMPONENT (rtab components) (fun a o => has a === has o) = true.
Proof. vm_cast_no_check (eq_refl true). Qed.
Lemma component_formula c : is_emoji_component c = in_ranges components c.
Proof.
  unfold is_emoji_component. rewrite m_has by wft. rewrite (rtab_in _ c wf_comp).
  pose proof (piecewise2 _ _ _ wf_EMOJI_COMPONENT wf_comp component_check c) as H. cbv beta in H. exact (eqb_prop _ _ H).
Qed.

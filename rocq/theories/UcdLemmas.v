From Coq Require Import List NArith ZArith Lia Bool ZifyBool ZifyN.
From Verif Require Import Base RangeModel TableModel TableSpec TableProofs TableLemmas Enums EnumFacts TableTypes
  TablesNormal TablesIdna TablesBidi TablesSegment TablesCategory TablesMisc TablesBinary
  UcdModel UcdSpec UcdProofs TablePiecewise.
Import ListNotations.
Open Scope N_scope.

Definition isS {A} (o : option A) : bool := match o with Some _ => true | None => false end.
Definition gcv (o : option GeneralCategory) := match o with Some g => g | None => GC_Unassigned end.

Lemma mark_check : check2 GENERAL_CATEGORY_MARK GENERAL_CATEGORY
  (fun a b => eqb (isS a) (gc_is_mark (gcv b))) = true.
Proof. vm_cast_no_check (eq_refl true). Qed.

Lemma combining_mark_agree c : is_combining_mark_table c = is_combining_mark_category c.
Proof.
  unfold is_combining_mark_table, is_combining_mark_category, general_category.
  rewrite lookup_or_lookup by use_wf.
  pose proof (piecewise2 _ _ _ wf_GENERAL_CATEGORY_MARK wf_GENERAL_CATEGORY mark_check c) as H. cbv beta in H. apply eqb_prop. exact H.
Qed.

(** Sub-property and related checks between two binary tables. *)
Lemma sub_check (t1 t2 : CharDataTable unit) : wf_table t1 -> wf_table t2 ->
  check2 t1 t2 (fun a b => implb (isS a) (isS b)) = true ->
  subprop (member t1) (member t2).
Proof.
  intros H1 H2 Hc c. rewrite !member_lookup by assumption.
  pose proof (piecewise2 _ _ _ H1 H2 Hc c) as H. cbv beta in H. fold (isS (lookup t1 c)) (isS (lookup t2 c)).
  intros E. rewrite E in H. exact H.
Qed.

Lemma disj_check (t1 t2 : CharDataTable unit) : wf_table t1 -> wf_table t2 ->
  check2 t1 t2 (fun a b => negb (isS a && isS b)) = true ->
  disjoint (member t1) (member t2).
Proof.
  intros H1 H2 Hc c. rewrite !member_lookup by assumption.
  pose proof (piecewise2 _ _ _ H1 H2 Hc c) as H. cbv beta in H. fold (isS (lookup t1 c)) (isS (lookup t2 c)).
  intros [E1 E2]. rewrite E1, E2 in H. discriminate.
Qed.

Lemma union_check (t t1 t2 : CharDataTable unit) : wf_table t -> wf_table t1 -> wf_table t2 ->
  check3 t t1 t2 (fun a b d => eqb (isS a) (isS b || isS d)) = true ->
  forall c, member t c = member t1 c || member t2 c.
Proof.
  intros H0 H1 H2 Hc c. rewrite !member_lookup by assumption.
  pose proof (piecewise3 _ _ _ _ H0 H1 H2 Hc c) as H. cbv beta in H. apply eqb_prop. exact H.
Qed.

Lemma gc_check (t : CharDataTable unit) (f : GeneralCategory -> bool) : wf_table t ->
  check2 t GENERAL_CATEGORY (fun a b => eqb (isS a) (f (gcv b))) = true ->
  forall c, member t c = f (general_category c).
Proof.
  intros H1 Hc c. pose proof wf_GENERAL_CATEGORY as H2. unfold general_category. rewrite member_lookup by assumption. rewrite lookup_or_lookup by use_wf.
  pose proof (piecewise2 _ _ _ H1 H2 Hc c) as H. cbv beta in H. apply eqb_prop. exact H.
Qed.


Lemma alphanumeric_union c : is_alphanumeric c = is_alphabetic c || is_numeric c.
Proof. apply (union_check ALPHANUMERIC ALPHABETIC NUMERIC wf_ALPHANUMERIC wf_ALPHABETIC wf_NUMERIC). vm_cast_no_check (eq_refl true). Qed.
Lemma control_is_cc c : is_control c = GC_eqb (general_category c) GC_Control.
Proof. apply (gc_check CONTROL (fun g => GC_eqb g GC_Control) wf_CONTROL). vm_cast_no_check (eq_refl true). Qed.
Lemma numeric_is_n c : is_numeric c = gc_is_number (general_category c).
Proof. apply (gc_check NUMERIC gc_is_number wf_NUMERIC). vm_cast_no_check (eq_refl true). Qed.
Lemma xid_start_id_start : subprop is_xid_start is_id_start.
Proof. apply (sub_check XID_START ID_START wf_XID_START wf_ID_START). vm_cast_no_check (eq_refl true). Qed.
Lemma id_start_id_continue : subprop is_id_start is_id_continue.
Proof. apply (sub_check ID_START ID_CONTINUE wf_ID_START wf_ID_CONTINUE). vm_cast_no_check (eq_refl true). Qed.
Lemma xid_start_xid_continue : subprop is_xid_start is_xid_continue.
Proof. apply (sub_check XID_START XID_CONTINUE wf_XID_START wf_XID_CONTINUE). vm_cast_no_check (eq_refl true). Qed.
Lemma xid_continue_id_continue : subprop is_xid_continue is_id_continue.
Proof. apply (sub_check XID_CONTINUE ID_CONTINUE wf_XID_CONTINUE wf_ID_CONTINUE). vm_cast_no_check (eq_refl true). Qed.
Lemma pattern_syntax_id : disjoint is_pattern_syntax is_id_continue.
Proof. apply (disj_check PATTERN_SYNTAX ID_CONTINUE wf_PATTERN_SYNTAX wf_ID_CONTINUE). vm_cast_no_check (eq_refl true). Qed.
Lemma pattern_syntax_ws : disjoint is_pattern_syntax is_pattern_whitespace.
Proof. apply (disj_check PATTERN_SYNTAX PATTERN_WHITE_SPACE wf_PATTERN_SYNTAX wf_PATTERN_WHITE_SPACE). vm_cast_no_check (eq_refl true). Qed.
Lemma pattern_ws_id : disjoint is_pattern_whitespace is_id_continue.
Proof. apply (disj_check PATTERN_WHITE_SPACE ID_CONTINUE wf_PATTERN_WHITE_SPACE wf_ID_CONTINUE). vm_cast_no_check (eq_refl true). Qed.
Lemma lower_cased : subprop is_lowercase is_cased.
Proof. apply (sub_check LOWERCASE CASED wf_LOWERCASE wf_CASED). vm_cast_no_check (eq_refl true). Qed.
Lemma upper_cased : subprop is_uppercase is_cased.
Proof. apply (sub_check UPPERCASE CASED wf_UPPERCASE wf_CASED). vm_cast_no_check (eq_refl true). Qed.
Lemma lower_upper : disjoint is_lowercase is_uppercase.
Proof. apply (disj_check LOWERCASE UPPERCASE wf_LOWERCASE wf_UPPERCASE). vm_cast_no_check (eq_refl true). Qed.
Lemma emoji_modifier_emoji : subprop is_emoji_modifier is_emoji.
Proof. apply (sub_check EMOJI_MODIFIER EMOJI wf_EMOJI_MODIFIER wf_EMOJI). vm_cast_no_check (eq_refl true). Qed.
Lemma emoji_base_emoji : subprop is_emoji_modifier_base is_emoji.
Proof. apply (sub_check EMOJI_MODIFIER_BASE EMOJI wf_EMOJI_MODIFIER_BASE wf_EMOJI). vm_cast_no_check (eq_refl true). Qed.
Lemma emoji_pres_emoji : subprop is_emoji_presentation is_emoji.
Proof. apply (sub_check EMOJI_PRESENTATION EMOJI wf_EMOJI_PRESENTATION wf_EMOJI). vm_cast_no_check (eq_refl true). Qed.
Lemma emoji_comp_emoji : subprop is_emoji_component is_emoji.
Proof. apply (sub_check EMOJI_COMPONENT EMOJI wf_EMOJI_COMPONENT wf_EMOJI). vm_cast_no_check (eq_refl true). Qed.
Lemma white_space_alphanumeric : disjoint is_white_space is_alphanumeric.
Proof. apply (disj_check WHITE_SPACE ALPHANUMERIC wf_WHITE_SPACE wf_ALPHANUMERIC). vm_cast_no_check (eq_refl true). Qed.

Lemma casemapped_check :
  check4 CHANGES_WHEN_CASEMAPPED CHANGES_WHEN_LOWERCASED CHANGES_WHEN_UPPERCASED CHANGES_WHEN_TITLECASED
    (fun a b d e => eqb (isS a) (isS b || isS d || isS e)) = true.
Proof. vm_cast_no_check (eq_refl true). Qed.

Lemma casemapped_union c :
  changes_when_casemapped c = changes_when_lowercased c || changes_when_uppercased c || changes_when_titlecased c.
Proof.
  unfold changes_when_casemapped, changes_when_lowercased, changes_when_uppercased, changes_when_titlecased.
  rewrite !member_lookup by use_wf. apply eqb_prop.
  exact (piecewise4 _ _ _ _ _ wf_CHANGES_WHEN_CASEMAPPED wf_CHANGES_WHEN_LOWERCASED
    wf_CHANGES_WHEN_UPPERCASED wf_CHANGES_WHEN_TITLECASED casemapped_check c).
Qed.

(** Reordered characters are marks. *)
Lemma ccc_mark_check : check2 CANONICAL_COMBINING_CLASS_VALUES GENERAL_CATEGORY
  (fun a b => implb (isS a) (gc_is_mark (gcv b))) = true.
Proof. vm_cast_no_check (eq_refl true). Qed.

Lemma ccc_mark c : ccc c <> 0 -> gc_is_mark (general_category c) = true.
Proof.
  unfold ccc, general_category. rewrite !lookup_or_lookup by use_wf. intros H.
  pose proof (piecewise2 _ _ _ wf_CANONICAL_COMBINING_CLASS_VALUES wf_GENERAL_CATEGORY ccc_mark_check c) as Hc. cbv beta in Hc.
  destruct (lookup CANONICAL_COMBINING_CLASS_VALUES c); [exact Hc|congruence].
Qed.

Lemma assigned_check : check3 AGE_TABLE BLOCKS GENERAL_CATEGORY
  (fun a b g => implb (negb (GC_eqb (gcv g) GC_Unassigned)) (isS a && isS b)) = true.
Proof. vm_cast_no_check (eq_refl true). Qed.

Lemma assigned_age_block c : general_category c <> GC_Unassigned ->
  (exists v, age_of c = Some v) /\
  (exists r n, block_of c = Some (r, n) /\ r_low r <= c <= r_high r).
Proof.
  unfold general_category, age_of, block_of. rewrite lookup_or_lookup by use_wf. intros H.
  pose proof (piecewise3 _ _ _ _ wf_AGE_TABLE wf_BLOCKS wf_GENERAL_CATEGORY assigned_check c) as Hc. cbv beta in Hc.
  replace (GC_eqb (gcv (lookup GENERAL_CATEGORY c)) GC_Unassigned) with false in Hc.
  2:{ symmetry. destruct (GC_eqb _ _) eqn:E; [|reflexivity]. apply GC_eqb_eq in E. contradiction. }
  cbn [negb implb] in Hc. apply andb_true_iff in Hc as [Ha Hb]. split.
  - destruct (lookup AGE_TABLE c); [eauto|discriminate].
  - destruct (accessors_agree _ BLOCKS [] c wf_BLOCKS) as (o & Ho & _ & _ & Hr).
    rewrite (find_lookup _ _ wf_BLOCKS) in Ho. injection Ho as Ho.
    specialize (Hr _ eq_refl). rewrite <- Ho in Hr.
    destruct (lookup BLOCKS c) as [n|]; [|discriminate].
    destruct Hr as (r & Hr & _ & Hin). rewrite Hr. eauto.
Qed.

Lemma gc_groups g :
  let fs := [gc_is_letter g; gc_is_mark g; gc_is_number g; gc_is_punctuation g; gc_is_symbol g;
             gc_is_separator g; gc_is_other g] in
  length (filter (fun b => b) fs) = 1%nat /\ (gc_is_cased_letter g = true -> gc_is_letter g = true).
Proof. destruct g; cbv; split; auto. Qed.

Definition NA_eqb (a b : NameAliasType) : bool :=
  match a, b with
  | NA_NameCorrections, NA_NameCorrections | NA_ControlCodeNames, NA_ControlCodeNames
  | NA_AlternateNames, NA_AlternateNames | NA_Figments, NA_Figments
  | NA_NameAbbreviations, NA_NameAbbreviations => true
  | _, _ => false
  end.
Lemma NA_eqb_eq a b : NA_eqb a b = true <-> a = b.
Proof. destruct a, b; cbn; split; congruence. Qed.

Definition lists (o : option (list NameAliasType)) t :=
  match o with Some l => existsb (NA_eqb t) l | None => false end.
Definition alias_table (t : NameAliasType) : CharDataTable (list str) :=
  match t with
  | NA_NameCorrections => NAME_ALIAS_CORRECTIONS
  | NA_ControlCodeNames => NAME_ALIAS_CONTROLS
  | NA_AlternateNames => NAME_ALIAS_ALTERNATES
  | NA_Figments => NAME_ALIAS_FIGMENTS
  | NA_NameAbbreviations => NAME_ALIAS_ABBREVIATIONS
  end.

Lemma wf_alias_table t : wf_table (alias_table t).
Proof. destruct t; cbn [alias_table]; use_wf. Qed.

Lemma alias_check t : check2 NAME_ALIAS_TYPES (alias_table t)
  (fun a b => eqb (lists a t) (match b with Some (_ :: _) => true | Some [] => false | None => false end)
              && match b with Some [] => false | _ => true end) = true.
Proof. destruct t; vm_cast_no_check (eq_refl true). Qed.

Lemma aliases_agree c t :
  (exists l, name_alias_types_of c = Some l /\ In t l) <->
  (exists names, name_aliases_of c t = Some names /\ names <> []).
Proof.
  assert (name_aliases_of c t = lookup (alias_table t) c) as ->.
  { destruct t; cbn [name_aliases_of alias_table]; reflexivity. }
  unfold name_alias_types_of.
  pose proof (piecewise2 _ _ _ wf_NAME_ALIAS_TYPES (wf_alias_table t) (alias_check t) c) as H. cbv beta in H.
  apply andb_true_iff in H as [H1 H2]. apply eqb_prop in H1.
  transitivity (lists (lookup NAME_ALIAS_TYPES c) t = true).
  - unfold lists. destruct (lookup NAME_ALIAS_TYPES c) as [l|].
    + rewrite existsb_exists. split.
      * intros (l' & [= <-] & Hin). exists t. split; [assumption|]. now apply NA_eqb_eq.
      * intros (x & Hx & He). apply NA_eqb_eq in He. subst. eauto.
    + split; [intros (l & [=] & _)|discriminate].
  - rewrite H1. destruct (lookup (alias_table t) c) as [[|n ns]|].
    + split; [discriminate|intros (names & [= <-] & Hne); congruence].
    + split; [intros _; eexists; split; [reflexivity|discriminate]|reflexivity].
    + split; [discriminate|intros (names & [=] & _)].
Qed.

Lemma has_rtl_iff s : has_rtl s = true <-> exists c, In c s /\ In (bidi_class c) rtl_classes.
Proof.
  unfold has_rtl. rewrite existsb_exists. split; intros (c & Hin & H); exists c; (split; [assumption|]);
    unfold char_is_rtl, rtl_classes in *; destruct (bidi_class c); cbn in *; try discriminate; try tauto; intuition discriminate.
Qed.
Lemma has_explicit_iff s : has_bidi_explicit s = true <-> exists c, In c s /\ In (bidi_class c) explicit_classes.
Proof.
  unfold has_bidi_explicit. rewrite existsb_exists. split; intros (c & Hin & H); exists c; (split; [assumption|]);
    unfold explicit_classes in *; destruct (bidi_class c); cbn in *; try discriminate; try tauto; intuition discriminate.
Qed.
Lemma category_iff b :
  (bc_category b = BCC_Strong <-> In b strong_classes) /\ (bc_category b = BCC_Weak <-> In b weak_classes) /\
  (bc_category b = BCC_Neutral <-> In b neutral_classes) /\ (bc_category b = BCC_ExplicitFormatting <-> In b explicit_classes).
Proof. destruct b; cbn; repeat split; intros; try discriminate; try reflexivity; try tauto; intuition discriminate. Qed.

(** C51-C54: statements relating several character properties. *)
From Coq Require Import List NArith Bool.
From Verif Require Import Base RangeModel TableModel Enums TableTypes UcdModel UcdSpec UcdLemmas UcdGroups.
Import ListNotations.
Open Scope N_scope.

(** C51. Both builds of the normalization crate (with and without the
    general-category crate) classify combining marks identically. *)
Theorem C51_combining_mark_builds_agree : forall c,
  is_combining_mark_table c = is_combining_mark_category c.
Proof. exact combining_mark_agree. Qed.
Print Assumptions C51_combining_mark_builds_agree.

Theorem C51_reordered_characters_are_marks : forall c,
  ccc c <> 0 -> gc_is_mark (general_category c) = true.
Proof. exact ccc_mark. Qed.
Print Assumptions C51_reordered_characters_are_marks.

Example C51_example : is_combining_mark_table 0x301 = true /\ is_combining_mark_table 0x41 = false /\
  ccc 0x301 = 230.
Proof. vm_compute. auto. Qed.

(** C52. The listed alias types are exactly those with aliases. *)
Theorem C52_alias_types_exact : forall c t,
  (exists l, name_alias_types_of c = Some l /\ In t l) <->
  (exists names, name_aliases_of c t = Some names /\ names <> []).
Proof. exact aliases_agree. Qed.
Print Assumptions C52_alias_types_exact.

Example C52_example : name_alias_types_of 0x80 = Some [NA_Figments; NA_NameAbbreviations].
Proof. vm_compute. reflexivity. Qed.

(** C53. String-level direction tests. [has_ltr] is wrong: it tests for
    right-to-left characters. *)
Theorem C53_has_ltr_refuted :
  exists s, wf_str s /\ ~ (has_ltr s = true <-> exists c, In c s /\ In (bidi_class c) ltr_classes).
Proof.
  exists [0x41]. split.
  - repeat constructor.
  - assert (has_ltr [0x41] = false) as -> by (vm_compute; reflexivity).
    intros [_ H]. discriminate H. exists 0x41. split; [now left|vm_compute; now left].
Qed.
Print Assumptions C53_has_ltr_refuted.

Theorem C53_has_rtl_and_explicit_partial : forall s,
  (has_rtl s = true <-> exists c, In c s /\ In (bidi_class c) rtl_classes) /\
  (has_bidi_explicit s = true <-> exists c, In c s /\ In (bidi_class c) explicit_classes).
Proof. exact (fun s => conj (has_rtl_iff s) (has_explicit_iff s)). Qed.
Print Assumptions C53_has_rtl_and_explicit_partial.

(** The categories are those of UAX #9, table 4. *)
Theorem C53_category : forall b,
  (bc_category b = BCC_Strong <-> In b strong_classes) /\ (bc_category b = BCC_Weak <-> In b weak_classes) /\
  (bc_category b = BCC_Neutral <-> In b neutral_classes) /\ (bc_category b = BCC_ExplicitFormatting <-> In b explicit_classes).
Proof. exact category_iff. Qed.
Print Assumptions C53_category.

Example C53_example : has_rtl [0x41; 0x5D0] = true /\ has_bidi_explicit [0x41; 0x202A] = true.
Proof. vm_compute. auto. Qed.

(** C54. Consistency between properties, for every character. *)
Theorem C54_common_properties : forall c,
  is_alphanumeric c = is_alphabetic c || is_numeric c /\
  is_control c = GC_eqb (general_category c) GC_Control /\
  is_numeric c = gc_is_number (general_category c) /\
  ~ (is_white_space c = true /\ is_alphanumeric c = true).
Proof.
  exact (fun c => conj (alphanumeric_union c) (conj (control_is_cc c) (conj (numeric_is_n c) (white_space_alphanumeric c)))).
Qed.
Print Assumptions C54_common_properties.

Theorem C54_identifiers :
  subprop is_xid_start is_id_start /\ subprop is_id_start is_id_continue /\
  subprop is_xid_start is_xid_continue /\ subprop is_xid_continue is_id_continue /\
  disjoint is_pattern_syntax is_id_continue /\ disjoint is_pattern_syntax is_pattern_whitespace /\
  disjoint is_pattern_whitespace is_id_continue.
Proof.
  exact (conj xid_start_id_start (conj id_start_id_continue (conj xid_start_xid_continue
    (conj xid_continue_id_continue (conj pattern_syntax_id (conj pattern_syntax_ws pattern_ws_id)))))).
Qed.
Print Assumptions C54_identifiers.

Theorem C54_case :
  subprop is_lowercase is_cased /\ subprop is_uppercase is_cased /\ disjoint is_lowercase is_uppercase /\
  forall c, changes_when_casemapped c =
    changes_when_lowercased c || changes_when_uppercased c || changes_when_titlecased c.
Proof. exact (conj lower_cased (conj upper_cased (conj lower_upper casemapped_union))). Qed.
Print Assumptions C54_case.

Theorem C54_emoji :
  subprop is_emoji_modifier is_emoji /\ subprop is_emoji_modifier_base is_emoji /\
  subprop is_emoji_presentation is_emoji /\ subprop is_emoji_component is_emoji.
Proof.
  exact (conj emoji_modifier_emoji (conj emoji_base_emoji (conj emoji_pres_emoji emoji_comp_emoji))).
Qed.
Print Assumptions C54_emoji.

(** Every assigned character has an age and lies inside the block reported for it. *)
Theorem C54_assigned_characters : forall c, general_category c <> GC_Unassigned ->
  (exists v, age_of c = Some v) /\
  (exists r n, block_of c = Some (r, n) /\ r_low r <= c <= r_high r).
Proof. exact assigned_age_block. Qed.
Print Assumptions C54_assigned_characters.

(** Every general category is in exactly one of the seven major groups. *)
Theorem C54_category_groups : forall g,
  let fs := [gc_is_letter g; gc_is_mark g; gc_is_number g; gc_is_punctuation g; gc_is_symbol g;
             gc_is_separator g; gc_is_other g] in
  length (filter (fun b => b) fs) = 1%nat /\ (gc_is_cased_letter g = true -> gc_is_letter g = true).
Proof. exact gc_groups. Qed.
Print Assumptions C54_category_groups.

(** The group is the one the first letter of the two-letter abbreviation names: L letters, M marks, N
    numbers, P punctuation, S symbols, Z separators, C the others; the cased letters are Lu, Ll, Lt. *)
Theorem C54_category_groups_named : forall g, exists major minor,
  GC_abbr g = [major; minor] /\
  (gc_is_letter g = true <-> major = 0x4C) /\
  (gc_is_mark g = true <-> major = 0x4D) /\
  (gc_is_number g = true <-> major = 0x4E) /\
  (gc_is_punctuation g = true <-> major = 0x50) /\
  (gc_is_symbol g = true <-> major = 0x53) /\
  (gc_is_separator g = true <-> major = 0x5A) /\
  (gc_is_other g = true <-> major = 0x43) /\
  (gc_is_cased_letter g = true <-> major = 0x4C /\ (minor = 0x75 \/ minor = 0x6C \/ minor = 0x74)).
Proof. exact gc_groups_named. Qed.
Print Assumptions C54_category_groups_named.

Example C54_groups_ex : gc_is_cased_letter GC_TitlecaseLetter = true /\ gc_is_cased_letter GC_ModifierLetter = false /\
  GC_abbr GC_ModifierLetter = [0x4C; 0x6D] /\ gc_is_letter GC_ModifierLetter = true.
Proof. vm_compute. auto. Qed.

Example C54_example : is_xid_start 0x61 = true /\ is_pattern_syntax 0x21 = true /\
  is_emoji_modifier 0x1F3FB = true /\ general_category 0x61 = GC_LowercaseLetter /\ is_lowercase 0x61 = true.
Proof. vm_compute. auto 10. Qed.

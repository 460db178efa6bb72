(** Every shipped table is well formed, and the accessors are linear scans. *)
From Coq Require Import List NArith ZArith Lia Bool.
From Verif Require Import Base RangeModel TableModel TableSpec TableProofs Enums TableTypes
  TablesNormal TablesIdna TablesBidi TablesSegment TablesCategory TablesMisc TablesBinary UcdModel.
Import ListNotations.
Open Scope N_scope.

(** All the translated tables. *)
Definition shipped : list { V : Type & CharDataTable V } :=
  [ existT _ _ CANONICAL_COMBINING_CLASS_VALUES; existT _ _ CANONICAL_COMPOSITION_MAPPING;
    existT _ _ CANONICAL_DECOMPOSITION_MAPPING; existT _ _ COMPATIBILITY_DECOMPOSITION_MAPPING;
    existT _ _ GENERAL_CATEGORY_MARK; existT _ _ MAPPING; existT _ _ BIDI_CLASS_TABLE;
    existT _ _ BIDI_MIRRORED; existT _ _ BIDI_CONTROL; existT _ _ GRAPHEME_CLUSTER_BREAK;
    existT _ _ WORD_BREAK; existT _ _ SENTENCE_BREAK; existT _ _ GENERAL_CATEGORY;
    existT _ _ AGE_TABLE; existT _ _ BLOCKS; existT _ _ JAMO; existT _ _ NAME_ALIAS_CORRECTIONS;
    existT _ _ NAME_ALIAS_CONTROLS; existT _ _ NAME_ALIAS_ALTERNATES; existT _ _ NAME_ALIAS_FIGMENTS;
    existT _ _ NAME_ALIAS_ABBREVIATIONS; existT _ _ NAME_ALIAS_TYPES; existT _ _ ALPHABETIC;
    existT _ _ ALPHANUMERIC; existT _ _ CONTROL; existT _ _ NUMERIC; existT _ _ WHITE_SPACE;
    existT _ _ CASED; existT _ _ CASE_IGNORABLE; existT _ _ CHANGES_WHEN_CASEFOLDED;
    existT _ _ CHANGES_WHEN_CASEMAPPED; existT _ _ CHANGES_WHEN_LOWERCASED;
    existT _ _ CHANGES_WHEN_TITLECASED; existT _ _ CHANGES_WHEN_UPPERCASED; existT _ _ LOWERCASE;
    existT _ _ UPPERCASE; existT _ _ ID_CONTINUE; existT _ _ ID_START; existT _ _ PATTERN_SYNTAX;
    existT _ _ PATTERN_WHITE_SPACE; existT _ _ XID_CONTINUE; existT _ _ XID_START; existT _ _ EMOJI;
    existT _ _ EMOJI_COMPONENT; existT _ _ EMOJI_MODIFIER; existT _ _ EMOJI_MODIFIER_BASE;
    existT _ _ EMOJI_PRESENTATION ].

Lemma wf_CANONICAL_COMBINING_CLASS_VALUES : wf_table CANONICAL_COMBINING_CLASS_VALUES. Proof. apply wf_entriesb_sound. vm_compute. reflexivity. Qed.
Lemma wf_CANONICAL_COMPOSITION_MAPPING : wf_table CANONICAL_COMPOSITION_MAPPING. Proof. apply wf_entriesb_sound. vm_compute. reflexivity. Qed.
Lemma wf_CANONICAL_DECOMPOSITION_MAPPING : wf_table CANONICAL_DECOMPOSITION_MAPPING. Proof. apply wf_entriesb_sound. vm_compute. reflexivity. Qed.
Lemma wf_COMPATIBILITY_DECOMPOSITION_MAPPING : wf_table COMPATIBILITY_DECOMPOSITION_MAPPING. Proof. apply wf_entriesb_sound. vm_compute. reflexivity. Qed.
Lemma wf_GENERAL_CATEGORY_MARK : wf_table GENERAL_CATEGORY_MARK. Proof. apply wf_entriesb_sound. vm_compute. reflexivity. Qed.
Lemma wf_MAPPING : wf_table MAPPING. Proof. apply wf_entriesb_sound. vm_compute. reflexivity. Qed.
Lemma wf_BIDI_CLASS_TABLE : wf_table BIDI_CLASS_TABLE. Proof. apply wf_entriesb_sound. vm_compute. reflexivity. Qed.
Lemma wf_BIDI_MIRRORED : wf_table BIDI_MIRRORED. Proof. apply wf_entriesb_sound. vm_compute. reflexivity. Qed.
Lemma wf_BIDI_CONTROL : wf_table BIDI_CONTROL. Proof. apply wf_entriesb_sound. vm_compute. reflexivity. Qed.
Lemma wf_GRAPHEME_CLUSTER_BREAK : wf_table GRAPHEME_CLUSTER_BREAK. Proof. apply wf_entriesb_sound. vm_compute. reflexivity. Qed.
Lemma wf_WORD_BREAK : wf_table WORD_BREAK. Proof. apply wf_entriesb_sound. vm_compute. reflexivity. Qed.
Lemma wf_SENTENCE_BREAK : wf_table SENTENCE_BREAK. Proof. apply wf_entriesb_sound. vm_compute. reflexivity. Qed.
Lemma wf_GENERAL_CATEGORY : wf_table GENERAL_CATEGORY. Proof. apply wf_entriesb_sound. vm_compute. reflexivity. Qed.
Lemma wf_AGE_TABLE : wf_table AGE_TABLE. Proof. apply wf_entriesb_sound. vm_compute. reflexivity. Qed.
Lemma wf_BLOCKS : wf_table BLOCKS. Proof. apply wf_entriesb_sound. vm_compute. reflexivity. Qed.
Lemma wf_JAMO : wf_table JAMO. Proof. apply wf_entriesb_sound. vm_compute. reflexivity. Qed.
Lemma wf_NAME_ALIAS_CORRECTIONS : wf_table NAME_ALIAS_CORRECTIONS. Proof. apply wf_entriesb_sound. vm_compute. reflexivity. Qed.
Lemma wf_NAME_ALIAS_CONTROLS : wf_table NAME_ALIAS_CONTROLS. Proof. apply wf_entriesb_sound. vm_compute. reflexivity. Qed.
Lemma wf_NAME_ALIAS_ALTERNATES : wf_table NAME_ALIAS_ALTERNATES. Proof. apply wf_entriesb_sound. vm_compute. reflexivity. Qed.
Lemma wf_NAME_ALIAS_FIGMENTS : wf_table NAME_ALIAS_FIGMENTS. Proof. apply wf_entriesb_sound. vm_compute. reflexivity. Qed.
Lemma wf_NAME_ALIAS_ABBREVIATIONS : wf_table NAME_ALIAS_ABBREVIATIONS. Proof. apply wf_entriesb_sound. vm_compute. reflexivity. Qed.
Lemma wf_NAME_ALIAS_TYPES : wf_table NAME_ALIAS_TYPES. Proof. apply wf_entriesb_sound. vm_compute. reflexivity. Qed.
Lemma wf_ALPHABETIC : wf_table ALPHABETIC. Proof. apply wf_entriesb_sound. vm_compute. reflexivity. Qed.
Lemma wf_ALPHANUMERIC : wf_table ALPHANUMERIC. Proof. apply wf_entriesb_sound. vm_compute. reflexivity. Qed.
Lemma wf_CONTROL : wf_table CONTROL. Proof. apply wf_entriesb_sound. vm_compute. reflexivity. Qed.
Lemma wf_NUMERIC : wf_table NUMERIC. Proof. apply wf_entriesb_sound. vm_compute. reflexivity. Qed.
Lemma wf_WHITE_SPACE : wf_table WHITE_SPACE. Proof. apply wf_entriesb_sound. vm_compute. reflexivity. Qed.
Lemma wf_CASED : wf_table CASED. Proof. apply wf_entriesb_sound. vm_compute. reflexivity. Qed.
Lemma wf_CASE_IGNORABLE : wf_table CASE_IGNORABLE. Proof. apply wf_entriesb_sound. vm_compute. reflexivity. Qed.
Lemma wf_CHANGES_WHEN_CASEFOLDED : wf_table CHANGES_WHEN_CASEFOLDED. Proof. apply wf_entriesb_sound. vm_compute. reflexivity. Qed.
Lemma wf_CHANGES_WHEN_CASEMAPPED : wf_table CHANGES_WHEN_CASEMAPPED. Proof. apply wf_entriesb_sound. vm_compute. reflexivity. Qed.
Lemma wf_CHANGES_WHEN_LOWERCASED : wf_table CHANGES_WHEN_LOWERCASED. Proof. apply wf_entriesb_sound. vm_compute. reflexivity. Qed.
Lemma wf_CHANGES_WHEN_TITLECASED : wf_table CHANGES_WHEN_TITLECASED. Proof. apply wf_entriesb_sound. vm_compute. reflexivity. Qed.
Lemma wf_CHANGES_WHEN_UPPERCASED : wf_table CHANGES_WHEN_UPPERCASED. Proof. apply wf_entriesb_sound. vm_compute. reflexivity. Qed.
Lemma wf_LOWERCASE : wf_table LOWERCASE. Proof. apply wf_entriesb_sound. vm_compute. reflexivity. Qed.
Lemma wf_UPPERCASE : wf_table UPPERCASE. Proof. apply wf_entriesb_sound. vm_compute. reflexivity. Qed.
Lemma wf_ID_CONTINUE : wf_table ID_CONTINUE. Proof. apply wf_entriesb_sound. vm_compute. reflexivity. Qed.
Lemma wf_ID_START : wf_table ID_START. Proof. apply wf_entriesb_sound. vm_compute. reflexivity. Qed.
Lemma wf_PATTERN_SYNTAX : wf_table PATTERN_SYNTAX. Proof. apply wf_entriesb_sound. vm_compute. reflexivity. Qed.
Lemma wf_PATTERN_WHITE_SPACE : wf_table PATTERN_WHITE_SPACE. Proof. apply wf_entriesb_sound. vm_compute. reflexivity. Qed.
Lemma wf_XID_CONTINUE : wf_table XID_CONTINUE. Proof. apply wf_entriesb_sound. vm_compute. reflexivity. Qed.
Lemma wf_XID_START : wf_table XID_START. Proof. apply wf_entriesb_sound. vm_compute. reflexivity. Qed.
Lemma wf_EMOJI : wf_table EMOJI. Proof. apply wf_entriesb_sound. vm_compute. reflexivity. Qed.
Lemma wf_EMOJI_COMPONENT : wf_table EMOJI_COMPONENT. Proof. apply wf_entriesb_sound. vm_compute. reflexivity. Qed.
Lemma wf_EMOJI_MODIFIER : wf_table EMOJI_MODIFIER. Proof. apply wf_entriesb_sound. vm_compute. reflexivity. Qed.
Lemma wf_EMOJI_MODIFIER_BASE : wf_table EMOJI_MODIFIER_BASE. Proof. apply wf_entriesb_sound. vm_compute. reflexivity. Qed.
Lemma wf_EMOJI_PRESENTATION : wf_table EMOJI_PRESENTATION. Proof. apply wf_entriesb_sound. vm_compute. reflexivity. Qed.

Lemma shipped_all : Forall (fun t => wf_table (projT2 t)) shipped.
Proof.
  unfold shipped.
  apply Forall_cons; [exact wf_CANONICAL_COMBINING_CLASS_VALUES|].
  apply Forall_cons; [exact wf_CANONICAL_COMPOSITION_MAPPING|].
  apply Forall_cons; [exact wf_CANONICAL_DECOMPOSITION_MAPPING|].
  apply Forall_cons; [exact wf_COMPATIBILITY_DECOMPOSITION_MAPPING|].
  apply Forall_cons; [exact wf_GENERAL_CATEGORY_MARK|].
  apply Forall_cons; [exact wf_MAPPING|].
  apply Forall_cons; [exact wf_BIDI_CLASS_TABLE|].
  apply Forall_cons; [exact wf_BIDI_MIRRORED|].
  apply Forall_cons; [exact wf_BIDI_CONTROL|].
  apply Forall_cons; [exact wf_GRAPHEME_CLUSTER_BREAK|].
  apply Forall_cons; [exact wf_WORD_BREAK|].
  apply Forall_cons; [exact wf_SENTENCE_BREAK|].
  apply Forall_cons; [exact wf_GENERAL_CATEGORY|].
  apply Forall_cons; [exact wf_AGE_TABLE|].
  apply Forall_cons; [exact wf_BLOCKS|].
  apply Forall_cons; [exact wf_JAMO|].
  apply Forall_cons; [exact wf_NAME_ALIAS_CORRECTIONS|].
  apply Forall_cons; [exact wf_NAME_ALIAS_CONTROLS|].
  apply Forall_cons; [exact wf_NAME_ALIAS_ALTERNATES|].
  apply Forall_cons; [exact wf_NAME_ALIAS_FIGMENTS|].
  apply Forall_cons; [exact wf_NAME_ALIAS_ABBREVIATIONS|].
  apply Forall_cons; [exact wf_NAME_ALIAS_TYPES|].
  apply Forall_cons; [exact wf_ALPHABETIC|].
  apply Forall_cons; [exact wf_ALPHANUMERIC|].
  apply Forall_cons; [exact wf_CONTROL|].
  apply Forall_cons; [exact wf_NUMERIC|].
  apply Forall_cons; [exact wf_WHITE_SPACE|].
  apply Forall_cons; [exact wf_CASED|].
  apply Forall_cons; [exact wf_CASE_IGNORABLE|].
  apply Forall_cons; [exact wf_CHANGES_WHEN_CASEFOLDED|].
  apply Forall_cons; [exact wf_CHANGES_WHEN_CASEMAPPED|].
  apply Forall_cons; [exact wf_CHANGES_WHEN_LOWERCASED|].
  apply Forall_cons; [exact wf_CHANGES_WHEN_TITLECASED|].
  apply Forall_cons; [exact wf_CHANGES_WHEN_UPPERCASED|].
  apply Forall_cons; [exact wf_LOWERCASE|].
  apply Forall_cons; [exact wf_UPPERCASE|].
  apply Forall_cons; [exact wf_ID_CONTINUE|].
  apply Forall_cons; [exact wf_ID_START|].
  apply Forall_cons; [exact wf_PATTERN_SYNTAX|].
  apply Forall_cons; [exact wf_PATTERN_WHITE_SPACE|].
  apply Forall_cons; [exact wf_XID_CONTINUE|].
  apply Forall_cons; [exact wf_XID_START|].
  apply Forall_cons; [exact wf_EMOJI|].
  apply Forall_cons; [exact wf_EMOJI_COMPONENT|].
  apply Forall_cons; [exact wf_EMOJI_MODIFIER|].
  apply Forall_cons; [exact wf_EMOJI_MODIFIER_BASE|].
  apply Forall_cons; [exact wf_EMOJI_PRESENTATION|].
  apply Forall_nil.
Qed.

Lemma shipped_wf t : In t shipped -> wf_table (projT2 t).
Proof. intros Hin. pose proof shipped_all as H. rewrite Forall_forall in H. exact (H t Hin). Qed.

(** The inner tables of the composition mapping. *)
Lemma composition_inner_wfb :
  forallb (fun e => wf_entriesb (entries (snd e))) (entries CANONICAL_COMPOSITION_MAPPING) = true.
Proof. vm_compute. reflexivity. Qed.

(** Closes [wf_table X] for a shipped table [X]. *)
Ltac use_wf :=
  lazymatch goal with
  | |- wf_table CANONICAL_COMBINING_CLASS_VALUES => exact wf_CANONICAL_COMBINING_CLASS_VALUES
  | |- wf_table CANONICAL_COMPOSITION_MAPPING => exact wf_CANONICAL_COMPOSITION_MAPPING
  | |- wf_table CANONICAL_DECOMPOSITION_MAPPING => exact wf_CANONICAL_DECOMPOSITION_MAPPING
  | |- wf_table COMPATIBILITY_DECOMPOSITION_MAPPING => exact wf_COMPATIBILITY_DECOMPOSITION_MAPPING
  | |- wf_table GENERAL_CATEGORY_MARK => exact wf_GENERAL_CATEGORY_MARK
  | |- wf_table MAPPING => exact wf_MAPPING
  | |- wf_table BIDI_CLASS_TABLE => exact wf_BIDI_CLASS_TABLE
  | |- wf_table BIDI_MIRRORED => exact wf_BIDI_MIRRORED
  | |- wf_table BIDI_CONTROL => exact wf_BIDI_CONTROL
  | |- wf_table GRAPHEME_CLUSTER_BREAK => exact wf_GRAPHEME_CLUSTER_BREAK
  | |- wf_table WORD_BREAK => exact wf_WORD_BREAK
  | |- wf_table SENTENCE_BREAK => exact wf_SENTENCE_BREAK
  | |- wf_table GENERAL_CATEGORY => exact wf_GENERAL_CATEGORY
  | |- wf_table AGE_TABLE => exact wf_AGE_TABLE
  | |- wf_table BLOCKS => exact wf_BLOCKS
  | |- wf_table JAMO => exact wf_JAMO
  | |- wf_table NAME_ALIAS_CORRECTIONS => exact wf_NAME_ALIAS_CORRECTIONS
  | |- wf_table NAME_ALIAS_CONTROLS => exact wf_NAME_ALIAS_CONTROLS
  | |- wf_table NAME_ALIAS_ALTERNATES => exact wf_NAME_ALIAS_ALTERNATES
  | |- wf_table NAME_ALIAS_FIGMENTS => exact wf_NAME_ALIAS_FIGMENTS
  | |- wf_table NAME_ALIAS_ABBREVIATIONS => exact wf_NAME_ALIAS_ABBREVIATIONS
  | |- wf_table NAME_ALIAS_TYPES => exact wf_NAME_ALIAS_TYPES
  | |- wf_table ALPHABETIC => exact wf_ALPHABETIC
  | |- wf_table ALPHANUMERIC => exact wf_ALPHANUMERIC
  | |- wf_table CONTROL => exact wf_CONTROL
  | |- wf_table NUMERIC => exact wf_NUMERIC
  | |- wf_table WHITE_SPACE => exact wf_WHITE_SPACE
  | |- wf_table CASED => exact wf_CASED
  | |- wf_table CASE_IGNORABLE => exact wf_CASE_IGNORABLE
  | |- wf_table CHANGES_WHEN_CASEFOLDED => exact wf_CHANGES_WHEN_CASEFOLDED
  | |- wf_table CHANGES_WHEN_CASEMAPPED => exact wf_CHANGES_WHEN_CASEMAPPED
  | |- wf_table CHANGES_WHEN_LOWERCASED => exact wf_CHANGES_WHEN_LOWERCASED
  | |- wf_table CHANGES_WHEN_TITLECASED => exact wf_CHANGES_WHEN_TITLECASED
  | |- wf_table CHANGES_WHEN_UPPERCASED => exact wf_CHANGES_WHEN_UPPERCASED
  | |- wf_table LOWERCASE => exact wf_LOWERCASE
  | |- wf_table UPPERCASE => exact wf_UPPERCASE
  | |- wf_table ID_CONTINUE => exact wf_ID_CONTINUE
  | |- wf_table ID_START => exact wf_ID_START
  | |- wf_table PATTERN_SYNTAX => exact wf_PATTERN_SYNTAX
  | |- wf_table PATTERN_WHITE_SPACE => exact wf_PATTERN_WHITE_SPACE
  | |- wf_table XID_CONTINUE => exact wf_XID_CONTINUE
  | |- wf_table XID_START => exact wf_XID_START
  | |- wf_table EMOJI => exact wf_EMOJI
  | |- wf_table EMOJI_COMPONENT => exact wf_EMOJI_COMPONENT
  | |- wf_table EMOJI_MODIFIER => exact wf_EMOJI_MODIFIER
  | |- wf_table EMOJI_MODIFIER_BASE => exact wf_EMOJI_MODIFIER_BASE
  | |- wf_table EMOJI_PRESENTATION => exact wf_EMOJI_PRESENTATION
  end.

Lemma lookup_scan {V} (t : CharDataTable V) c : wf_table t -> lookup t c = scan (entries t) c.
Proof. intros H. unfold lookup. now rewrite (find_scan t c H). Qed.

Lemma lookup_or_scan {V} d (t : CharDataTable V) c : wf_table t ->
  lookup_or d t c = match scan (entries t) c with Some v => v | None => d end.
Proof. intros H. unfold lookup_or, find_or_default. now rewrite (find_scan t c H). Qed.

Lemma member_scan {V} (t : CharDataTable V) c : wf_table t ->
  member t c = match scan (entries t) c with Some _ => true | None => false end.
Proof. intros H. unfold member. now rewrite (tcontains_find t c H). Qed.

Lemma member_lookup {V} (t : CharDataTable V) c : wf_table t ->
  member t c = match lookup t c with Some _ => true | None => false end.
Proof. intros H. now rewrite member_scan, lookup_scan. Qed.

Lemma lookup_or_lookup {V} d (t : CharDataTable V) c : wf_table t ->
  lookup_or d t c = match lookup t c with Some v => v | None => d end.
Proof. intros H. now rewrite lookup_or_scan, lookup_scan. Qed.

Lemma find_lookup {V} (t : CharDataTable V) c : wf_table t -> find t c = Ret (lookup t c).
Proof. intros H. rewrite lookup_scan by assumption. now apply find_scan. Qed.

Lemma shipped_lookup t c : In t shipped ->
  find (projT2 t) c = Ret (scan (entries (projT2 t)) c) /\
  tcontains (projT2 t) c = Ret (match scan (entries (projT2 t)) c with Some _ => true | None => false end).
Proof.
  intros Hin. pose proof (shipped_wf t Hin) as Hw. split; [now apply find_scan|now apply tcontains_find].
Qed.

(** C75, C76: the tables the generator writes say what the data files say. *)
From Coq Require Import String List NArith Bool.
From Verif Require Import Base RangeModel TableModel TableSpec TextModel TableGenModel GenRegex GenModel GenSpec GenBinarySpec
  GenProofs GenBinary GenExamples.
Import ListNotations.
Open Scope N_scope.

(** ** C75 *)
Theorem C75_core : forall uword uspace f name, In name core_names -> name <> "Grapheme_Link"%string ->
  ascii_classes uword uspace -> good_file word_value after_name f -> listed core_names f ->
  exists t, emit_field uword uspace DERIVED_CORE_ARMS (field name) (file_text f) = Ret t /\ wf_table t /\
    forall c, scalar c -> exists b, tcontains t c = Ret b /\ (b = true <-> given f (letters name) c).
Proof. exact core_ok. Qed.
Print Assumptions C75_core.

Theorem C75_emoji : forall uword uspace f name, In name emoji_names ->
  ascii_classes uword uspace -> good_file word_value after_name f -> listed emoji_names f ->
  exists t, emit_field uword uspace EMOJI_ARMS (field name) (file_text f) = Ret t /\ wf_table t /\
    forall c, scalar c -> exists b, tcontains t c = Ret b /\ (b = true <-> given f (letters name) c).
Proof. exact emoji_ok. Qed.
Print Assumptions C75_emoji.

(** Missing: [Dash] and [Hyphen]. *)
Theorem C75_prop_list_partial : forall uword uspace f name, In name prop_list_names ->
  name <> "Dash"%string -> name <> "Hyphen"%string ->
  ascii_classes uword uspace -> good_file word_value after_name f -> listed prop_list_names f ->
  exists t, emit_field uword uspace PROP_LIST_ARMS (field name) (file_text f) = Ret t /\ wf_table t /\
    forall c, scalar c -> exists b, tcontains t c = Ret b /\ (b = true <-> given f (letters name) c).
Proof. exact prop_list_ok. Qed.
Print Assumptions C75_prop_list_partial.

Theorem C75_dash_partial : forall uword uspace f,
  ascii_classes uword uspace -> good_file word_value after_name f -> listed prop_list_names f ->
  exists t, emit_field uword uspace PROP_LIST_ARMS "dash" (file_text f) = Ret t /\ wf_table t /\
    forall c, scalar c -> exists b, tcontains t c = Ret b /\
      (b = true <-> given f (letters "Dash") c \/ given f (letters "Hyphen") c).
Proof. exact dash_ok. Qed.
Print Assumptions C75_dash_partial.

(** The set of [Hyphen] is lost, and its members count as [Dash]. *)
Theorem C75_hyphen_refuted : exists uword uspace f c,
  ascii_classes uword uspace /\ good_file word_value after_name f /\ listed prop_list_names f /\ scalar c /\
  given f (letters "Hyphen") c /\ ~ given f (letters "Dash") c /\
  exists t t', emit_field uword uspace PROP_LIST_ARMS (field "Hyphen") (file_text f) = Ret t /\
    tcontains t c = Ret false /\
    emit_field uword uspace PROP_LIST_ARMS (field "Dash") (file_text f) = Ret t' /\
    tcontains t' c = Ret true.
Proof. exact hyphen_refuted. Qed.
Print Assumptions C75_hyphen_refuted.

(** A line without white space before the semicolon is silently dropped. *)
Theorem C75_spacing_refuted : exists uword uspace f c,
  ascii_classes uword uspace /\ loose_file word_value after_name f /\ listed prop_list_names f /\ scalar c /\
  given f (letters "White_Space") c /\
  exists t, emit_field uword uspace PROP_LIST_ARMS (field "White_Space") (file_text f) = Ret t /\
    tcontains t c = Ret false.
Proof. exact spacing_refuted. Qed.
Print Assumptions C75_spacing_refuted.

Example C75_example : good_file word_value after_name core_lines /\ listed core_names core_lines /\
  file_text core_lines = text "# DerivedCoreProperties.txt

002B          ; Math # Sm       PLUS SIGN
0041..005A    ; Uppercase # L&  [26] LATIN CAPITAL LETTER A..LATIN CAPITAL LETTER Z
00AA          ; Alphabetic # Lo       FEMININE ORDINAL INDICATOR
" /\
  emit_field word space DERIVED_CORE_ARMS (field "Uppercase") (file_text core_lines)
  = Ret (Range [(closed 0x41 0x5A, tt)]).
Proof. exact core_lines_ok. Qed.

(** ** C76 *)
Theorem C76_breaks : forall f, good_file word_value after_word f ->
  exists t, emit_breaks (file_text f) = Ret t /\ wf_table t /\
    forall c, scalar c -> find t c = Ret (option_map value (last_row f c)).
Proof. exact emit_breaks_ok. Qed.
Print Assumptions C76_breaks.

Theorem C76_age : forall f, good_file version_value after_version f ->
  exists t, emit_age_values (file_text f) = Ret t /\ wf_table t /\
    forall c, scalar c ->
      exists o, find t c = Ret o /\
        match last_row f c with
        | None => o = None
        | Some r => exists v, o = Some v /\ is_version (value r) v
        end.
Proof. exact emit_age_ok. Qed.
Print Assumptions C76_age.

Theorem C76_blocks : forall f, block_file f ->
  exists t, emit_blocks (file_text f) = Ret t /\ wf_table t /\
    forall c, scalar c -> find t c = Ret (option_map value (last_row f c)).
Proof. exact emit_blocks_ok. Qed.
Print Assumptions C76_blocks.

(** Without white space before the semicolon a line for one character can be
    taken for a line for a range. *)
Theorem C76_spacing_refuted : exists f c, loose_file word_value after_word f /\ scalar c /\ last_row f c = None /\
  exists t v, emit_breaks (file_text f) = Ret t /\ find t c = Ret (Some v).
Proof. exact breaks_spacing_refuted. Qed.
Print Assumptions C76_spacing_refuted.

Example C76_example : good_file word_value after_word break_lines /\
  file_text break_lines = text "# WordBreakProperty
0022          ; Double_Quote # Po       QUOTATION MARK
0061..007A    ; ALetter # L&  [26] LATIN SMALL LETTER A..LATIN SMALL LETTER Z
" /\
  emit_breaks (file_text break_lines)
  = Ret (Range [(closed 0x22 0x22, text "Double_Quote"); (closed 0x61 0x7A, text "ALetter")]).
Proof. exact break_lines_ok. Qed.

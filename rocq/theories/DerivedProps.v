(** C107: derived properties follow their definitions. *)
From Coq Require Import List NArith Bool.
From Verif Require Import Base Enums TableTypes UcdModel UcdSpec DerivedSpec Derived.
Import ListNotations.
Open Scope N_scope.

(** Cased and Case_Ignorable (Unicode 3.13, D135 and D136), and what can change under a case mapping. *)
Theorem C107_case : forall c,
  is_cased c = is_lowercase c || is_uppercase c || GC_eqb (general_category c) GC_TitlecaseLetter /\
  is_case_ignorable c =
    gc_in [GC_NonspacingMark; GC_EnclosingMark; GC_Format; GC_ModifierLetter; GC_ModifierSymbol] (general_category c) ||
    existsb (WB_eqb (word_break c)) [WB_MidLetter; WB_MidNumLet; WB_SingleQuote] /\
  (changes_when_lowercased c = true -> is_uppercase c || gc_in [GC_TitlecaseLetter] (general_category c) = true) /\
  (changes_when_uppercased c = true -> is_lowercase c || gc_in [GC_TitlecaseLetter] (general_category c) = true).
Proof. exact (fun c => conj (cased_formula c) (conj (ignorable_formula c) (conj (lowercased_upper c) (uppercased_lower c)))). Qed.
Print Assumptions C107_case.
Example C107_case_ex : is_cased 0x1C5 = true /\ is_lowercase 0x1C5 = false /\ is_uppercase 0x1C5 = false /\
  is_case_ignorable 0x27 = true /\ is_case_ignorable 0x61 = false.
Proof. vm_compute. repeat split. Qed.

(** Letters are Alphabetic, and everything Alphabetic is a letter, a letter number, a mark or a symbol. *)
Theorem C107_alphabetic : forall c,
  (is_lowercase c || is_uppercase c || gc_in letters (general_category c) = true -> is_alphabetic c = true) /\
  (is_alphabetic c = true -> gc_in (letters ++ [GC_NonspacingMark; GC_SpacingMark; GC_OtherSymbol]) (general_category c) = true).
Proof. exact alphabetic_bounds. Qed.
Print Assumptions C107_alphabetic.
Example C107_alphabetic_ex : is_alphabetic 0x24B6 = true /\ general_category 0x24B6 = GC_OtherSymbol /\ is_alphabetic 0x300 = false.
Proof. vm_compute. repeat split. Qed.

(** ID_Start and ID_Continue (UAX #31, table 2). *)
Theorem C107_identifiers : forall c,
  is_id_start c = (gc_in letters (general_category c) || in_ranges other_id_start c) && negb (is_pattern_syntax c) /\
  is_id_continue c = is_id_start c ||
    gc_in [GC_NonspacingMark; GC_SpacingMark; GC_DecimalNumber; GC_ConnectorPunctuation] (general_category c) ||
    in_ranges other_id_continue c.
Proof. exact (fun c => conj (id_start_formula c) (id_continue_formula c)). Qed.
Print Assumptions C107_identifiers.
Example C107_identifiers_ex : is_id_start 0x2118 = true /\ general_category 0x2118 = GC_MathSymbol /\
  is_id_start 0x2E2F = false /\ general_category 0x2E2F = GC_ModifierLetter /\ is_id_continue 0xB7 = true.
Proof. vm_compute. repeat split. Qed.

(** White_Space, Pattern_White_Space, and the white space of UAX #29's sentences. *)
Theorem C107_white_space : forall c,
  is_white_space c = gc_in [GC_SpaceSeparator; GC_LineSeparator; GC_ParagraphSeparator] (general_category c) || in_ranges control_space c /\
  is_pattern_whitespace c = in_ranges pattern_space c /\
  existsb (SB_eqb (sentence_break c)) [SB_Sp; SB_Sep; SB_CR; SB_LF] = is_white_space c.
Proof. exact (fun c => conj (white_space_formula c) (conj (pattern_space_formula c) (sb_space_formula c))). Qed.
Print Assumptions C107_white_space.
Example C107_white_space_ex : is_white_space 0x3000 = true /\ is_pattern_whitespace 0x3000 = false /\
  is_pattern_whitespace 0x200E = true /\ is_white_space 0x200E = false.
Proof. vm_compute. repeat split. Qed.

(** What a combining mark is, to normalization, to the bidirectional algorithm and to segmentation. *)
Theorem C107_marks : forall c,
  (ccc c <> 0 -> gc_is_mark (general_category c) = true) /\
  BC_eqb (bidi_class c) BC_NonspacingMark = gc_in nonspacing (general_category c) && negb (in_ranges ltr_marks c) /\
  (gc_in nonspacing (general_category c) = true -> GCB_eqb (grapheme_cluster_break c) GCB_Extend = true) /\
  WB_eqb (word_break c) WB_Extend = GCB_eqb (grapheme_cluster_break c) GCB_Extend || gc_in [GC_SpacingMark] (general_category c) /\
  GCB_eqb (grapheme_cluster_break c) GCB_ZWJ = WB_eqb (word_break c) WB_ZWJ /\
  SB_eqb (sentence_break c) SB_Extend = WB_eqb (word_break c) WB_Extend || WB_eqb (word_break c) WB_ZWJ.
Proof. exact (fun c => conj (ccc_mark c) (conj (nsm_formula c) (extend_formula c))). Qed.
Print Assumptions C107_marks.
Example C107_marks_ex : bidi_class 0xCBF = BC_LeftToRight /\ general_category 0xCBF = GC_NonspacingMark /\
  word_break 0x903 = WB_Extend /\ grapheme_cluster_break 0x903 = GCB_SpacingMark /\ bidi_class 0x300 = BC_NonspacingMark.
Proof. vm_compute. repeat split. Qed.

(** Emoji and regional indicators in segmentation, and Emoji_Component. *)
Theorem C107_emoji : forall c,
  (GCB_eqb (grapheme_cluster_break c) GCB_EModifier = is_emoji_modifier c /\ WB_eqb (word_break c) WB_EModifier = is_emoji_modifier c /\
   GCB_eqb (grapheme_cluster_break c) GCB_EBase || GCB_eqb (grapheme_cluster_break c) GCB_EBaseGAZ = is_emoji_modifier_base c /\
   GCB_eqb (grapheme_cluster_break c) GCB_EBase = WB_eqb (word_break c) WB_EBase /\
   GCB_eqb (grapheme_cluster_break c) GCB_EBaseGAZ = WB_eqb (word_break c) WB_EBaseGAZ /\
   GCB_eqb (grapheme_cluster_break c) GCB_GlueAfterZwj = WB_eqb (word_break c) WB_GlueAfterZwj) /\
  (GCB_eqb (grapheme_cluster_break c) GCB_RegionalIndicator = in_ranges indicators c /\
   WB_eqb (word_break c) WB_RegionalIndicator = in_ranges indicators c) /\
  is_emoji_component c = in_ranges components c.
Proof. exact (fun c => conj (emoji_formula c) (conj (ri_formula c) (component_formula c))). Qed.
Print Assumptions C107_emoji.
Example C107_emoji_ex : is_emoji_modifier_base 0x1F466 = true /\ grapheme_cluster_break 0x1F466 = GCB_EBaseGAZ /\
  grapheme_cluster_break 0x261D = GCB_EBase /\ word_break 0x1F3FB = WB_EModifier /\ is_emoji_component 0x2A = true.
Proof. vm_compute. repeat split. Qed.

(** Upper and Lower of UAX #29, table 4: Lowercase except the one nonspacing mark that has it. *)
Theorem C107_sentence_case : forall c,
  SB_eqb (sentence_break c) SB_Upper = is_uppercase c || gc_in [GC_TitlecaseLetter] (general_category c) /\
  SB_eqb (sentence_break c) SB_Lower = is_lowercase c && negb (gc_in [GC_NonspacingMark] (general_category c)).
Proof. exact sb_case_formula. Qed.
Print Assumptions C107_sentence_case.
Example C107_sentence_case_ex : is_lowercase 0x345 = true /\ sentence_break 0x345 = SB_Extend /\ sentence_break 0x1C5 = SB_Upper.
Proof. vm_compute. repeat split. Qed.

(** Hangul_Syllable_Type in segmentation: every 28th syllable is LV, the others LVT; the jamo by their ranges. *)
Theorem C107_hangul : forall c,
  GCB_eqb (grapheme_cluster_break c) GCB_LV = lv_syllable c /\
  GCB_eqb (grapheme_cluster_break c) GCB_LVT = syllable c && negb (lv_syllable c) /\
  GCB_eqb (grapheme_cluster_break c) GCB_L = in_ranges type_l c /\
  GCB_eqb (grapheme_cluster_break c) GCB_V = in_ranges type_v c /\
  GCB_eqb (grapheme_cluster_break c) GCB_T = in_ranges type_t c.
Proof. exact hangul_formula. Qed.
Print Assumptions C107_hangul.
Example C107_hangul_ex : grapheme_cluster_break 0xAC1C = GCB_LV /\ grapheme_cluster_break 0xAC1D = GCB_LVT /\
  grapheme_cluster_break 0xD7FB = GCB_T /\ grapheme_cluster_break 0xA960 = GCB_L.
Proof. vm_compute. repeat split. Qed.

(** Bidi_Control, Bidi_Mirrored and paragraph separators. *)
Theorem C107_bidi : forall c,
  is_bidi_control c = existsb (BC_eqb (bidi_class c)) explicit_classes || in_ranges implicit_marks c /\
  (is_bidi_mirrored c = true -> bidi_class c = BC_OtherNeutral /\ gc_is_punctuation (general_category c) || gc_is_symbol (general_category c) = true) /\
  (bidi_class c = BC_ParagraphSeparator -> gc_in [GC_Control; GC_ParagraphSeparator] (general_category c) = true) /\
  (general_category c = GC_ParagraphSeparator -> bidi_class c = BC_ParagraphSeparator).
Proof. exact (fun c => conj (bidi_control_formula c) (bidi_more c)). Qed.
Print Assumptions C107_bidi.
Example C107_bidi_ex : is_bidi_control 0x61C = true /\ bidi_class 0x61C = BC_ArabicLetter /\ is_bidi_mirrored 0x28 = true /\
  is_bidi_control 0x2066 = true /\ bidi_class 0x2029 = BC_ParagraphSeparator.
Proof. vm_compute. repeat split. Qed.

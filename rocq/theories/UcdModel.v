(** Model of the character property accessors of the [unic-ucd-*] crates. *)
From Coq Require Import List NArith Bool.
From Verif Require Import Base RangeModel TableModel Enums TableTypes
  TablesNormal TablesIdna TablesBidi TablesSegment TablesCategory TablesMisc TablesBinary.
Import ListNotations.
Open Scope N_scope.

(** Accessors are modelled as total functions: the value read from the table
    lookup.  That the lookup never panics on the shipped tables (so that the
    [Panic] branch below is never taken) is part of theorem C07. *)
Definition lookup {V} (t : CharDataTable V) (c : N) : option V :=
  match find t c with Ret o => o | Panic => None end.
Definition lookup_or {V} (d : V) (t : CharDataTable V) (c : N) : V :=
  match find_or_default d t c with Ret v => v | Panic => d end.
Definition member {V} (t : CharDataTable V) (c : N) : bool :=
  match tcontains t c with Ret b => b | Panic => false end.

(** unic/ucd/category/src/category.rs:246-263; the default is Unassigned. *)
Definition general_category (c : N) : GeneralCategory := lookup_or GC_Unassigned GENERAL_CATEGORY c.

(** unic/ucd/category/src/category.rs:280-283 [is_mark]: Mn | Mc | Me *)
Definition gc_is_mark (g : GeneralCategory) : bool :=
  match g with GC_NonspacingMark | GC_SpacingMark | GC_EnclosingMark => true | _ => false end.

(** unic/ucd/category/src/category.rs:268-271 [is_cased_letter] *)
Definition gc_is_cased_letter (g : GeneralCategory) : bool :=
  match g with GC_UppercaseLetter | GC_LowercaseLetter | GC_TitlecaseLetter => true | _ => false end.
(** unic/ucd/category/src/category.rs:274-277 [is_letter] *)
Definition gc_is_letter (g : GeneralCategory) : bool :=
  match g with
  | GC_UppercaseLetter | GC_LowercaseLetter | GC_TitlecaseLetter | GC_ModifierLetter | GC_OtherLetter => true
  | _ => false end.
(** unic/ucd/category/src/category.rs:286-289 [is_number] *)
Definition gc_is_number (g : GeneralCategory) : bool :=
  match g with GC_DecimalNumber | GC_LetterNumber | GC_OtherNumber => true | _ => false end.
(** unic/ucd/category/src/category.rs:292-295 [is_punctuation] *)
Definition gc_is_punctuation (g : GeneralCategory) : bool :=
  match g with
  | GC_ConnectorPunctuation | GC_DashPunctuation | GC_OpenPunctuation | GC_ClosePunctuation
  | GC_InitialPunctuation | GC_FinalPunctuation | GC_OtherPunctuation => true
  | _ => false end.
(** unic/ucd/category/src/category.rs:298-301 [is_symbol] *)
Definition gc_is_symbol (g : GeneralCategory) : bool :=
  match g with GC_MathSymbol | GC_CurrencySymbol | GC_ModifierSymbol | GC_OtherSymbol => true | _ => false end.
(** unic/ucd/category/src/category.rs:304-307 [is_separator] *)
Definition gc_is_separator (g : GeneralCategory) : bool :=
  match g with GC_SpaceSeparator | GC_LineSeparator | GC_ParagraphSeparator => true | _ => false end.
(** unic/ucd/category/src/category.rs:310-313 [is_other] *)
Definition gc_is_other (g : GeneralCategory) : bool :=
  match g with GC_Control | GC_Format | GC_Surrogate | GC_PrivateUse | GC_Unassigned => true | _ => false end.

(** unic/ucd/bidi/src/bidi_class.rs:217-235; the default is L. *)
Definition bidi_class (c : N) : BidiClass := lookup_or BC_LeftToRight BIDI_CLASS_TABLE c.

(** unic/ucd/bidi/src/bidi_class.rs:301-315 [enum BidiClassCategory] *)
Inductive BidiClassCategory := BCC_Strong | BCC_Weak | BCC_ExplicitFormatting | BCC_Neutral.

(** unic/ucd/bidi/src/bidi_class.rs:237-270 [category] *)
Definition bc_category (b : BidiClass) : BidiClassCategory :=
  match b with
  | BC_LeftToRight | BC_RightToLeft | BC_ArabicLetter => BCC_Strong
  | BC_EuropeanNumber | BC_EuropeanSeparator | BC_EuropeanTerminator | BC_ArabicNumber
  | BC_CommonSeparator | BC_NonspacingMark | BC_BoundaryNeutral => BCC_Weak
  | BC_ParagraphSeparator | BC_SegmentSeparator | BC_WhiteSpace | BC_OtherNeutral => BCC_Neutral
  | BC_LeftToRightEmbedding | BC_LeftToRightOverride | BC_RightToLeftEmbedding
  | BC_RightToLeftOverride | BC_PopDirectionalFormat | BC_LeftToRightIsolate
  | BC_RightToLeftIsolate | BC_FirstStrongIsolate | BC_PopDirectionalIsolate => BCC_ExplicitFormatting
  end.

(** unic/ucd/bidi/src/bidi_class.rs:272-282 [is_ltr] *)
Definition bc_is_ltr (b : BidiClass) : bool :=
  match b with
  | BC_LeftToRight | BC_LeftToRightEmbedding | BC_LeftToRightOverride | BC_LeftToRightIsolate => true
  | _ => false
  end.

(** unic/ucd/bidi/src/bidi_class.rs:284-295 [is_rtl] *)
Definition bc_is_rtl (b : BidiClass) : bool :=
  match b with
  | BC_RightToLeft | BC_ArabicLetter | BC_RightToLeftEmbedding | BC_RightToLeftOverride
  | BC_RightToLeftIsolate => true
  | _ => false
  end.

(** unic/ucd/bidi/src/bidi_class.rs:329-344 [CharBidiClass for char] *)
Definition char_is_ltr (c : N) : bool := bc_is_ltr (bidi_class c).
Definition char_is_rtl (c : N) : bool := bc_is_rtl (bidi_class c).

(** unic/ucd/bidi/src/bidi_class.rs:359-364 [has_bidi_explicit] *)
Definition has_bidi_explicit (s : str) : bool :=
  existsb (fun c => match bc_category (bidi_class c) with BCC_ExplicitFormatting => true | _ => false end) s.
(** unic/ucd/bidi/src/bidi_class.rs:366-369 [has_ltr] (sic: the code tests [is_rtl]) *)
Definition has_ltr (s : str) : bool := existsb char_is_rtl s.
(** unic/ucd/bidi/src/bidi_class.rs:371-374 [has_rtl] *)
Definition has_rtl (s : str) : bool := existsb char_is_rtl s.

(** unic/ucd/segment/src/grapheme_cluster_break.rs:329-346; default Other. *)
Definition grapheme_cluster_break (c : N) : GraphemeClusterBreak := lookup_or GCB_Other GRAPHEME_CLUSTER_BREAK c.
(** unic/ucd/segment/src/word_break.rs:337-354; default Other. *)
Definition word_break (c : N) : WordBreak := lookup_or WB_Other WORD_BREAK c.
(** unic/ucd/segment/src/sentence_break.rs:244-261; default Other. *)
Definition sentence_break (c : N) : SentenceBreak := lookup_or SB_Other SENTENCE_BREAK c.

(** unic/ucd/normal/src/canonical_combining_class.rs:24-66; the class number, default 0. *)
Definition ccc (c : N) : N := lookup_or 0 CANONICAL_COMBINING_CLASS_VALUES c.

(** unic/ucd/normal/src/composition.rs:31-33 *)
Definition canonical_composition (c : N) : option (CharDataTable N) := lookup CANONICAL_COMPOSITION_MAPPING c.
(** unic/ucd/normal/src/composition.rs:36-38 *)
Definition canonical_decomposition (c : N) : option (list N) := lookup CANONICAL_DECOMPOSITION_MAPPING c.
(** unic/ucd/normal/src/composition.rs:41-45 *)
Definition compatibility_decomposition (c : N) : option (list N) :=
  option_map snd (lookup COMPATIBILITY_DECOMPOSITION_MAPPING c).

(** unic/ucd/normal/src/gen_cat.rs:11-22 (feature [unic-ucd-category] off) *)
Definition is_combining_mark_table (c : N) : bool :=
  match lookup GENERAL_CATEGORY_MARK c with Some _ => true | None => false end.
(** unic/ucd/normal/src/gen_cat.rs:24-32 (feature [unic-ucd-category] on) *)
Definition is_combining_mark_category (c : N) : bool := gc_is_mark (general_category c).

(** unic/ucd/age/src/age.rs:76-78 *)
Definition age_of (c : N) : option UnicodeVersion := lookup AGE_TABLE c.

(** unic/ucd/block/src/block.rs:33-38; the block is (range, name). *)
Definition block_of (c : N) : option (CharRange * str) :=
  match find_with_range BLOCKS c with Ret o => o | Panic => None end.

(** unic/idna/mapping/src/mapping.rs:50-52; [expect] panics when the table has no entry. *)
Definition mapping_of (c : N) : outcome Mapping :=
  match find MAPPING c with Ret (Some m) => Ret m | _ => Panic end.

(** unic/ucd/name_aliases/src/name_aliases.rs:35-37 *)
Definition name_alias_types_of (c : N) : option (list NameAliasType) := lookup NAME_ALIAS_TYPES c.
(** unic/ucd/name_aliases/src/name_aliases.rs:41-52 *)
Definition name_aliases_of (c : N) (t : NameAliasType) : option (list str) :=
  match t with
  | NA_NameCorrections => lookup NAME_ALIAS_CORRECTIONS c
  | NA_ControlCodeNames => lookup NAME_ALIAS_CONTROLS c
  | NA_AlternateNames => lookup NAME_ALIAS_ALTERNATES c
  | NA_Figments => lookup NAME_ALIAS_FIGMENTS c
  | NA_NameAbbreviations => lookup NAME_ALIAS_ABBREVIATIONS c
  end.

(** Binary properties: unic/char/property/src/macros.rs:197-213 [is_fn]/[of]
    with the table named in the crate.  Crates: unic/ucd/common, unic/ucd/case,
    unic/ucd/ident, unic/emoji/char, unic/ucd/bidi. *)
Definition is_alphabetic := member ALPHABETIC.
Definition is_alphanumeric := member ALPHANUMERIC.
Definition is_control := member CONTROL.
Definition is_numeric := member NUMERIC.
Definition is_white_space := member WHITE_SPACE.
Definition is_cased := member CASED.
Definition is_case_ignorable := member CASE_IGNORABLE.
Definition changes_when_casefolded := member CHANGES_WHEN_CASEFOLDED.
Definition changes_when_casemapped := member CHANGES_WHEN_CASEMAPPED.
Definition changes_when_lowercased := member CHANGES_WHEN_LOWERCASED.
Definition changes_when_titlecased := member CHANGES_WHEN_TITLECASED.
Definition changes_when_uppercased := member CHANGES_WHEN_UPPERCASED.
Definition is_lowercase := member LOWERCASE.
Definition is_uppercase := member UPPERCASE.
Definition is_id_continue := member ID_CONTINUE.
Definition is_id_start := member ID_START.
Definition is_pattern_syntax := member PATTERN_SYNTAX.
Definition is_pattern_whitespace := member PATTERN_WHITE_SPACE.
Definition is_xid_continue := member XID_CONTINUE.
Definition is_xid_start := member XID_START.
Definition is_emoji := member EMOJI.
Definition is_emoji_component := member EMOJI_COMPONENT.
Definition is_emoji_modifier := member EMOJI_MODIFIER.
Definition is_emoji_modifier_base := member EMOJI_MODIFIER_BASE.
Definition is_emoji_presentation := member EMOJI_PRESENTATION.
Definition is_bidi_mirrored := member BIDI_MIRRORED.
Definition is_bidi_control := member BIDI_CONTROL.

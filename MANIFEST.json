{
 "claims": [
  {
   "property": "C01",
   "status": "proved",
   "theorems": [
    "C01_range_iteration_exact",
    "C01_bound_total",
    "C01_constructors_exact"
   ],
   "note": ""
  },
  {
   "property": "C02",
   "status": "proved",
   "theorems": [
    "C02_double_ended",
    "C02_constructed_ranges_ok"
   ],
   "note": ""
  },
  {
   "property": "C03",
   "status": "proved",
   "theorems": [
    "C03_exact_size"
   ],
   "note": ""
  },
  {
   "property": "C04",
   "status": "proved",
   "theorems": [
    "C04_contains_iff_iterated",
    "C04_cmp_char",
    "C04_equality_is_extensional"
   ],
   "note": ""
  },
  {
   "property": "C05",
   "status": "partial",
   "theorems": [
    "C05_par_iter_refuted",
    "C05_par_iter_exact_partial"
   ],
   "note": "Refuted as stated: ranges whose lower bound is above the surrogate gap lose characters. Exact characterisation of when it holds is proved (C05_par_iter_exact_partial)."
  },
  {
   "property": "C06",
   "status": "proved",
   "theorems": [
    "C06_find_covering_entry",
    "C06_entry_unique",
    "C06_accessors_agree",
    "C06_iteration"
   ],
   "note": ""
  },
  {
   "property": "C07",
   "status": "proved",
   "theorems": [
    "C07_listed_names_well_formed",
    "C07_shipped_tables_well_formed",
    "C07_composition_tables_well_formed"
   ],
   "note": ""
  },
  {
   "property": "C08",
   "status": "proved",
   "theorems": [
    "C08_range_table",
    "C08_direct_table",
    "C08_set_table"
   ],
   "note": ""
  },
  {
   "property": "C09",
   "status": "proved",
   "theorems": [
    "C09_general_category",
    "C09_bidi_class",
    "C09_grapheme_cluster_break",
    "C09_word_break",
    "C09_sentence_break",
    "C09_decomposition_type",
    "C09_binary",
    "C09_names_round_trip"
   ],
   "note": ""
  },
  {
   "property": "C10",
   "status": "partial",
   "theorems": [
    "C10_syllables_are_blocks",
    "C10_decompose",
    "C10_round_trip",
    "C10_compose_exact_partial",
    "C10_compose_exact_refuted",
    "C10_compose_decompose_partial",
    "C10_compose_decompose_refuted"
   ],
   "note": "Syllable/block correspondence and round trip proved for all; pairwise composition is exact except for U+11A7 (one below the first trailing consonant), where the code composes and drops it (refuted)."
  },
  {
   "property": "C11",
   "status": "proved",
   "theorems": [
    "C11_nfd",
    "C11_nfkd",
    "C11_forms_total",
    "C11_decomposition_total"
   ],
   "note": ""
  },
  {
   "property": "C12",
   "status": "proved",
   "theorems": [
    "C12_nfd_idempotent",
    "C12_nfkd_idempotent",
    "C12_nfkd_after_nfd"
   ],
   "note": ""
  },
  {
   "property": "C13",
   "status": "proved",
   "theorems": [
    "C13_decomposition_preserves_text"
   ],
   "note": ""
  },
  {
   "property": "C14",
   "status": "proved",
   "theorems": [
    "C14_nfc",
    "C14_nfkc",
    "C14_standard_composites_partial"
   ],
   "note": "Proved as stated (library's own pairwise composition). C14_standard_composites_partial additionally compares with the standard's primary composites: equal exactly if the decomposition has no U+11A7 directly after a leading consonant and a vowel."
  },
  {
   "property": "C15",
   "status": "proved",
   "theorems": [
    "C15_nfc_idempotent",
    "C15_nfkc_idempotent"
   ],
   "note": ""
  },
  {
   "property": "C16",
   "status": "partial",
   "theorems": [
    "C16_nfc_preserves_partial",
    "C16_nfkc_preserves_partial",
    "C16_lost_partial",
    "C16_nfc_plain_partial",
    "C16_nfkc_plain_partial",
    "C16_nfc_preserves_refuted",
    "C16_nfkc_preserves_refuted"
   ],
   "note": "Exact: the decomposition of the composed form is that of the text with every U+11A7 directly after a leading consonant and a vowel removed, so it is preserved exactly if there is none; refuted in general by [U+AC00, U+11A7]."
  },
  {
   "property": "C17",
   "status": "partial",
   "theorems": [
    "C17_nfd_equal_nfc_equal",
    "C17_nfkd_equal_nfkc_equal",
    "C17_composed_equal_partial",
    "C17_nfd_nfc_partial",
    "C17_nfkd_nfkc_partial",
    "C17_nfd_nfc_refuted"
   ],
   "note": "Equal decompositions give equal compositions for all strings; conversely equal compositions give decompositions equal up to the absorbed U+11A7 (exact); refuted without that."
  },
  {
   "property": "C18",
   "status": "proved",
   "theorems": [
    "C18_ascii"
   ],
   "note": ""
  },
  {
   "property": "C19",
   "status": "partial",
   "theorems": [
    "C19_roundtrip_refuted",
    "C19_roundtrip_partial",
    "C19_never_wrong_partial",
    "C19_roundtrip_iff_partial"
   ],
   "note": "Refuted for very long texts (65537 characters: encoding succeeds, decoding overflows). Proved for texts up to 3855 characters; for any length decoding gives the text or nothing, with the exact condition."
  },
  {
   "property": "C20",
   "status": "partial",
   "theorems": [
    "C20_total",
    "C20_shape",
    "C20_no_panic_refuted",
    "C20_checked_partial",
    "C20_short_partial"
   ],
   "note": "Totality and shape proved for builds without overflow checks; with overflow checks the addition to delta can panic (refuted, 65537 characters), only where the other build reports overflow, never up to 3855 characters."
  },
  {
   "property": "C21",
   "status": "proved",
   "theorems": [
    "C21_decode_total"
   ],
   "note": ""
  },
  {
   "property": "C22",
   "status": "proved",
   "theorems": [
    "C22_decode_injective"
   ],
   "note": ""
  },
  {
   "property": "C23",
   "status": "proved",
   "theorems": [
    "C23_ascii_only",
    "C23_labels"
   ],
   "note": "ASCII for all inputs; the label structure for names up to 13256071 characters (so that lengths fit 32 bits)."
  },
  {
   "property": "C24",
   "status": "proved",
   "theorems": [
    "C24_dns_length",
    "C24_dns_exact"
   ],
   "note": ""
  },
  {
   "property": "C25",
   "status": "proved",
   "theorems": [
    "C25_mapping_total",
    "C25_mapping_text"
   ],
   "note": ""
  },
  {
   "property": "C26",
   "status": "partial",
   "theorems": [
    "C26_to_unicode_total",
    "C26_to_ascii_total",
    "C26_overflow_checks_refuted",
    "C26_overflow_checks_partial"
   ],
   "note": "Proved for names up to 13256071 characters in builds without overflow checks and for to_unicode in all builds; refuted for to_ascii with overflow checks (65536 letters a followed by U+1007F), where a panic can only replace a Punycode error."
  },
  {
   "property": "C27",
   "status": "proved",
   "theorems": [
    "C27_valid_labels"
   ],
   "note": ""
  },
  {
   "property": "C28",
   "status": "proved",
   "theorems": [
    "C28_case"
   ],
   "note": ""
  },
  {
   "property": "C29",
   "status": "proved",
   "theorems": [
    "C29_one_entry_per_byte"
   ],
   "note": ""
  },
  {
   "property": "C30",
   "status": "proved",
   "theorems": [
    "C30_paragraphs"
   ],
   "note": ""
  },
  {
   "property": "C31",
   "status": "proved",
   "theorems": [
    "C31_paragraph_level"
   ],
   "note": ""
  },
  {
   "property": "C32",
   "status": "proved",
   "theorems": [
    "C32_explicit_levels"
   ],
   "note": ""
  },
  {
   "property": "C33",
   "status": "proved",
   "theorems": [
    "C33_levels_bounded",
    "C33_default_126_panics"
   ],
   "note": "Proved for automatic direction and default levels up to 125; a default level of 126 panics (witness)."
  },
  {
   "property": "C34",
   "status": "proved",
   "theorems": [
    "C34_left_to_right_unchanged"
   ],
   "note": ""
  },
  {
   "property": "C35",
   "status": "partial",
   "theorems": [
    "C35_level_runs",
    "C35_sequences_are_the_level_runs",
    "C35_sequences_cover_once",
    "C35_sequences_in_text_order",
    "C35_isolating_run_sequences_partial",
    "C35_same_level_refuted"
   ],
   "note": "Coverage, order and level runs for all paragraphs. Matching of isolates (BD13), equal levels and X10 for paragraphs in which no isolate initiator is directly followed by a character removed by X9; refuted otherwise (RLI a RLI BN b PDI c PDI d)."
  },
  {
   "property": "C36",
   "status": "partial",
   "theorems": [
    "C36_line_levels",
    "C36_panics_exact",
    "C36_later_lines_partial",
    "C36_one_byte_partial",
    "C36_high_line_panics",
    "C36_high_line_refuted",
    "C36_line_permuted",
    "C36_other_lines_partial",
    "C36_any_line",
    "C36_other_lines_refuted",
    "C36_default_124_refuted"
   ],
   "note": "Proved for every non-empty line at the beginning of the text (default level up to 123), and for other lines if L1 changes no level in them. For every line for which it returns, the result is a permutation of the characters of the line. Exact: a line with some level up to 125 panics if and only if it has an odd level and, after L1, levels that differ within a character; so every line no longer than the text before it, and every line of one-byte characters, is reordered. Refuted for other lines (second paragraph of ab newline e-acute e-acute panics) default level 124, and later lines whose levels are all 126."
  },
  {
   "property": "C37",
   "status": "partial",
   "theorems": [
    "C37_weak_types_partial",
    "C37_w2_refuted",
    "C37_w5_refuted",
    "C37_w4_refuted",
    "C37_observable_refuted",
    "C37_weak_exact"
   ],
   "note": "Proved on sequences where W2 does not apply, every ET is followed by something other than NSM, ES, CS or the end, and ES/CS are one byte long. Refuted without each condition (W2 never applies, W5 runs before W4, trailing ET is left, multi-byte separators). C37_weak_exact says for every position of every sequence which class the pass gives it."
  },
  {
   "property": "C38",
   "status": "partial",
   "theorems": [
    "C38_neutrals_exact",
    "C38_neutrals_partial",
    "C38_neutrals_refuted",
    "C38_implicit_levels"
   ],
   "note": "I1/I2 exact. N1/N2 proved when no removed character directly precedes a neutral run, refuted otherwise (R BN WS R); C38_neutrals_exact says for every sequence what the pass does: a neutral character takes the embedding direction exactly when its run is cut off by a removed character. N0 is not implemented by the code and not part of the statement."
  },
  {
   "property": "C39",
   "status": "proved",
   "theorems": [
    "C39_lossless",
    "C39_backward",
    "C39_both_ends"
   ],
   "note": ""
  },
  {
   "property": "C40",
   "status": "proved",
   "theorems": [
    "C40_is_boundary",
    "C40_forward",
    "C40_backward",
    "C40_any_operations"
   ],
   "note": ""
  },
  {
   "property": "C41",
   "status": "partial",
   "theorems": [
    "C41_inside_chunk_partial",
    "C41_chunk_start_partial",
    "C41_forward_partial",
    "C41_backward_partial",
    "C41_other_chunk_start",
    "C41_cut_run_panics",
    "C41_letters_refuted",
    "C41_prepend_refuted",
    "C41_flag_refuted",
    "C41_single_character_refuted"
   ],
   "note": "Proved inside a chunk where the decision does not look before the chunk, at a chunk start before a regional indicator or E_Modifier, and for walks forwards and backwards over chunks that do not begin with a regional indicator or Extend* E_Modifier. Refuted in general: panics, a wrong answer after Prepend, a flag cut in two, InvalidOffset walking backwards; the panics are characterised exactly."
  },
  {
   "property": "C42",
   "status": "proved",
   "theorems": [
    "C42_forward",
    "C42_backward",
    "C42_both_ends",
    "C42_size_hint",
    "C42_words"
   ],
   "note": ""
  },
  {
   "property": "C43",
   "status": "partial",
   "theorems": [
    "C43_forward_partial",
    "C43_backward_partial",
    "C43_double_modifier_refuted",
    "C43_glue_refuted",
    "C43_punctuation_refuted"
   ],
   "note": "Proved for texts without two E_Modifier in a row in which a ZWJ + Glue_After_Zwj/EBG does not follow punctuation and Glue_After_Zwj is not followed by a joining class; refuted without these conditions. Backwards proved for texts without ZWJ E_Base E_Modifier."
  },
  {
   "property": "C44",
   "status": "partial",
   "theorems": [
    "C44_agree_partial",
    "C44_both_ends_partial",
    "C44_plain",
    "C44_glue_refuted",
    "C44_zwj_base_modifier_refuted"
   ],
   "note": "Proved under the conditions of C43 in both directions, also for calls of next and next_back in any order; refuted in general."
  },
  {
   "property": "C45",
   "status": "proved",
   "theorems": [
    "C45_codepoints",
    "C45_utf8_hex",
    "C45_utf16_hex",
    "C45_nonempty_any_splitter",
    "C45_empty_with_later_regex",
    "C45_parsed_text_valid"
   ],
   "note": "Proved for all texts with the splitting behaviour of regex 0.2 (no trailing empty piece), the version in Cargo.toml; with later versions of regex all but the empty text, on which the parsers would panic."
  },
  {
   "property": "C46",
   "status": "proved",
   "theorems": [
    "C46_shipped",
    "C46_length"
   ],
   "note": ""
  },
  {
   "property": "C47",
   "status": "partial",
   "theorems": [
    "C47_first_words_partial",
    "C47_listed_derived_partial",
    "C47_hangul_partial",
    "C47_order_refuted",
    "C47_hangul_order_refuted",
    "C47_listed_order_refuted",
    "C47_ideographs_partial",
    "C47_listed_partial"
   ],
   "note": "Refuted (ideographs with different digit counts, Hangul syllables, listed against derived names). Proved for names with different first words, for two listed names, for ideographs of the same digit count, for syllables whose first differing jamo names do not begin one another; for a listed against a derived name the exact set of disagreements is proved."
  },
  {
   "property": "C48",
   "status": "partial",
   "theorems": [
    "C48_partial_order_partial",
    "C48_orders_contradict_partial",
    "C48_agree_refuted"
   ],
   "note": "The hand-written partial order is the documented one; the derived total order contradicts it on every pair of different ages (refuted)."
  },
  {
   "property": "C49",
   "status": "proved",
   "theorems": [
    "C49_shape",
    "C49_injective"
   ],
   "note": ""
  },
  {
   "property": "C50",
   "status": "proved",
   "theorems": [
    "C50_noncharacter",
    "C50_sixty_six",
    "C50_private_use",
    "C50_never_both"
   ],
   "note": ""
  },
  {
   "property": "C51",
   "status": "proved",
   "theorems": [
    "C51_combining_mark_builds_agree",
    "C51_reordered_characters_are_marks"
   ],
   "note": ""
  },
  {
   "property": "C52",
   "status": "proved",
   "theorems": [
    "C52_alias_types_exact"
   ],
   "note": ""
  },
  {
   "property": "C53",
   "status": "partial",
   "theorems": [
    "C53_has_ltr_refuted",
    "C53_has_rtl_and_explicit_partial",
    "C53_category"
   ],
   "note": "has_rtl, has_bidi_explicit and the class categories are exact; has_ltr is refuted."
  },
  {
   "property": "C54",
   "status": "proved",
   "theorems": [
    "C54_common_properties",
    "C54_identifiers",
    "C54_case",
    "C54_emoji",
    "C54_assigned_characters",
    "C54_category_groups",
    "C54_category_groups_named"
   ],
   "note": ""
  },
  {
   "property": "C55",
   "status": "partial",
   "theorems": [
    "C55_compose_primary_partial",
    "C55_compose_primary_refuted"
   ],
   "note": "Exact: the primary composites, and additionally LV syllable + U+11A7, which is refuted to be one."
  },
  {
   "property": "C56",
   "status": "partial",
   "theorems": [
    "C56_nfd_after_nfkd",
    "C56_nfc_after_nfd",
    "C56_nfkc_after_nfkd",
    "C56_nfkc_after_nfc",
    "C56_nfkd_after_nfc_partial",
    "C56_compat_after_nfc_refuted"
   ],
   "note": "All absorption laws for all strings except nfkd after nfc, which holds exactly if no U+11A7 is absorbed (refuted in general)."
  },
  {
   "property": "C57",
   "status": "proved",
   "theorems": [
    "C57_nfd_concat",
    "C57_nfkd_concat",
    "C57_nfc_concat",
    "C57_nfkc_concat",
    "C57_starter_boundary"
   ],
   "note": ""
  },
  {
   "property": "C58",
   "status": "proved",
   "theorems": [
    "C58_fixed_points",
    "C58_scalar_values"
   ],
   "note": ""
  },
  {
   "property": "C59",
   "status": "partial",
   "theorems": [
    "C59_decode_rfc_partial",
    "C59_decode_rfc_refuted"
   ],
   "note": "Exact for ASCII inputs; refuted for inputs with a non-ASCII literal part, which the decoder accepts."
  },
  {
   "property": "C60",
   "status": "proved",
   "theorems": [
    "C60_encode_rfc",
    "C60_form_determines_text"
   ],
   "note": ""
  },
  {
   "property": "C61",
   "status": "partial",
   "theorems": [
    "C61_bidi_refuted",
    "C61_bidi_partial",
    "C61_rule"
   ],
   "note": "Refuted by the name 0 U+2135: the Bidi check is decided on the unmapped text, and U+2135..U+2138 (left-to-right) map to Hebrew letters. Proved for names without these four characters."
  },
  {
   "property": "C62",
   "status": "partial",
   "theorems": [
    "C62_ascii_stable_refuted",
    "C62_ascii_name_refuted",
    "C62_ascii_stable_partial",
    "C62_unicode_stable_partial"
   ],
   "note": "Refuted by 0 U+2135 and by xn--xn--a- (decodes to xn--a, which is not encoded again). Proved for names avoiding U+2135..U+2138 whose ASCII labels do not begin with xn-- and whose labels have at most 3855 characters, without transitional processing."
  },
  {
   "property": "C63",
   "status": "proved",
   "theorems": [
    "C63_to_ascii_succeeds"
   ],
   "note": ""
  },
  {
   "property": "C64",
   "status": "proved",
   "theorems": [
    "C64_to_unicode",
    "C64_to_ascii"
   ],
   "note": ""
  },
  {
   "property": "C65",
   "status": "proved",
   "theorems": [
    "C65_literals_denote_the_text",
    "C65_reading_is_deterministic",
    "C65_injective",
    "C65_ascii_output"
   ],
   "note": ""
  },
  {
   "property": "C66",
   "status": "proved",
   "theorems": [
    "C66_hangul",
    "C66_ideographs",
    "C66_distinct"
   ],
   "note": ""
  },
  {
   "property": "C67",
   "status": "proved",
   "theorems": [
    "C67_shipped",
    "C67_total_order"
   ],
   "note": ""
  },
  {
   "property": "C68",
   "status": "proved",
   "theorems": [
    "C68_first_strong_isolates"
   ],
   "note": ""
  },
  {
   "property": "C69",
   "status": "partial",
   "theorems": [
    "C69_l1_partial",
    "C69_l1_refuted",
    "C69_l2_partial",
    "C69_l2_refuted"
   ],
   "note": "L1 exact for lines at the beginning of the text, refuted for others (line-relative indices). L2 exact if L1 changes no level of the line, refuted otherwise (the code compares the levels before L1)."
  },
  {
   "property": "C70",
   "status": "partial",
   "theorems": [
    "C70_resolved_levels_partial",
    "C70_simple_text_partial"
   ],
   "note": "End-to-end: X1-X8, BD13, X10, I1-I2 for paragraphs whose isolate initiators are not directly followed by removed characters, with W1-N2 on tame sequences; everything for texts without AL, ET, embeddings, BN and multi-byte separators. The unrestricted statement is false (see C35, C37, C38). N0 is not implemented."
  },
  {
   "property": "C71",
   "status": "proved",
   "theorems": [
    "C71_named_iff"
   ],
   "note": ""
  },
  {
   "property": "C72",
   "status": "proved",
   "theorems": [
    "C72_distinct",
    "C72_shape"
   ],
   "note": ""
  },
  {
   "property": "C73",
   "status": "partial",
   "theorems": [
    "C73_has_rtl",
    "C73_skip_partial",
    "C73_skip_first_line_partial",
    "C73_skip_refuted"
   ],
   "note": "has_rtl is characterised exactly; skipping is proved for every line when the paragraph level is even (for lines not at the beginning of the text: if reorder_line returns at all). Refuted for odd paragraph levels: trailing white space gets the odd level by L1."
  },
  {
   "property": "C74",
   "status": "proved",
   "theorems": [
    "C74_new",
    "C74_new_explicit",
    "C74_raise",
    "C74_raise_explicit",
    "C74_lower",
    "C74_next_ltr",
    "C74_next_rtl",
    "C74_lowest_ge_rtl",
    "C74_direction"
   ],
   "note": ""
  },
  {
   "property": "C75",
   "status": "partial",
   "theorems": [
    "C75_core",
    "C75_emoji",
    "C75_prop_list_partial",
    "C75_dash_partial",
    "C75_hyphen_refuted",
    "C75_spacing_refuted"
   ],
   "note": "Proved for all properties of DerivedCoreProperties.txt that are kept (the deprecated Grapheme_Link is skipped by the reader) and of emoji-data.txt, and for PropList.txt except Dash and Hyphen, which are merged (refuted); rows without white space before the semicolon are dropped (refuted)."
  },
  {
   "property": "C76",
   "status": "partial",
   "theorems": [
    "C76_breaks",
    "C76_age",
    "C76_blocks",
    "C76_spacing_refuted"
   ],
   "note": "Proved for files with white space around the semicolon, as all published files have (Blocks.txt: any spacing); refuted without."
  },
  {
   "property": "C77",
   "status": "proved",
   "theorems": [
    "C77_category",
    "C77_marks",
    "C77_numeric",
    "C77_control",
    "C77_alphanumeric",
    "C77_mirrored",
    "C77_combining_class"
   ],
   "note": ""
  },
  {
   "property": "C78",
   "status": "proved",
   "theorems": [
    "C78_canonical",
    "C78_compatibility",
    "C78_composition"
   ],
   "note": ""
  },
  {
   "property": "C79",
   "status": "partial",
   "theorems": [
    "C79_bidi_class",
    "C79_noncharacter_refuted"
   ],
   "note": "Proved exactly for listed characters and the AL, R and ET defaults; refuted for noncharacters, which get L instead of BN."
  },
  {
   "property": "C80",
   "status": "proved",
   "theorems": [
    "C80_names"
   ],
   "note": ""
  },
  {
   "property": "C81",
   "status": "proved",
   "theorems": [
    "C81_idna_mapping"
   ],
   "note": ""
  },
  {
   "property": "C82",
   "status": "proved",
   "theorems": [
    "C82_jamo",
    "C82_aliases",
    "C82_alias_types",
    "C82_consistent"
   ],
   "note": ""
  },
  {
   "property": "C83",
   "status": "proved",
   "theorems": [
    "C83_normalization_tests"
   ],
   "note": ""
  },
  {
   "property": "C84",
   "status": "partial",
   "theorems": [
    "C84_unicode_version",
    "C84_emoji_version",
    "C84_dots_refuted"
   ],
   "note": "Proved for ReadMe texts whose first marker is followed by a version of the right form; refuted that nothing else is read: the dots of the expression match any character (for Version 12345 gives 1.3.5)."
  },
  {
   "property": "C85",
   "status": "proved",
   "theorems": [
    "C85_words",
    "C85_graphemes",
    "C85_unique"
   ],
   "note": "For every file of the documented format; the printed text is the subject of C89."
  },
  {
   "property": "C86",
   "status": "proved",
   "theorems": [
    "C86_writes",
    "C86_converts",
    "C86_rejects",
    "C86_unambiguous",
    "C86_two_separators_panic"
   ],
   "note": "For any regex class \\w that is right on ASCII; clap's own parsing of the command line and output errors are not modelled. The empty text needs the splitting of regex 0.2 (see C45)."
  },
  {
   "property": "C87",
   "status": "proved",
   "theorems": [
    "C87_rows",
    "C87_names_identify",
    "C87_none_iff"
   ],
   "note": "The layout of the table by the prettytable crate is not modelled."
  },
  {
   "property": "C88",
   "status": "proved",
   "theorems": [
    "C88_unique",
    "C88_table",
    "C88_lookup",
    "C88_values",
    "C88_constants",
    "C88_tests"
   ],
   "note": "RustSpec.v defines the part of Rust that generated files use; names are printed without escapes, so they must not contain quotation marks or backslashes (an example shows what happens otherwise)."
  },
  {
   "property": "C89",
   "status": "proved",
   "theorems": [
    "C89_sets",
    "C89_core",
    "C89_emoji",
    "C89_breaks",
    "C89_age",
    "C89_blocks",
    "C89_category",
    "C89_bidi_class",
    "C89_combining_class",
    "C89_canonical",
    "C89_compatibility",
    "C89_composition",
    "C89_names",
    "C89_jamo",
    "C89_aliases",
    "C89_alias_types",
    "C89_idna_mapping",
    "C89_normalization_tests",
    "C89_word_tests",
    "C89_grapheme_tests",
    "C89_unicode_version",
    "C89_emoji_version"
   ],
   "note": "Assumes that property values, categories and tags are identifiers, block names need no escapes, and words of names start with no digit and are no lone hyphen."
  },
  {
   "property": "C90",
   "status": "partial",
   "theorems": [
    "C90_text",
    "C90_text_unique",
    "C90_flags",
    "C90_errors",
    "C90_ascii_errors",
    "C90_standard_partial",
    "C90_undecodable_refuted",
    "C90_std3_refuted"
   ],
   "note": "The text is not that of UTS #46 for labels that cannot be decoded (dropped) and for characters mapped but disallowed under the STD3 rules (mapped); it is otherwise."
  },
  {
   "property": "C91",
   "status": "proved",
   "theorems": [
    "C91_xid_closed",
    "C91_xid_equivalent",
    "C91_id_equivalent",
    "C91_xid_canonical",
    "C91_id_canonical",
    "C91_id_not_closed"
   ],
   "note": "The compatibility forms keep XID identifiers; that they do not keep ID identifiers is a property of the data (C91_id_not_closed), the reason XID exists."
  },
  {
   "property": "C92",
   "status": "proved",
   "theorems": [
    "C92_blocks",
    "C92_age_exact",
    "C92_age_values",
    "C92_version_reached"
   ],
   "note": "Block names are compared under UAX44-LM3."
  },
  {
   "property": "C93",
   "status": "proved",
   "theorems": [
    "C93_decompositions",
    "C93_chars_hint",
    "C93_recompositions"
   ],
   "note": "The underlying iterator is a list (so it stays at its end once it got there); its size_hint is any function with a valid lower bound."
  },
  {
   "property": "C94",
   "status": "proved",
   "theorems": [
    "C94_concat",
    "C94_cut",
    "C94_single"
   ],
   "note": "Boundaries as stated in GraphSpec.v (C40)."
  },
  {
   "property": "C95",
   "status": "proved",
   "theorems": [
    "C95_cut",
    "C95_single",
    "C95_cut_back",
    "C95_single_back"
   ],
   "note": "Holds on every text, also on those where the pieces are not the ones UAX #29 prescribes (C43)."
  },
  {
   "property": "C96",
   "status": "proved",
   "theorems": [
    "C96_paragraphs_alone",
    "C96_append"
   ],
   "note": ""
  },
  {
   "property": "C97",
   "status": "proved",
   "theorems": [
    "C97_unicode_cut",
    "C97_unicode_join",
    "C97_ascii_cut",
    "C97_ascii_join"
   ],
   "note": ""
  },
  {
   "property": "C98",
   "status": "proved",
   "theorems": [
    "C98_general_category",
    "C98_bidi_class",
    "C98_grapheme_cluster_break",
    "C98_word_break",
    "C98_sentence_break",
    "C98_decomposition_type",
    "C98_readable",
    "C98_binary",
    "C98_written",
    "C98_class",
    "C98_version",
    "C98_version_apart",
    "C98_level",
    "C98_level_vec",
    "C98_bidi_info"
   ],
   "note": "Width, fill and alignment of format strings are not modelled. Printed values of enumerated properties are often not parsed at all (Finding: Uppercase Letter with a blank is printed, Uppercase_Letter is parsed)."
  },
  {
   "property": "C99",
   "status": "partial",
   "theorems": [
    "C99_clusters_nfd",
    "C99_clusters_nfkd",
    "C99_clusters_nfc",
    "C99_clusters_nfkc_refuted",
    "C99_clusters_nfkc_partial",
    "C99_legacy_refuted",
    "C99_legacy_partial",
    "C99_legacy_nfkc_partial",
    "C99_words",
    "C99_words_nfkc_refuted",
    "C99_words_nfkc_partial"
   ],
   "note": "Proved for NFD, NFKD and NFC with extended clusters and with words, on every text. Refuted for NFKC (compatibility and circled Hangul letters) and for legacy clusters (spacing marks), with the texts without those characters proved."
  },
  {
   "property": "C100",
   "status": "partial",
   "theorems": [
    "C100_modifier_refuted",
    "C100_equivalent_partial",
    "C100_nfd_partial",
    "C100_nfc_partial",
    "C100_legacy_refuted",
    "C100_legacy_partial"
   ],
   "note": "Refuted for an emoji modifier after a spacing mark that decomposes, and for legacy clusters; proved for all texts without such a modifier (extended clusters; NFD, NFC and equivalent texts), and for legacy clusters for texts without spacing marks before or after decomposition."
  },
  {
   "property": "C101",
   "status": "proved",
   "theorems": [
    "C101_nfd",
    "C101_nfc",
    "C101_equivalent",
    "C101_filter"
   ],
   "note": "Forward iteration (WordBoundIndices::next, Words); all texts, including those where the pieces are not the ones UAX #29 prescribes and those where composition drops U+11A7."
  },
  {
   "property": "C102",
   "status": "partial",
   "theorems": [
    "C102_paragraphs",
    "C102_paragraphs_nfd",
    "C102_paragraphs_nfc",
    "C102_paragraph_levels",
    "C102_paragraph_levels_nfc",
    "C102_has_rtl_and_explicit",
    "C102_forms",
    "C102_levels_refuted",
    "C102_left_to_right_partial",
    "C102_resolved_nfd_partial",
    "C102_resolved_equivalent_partial",
    "C102_balinese_refuted"
   ],
   "note": "Paragraphs, paragraph levels and the tests on strings: all texts, also for NFC. Resolved levels: proved for every text without combining marks of class L and without U+1B3B, U+1B3D, U+1B43 (all explicit, isolate, weak and neutral processing included); refuted for both exceptions; also proved for texts without right-to-left and formatting characters."
  },
  {
   "property": "C103",
   "status": "partial",
   "theorems": [
    "C103_same_partial",
    "C103_accepted_partial",
    "C103_kind_refuted",
    "C103_text_partial",
    "C103_accepted_refuted",
    "C103_text_refuted",
    "C103_nfd_partial",
    "C103_nfc_partial"
   ],
   "note": "Refuted by U+0345 (two different accepted names), by five CJK compatibility ideographs (rejected although their equivalents are accepted) and, for the kind of error only, by U+037E and U+1FEF. Proved for all names without these: same text and errors, same answer of to_ascii; with U+037E and U+1FEF same acceptance and text; with the ideographs same text. The same for a name and its NFC."
  },
  {
   "property": "C104",
   "status": "partial",
   "theorems": [
    "C104_rules",
    "C104_cuts_partial",
    "C104_cuts_refuted",
    "C104_forward_partial",
    "C104_backward_partial",
    "C104_vowel_refuted",
    "C104_sign_refuted",
    "C104_flag_refuted"
   ],
   "note": "Rules: a word boundary is a cluster boundary except after prepended signs, before Thai and Lao sara am (extended clusters) and between indicators after a flag half that carries marks; each exception is a refutation of the full statement. Proved for all texts without these (backward also without ZWJ E_Base E_Modifier). The forward iterator cuts only at boundaries of the rules, for texts without a flag half directly before ZWJ and a heart-like character (refuted there)."
  },
  {
   "property": "C105",
   "status": "partial",
   "theorems": [
    "C105_clusters_partial",
    "C105_words_partial",
    "C105_words_back_partial",
    "C105_line_end_refuted",
    "C105_separator_refuted"
   ],
   "note": "Refuted by CR LF (two paragraphs, one cluster, one word) and, for words, by U+001C..U+001E before a mark; proved for texts without these (words also without the emoji sequences on which the word iterators leave the rules)."
  },
  {
   "property": "C106",
   "status": "partial",
   "theorems": [
    "C106_accepted_partial",
    "C106_accepted_refuted",
    "C106_text_partial",
    "C106_text_refuted",
    "C106_nfkd_partial",
    "C106_nfkc_partial"
   ],
   "note": "Proved for all names without U+0345 and without sixty characters: 31 with a full stop in their decomposition (disallowed), 6 variants of final sigma (they map to sigma, the final sigma does not), 5 CJK compatibility ideographs, and 18 whose direction differs from that of their decomposition. Each of the sixty is a refutation of the full statement. The text also agrees for rejected names, except for the characters with full stops, the sigmas and two Hangul fillers."
  },
  {
   "property": "C107",
   "status": "proved",
   "theorems": [
    "C107_case",
    "C107_alphabetic",
    "C107_identifiers",
    "C107_white_space",
    "C107_marks",
    "C107_emoji",
    "C107_sentence_case",
    "C107_hangul",
    "C107_bidi"
   ],
   "note": "Full for the shipped tables, as equations or inclusions over all characters. The lists Other_ID_Start and Other_ID_Continue, the controls that are white space and the three left-to-right nonspacing marks are spelled out in DerivedSpec.v, since the crates do not expose them. Changes_When_* is bounded only: the case mappings that define it are not in the repository."
  },
  {
   "property": "C108",
   "status": "partial",
   "theorems": [
    "C108_some_partial",
    "C108_some_refuted",
    "C108_some_normal_partial",
    "C108_every_partial",
    "C108_every_refuted",
    "C108_every_normal_partial"
   ],
   "note": "Decided for each of 28 properties: having some such character is independent of the spelling for 18 and refuted for the other 10 (for example Lowercase: U+1F88 against its decomposition, which has U+0345; Emoji: U+21AE); having only such characters is independent for 14 and refuted for the other 14."
  },
  {
   "property": "C109",
   "status": "proved",
   "theorems": [
    "C109_characters",
    "C109_nfkc",
    "C109_ascii"
   ],
   "note": "Full for to_unicode. C109_ascii is for names of at most 13256071 characters, as in C26 (above that a count may wrap)."
  },
  {
   "property": "C110",
   "status": "partial",
   "theorems": [
    "C110_measures",
    "C110_nfd",
    "C110_nfkd",
    "C110_composed",
    "C110_nfc",
    "C110_nfkc",
    "C110_nfc_shrinks_partial",
    "C110_nfkc_shrinks_partial",
    "C110_nfc_shrinks_refuted",
    "C110_tight",
    "C110_tight_shrinking"
   ],
   "note": "Growth: proved for every form and measure, with texts that reach every factor. Shrinking: proved for NFD and NFKD; for NFC and NFKC for texts in which no U+11A7 is dropped, with texts that reach every factor; refuted otherwise (an LV syllable followed by any number of U+11A7 becomes one character)."
  },
  {
   "property": "C111",
   "status": "proved",
   "theorems": [
    "C111_decode",
    "C111_decode_delimiter",
    "C111_encode",
    "C111_ten",
    "C111_names",
    "C111_names_dns",
    "C111_ascii_names"
   ],
   "note": "Full. The bounds on characters of texts and names are those under which lengths do not wrap (C19, C26)."
  }
 ]
}
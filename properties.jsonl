{"id": "C01", "title": "Iterating a character range visits exactly its scalar values, once, in order", "statement": "For every character range built by the closed, half-open, open or bounded constructors (and the chars! macro forms that expand to them), collecting its forward iterator yields exactly the Unicode scalar values lying between the two endpoints (each endpoint included or excluded as the constructor says), in strictly increasing order, never a surrogate, and then ends.", "quantifier": "all pairs of scalar-value endpoints and all constructor kinds (about 10^12 ranges times constructor kinds)", "why_tests_cant": "A test enumerates a handful of endpoint pairs; the special cases are at U+0000, U+10FFFF and both sides of the surrogate gap, and combine with emptiness.", "anchors": ["unic/char/range/src/range.rs: CharRange::closed/open_right/open_left/open/bound", "unic/char/range/src/iter.rs: CharIter::next, step_forward", "unic/char/range/src/step.rs: forward, backward"]}
{"id": "C02", "title": "Any interleaving of front and back iteration partitions the range", "statement": "For every character range and every sequence of next()/next_back() calls, the characters handed out at the front form a prefix of the range's increasing enumeration, those handed out at the back form a suffix read backwards, the two never overlap, a call returns None only when every character has been handed out, and once None is returned every later call from either side returns None.", "quantifier": "all ranges and all finite schedules of next/next_back calls", "why_tests_cant": "The number of schedules is exponential in the range length; tests run only all-forward and all-backward schedules.", "anchors": ["unic/char/range/src/iter.rs: CharIter::next, next_back, step_forward, step_backward, is_finished"]}
{"id": "C03", "title": "The reported remaining length is exact at every moment", "statement": "After any sequence of next()/next_back() calls on any range's iterator, len() and both halves of size_hint() equal the number of characters that the iterator will still produce; the range's own len() equals the number of characters it contains and is_empty() is true exactly when that number is zero.", "quantifier": "all ranges and all reachable iterator states", "why_tests_cant": "Arithmetic correction for the surrogate gap must be right for every pair of bounds on either side of or across the gap, at every step.", "anchors": ["unic/char/range/src/iter.rs: CharIter::len, size_hint", "unic/char/range/src/range.rs: CharRange::len, is_empty"]}
{"id": "C04", "title": "Membership, comparison and equality of ranges agree with the set of characters", "statement": "contains(c) is true exactly for the characters that iteration produces; cmp_char reports Equal exactly for members, Greater when every member is above c and Less when every member is below c (for non-empty ranges); two ranges compare equal exactly when they contain the same characters (all empty ranges are equal).", "quantifier": "all ranges, all pairs of ranges, all characters", "why_tests_cant": "Quantifies over pairs of ranges times characters.", "anchors": ["unic/char/range/src/range.rs: contains, cmp_char, PartialEq for CharRange"]}
{"id": "C05", "title": "Parallel iteration produces the same characters as sequential iteration", "statement": "For every character range, the parallel iterator produces exactly the characters that the sequential iterator produces.", "quantifier": "all pairs of scalar endpoints", "why_tests_cant": "The index compaction around the surrogate gap is only exercised by tests for ranges spanning or below the gap.", "anchors": ["unic/char/range/src/par_iter.rs: compact_range, into_par_iter"]}
{"id": "C06", "title": "Looking a character up in a sorted table finds the unique entry covering it", "statement": "For every character table whose entries are in increasing order and do not overlap, find(c) returns the value of the entry covering c and nothing when no entry covers c; contains, find_with_range and find_or_default agree with it, and iterating the table reproduces every entry in order.", "quantifier": "all well-formed tables (any length, any value type) and all characters", "why_tests_cant": "Binary search correctness is a statement about all table sizes and all probe positions.", "anchors": ["unic/char/property/src/tables.rs: CharDataTable::contains, find, find_with_range, find_or_default, CharDataTableIter::next"]}
{"id": "C07", "title": "Every shipped Unicode table is well formed, so each property lookup equals a linear scan", "statement": "Each data table shipped with the library has non-empty in-order non-overlapping entries bounded by scalar values, hence the property of every character is decided by the one entry listing it (or the default), independently of search strategy.", "quantifier": "all scalar values and all shipped tables that are modelled", "why_tests_cant": "The tables have tens of thousands of entries; a single mis-ordered entry silently hides others from binary search.", "anchors": ["unic/ucd/*/tables/*.rsv", "unic/idna/mapping/tables/idna_mapping.rsv", "unic/char/property/src/tables.rs"]}
{"id": "C08", "title": "The table generator emits tables that represent its input map exactly", "statement": "For every finite map from characters to values (or set of characters), the generated range table, direct table or set table is in increasing order and non-overlapping, and looking up any character in it gives what the input map gives.", "quantifier": "all finite maps/sets of scalar values", "why_tests_cant": "Tests use one small ASCII map; run merging must be right for all adjacency patterns, including around the surrogate gap.", "anchors": ["gen/src/writer/utils/tables/range.rs: to_range_char_table", "gen/src/writer/utils/tables/set.rs: to_range_char_set", "gen/src/writer/utils/tables/direct.rs: to_direct_char_table"]}
{"id": "C09", "title": "Parsing a property value accepts exactly its names, ignoring ASCII case", "statement": "For each enumerated character property, parsing any string succeeds with value v exactly when the string equals v's short or long name up to ASCII case, and fails otherwise; for boolean properties parsing succeeds exactly for y/yes/t/true (true) and n/no/f/false (false) up to ASCII case. In particular parsing the printed short or long name gives the value back.", "quantifier": "all strings and all values of each property", "why_tests_cant": "All strings; ambiguity between names of different values up to case would show only for particular pairs.", "anchors": ["unic/char/property/src/macros.rs: char_property! FromStr", "unic/ucd/category/src/category.rs: GeneralCategory", "unic/ucd/bidi/src/bidi_class.rs: BidiClass", "unic/ucd/segment/src/*.rs", "unic/ucd/normal/src/decomposition_type.rs"]}
{"id": "C10", "title": "Hangul syllables compose and decompose exactly as the Unicode arithmetic prescribes", "statement": "Decomposing any precomposed Hangul syllable gives its conjoining jamo (2 or 3 characters), and composing those jamo from left to right gives the same syllable back; composing two characters succeeds only for L+V or LV+T pairs, and decomposing the result gives back the pair's own decomposition.", "quantifier": "all characters and all pairs of characters", "why_tests_cant": "All pairs of characters is 10^12 cases; boundary constants (TBase itself) are easily off by one.", "anchors": ["unic/ucd/hangul/src/hangul.rs: is_syllable, decompose_syllable, compose_syllable"]}
{"id": "C11", "title": "NFD/NFKD iteration equals the standard's decomposition followed by canonical ordering", "statement": "For every string, collecting nfd() (nfkd()) gives the result of fully decomposing every character canonically (compatibly) and then stably sorting every maximal run of non-starters by canonical combining class.", "quantifier": "all strings of any length", "why_tests_cant": "Combining sequences are unbounded; the streaming iterator buffers and sorts incrementally, so every split of the input between buffer refills matters.", "anchors": ["unic/normal/src/decompose.rs: Decompositions::next, canonical_sort", "unic/ucd/normal/src/decomposition.rs"]}
{"id": "C12", "title": "NFD and NFKD are idempotent", "statement": "For every string s, normalizing nfd(s) again by NFD leaves it unchanged, and likewise for NFKD; also nfkd(nfd(s)) = nfkd(s).", "quantifier": "all strings", "why_tests_cant": "Quantifies over all strings of unbounded length.", "anchors": ["unic/normal/src/lib.rs: StrNormalForm::nfd, nfkd", "unic/normal/src/decompose.rs"]}
{"id": "C13", "title": "Decomposition preserves text up to reordering within combining runs", "statement": "The NFD of any string contains exactly the characters of the full decompositions of its characters (as a multiset), keeps every starter at the same relative position, never moves a character across a starter, keeps the relative order of non-starters with equal combining class, and yields non-starter runs with non-decreasing combining class.", "quantifier": "all strings", "why_tests_cant": "Stability and no-crossing must hold for arbitrary long runs of combining marks.", "anchors": ["unic/normal/src/decompose.rs: canonical_sort, Decompositions::next"]}
{"id": "C14", "title": "NFC/NFKC iteration equals the standard's canonical composition algorithm", "statement": "For every string, collecting nfc() (nfkc()) gives the result of the canonical composition algorithm (each character that is not blocked from the last starter is combined with it when a primary composite exists) applied to the NFD (NFKD) of the string, where pair composition is the library's own pairwise composition.", "quantifier": "all strings", "why_tests_cant": "The streaming recomposer interleaves output, purge buffer and composition state; equivalence with the batch algorithm quantifies over all inputs.", "anchors": ["unic/normal/src/recompose.rs: Recompositions::next", "unic/ucd/normal/src/lib.rs: compose"]}
{"id": "C15", "title": "NFC and NFKC are idempotent", "statement": "For every string s, nfc(nfc(s)) = nfc(s) and nfkc(nfkc(s)) = nfkc(s).", "quantifier": "all strings", "why_tests_cant": "Depends on a global property of the composition tables together with the streaming algorithm, over all strings.", "anchors": ["unic/normal/src/recompose.rs", "unic/normal/src/decompose.rs", "unic/ucd/normal/tables"]}
{"id": "C16", "title": "NFC preserves canonical equivalence", "statement": "For every string s, nfd(nfc(s)) = nfd(s): composing never changes the canonical decomposition, so no text is lost or altered (likewise nfkd(nfkc(s)) = nfkd(s)).", "quantifier": "all strings", "why_tests_cant": "One bad pair anywhere in the composition logic breaks it; only a universally quantified statement rules that out.", "anchors": ["unic/normal/src/recompose.rs", "unic/ucd/hangul/src/hangul.rs: compose_syllable", "unic/ucd/normal/src/lib.rs: compose"]}
{"id": "C17", "title": "Canonically equivalent strings have equal NFC, compatibility-equivalent strings have equal NFKC", "statement": "For all strings s and t: nfd(s) = nfd(t) if and only if nfc(s) = nfc(t), and nfkd(s) = nfkd(t) if and only if nfkc(s) = nfkc(t).", "quantifier": "all pairs of strings", "why_tests_cant": "Pairs of unbounded strings.", "anchors": ["unic/normal/src/lib.rs: StrNormalForm"]}
{"id": "C18", "title": "ASCII text is unchanged by every normalization form", "statement": "For every string consisting only of ASCII characters, nfd, nfkd, nfc and nfkc all return it unchanged.", "quantifier": "all ASCII strings", "why_tests_cant": "All strings over 128 letters, any length.", "anchors": ["unic/normal/src/lib.rs", "unic/ucd/normal/src/decomposition.rs: ASCII fast path"]}
{"id": "C19", "title": "Punycode decoding inverts encoding", "statement": "For every string s, if encode(s) succeeds with p then decode(p) succeeds and gives s back.", "quantifier": "all strings of any length and content", "why_tests_cant": "Adaptive bias and variable-length integers interact over the whole string; tests cover the RFC samples.", "anchors": ["unic/idna/punycode/src/lib.rs: encode, decode, adapt"]}
{"id": "C20", "title": "Punycode encoding is total, overflow safe and produces only ASCII", "statement": "For every string encode never panics (no arithmetic overflow goes unnoticed, no digit out of range); when it succeeds the output contains only ASCII characters: the input's ASCII characters in order, followed by '-' if there were any, followed by lower-case letters and digits only; it fails only because of 32-bit overflow.", "quantifier": "all strings", "why_tests_cant": "Overflow conditions appear only for huge inputs that no test builds.", "anchors": ["unic/idna/punycode/src/lib.rs: encode, value_to_digit"]}
{"id": "C21", "title": "Punycode decoding is total and rejects instead of panicking", "statement": "For every input string decode returns either a string of scalar values or nothing; it never panics, never overflows silently, and never loops.", "quantifier": "all strings", "why_tests_cant": "All strings; overflow and out-of-range positions occur at rare digit combinations.", "anchors": ["unic/idna/punycode/src/lib.rs: decode"]}
{"id": "C22", "title": "Punycode decoding is injective up to letter case of the digits", "statement": "If two inputs whose literal prefixes are ASCII decode to the same string then they are equal up to ASCII case in the part after the last hyphen.", "quantifier": "all pairs of input strings", "why_tests_cant": "A collision would need a specific pair of unrelated inputs.", "anchors": ["unic/idna/punycode/src/lib.rs: decode"]}
{"id": "C23", "title": "A successful to_ascii result is pure ASCII", "statement": "For every domain string and every combination of flags, if to_ascii succeeds the returned string contains only ASCII characters.", "quantifier": "all strings and flag combinations", "why_tests_cant": "All domain strings; depends on the mapping table, normalization, punycode and error accumulation jointly.", "anchors": ["unic/idna/src/process.rs: to_ascii, processing"]}
{"id": "C24", "title": "DNS length verification is enforced on every returned name", "statement": "With verify_dns_length set, if to_ascii succeeds then the returned name has between 1 and 253 characters (not counting one trailing root dot) and every label has between 1 and 63 characters.", "quantifier": "all strings and flag combinations", "why_tests_cant": "All strings; the check is on the output after encoding.", "anchors": ["unic/idna/src/process.rs: to_ascii"]}
{"id": "C25", "title": "Every character has an IDNA mapping", "statement": "Mapping lookup never panics: for every scalar value exactly one mapping entry applies.", "quantifier": "all scalar values", "why_tests_cant": "Exhaustive over 1.1 million characters; a gap in the table means a panic on user-supplied domain names.", "anchors": ["unic/idna/mapping/src/mapping.rs: Mapping::of", "unic/idna/mapping/tables/idna_mapping.rsv"]}
{"id": "C26", "title": "IDNA processing never panics", "statement": "For every domain string and every flag combination to_ascii and to_unicode return (a string or errors) without panicking.", "quantifier": "all strings and flag combinations", "why_tests_cant": "All strings.", "anchors": ["unic/idna/src/process.rs: to_ascii, to_unicode, processing, validate, passes_bidi"]}
{"id": "C27", "title": "Only permitted characters survive IDNA validation", "statement": "If to_unicode reports no error then every label of the result satisfies the validity criteria: it is in NFC, contains no '.'; does not begin with a combining mark; and each of its characters has a mapping status permitted by the flags.", "quantifier": "all strings and flag combinations", "why_tests_cant": "All strings.", "anchors": ["unic/idna/src/process.rs: validate, processing"]}
{"id": "C28", "title": "ASCII letter case never matters for IDNA", "statement": "For every domain string, replacing ASCII upper-case letters by lower-case ones changes neither the to_ascii nor the to_unicode result.", "quantifier": "all strings and flag combinations", "why_tests_cant": "All strings.", "anchors": ["unic/idna/src/process.rs: map_char, processing", "unic/idna/mapping/tables/idna_mapping.rsv"]}
{"id": "C29", "title": "Bidi analysis assigns a class and a level to every byte, uniformly per character", "statement": "For every text and optional default level, the computed class and level arrays have exactly one entry per byte of the text, and all bytes of one character carry the same class and the same level.", "quantifier": "all texts and default levels", "why_tests_cant": "All texts; several passes rewrite the arrays byte by byte.", "anchors": ["unic/bidi/src/bidi_info.rs: InitialInfo::new, BidiInfo::new"]}
{"id": "C30", "title": "Paragraphs partition the text at paragraph separators", "statement": "For every text, the paragraph ranges are non-empty, contiguous, in order, start at 0 and end at the text's length; a paragraph separator occurs only as the last character of a paragraph; every paragraph but the last ends with one.", "quantifier": "all texts", "why_tests_cant": "All texts.", "anchors": ["unic/bidi/src/bidi_info.rs: InitialInfo::new"]}
{"id": "C31", "title": "The paragraph level follows rules P2 and P3", "statement": "Without a default level, each paragraph's level is 1 when its first strong character outside isolates is right-to-left and 0 otherwise; with a default level every paragraph has that level.", "quantifier": "all texts", "why_tests_cant": "Isolate nesting is unbounded.", "anchors": ["unic/bidi/src/bidi_info.rs: InitialInfo::new"]}
{"id": "C32", "title": "Explicit embedding levels follow rules X1 to X8", "statement": "For every paragraph the explicit pass assigns to each character the embedding level and override class given by the directional status stack rules X1-X8 (depth limit 125, overflow counters), stated on characters.", "quantifier": "all class sequences and paragraph levels 0 to 125", "why_tests_cant": "Stack depth, overflow counters and nesting are unbounded histories.", "anchors": ["unic/bidi/src/explicit.rs: compute"]}
{"id": "C33", "title": "Resolved levels stay between the paragraph level and the maximum", "statement": "For every text, every resolved level is at least its paragraph's level and at most 126, and analysis does not panic, for every default level up to 125; if the default level is 126 analysis can panic.", "quantifier": "all texts and default levels", "why_tests_cant": "Level arithmetic is done in u8 with panicking conversions; deep nesting is required to reach the limit.", "anchors": ["unic/bidi/src/level.rs", "unic/bidi/src/implicit.rs: resolve_levels", "unic/bidi/src/explicit.rs: compute", "unic/bidi/src/bidi_info.rs: BidiInfo::new"]}
{"id": "C34", "title": "Purely left-to-right text is left alone", "statement": "If a text has no right-to-left character, number in right-to-left context, or explicit formatting character, then with automatic paragraph direction every level is 0, has_rtl() is false, and reordering any line returns the line unchanged.", "quantifier": "all texts without right-to-left or formatting characters", "why_tests_cant": "All such texts.", "anchors": ["unic/bidi/src/bidi_info.rs: BidiInfo::new, has_rtl, reorder_line"]}
{"id": "C35", "title": "Isolating run sequences partition the paragraph's characters", "statement": "Every position of a paragraph not removed by rule X9 belongs to exactly one isolating run sequence; runs inside a sequence are in text order, have the same level, and are level runs.", "quantifier": "all paragraphs", "why_tests_cant": "Matching of isolates over arbitrary nesting.", "anchors": ["unic/bidi/src/prepare.rs: level_runs, isolating_run_sequences"]}
{"id": "C36", "title": "Reordering a line permutes its characters", "statement": "For every text with one paragraph and every line range of it starting at the beginning of the text, the visual runs are non-empty sub-ranges that cover the line exactly once, and reorder_line returns a permutation of the line's characters.", "quantifier": "all texts and line ranges", "why_tests_cant": "All texts; runs are rebuilt by nested reversal loops.", "anchors": ["unic/bidi/src/bidi_info.rs: visual_runs, reorder_line"]}
{"id": "C37", "title": "Weak types are resolved by rules W1 to W7", "statement": "For every isolating run sequence the weak-type pass gives each character the class prescribed by rules W1-W7.", "quantifier": "all class sequences", "why_tests_cant": "Unbounded context: a rule may look back arbitrarily far for a strong type.", "anchors": ["unic/bidi/src/implicit.rs: resolve_weak"]}
{"id": "C38", "title": "Neutral types are resolved by rules N1 and N2 and implicit levels by I1 and I2", "statement": "After weak resolution every remaining neutral run takes the surrounding direction if both sides agree and the embedding direction otherwise; levels are then raised exactly as rules I1/I2 state.", "quantifier": "all class sequences and levels", "why_tests_cant": "Neutral runs are unbounded.", "anchors": ["unic/bidi/src/implicit.rs: resolve_neutral, resolve_levels"]}
{"id": "C39", "title": "Grapheme iteration splits any string without loss", "statement": "For every string, the extended (and legacy) grapheme clusters produced by forward iteration are non-empty and concatenate to the string; the indices are their byte offsets; backward iteration produces the same clusters in reverse order.", "quantifier": "all strings, both modes", "why_tests_cant": "All strings; boundaries depend on unbounded left context (regional indicators, emoji sequences).", "anchors": ["unic/segment/src/grapheme.rs: Graphemes, GraphemeIndices, GraphemeCursor::next_boundary, prev_boundary"]}
{"id": "C40", "title": "Grapheme boundaries are exactly those of the UAX #29 rules", "statement": "For every string and every character position, there is a cluster boundary there if and only if the first applicable rule GB1-GB999 (Unicode 10) says so.", "quantifier": "all strings, all positions, both modes", "why_tests_cant": "Rules GB10 and GB12/13 look back over unbounded context.", "anchors": ["unic/segment/src/grapheme.rs: check_pair, GraphemeCursor::is_boundary, handle_regional, handle_emoji"]}
{"id": "C41", "title": "Chunked cursor queries give the same answer as whole-string queries", "statement": "For every string, position and way of splitting the string into chunks, a cursor that is fed the chunks it asks for reports the same boundary decision as a cursor given the whole string.", "quantifier": "all strings, positions and chunkings", "why_tests_cant": "The protocol state machine has many resume points; tests cover few chunkings.", "anchors": ["unic/segment/src/grapheme.rs: GraphemeCursor::is_boundary, provide_context, next_boundary, prev_boundary"]}
{"id": "C42", "title": "Word-bound iteration splits any string without loss", "statement": "For every string, forward iteration over word bounds gives non-empty pieces that concatenate to the string, and so does backward iteration; the reported indices are the byte offsets.", "quantifier": "all strings", "why_tests_cant": "The state machine backtracks to saved positions; all strings.", "anchors": ["unic/segment/src/word.rs: WordBounds::next, next_back, WordBoundIndices"]}
{"id": "C43", "title": "Forward word boundaries are those of the UAX #29 rules", "statement": "For every string, the positions between pieces produced by forward iteration are exactly the boundaries given by rules WB1-WB999 (Unicode 10).", "quantifier": "all strings", "why_tests_cant": "Lookahead/lookbehind through ignorable characters is unbounded.", "anchors": ["unic/segment/src/word.rs: WordBounds::next"]}
{"id": "C44", "title": "Forward and backward word iteration agree", "statement": "For every string, collecting the word bounds backwards gives the reverse of collecting them forwards.", "quantifier": "all strings", "why_tests_cant": "Two independent state machines; agreement is a statement about all strings.", "anchors": ["unic/segment/src/word.rs: WordBounds::next, next_back"]}
{"id": "C45", "title": "Command-line writers and parsers round-trip", "statement": "For every string, printing it as code points, UTF-8 hex or UTF-16 hex and parsing the output in the same format gives the string back.", "quantifier": "all strings", "why_tests_cant": "All strings; surrogate pairs, multi-byte sequences, and the empty string.", "anchors": ["apps/cli/src/writers.rs", "apps/cli/src/parsers.rs"]}
{"id": "C46", "title": "A character name's reported length is the length of its printed form", "statement": "For every name value, len() equals the number of bytes its Display writes.", "quantifier": "all name values obtainable from characters, over any name table", "why_tests_cant": "All characters and all piece lists; hex digit counting must agree with hex formatting.", "anchors": ["unic/ucd/name/src/name.rs: Name::len, fmt"]}
{"id": "C47", "title": "Character names are ordered as their printed forms", "statement": "For all two characters with names, comparing the names gives the same result as comparing the printed names as strings.", "quantifier": "all pairs of named characters", "why_tests_cant": "10^10 pairs; tests compare a few.", "anchors": ["unic/ucd/name/src/name.rs: Ord for Name, Display for Name"]}
{"id": "C48", "title": "Age comparison operators are mutually consistent", "statement": "For all two Age values, the total order (cmp) and the partial order (partial_cmp, <, >) agree, and an age is greater exactly when its version is older.", "quantifier": "all pairs of ages", "why_tests_cant": "Requires the law for all pairs; derived and hand-written implementations are mixed.", "anchors": ["unic/ucd/age/src/age.rs: Age, PartialOrd for Age"]}
{"id": "C49", "title": "U+ notation identifies the character", "statement": "For every character, the U+ notation is 'U+' followed by 4 to 6 upper-case hexadecimal digits without superfluous leading zeros beyond four digits, whose value is the code point; distinct characters have distinct notations.", "quantifier": "all characters", "why_tests_cant": "Injectivity over all pairs.", "anchors": ["unic/char/basics/src/notation.rs: unicode_notation"]}
{"id": "C50", "title": "Noncharacter and private-use tests partition the code space as the standard says", "statement": "A character is reported as a noncharacter exactly when it is in U+FDD0..U+FDEF or its last 16 bits are FFFE or FFFF (66 in all), as private use exactly in the three private-use ranges, and never both.", "quantifier": "all scalar values", "why_tests_cant": "1.1 million characters; the claim is an exact characterization.", "anchors": ["unic/char/basics/src/noncharacter.rs", "unic/char/basics/src/private_use.rs"]}
{"id": "C51", "title": "Both builds of the normalization data crate agree on combining marks", "statement": "For every character, the combining-mark test gives the same answer whether or not the optional general-category crate is enabled, and every character with a non-zero combining class is a mark.", "quantifier": "all scalar values, both feature configurations", "why_tests_cant": "A test binary is compiled with one feature configuration only, so no test sees both implementations.", "anchors": ["unic/ucd/normal/src/gen_cat.rs: is_combining_mark (two versions)", "unic/ucd/normal/tables/general_category_mark.rsv", "unic/ucd/category/src/category.rs: is_mark"]}
{"id": "C52", "title": "The advertised alias types of a character are exactly those with aliases", "statement": "For every character and alias type, the character's list of alias types contains the type if and only if looking up aliases of that type gives a non-empty list.", "quantifier": "all scalar values and alias types", "why_tests_cant": "Relates six separately generated tables for every character.", "anchors": ["unic/ucd/name_aliases/src/name_aliases.rs: NameAliasType::of, name_aliases_of"]}
{"id": "C53", "title": "String direction tests report exactly the presence of such characters", "statement": "For every string, has_ltr (has_rtl, has_bidi_explicit) is true exactly when the string contains a left-to-right (right-to-left, explicit formatting) character.", "quantifier": "all strings", "why_tests_cant": "All strings; the repository has no test with text of one direction only for has_ltr.", "anchors": ["unic/ucd/bidi/src/bidi_class.rs: StrBidiClass for str"]}
{"id": "C54", "title": "Character properties are mutually consistent", "statement": "For every character: alphanumeric = alphabetic or numeric; control = general category Cc; numeric = category N*; white space is never alphanumeric; XID_Start is in ID_Start, in ID_Continue, and in XID_Continue, which is in ID_Continue; pattern syntax, pattern white space and identifier characters are disjoint; lower and upper case are disjoint and cased; changes-when-casemapped is the union of the three case changes; emoji sub-properties imply emoji; an assigned character has an age and lies inside its reported block; every general category is in exactly one of the seven major groups, the one the first letter of its abbreviation names, and the cased letters are Lu, Ll and Lt.", "quantifier": "all scalar values", "why_tests_cant": "Relates some twenty independently generated tables at every character; the repository's loops cover only part of these relations.", "anchors": ["unic/ucd/common", "unic/ucd/ident", "unic/ucd/case", "unic/emoji/char", "unic/ucd/age", "unic/ucd/block"]}
{"id": "C55", "title": "Pairwise composition yields exactly the standard's primary composites", "statement": "Two characters compose (outside normalization of whole strings) exactly when they are a Hangul pair, or the canonical decomposition of a starter that is not in the standard's list of composition exclusions and whose decomposition begins with a starter; the result is that character.", "quantifier": "all pairs of characters", "why_tests_cant": "Relates two generated tables and the arithmetic Hangul case at all pairs of characters; an excluded or missing composite is visible only at that pair.", "anchors": ["unic/ucd/normal/src/lib.rs: compose", "unic/ucd/normal/src/composition.rs: canonical_composition", "unic/ucd/hangul/src"]}
{"id": "C56", "title": "The four normalization forms absorb each other as the standard says", "statement": "For every string: a compatibility decomposition is already canonically decomposed; composing after decomposing equals composing; and normalizing canonically first (nfc) does not change the later compatibility form.", "quantifier": "all strings", "why_tests_cant": "Laws between different iterators over all strings.", "anchors": ["unic/normal/src/lib.rs", "unic/normal/src/decompose.rs", "unic/normal/src/recompose.rs"]}
{"id": "C57", "title": "Normalization of a concatenation depends only on the normalized parts", "statement": "For all strings s and t the normal form of s followed by t equals the normal form of the concatenated normal forms, and decomposition may be done separately on both sides of any starter that has no decomposition.", "quantifier": "all pairs of strings", "why_tests_cant": "Incremental normalization is a law on all pairs of strings; marks reorder and compose across the seam.", "anchors": ["unic/normal/src/decompose.rs", "unic/normal/src/recompose.rs"]}
{"id": "C58", "title": "A string is in NFD exactly when it is decomposed and ordered; normal forms are valid text", "statement": "nfd (nfkd) returns a string unchanged if and only if none of its characters has a canonical (compatibility) mapping and its combining marks are in canonical order; every normalization form of valid text consists of Unicode scalar values.", "quantifier": "all strings", "why_tests_cant": "An equivalence over all strings; a table entry that maps a character to itself or to an invalid code point affects a single input.", "anchors": ["unic/normal/src/decompose.rs", "unic/ucd/normal/tables/*.rsv"]}
{"id": "C59", "title": "Punycode decoding accepts exactly the strings of RFC 3492", "statement": "decode accepts an input if and only if it is the RFC 3492 form (digits in either case) of some text and the decoder's running sums fit in 32 bits, and then returns that text.", "quantifier": "all input strings", "why_tests_cant": "An equivalence with an independent definition over all inputs; tests only cover well-formed samples.", "anchors": ["unic/idna/punycode/src/lib.rs: decode"]}
{"id": "C60", "title": "Punycode encoding computes the unique RFC 3492 form", "statement": "Every text has exactly one RFC 3492 form; encode returns it whenever its deltas fit in 32 bits and fails otherwise; different texts have different forms.", "quantifier": "all texts of fewer than 2^32 characters", "why_tests_cant": "Exactness for all texts, including the overflow boundary at lengths no test reaches.", "anchors": ["unic/idna/punycode/src/lib.rs: encode, adapt, value_to_digit"]}
{"id": "C61", "title": "Right-to-left names obey the Bidi rule", "statement": "If to_unicode reports no error and the resulting name contains a right-to-left character (class R, AL or AN), then every non-empty label of the name satisfies the Bidi rule of RFC 5893.", "quantifier": "all strings and flag combinations", "why_tests_cant": "All strings; depends on when the Bidi check is switched on, across mapping, normalization and Punycode decoding.", "anchors": ["unic/idna/src/process.rs: processing, passes_bidi"]}
{"id": "C62", "title": "IDNA conversion is stable", "statement": "If to_ascii turns a name into a, then to_ascii of a is a again and to_unicode of a gives the same text as to_unicode of the original name; to_unicode of its own error-free output returns it unchanged.", "quantifier": "all strings and flag combinations", "why_tests_cant": "All strings; composition of mapping, normalization, Punycode in both directions and validation.", "anchors": ["unic/idna/src/process.rs: to_ascii, to_unicode"]}
{"id": "C63", "title": "What to_unicode accepts, to_ascii converts", "statement": "If to_unicode reports no error for a name then to_ascii without transitional processing and without length verification succeeds (for labels short enough that Punycode cannot overflow).", "quantifier": "all strings and flag combinations", "why_tests_cant": "All strings.", "anchors": ["unic/idna/src/process.rs: to_ascii, to_unicode"]}
{"id": "C64", "title": "Error-free processing is exactly UTS #46", "statement": "to_unicode succeeds with a result u exactly if the steps of UTS #46 section 4 (map, normalize, break, convert and validate each label, Bidi rule for Bidi domain names) yield the labels of u without error; to_ascii succeeds exactly if they do and each non-ASCII label can be encoded.", "quantifier": "all strings and flag combinations", "why_tests_cant": "All strings; conformance tests sample only (and the repository's IDNA conformance test returns at the first skipped line).", "anchors": ["unic/idna/src/process.rs: processing, validate, map_char"]}
{"id": "C65", "title": "Escaped output is a literal for the text", "statement": "For every text each of the three escaping writers prints a double-quoted literal which, read with the usual backslash escapes, denotes exactly that text; no two texts share an escaped form; the non-ASCII-escaping and all-escaping forms are pure ASCII.", "quantifier": "all strings, and any choice of which characters Rust prints literally", "why_tests_cant": "All strings; quotes, backslashes, controls and supplementary characters in any combination.", "anchors": ["apps/cli/src/writers.rs: write_with_control_n_unicode_braces_escape, write_with_control_braces_escape, write_with_all_braces_escape"]}
{"id": "C66", "title": "Derived character names follow the standard's rules and are unique", "statement": "Every Hangul syllable's name is HANGUL SYLLABLE followed by the short names of its jamos, every ideograph's name is its prefix followed by 4 to 6 upper-case hexadecimal digits of its code point, and no two characters with derived names have the same printed name.", "quantifier": "all characters with derived names, over any table of listed names", "why_tests_cant": "About 100,000 characters; uniqueness is a statement about all pairs.", "anchors": ["unic/ucd/name/src/name.rs: Name::of, Display for Name", "unic/ucd/name/tables/jamo.rsv"]}
{"id": "C67", "title": "Comparing names is a total order", "statement": "On the names of characters cmp never panics, is antisymmetric and transitive, and reports equality exactly for equal names.", "quantifier": "all triples of named characters, over any table of listed names whose pieces contain no spaces", "why_tests_cant": "Laws about all triples across three kinds of names compared by different rules.", "anchors": ["unic/ucd/name/src/name.rs: Ord for Name"]}
{"id": "C68", "title": "First strong isolates are resolved by rule X5c", "statement": "For every text, the original class recorded for an FSI is RLI if the first strong character between it and its matching PDI (or the paragraph end), outside nested isolates, is R or AL, LRI if it is L, and FSI (treated like LRI) if there is none; all other characters keep their Bidi_Class.", "quantifier": "all texts and default levels", "why_tests_cant": "All texts; nested and unclosed isolates, and FSIs resolved long after they were read.", "anchors": ["unic/bidi/src/bidi_info.rs: initial_bidi_classes_paragraphs"]}
{"id": "C69", "title": "Line reordering follows rules L1 and L2", "statement": "For every text and line, the levels used for a line are the resolved levels with separators and trailing whitespace and isolates reset to the paragraph level (L1), and reorder_line returns the characters after reversing, from the highest level to the lowest odd one, every maximal run at that level or higher (L2).", "quantifier": "all texts and line ranges", "why_tests_cant": "All texts and lines; interaction of line offsets, resets and nested reversals.", "anchors": ["unic/bidi/src/bidi_info.rs: visual_runs, reordered_levels, reorder_line"]}
{"id": "C70", "title": "Resolved levels are those of UAX #9", "statement": "For every text, every paragraph's levels are those given by applying rules X1-X8, isolating run sequences, X10, W1-W7, N1-N2 and I1-I2 in order.", "quantifier": "all texts and default levels up to 125", "why_tests_cant": "End-to-end equality with an independent definition over all texts; conformance files sample short class sequences only.", "anchors": ["unic/bidi/src/bidi_info.rs: BidiInfo::new", "unic/bidi/src/explicit.rs", "unic/bidi/src/prepare.rs", "unic/bidi/src/implicit.rs"]}
{"id": "C71", "title": "Exactly the graphic and format characters have names", "statement": "Name::of returns a name for a character exactly if its general category is none of unassigned, control, surrogate and private use.", "quantifier": "all code points", "why_tests_cant": "Relates two independently generated tables and thirteen hand-written ranges at every code point; a unit test checks a handful.", "anchors": ["unic/ucd/name/src/name.rs: Name::of", "unic/ucd/name/tables/name_map.rsv", "unic/ucd/category/tables/general_category.rsv"]}
{"id": "C72", "title": "A printed name identifies its character and is a well-formed name", "statement": "No two characters have the same printed name, listed or derived; every printed name consists of capital letters, digits, single spaces and single hyphens, starts with a letter, ends with a letter or digit, and has no digit after a space and no hyphen between spaces (Unicode Standard section 4.8).", "quantifier": "all characters and all pairs of characters", "why_tests_cant": "Uniqueness is a statement about all pairs of some 130,000 characters; listed and derived names are built by different code.", "anchors": ["unic/ucd/name/src/name.rs: Name::of, Display for Name", "unic/ucd/name/tables/name_map.rsv", "unic/ucd/name/tables/name_values.rsd"]}
{"id": "C73", "title": "Text without right-to-left levels needs no reordering", "statement": "has_rtl tells exactly whether some position of the text has an odd resolved level, and if it is false every line is displayed as it is stored, so that reordering may be skipped.", "quantifier": "all texts, default levels and line ranges", "why_tests_cant": "A claim about all texts: a unit test samples texts, but the shortcut is taken on every text for which has_rtl is false.", "anchors": ["unic/bidi/src/level.rs: has_rtl", "unic/bidi/src/bidi_info.rs: BidiInfo::has_rtl, reorder_line, visual_runs"]}
{"id": "C74", "title": "Levels stay in range and step exactly", "statement": "Levels are created exactly for numbers up to 126 (explicit: 125); raise, raise_explicit and lower give the exact sum or difference or fail, never wrapping around; the next left-to-right, next right-to-left and lowest right-to-left-or-equal levels are the least even or odd numbers asked for, or fail exactly if that number is too large; an odd level is right-to-left, an even one left-to-right.", "quantifier": "all levels and amounts", "why_tests_cant": "Bit operations and overflow at every level and amount; the unit tests list a few.", "anchors": ["unic/bidi/src/level.rs: Level::new, new_explicit, raise, raise_explicit, lower, new_explicit_next_ltr, new_explicit_next_rtl, new_lowest_ge_rtl, bidi_class, is_ltr, is_rtl"]}
{"id": "C75", "title": "Generated property sets are what the data files say", "statement": "For every PropList.txt, DerivedCoreProperties.txt or emoji-data.txt and every property named in it, the table the generator prints for that property contains a character exactly if some line of the file gives it the property, for any comments and spacing; generation does not panic.", "quantifier": "all files of the documented format, all characters", "why_tests_cant": "All possible files of the format (every future Unicode version); the generator has no tests, and a misread line changes answers for single characters.", "anchors": ["gen/src/source/ucd/mod.rs: BINARY_PROPERTIES_REGEX", "gen/src/source/ucd/prop_list.rs", "gen/src/source/ucd/derived_core_properties.rs", "gen/src/source/emoji/emoji_data.rs", "gen/src/writer/utils/tables"]}
{"id": "C76", "title": "Generated value tables are what the data files say", "statement": "For every break property file (Word, Sentence, Grapheme), DerivedAge.txt or Blocks.txt the printed table gives every character the value of the last line that covers it, and no value if there is none.", "quantifier": "all files of the documented format, all characters", "why_tests_cant": "All possible files of the format; overlapping and adjacent ranges, ranges over surrogates.", "anchors": ["gen/src/source/ucd/word_break_property.rs", "gen/src/source/ucd/grapheme_break_property.rs", "gen/src/source/ucd/sentence_break_property.rs", "gen/src/source/ucd/derived_age.rs", "gen/src/source/ucd/blocks.rs", "gen/src/writer/ucd/segment.rs"]}
{"id": "C77", "title": "Tables generated from UnicodeData.txt say what the file says", "statement": "For every UnicodeData.txt (including First/Last ranges, surrogate ranges and optional fields) the printed tables give every character the general category, combining class, mark, numeric, control and mirrored answers of the line that covers it; a character is alphanumeric exactly if it is numeric or Alphabetic in DerivedCoreProperties.txt; reading does not panic.", "quantifier": "all files of the documented format, all characters", "why_tests_cant": "All possible files of the format; one misread field or range changes answers for single characters or whole blocks, and the generator has no tests.", "anchors": ["gen/src/source/ucd/unicode_data.rs", "gen/src/writer/ucd/category.rs", "gen/src/writer/ucd/common.rs", "gen/src/writer/ucd/normal.rs", "gen/src/writer/ucd/bidi.rs"]}
{"id": "C78", "title": "Generated decomposition and composition tables are inverse up to exclusions", "statement": "For every UnicodeData.txt and DerivedNormalizationProps.txt the canonical and compatibility tables give exactly the mappings of the file (untagged and tagged), and looking up a, then b, in the composition table gives c exactly if c decomposes canonically to a, b and is not a Full_Composition_Exclusion.", "quantifier": "all files of the documented format whose canonical mappings have one or two characters and are distinct, all pairs of characters", "why_tests_cant": "An equivalence for all pairs of characters over all files; grouping by the first character, sorting by the second and excluding happen in separate steps.", "anchors": ["gen/src/writer/ucd/normal.rs: emit_canonical_decomposition_mapping, emit_canonical_composition_mapping, emit_compatibility_decomposition_mapping", "gen/src/source/ucd/derived_normalization_props.rs"]}
{"id": "C79", "title": "Generated Bidi classes include the defaults of unlisted characters", "statement": "The printed table gives every listed character its Bidi class, and every unlisted one the default documented in DerivedBidiClass.txt (AL, R or ET in certain blocks, BN for noncharacters, otherwise L).", "quantifier": "all files of the documented format, all characters", "why_tests_cant": "Concerns characters that no line of the data mentions; a test over listed characters never sees them.", "anchors": ["gen/src/writer/ucd/bidi.rs: BIDI_CLASS_DEFAULTS, emit_bidi_class", "unic/ucd/bidi/src/bidi_class.rs: BidiClass::of"]}
{"id": "C80", "title": "Generated name tables spell the names", "statement": "For every UnicodeData.txt the generated constants have distinct identifiers made of capital letters, digits and underscores; for every character with a name the listed constants, joined by spaces, spell exactly that name; characters with labels in angle brackets and unlisted ones have no entry.", "quantifier": "all files of the documented format, all characters", "why_tests_cant": "All possible names: replacing hyphens could make two pieces share one identifier; tests look at single names.", "anchors": ["gen/src/writer/ucd/name.rs: emit_name_tables"]}
{"id": "C81", "title": "The generated IDNA table says what IdnaMappingTable.txt says", "statement": "For every IdnaMappingTable.txt the printed table gives every character the status of the last line that covers it, with that line's mapping (possibly empty) exactly for the statuses mapped, deviation and disallowed_STD3_mapped, and no entry to characters no line covers; reading does not panic.", "quantifier": "all files of the documented format, all characters", "why_tests_cant": "All possible files of the format: optional mapping and IDNA2008 fields, ranges including one-character and surrogate ranges; the generator has no tests.", "anchors": ["gen/src/source/idna/idna_mapping_table.rs", "gen/src/writer/idna/mapping.rs"]}
{"id": "C82", "title": "Generated jamo and alias tables say what their files say", "statement": "For every Jamo.txt the table gives each listed character its short name (possibly empty); for every NameAliases.txt the table of each type gives a character its different aliases of that type in the order of the file, the table of types gives its different types in order of first appearance, and the two agree: a type is listed for a character exactly if it has an alias of that type.", "quantifier": "all files of the documented format, all characters", "why_tests_cant": "All possible files; repeated aliases and types, and agreement between six separately built tables.", "anchors": ["gen/src/source/ucd/jamo.rs", "gen/src/source/ucd/name_aliases.rs", "gen/src/writer/ucd/name.rs: emit_jamo_tables", "gen/src/writer/ucd/name_aliases.rs"]}
{"id": "C83", "title": "Normalization tests are read exactly", "statement": "For every NormalizationTest.txt the tests read are the five columns of its data lines, in order, none lost and none added.", "quantifier": "all files of the documented format", "why_tests_cant": "A test that is silently dropped by the reader never fails, so no test run can reveal it.", "anchors": ["gen/src/source/ucd/test/normalization_test.rs"]}
{"id": "C84", "title": "The version in the ReadMe is the version of the tables", "statement": "The version read is the first one announced in the ReadMe.txt of the data, and a version is read only where one is written.", "quantifier": "all texts", "why_tests_cant": "All texts; the expression is unanchored and its dots are unescaped.", "anchors": ["gen/src/source/common/unicode_version.rs", "gen/src/source/emoji/readme.rs"]}
{"id": "C85", "title": "Segmentation tests are divided where the test files say", "statement": "Every word and grapheme cluster test written for the library divides its text exactly at the places marked in the Unicode test file; legacy clusters are in addition divided where only a rule for extended clusters (9.1, 9.2) forbids it.", "quantifier": "all test files", "why_tests_cant": "The tests are generated: an error in dividing them would make the library's test suite check the wrong thing.", "anchors": ["gen/src/writer/segment/segment_tests.rs", "gen/src/source/ucd/test/grapheme_break_test.rs", "gen/src/source/ucd/test/word_break_test.rs"]}
{"id": "C86", "title": "unic-echo converts between its formats exactly", "statement": "Whatever text the arguments stand for in the input format asked for (code points or UTF-8 or UTF-16 units in hexadecimal, in either case, with or without prefix, with one separator between), unic-echo shows exactly that text in the output format asked for; output in an interchange format given back to it, divided into arguments at spaces in any way, yields what the text itself yields; format names are recognised in any case and with any hyphens, never another way and never ambiguously; and two separators in a row end the program with a panic.", "quantifier": "all texts, divisions into arguments, spellings of the formats", "why_tests_cant": "All texts in 5 x 14 combinations of formats; the program has no tests.", "anchors": ["apps/cli/src/bin/unic-echo.rs: run", "apps/cli/src/clap_macros.rs: from_str", "apps/cli/src/parsers.rs", "apps/cli/src/writers.rs"]}
{"id": "C87", "title": "unic-inspector describes every character", "statement": "unic-inspector ends without a panic for every text and gives one row per character, in order, with the character, its code point in at least four hexadecimal digits, its name or else its first abbreviation or else <none>, and its general category; the name column identifies the character unless it is <none>, which appears exactly for unassigned and private-use characters.", "quantifier": "all texts", "why_tests_cant": "Depends on three tables at every code point; abbrs[0] would panic on an empty list.", "anchors": ["apps/cli/src/bin/unic-inspector.rs: main"]}
{"id": "C88", "title": "Generated Rust text is the table it was printed from", "statement": "For every table, read as Rust source, the text printed for it (with the header of the file) is exactly one expression: the table with the same entries in the same order, whose lookup gives every character the value the table gives it. The same holds for the printed constants, versions and tests, for values that are Rust identifiers, texts without quotation marks, backslashes and carriage returns, numbers, characters and mappings.", "quantifier": "all tables, constants and tests", "why_tests_cant": "All tables; a missing comma, escape or bracket shows only for the values that need it, and a wrong literal compiles.", "anchors": ["gen/src/writer/utils/tables/range.rs", "gen/src/writer/utils/tables/direct.rs", "gen/src/writer/utils/tables/set.rs", "gen/src/writer/utils/mod.rs: write, capitalize", "gen/src/writer/ucd", "gen/src/writer/idna/mapping.rs", "gen/src/writer/common/mod.rs"]}
{"id": "C89", "title": "Generated files say what the data files say", "statement": "For every data file of the documented format the generated file is exactly one Rust expression, and the table (or list of tests, or version) it denotes gives every character exactly what the data file says: sets, break values, ages, blocks, categories, Bidi classes, combining classes, decompositions, compositions, names, jamo names, aliases, IDNA mappings, tests and versions.", "quantifier": "all files of the documented formats, all characters", "why_tests_cant": "The whole path from data to compiled table for all files; no test of the repository runs the generator.", "anchors": ["gen/src/source", "gen/src/writer"]}
{"id": "C90", "title": "Text and errors of names that IDNA does not accept", "statement": "When to_unicode reports errors, the text returned with them is still determined: disallowed characters stay, labels are converted, only a label that cannot be decoded becomes empty; it does not depend on the flags. An error of each kind is reported, by to_unicode and to_ascii, exactly if the name has the fault it stands for. The text is the one UTS #46 prescribes.", "quantifier": "all names, all flags", "why_tests_cant": "Faulty names are the ones tests check only for being rejected; the text and the exact set of reasons is a statement about all of them.", "anchors": ["unic/idna/src/process.rs:22-51", "unic/idna/src/process.rs:163-276", "unic/idna/src/process.rs:301-374"]}
{"id": "C91", "title": "Normalization keeps identifiers identifiers", "statement": "A string that is an identifier by XID_Start and XID_Continue is one after each of the four normalization forms; canonically equivalent strings are identifiers together or not at all, both for XID and for ID.", "quantifier": "all strings", "why_tests_cant": "Closure under reordering and composition is a statement about all strings over two independently generated groups of tables in different crates (unic-ucd-ident and unic-normal).", "anchors": ["unic/ucd/ident/src/xid.rs", "unic/ucd/ident/src/id.rs", "unic/normal/src/lib.rs:72-117"]}
{"id": "C92", "title": "Blocks partition, ages are exact", "statement": "Iterating the blocks yields disjoint ranges in order, of whole columns of sixteen, with names unique even under loose matching; Block::of(c) is the yielded block that contains c, and None if there is none. A character has an age exactly if it is assigned or a noncharacter; ages have no update number and lie between 1.1 and the version of the data.", "quantifier": "all characters, all blocks", "why_tests_cant": "Uniqueness and disjointness concern all pairs, exactness all 1,112,064 characters; the claims are made in the documentation of Block and Age.", "anchors": ["unic/ucd/block/src/block.rs", "unic/ucd/age/src/age.rs:18-78"]}
{"id": "C93", "title": "The normalization iterators are honest iterators", "statement": "Any number of calls of next on nfd, nfkd, nfc or nfkc gives the characters of the normalized text in order and then None for ever; at every moment size_hint promises no more characters than are left, and Display shows exactly what is left without advancing the iterator.", "quantifier": "all texts, any number of calls, any underlying iterator with an honest size_hint", "why_tests_cant": "The state after any number of calls on any text; a wrong lower bound or a revived iterator shows only at particular moments.", "anchors": ["unic/normal/src/decompose.rs:75-147", "unic/normal/src/recompose.rs:58-145"]}
{"id": "C94", "title": "Grapheme clusters restart at every cluster boundary", "statement": "The clusters of a text cut between two of its clusters are the clusters of the two parts, so a cluster alone is one cluster; the clusters of two texts put together are those of the first followed by those of the second exactly if UAX #29 has a boundary where they meet.", "quantifier": "all texts, extended and legacy", "why_tests_cant": "All texts and cuts: the rules for flags and emoji look back arbitrarily far, so that editing or streaming at a cluster boundary is safe is a statement about all contexts.", "anchors": ["unic/segment/src/grapheme.rs: GraphemeIndices, GraphemeCursor"]}
{"id": "C95", "title": "Words restart at every word boundary", "statement": "The pieces of a text cut between two of its pieces are the pieces of the two parts, so a piece alone is one piece; both for iteration from the front and for iteration from the back, on every text.", "quantifier": "all texts, both directions", "why_tests_cant": "All texts and cuts: the iterators look ahead and back over any number of ignored characters and regional indicators and cache a class between calls.", "anchors": ["unic/segment/src/word.rs: WordBoundIndices::next, next_back"]}
{"id": "C96", "title": "Paragraphs do not affect each other", "statement": "BidiInfo::new of a text gives every paragraph the classes, levels and paragraph level it has when analysed alone, and panics exactly if it does so for some paragraph alone; a text put after a paragraph separator leaves the analysis before it unchanged.", "quantifier": "all texts and default levels", "why_tests_cant": "All texts: isolates and embeddings may be left open and the vectors are shared between paragraphs, so independence is about all contexts of a paragraph.", "anchors": ["unic/bidi/src/bidi_info.rs: InitialInfo::new, BidiInfo::new"]}
{"id": "C97", "title": "The parts of a domain name are processed independently", "statement": "Cutting a domain name at any of the four full stops of UTS #46, to_unicode gives the texts of the two parts joined by a full stop, every error of a part, and no other error except ValidityCriteria from the Bidi rule of the other part; to_ascii without DNS lengths accepts a name only if it accepts both parts, and conversely if the Bidi rule applies to both parts or to neither, with the results joined.", "quantifier": "all names, cuts and flags", "why_tests_cant": "All names: mapping, normalization and the Bidi decision run over the whole name, so that nothing leaks across a full stop is a statement about all neighbours.", "anchors": ["unic/idna/src/process.rs: processing, to_ascii, to_unicode"]}
{"id": "C98", "title": "Printed values are unambiguous", "statement": "For the six enumerated properties all_values lists every value once, printing (Display) gives different texts for different values whatever the case of letters, and a printed text is never parsed as another value; a printed text is made of letters, spaces, hyphens, slashes and parentheses; the printed value and both names of a binary property value parse as that value, and what is printed is the long name; combining classes, levels and Unicode versions print as plain decimal numbers from which the value can be read back, a level equals exactly the text of its number and the text x, Level::vec keeps the numbers up to 126 and panics on others; a BidiInfo prints the number of its paragraphs and its highest level.", "quantifier": "all values, all texts", "why_tests_cant": "Distinctness is about all pairs of values and any letter case; the human names are hand-written and no test prints or parses them.", "anchors": ["unic/char/property/src/macros.rs:150-176, 249-251, 286-292", "unic/char/property/src/range_types.rs:44-77", "unic/common/src/version.rs:36-40", "unic/ucd/normal/src/canonical_combining_class.rs:120-124", "unic/bidi/src/level.rs:198-240", "unic/bidi/src/bidi_info.rs:402-411"]}
{"id": "C99", "title": "A text may be normalized piece by piece", "statement": "The normal forms NFD, NFKD, NFC and NFKC of a text are the forms of its extended grapheme clusters one after the other, of its legacy grapheme clusters one after the other, and of its words one after the other.", "quantifier": "all texts", "why_tests_cant": "Joins two independently generated groups of tables (segmentation and normalization) over all texts: reordering and composition look back arbitrarily far, so that nothing crosses any boundary is a statement about all contexts.", "anchors": ["unic/segment/src/grapheme.rs: Graphemes, GraphemeIndices", "unic/segment/src/word.rs: WordBoundIndices::next", "unic/normal/src/lib.rs:72-117"]}
{"id": "C100", "title": "Canonically equivalent texts have equivalent clusters", "statement": "Two texts with the same NFD have equally many grapheme clusters, and the clusters are pairwise canonically equivalent; the clusters of NFD or NFC of a text are the NFD or NFC forms of its clusters.", "quantifier": "all texts, extended and legacy", "why_tests_cant": "UAX #29 promises this for all texts; it joins the tables and rules of two crates, and holds or fails for combinations of characters no test lists.", "anchors": ["unic/segment/src/grapheme.rs: GraphemeIndices, GraphemeCursor", "unic/normal/src/lib.rs:72-117", "unic/ucd/segment/src/grapheme_cluster_break.rs"]}
{"id": "C101", "title": "Canonically equivalent texts have equivalent words", "statement": "Two texts with the same NFD have equally many words (pieces between word boundaries), pairwise canonically equivalent; the words of NFD or NFC of a text are the NFD or NFC forms of its words; and the same holds for the words picked by a filter that does not distinguish canonically equivalent strings.", "quantifier": "all texts", "why_tests_cant": "A claim about all texts and all spellings: tokenizing and normalizing may be done in either order; the iterator looks ahead over any number of ignored characters, which normalization inserts, removes and reorders.", "anchors": ["unic/segment/src/word.rs: WordBoundIndices::next, Words", "unic/normal/src/lib.rs:72-117", "unic/ucd/segment/src/word_break.rs"]}
{"id": "C102", "title": "Canonically equivalent texts have the same paragraphs and directions", "statement": "Two texts with the same NFD have equally many bidi paragraphs, pairwise canonically equivalent and of the same level, for every default level; has_rtl and has_bidi_explicit give the same answer; and the characters get the same resolved levels.", "quantifier": "all texts and default levels", "why_tests_cant": "All texts and all spellings; joins the Bidi_Class table with the decomposition and combining class tables, and the isolates that P2 skips may be arbitrarily deep.", "anchors": ["unic/bidi/src/bidi_info.rs: InitialInfo::new, BidiInfo::new", "unic/ucd/bidi/src/bidi_class.rs:359-374", "unic/normal/src/lib.rs:72-117"]}
{"id": "C103", "title": "Canonically equivalent domain names have the same result", "statement": "Two names with the same NFD give the same text and the same errors from to_unicode, and the same answer from to_ascii, with every combination of options; in particular a name may be brought into NFC or NFD first.", "quantifier": "all pairs of canonically equivalent names, all options, builds with and without overflow checks", "why_tests_cant": "Quantifies over all pairs of spellings of all names: the mapping table (7616 ranges), the decomposition tables and the reordering of combining characters have to agree on every character and every order.", "anchors": ["unic/idna/src/process.rs:22-51, 215-276, 319-374", "unic/idna/mapping/tables/idna_mapping.rsv", "unic/normal/src/decompose.rs:18-132"]}
{"id": "C104", "title": "Words consist of whole grapheme clusters", "statement": "Cutting a text into words (UAX #29, WordBoundIndices) and each word into grapheme clusters gives the grapheme clusters of the text: no word boundary falls inside a cluster, and a word can be edited cluster by cluster without its context. Every boundary the forward word iterator reports is one of the rules.", "quantifier": "all texts, legacy and extended clusters, forward and backward iteration of words", "why_tests_cant": "Compares two independent state machines and two property tables on all texts; flags make both look back over any distance.", "anchors": ["unic/segment/src/word.rs:109-420", "unic/segment/src/grapheme.rs:23-560", "unic/ucd/segment/tables/*.rsv"]}
{"id": "C105", "title": "Paragraphs consist of whole clusters and words", "statement": "Cutting a text into bidi paragraphs and each paragraph into grapheme clusters (or words) gives the clusters (words) of the text, so that the three iterators may be nested in either order.", "quantifier": "all texts, legacy and extended clusters, both directions of word iteration", "why_tests_cant": "Compares three algorithms and three property tables on all texts.", "anchors": ["unic/bidi/src/bidi_info.rs: InitialInfo::new", "unic/segment/src/word.rs:109-420", "unic/segment/src/grapheme.rs:23-560"]}
{"id": "C106", "title": "Compatibility equivalent domain names have the same result", "statement": "Two names with the same NFKD (fullwidth letters, ligatures, mathematical letters, circled digits and so on against the plain characters) are both accepted or both rejected by to_unicode and to_ascii, and if accepted give the same name, with every combination of options; in particular a name may be brought into NFKC or NFKD first.", "quantifier": "all pairs of compatibility equivalent names, all options, builds with and without overflow checks", "why_tests_cant": "Quantifies over all pairs of spellings of all names: the mapping table (7616 ranges), both decomposition tables, the Bidi classes and the reordering of combining characters have to agree on every character and every order.", "anchors": ["unic/idna/src/process.rs:22-51, 215-276, 319-374", "unic/idna/mapping/tables/idna_mapping.rsv", "unic/normal/src/decompose.rs:18-132", "unic/ucd/normal/tables/compatibility_decomposition_mapping.rsv"]}
{"id": "C107", "title": "Derived properties follow their definitions", "statement": "For every character: Cased, Case_Ignorable, ID_Start, ID_Continue, White_Space, Pattern_White_Space, Bidi_Control and Emoji_Component are what their definitions in the standard compute from the other properties the crates report; only uppercase or titlecase characters change when lowercased and only lowercase or titlecase ones when uppercased; letters are Alphabetic and nothing but letters, letter numbers, marks and symbols is; the break classes for marks, emoji, flags, case, white space and Hangul agree across the cluster, word and sentence tables and with the categories and emoji properties they stand for; nonspacing marks are NSM except three; mirrored characters are neutral.", "quantifier": "all characters", "why_tests_cant": "1,112,064 characters, and each claim joins two to four separately generated tables of different crates; the tests look at a few characters of one table.", "anchors": ["unic/ucd/case/src", "unic/ucd/common/src/alphabetic.rs", "unic/ucd/common/src/white_space.rs", "unic/ucd/ident/src", "unic/ucd/bidi/src", "unic/ucd/segment/src", "unic/emoji/char/src", "unic/ucd/normal/src/canonical_combining_class.rs"]}
{"id": "C108", "title": "The kinds of characters in a text do not depend on its spelling", "statement": "Two texts with the same NFD, and a text and its NFC or NFD, have alike some character with a given binary property of the crates, or none; and alike only characters with it, or not.", "quantifier": "all pairs of canonically equivalent texts, all binary properties", "why_tests_cant": "Quantifies over all spellings of all texts, and joins twenty-eight tables with the decomposition tables.", "anchors": ["unic/ucd/common/src", "unic/ucd/case/src", "unic/ucd/ident/src", "unic/ucd/bidi/src", "unic/emoji/char/src", "unic/normal/src/lib.rs:72-117"]}
{"id": "C109", "title": "Accepted domain names are normalized, folded and free of hidden characters", "statement": "If to_unicode accepts a name, the name it gives is in NFKC, and each of its characters is assigned, not private use, not a directional control, a format character only if it is one of the two joiners, unchanged by case folding except sharp s and final sigma, and no control or space except ASCII ones without the STD3 rules. With the STD3 rules the ASCII characters are small letters, digits, hyphens and full stops, and so is everything in a name accepted by to_ascii.", "quantifier": "all names, all options, builds with and without overflow checks", "why_tests_cant": "All names including Punycode labels, which bypass the mapping; joins the mapping table with six tables of other crates. A single overlooked character would allow two names that look alike.", "anchors": ["unic/idna/src/process.rs", "unic/idna/mapping/src/mapping.rs", "unic/idna/punycode/src/lib.rs"]}
{"id": "C110", "title": "Normalization makes a text longer or shorter only by known factors", "statement": "Counted in characters, UTF-8 bytes and UTF-16 code units: NFD is at most 4, 3 and 4 times the text, NFKD and NFKC at most 18, 11 and 18 times, NFC at most 3 times in every measure; the composed forms are never longer than the decomposed ones; NFD and NFKD have at least as many characters as the text, NFD at least a third of the bytes and NFKD a quarter, both half of the code units; NFC and NFKC have at least a quarter of the characters, NFC at least two sevenths of the bytes and NFKC a quarter, NFC at least a quarter of the code units and NFKC a fifth. No factor can be improved.", "quantifier": "all texts of any length, all three measures, all four forms", "why_tests_cant": "The factors are about all texts, including those in which the marks of several characters are reordered and composed differently; checking each character by itself does not settle this for NFC, where a character may compose by itself and not in its context.", "anchors": ["unic/normal/src/decompose.rs", "unic/normal/src/recompose.rs", "unic/ucd/normal/src/decomposition.rs", "unic/ucd/normal/src/composition.rs"]}
{"id": "C111", "title": "Encoded names are not shorter than what they encode", "statement": "Whatever Punycode decoding accepts, the decoded text has at most as many characters as the input, and fewer if the input has a delimiter that is not its first character. Encoding takes one character for each ASCII character, one for the delimiter if there are any, and between one and ten for each other character; ten occur. The Unicode form of an accepted domain name has at most as many characters as its ASCII form, so with verified lengths at most 254 with the final full stop, at most 63 in a label and at most 59 in a label that is not ASCII. An ASCII name never becomes longer by to_unicode.", "quantifier": "all Punycode inputs; all texts of up to 2^32-1 characters; all names (for to_ascii of up to 13256071 characters)", "why_tests_cant": "A longer result would appear only for particular inputs; the bound of ten digits depends on the bias left by all earlier characters and is reached only by texts of thousands of characters.", "anchors": ["unic/idna/punycode/src/lib.rs:73-149", "unic/idna/punycode/src/lib.rs:164-233", "unic/idna/src/process.rs"]}

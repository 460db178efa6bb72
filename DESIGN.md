# Formal model of rust-unic: design

## What this is

A Rocq (Coq 8.16.1) model of the algorithmic parts of `open-i18n/rust-unic`
(source at `/repo`), with machine-checked theorems for the properties listed in
`properties.jsonl`. The claim-to-theorem map is `MANIFEST.json`.

## Conventions

* A Rust `char` is an `N` satisfying `scalar` (`< 0xD800` or `0xE000..0x10FFFF`).
  A Rust `&str`/`String` is a `list N` of scalars (its `chars()`); where byte
  offsets are observable they are computed with `utf8_len`.
* Fixed width integers (`u8`, `u32`, `usize`) are `N`; where the code can
  overflow, the model either performs the checked operation or returns an
  explicit panic value. `usize` is taken to be unbounded (text longer than the
  address space does not exist).
* `Option`/`Result` stay data. A panic is an explicit value (`Panic`), never an
  arbitrary default. `&mut` parameters become returned values.
* Loops become structural recursion, or recursion on explicit fuel with a
  visible out-of-fuel value that the theorems exclude.
* Every model definition carries a comment citing file and lines in `/repo` and
  saying what is simplified.
* Layout: `theories/<Area>Model.v` (transcription), `<Area>Spec.v` (independent
  specification), `<Area>Proofs.v`, `<Area>Lemmas.v` and other files (lemmas),
  `<Area>Props.v` (the property theorems, each closed by `exact`, an `Example`
  beside each, `Print Assumptions` beneath).
* Data tables (`*.rsv`) are translated mechanically by `tools/gen_tables.py`
  into `theories/Tables*.v`; the generated files are committed.

## Trusted base

* The Coq kernel (including `vm_compute`).
* `Print Assumptions` of every property theorem: see the end of this file. (A check of the
  loaded libraries also lists seven constants of `Coq.ssr.ssrunder`; they come with loading the
  standard library's `lia`/`ssr` support and no theorem uses them.)
* The transcription of Rust into Gallina by hand (comments cite lines), the
  table translation script, and the stated contracts of the Rust standard
  library functions used (`slice::binary_search_by`, `slice::sort_by`,
  `str::split`, `char::from_u32`, UTF-8/16 encoding, `{:X}` formatting ...),
  which are modelled by their documented behaviour.

## What is modelled and what is not

Modelled (the comments of the `*Model.v` files cite the lines):
`unic/char/range` (`range.rs`, `iter.rs`, `step.rs`, the splitting of `par_iter.rs`),
`unic/char/property` (`tables.rs`, `FromStr`, `Display` and names of `macros.rs`, `range_types.rs`), `unic/char/basics`,
`unic/common/version.rs`, all lookups of `unic/ucd/*` and `unic/emoji/char` over the translated
tables, `unic/ucd/hangul`, `unic/ucd/name` and `name_aliases`, `unic/ucd/age`, `unic/normal`,
`unic/idna` with `mapping` and `punycode`, `unic/bidi`, `unic/segment`, `apps/cli`
(`parsers.rs`, `writers.rs`, `unic-echo` and `unic-inspector` after `clap` has taken the
command line apart), and from `gen` the readers of the data files listed under C75 and
later, the grouping of characters into tables (`gen/src/writer/utils/tables`) and the Rust text
printed for them (C88, C89). `RustSpec.v` says how such text is read: words, marks, literals with
`\u` escapes or none, comments, paths, calls, structures, tuples, slices and `chars!`; the rest of
the language does not occur. The readers use regular expressions: `GenRegex.v` models the `regex` crate as a
backtracking matcher (leftmost match, first alternative first, greedy), which is library code
and part of the trusted base of C75 and later. The classes `\w` and `\s` of the crate are
arbitrary beyond ASCII. `BTreeMap` and `BTreeSet` are sorted lists.

Not modelled: the rest of `gen` (downloading of the UCD files, file input and output),
`Debug` output, width and alignment in format strings, argument parsing and input/output of the command-line programs, the layout of
the table printed by `unic-inspector`, marker traits (`FusedIterator`, `TrustedLen`), `rayon` itself, package
information constants, and performance.

## Plan per property

| id | modelled | how proved |
|----|----------|------------|
| C01-C04 | `CharRange`, `CharIter`, `step.rs` | invariant: iterator state denotes an interval of scalars; every step removes one end; scalar <-> index bijection |
| C05 | `compact_range` and its inverse | refutation by witness; positive theorem for ranges starting below the gap |
| C06 | `CharDataTable` with bisection | induction on fuel, sortedness invariant |
| C07 | all translated tables | boolean well-formedness checker evaluated by `vm_compute`, soundness lemma for the checker |
| C08 | `to_range_char_table`, `to_range_char_set`, `to_direct_char_table` up to text formatting | induction on the sorted association list |
| C09 | `FromStr` of `char_property!` over name lists | induction; per-property name lists checked case-insensitively distinct |
| C10 | `hangul.rs` | linear arithmetic with div/mod |
| C11-C13, C18 | `Decompositions`, `canonical_sort`, `decomposition.rs` and tables | loop invariant relating buffer+rest to spec; uniqueness of stable sorting |
| C14 | `Recompositions` | simulation between streaming state machine and batch algorithm |
| C15-C17 | the same plus table facts | table facts by `vm_compute`; algebra of canonical ordering/composition |
| C19-C22, C59, C60 | `punycode` (both builds, with and without overflow checks) | relational RFC 3492 spec over unbounded integers; the insertion sequence of a text is unique; encoder and decoder loops simulate it; explicit bounds for 32 bits |
| C23-C28, C61-C64 | `idna::process` and `Mapping::of` | the processing of a name as a relation (map, normalize, split, convert, validate); normalization does not cross full stops; table facts by `vm_compute` |
| C29-C34, C68 | `bidi` crate, byte-indexed arrays: initial classes, paragraphs, explicit pass | byte arrays shown to be per-character arrays repeated over the bytes; explicit pass simulated by a character-level spec |
| C35 | level runs, isolating run sequences | the stack of open sequences corresponds to the open isolates; partial, with witness |
| C37, C38 | `resolve_weak`, `resolve_neutral`, `resolve_levels` | each pass as a list function, compared with W1-W7/N1-N2 stated one after the other; partial, with witnesses |
| C36, C69 | `visual_runs`, `reordered_levels`, `reorder_line` | reversing runs = reversing characters; partial, with witnesses |
| C70 | `BidiInfo::new` end to end | composition of the passes |
| C73 | `has_rtl` against `reorder_line` | L1 only writes the paragraph level; partial, with witness |
| C74 | `Level` | arithmetic |
| C39, C40 | `GraphemeCursor` and the iterators on a whole text | an invariant of the cursor (every cached field agrees with the text around the offset), kept by every operation; boundaries against the rules GB1-GB999 as a list of rules |
| C41 | the cursor with chunks; the caller is modelled as the documentation prescribes | the same invariant for any chunk; partial, with witnesses |
| C42-C44 | `WordBounds` | state machine invariants vs. declarative WB rules; refutations where the code deviates |
| C45 | cli parsers/writers | hexadecimal and UTF codec round-trip by arithmetic and induction |
| C65 | cli escaping writers | relational reader of string literals; determinism gives injectivity |
| C46, C47, C66, C67 | `Name`, for any table of listed names and again for the shipped one | arithmetic for hex digits; unique parsing of syllable names; refutation by witness for ordering |
| C71, C72 | `Name::of` with the shipped table of 31,523 listed names | piecewise comparison with the category table; an explicit inverse (a trie built from the table) shows that names are distinct; an automaton for the shape |
| C48-C50 | `Age`, notation, basics | case analysis and arithmetic |
| C51, C52, C54 | property lookups (`ucd/*`, `emoji/char`) over the translated tables | piecewise constancy of tables: finitely many pieces checked by `vm_compute`, soundness lemma lifts to all characters |
| C53 | `StrBidiClass` | induction on the string |
| C55-C58 | normalization as for C11-C17 | table facts by `vm_compute`, algebra of ordering and composition |
| C75 | readers of PropList.txt, DerivedCoreProperties.txt, emoji-data.txt and the tables written from them | a calculus for the preferred match of an expression (`eats`), lifted to whole files; sets by induction on the lines |
| C76 | readers of the break property files, DerivedAge.txt and Blocks.txt with their tables | the same, with maps |
| C77-C80 | reader of UnicodeData.txt (`unicode_data.rs`), of the composition exclusions, and the writers of the category, common, normal, bidi and name tables | the file as a list of items (one character or a First/Last range); every line is read back exactly; each table is a map over the covering item; the composition table by an invariant on the grouping fold |
| C81-C84 | readers of IdnaMappingTable.txt, Jamo.txt, NameAliases.txt, NormalizationTest.txt and the ReadMe files | same method: every line read back exactly (`eats` calculus), tables as folds over the lines; "last line wins" for maps, order of first appearance for alias lists; the unanchored version search by failing at every earlier position |
| C85 | readers of GraphemeBreakTest.txt and WordBreakTest.txt, `segment_tests.rs` | the two expressions backtrack, so all their matches are described (`glang`) and shown to be one; white space at line ends crosses lines, shown harmless; loop invariant on the boundaries for the dividing loops, uniqueness of the division. `\w` and `\s` of the regex crate are parameters, known on ASCII and the two signs; printing of literals is not modelled |
| C86 | `unic-echo.rs`, `clap_macros.rs` | relational specs of what may be entered (`stands`) and of what is shown (`shows`, with UTF-8 and UTF-16 by RFC 3629 and RFC 2781); format names through case folding of both lists; round trip by "what is shown may be entered" |
| C87 | `unic-inspector.rs` | names (C71, C72), a joint check of abbreviations and categories at every code point, abbreviations pairwise distinct and distinct from all names |
| C88 | `gen/src/writer/**` (the `write!` calls), `writer/utils/mod.rs: write` | grammar of the part of Rust used (`RustSpec.v`), shown to be unambiguous; printers composed of pieces that lex independently of what follows |
| C89 | the same with the readers of C75 to C85 | the tables of C75 to C85 through C88: data file to text of the generated file |
| C90 | `idna::process` on names with errors | text and each kind of error characterised exactly (`IdnaErrorSpec.v`), beside the text UTS #46 prescribes (`std_text`); found by seeding (no theorem spoke of the text returned with errors) |
| C91 | XID and ID tables with the four forms | closure from table checks over decompositions (trees), reordering invariants of C13 and the exact loss of C16 |
| C92 | `BlockIter`, `Block::of`, `Age::of`, `UNICODE_VERSION` | iterator collected by a client; checks over BLOCKS; sweep over AGE, GENERAL_CATEGORY and the 66 noncharacters |
| C93 | `Decompositions`/`Recompositions` as iterators: `next` any number of times, `size_hint`, `Display` | the invariants `yields` and `rinv` of the iterator proofs carried over every call, including past the end |
| C94 | `GraphemeIndices` on a text, its parts and its concatenations | generic lemmas on cutting (`SegConcat.v`) from two facts about the rules: a boundary hides what is before it and what is after it |
| C95 | `WordBoundIndices`, both directions, on a text and its parts | the loops themselves: the loop on a shorter text runs in step and stops at the same place; backwards over an equivalent loop on strings (`bscan`), with the parity of regional indicators before each piece as invariant |
| C96 | `BidiInfo::new` on a text and on its paragraphs | a simulation of `InitialInfo::new` shifted by the length of the text before; slices of the concatenation |
| C97 | `to_unicode`, `to_ascii` on a name and on the parts before and after a full stop | mapping and NFC commute with a full stop (nothing composes with it); the Bidi decision only adds `ValidityCriteria` |
| C98 | `Display`, `all_values` and names of property values, classes, versions, levels, `BidiInfo`; `Level::vec` and comparison with texts | tables of names decided once; decimal writing characterised by a small relation |
| C99 | `nfd`/`nfkd`/`nfc`/`nfkc` of a text and of its clusters and words | table checks joining the break classes with combining classes, decompositions and compositions; state of the composition loop at a cut; Hangul by GB6-8 and WB5. Legacy clusters and NFKC are refuted and proved under a condition on the characters |
| C100 | `grapheme_indices` of a text and of its normal forms | the cluster rules as an automaton over break classes (ClusterState.v), simulation of a character by the classes of its decomposition, exchange of adjacent marks; one pair of refutations and the proof for all other texts |
| C101 | `word_bound_indices`, `words` of a text and of its normal forms | the length of the first piece as a function of the word classes (WordClasses.v), simulation of a character by a block of classes (a class and Extend characters, or several letters); the same simulation for the U+11A7 that composition drops |
| C102 | `bidi_new` (paragraphs), `has_rtl`, `has_bidi_explicit` of canonically equivalent texts | table checks (combining characters are NSM or L, decompositions keep the class up to NSM and repeated L); any fold over the classes that ignores NSM and repeated L is invariant. Resolved levels: a character is replaced by a block of classes (BidiBlocks.v); X1-X8, BD13, W1-W7, N1-N2, I1-I2 each map blocks to blocks. Proved for every text without left-to-right combining marks and without three Balinese vowels, refuted for those |
| C103 | `to_unicode`, `to_ascii` on canonically equivalent names | the mapping as a function on characters; table checks (mapping a character and mapping its decomposition decompose alike; combining characters other than U+0345 map to canonical equivalents of themselves and give no errors), induction on exchanges of combining characters, then the mapped texts have the same NFC; right-to-left characters survive decomposition |
| C104 | words against grapheme clusters | case analysis on the two rule sets (UAX #29 chapters 3 and 4) over the joint table of both properties, with an invariant for counting regional indicators; the forward word iterator cuts only where the rules do (`WordCuts`, an invariant over its skipping loops); C95 and C94 (pieces of a concatenation) turn nested boundaries into nested iteration |
| C105 | paragraphs against clusters and words | class B characters are Control for clusters and, but for U+001C..U+001E, Newline for words (table check); every boundary of a paragraph is then a boundary of the others |
| C106 | `to_unicode`, `to_ascii` on compatibility equivalent names | as C103 with the compatibility decomposition: table checks on text, errors and direction of every character with a decomposition, outside three lists of exceptions; every exception is checked to be one |
| C107 | derived binary properties and break classes against general category, case, emoji and bidi tables | one linear sweep over the joint pieces of two to four tables per formula (`TablePiecewise`); the LV syllables are 399 generated ranges shown equal to the condition modulo 28 |
| C108 | the 28 binary properties on canonically equivalent texts | one check of all decompositions against 32 search trees (complements for "every"), Hangul by ranges; then invariance under permutation and under the loss of U+11A7 |
| C109 | results of `to_unicode` and `to_ascii` | every character of a valid label is permitted by the mapping table (C27); sweeps of that table against categories, case folding, controls, white space and compatibility decompositions; NFKC from NFC label by label; Punycode keeps the basic characters and adds digits |
| C110 | the four normalization forms, sizes in characters, UTF-8 bytes and UTF-16 code units | per-character factors by sweeps of both decomposition tables, Hangul by arithmetic; composition steps never add size; NFC factor 3: the text is cut before characters whose decomposition begins with a starter, characters of four are shown to compose at once unless marks follow; shrinking by weights on decomposed characters that bound their sources from above and their composites from below |
| C111 | `decode`, `encode`, `to_ascii`, `to_unicode` | decoding: each turn of the loop consumes input and inserts one character (on the model, no bounds); encoding: a variable-length integer of eleven digits exceeds 32 bits whatever the bias, by a recurrence for the least value of n digits; names: label by label from C23 and C24 |

## Findings

Confirmed by a `_refuted` theorem with a concrete witness:

* C05: `compact_range` does not shift a lower bound above the surrogate gap.
* C53: `has_ltr` tests for right-to-left characters.
* C10, C16, C17, C55, C56: `compose_syllable` accepts U+11A7 as a trailing
  consonant and drops it. The theorems say exactly what this costs: composition removes every
  U+11A7 directly after a leading consonant and a vowel, and nothing else; concatenation (C57)
  and nfkc after nfc are not affected.
* C19: Punycode `encode` succeeds on texts (65537 characters) whose encoding
  `decode` rejects, because the decoder adds delta to the position within 32 bits.
* C20: with overflow checks `encode` panics on 65536 ASCII letters followed by U+1007F.
* C59: `decode` accepts non-ASCII literal prefixes.
* C26: in a build with overflow checks `to_ascii` panics on 65536 letters "a" followed by U+1007F.
* C61: `processing` decides on the unmapped text whether the name is a Bidi name;
  "0" U+2135 becomes "0" U+05D0, which violates the Bidi rule, without an error.
* C62: hence `to_ascii` rejects its own result "xn--0-0hc"; likewise "xn--xn--a-"
  gives "xn--a", which is then rejected.
* C47: names are not ordered like their printed forms: U+3400 < U+20000 as names,
  "...-20000" < "...-3400" as strings; U+AC01 GAG against U+AC1C GAE; "TANGUT ITERATION
  MARK" against "TANGUT IDEOGRAPH-17000". Between a listed and a derived name the order is
  wrong exactly for names beginning with "CJK" against CJK compatibility ideographs and for
  U+16FE0 and U+16FE1 against the ideographs of their script.
* C48: `Age` derives `Ord` but reverses `PartialOrd`: the two contradict each other
  on every pair of different ages (`max` returns the age that `<` calls smaller).
* C45 (conditional): with `regex` 1.x instead of the pinned 0.2 the command-line
  parsers would panic on the empty string.
* C33: a default level of 126 panics on any right-to-left letter; C36: with 124 a line
  starting with an Arabic-Indic digit cannot be reordered.
* C35: `isolating_run_sequences` compares with the level of the run's first byte, which
  may belong to a removed character: RLI a RLI BN b PDI c PDI d joins runs of levels 0 and 1.
* C36, C69: `visual_runs` uses line-relative indices into arrays of the whole text: L1 is
  applied to the wrong characters of lines that do not start the text, and
  `BidiInfo::new("ab\n\u{e9}\u{e9}", Some(rtl)).reorder_line(&paras[1], 3..7)` panics. No character
  is lost or repeated: whatever `reorder_line` returns is a permutation of the line (`C36_any_line`).
  When it fails is exact (`C36_panics_exact`): L1 writes at offsets below the length of the line,
  counted from the beginning of the text, so it may tear a character of a line that is longer
  than the text before it. Lines whose levels are all 126 fail too (`C36_high_line_refuted`:
  "a" after RLE in a paragraph of level 123).
* C69: L2 tests the levels before L1: "a", alef, space as first line of "a", alef, space,
  alef gives "a", space, alef instead of "a", alef, space.
* C37: W2 never fires (the code rewrites AL to R in the same pass, and tests for AL after
  that); W5 acts before W4 (EN ET ES EN becomes EN EN EN EN; visible as level 2 of "+" in
  "1$+1" with a right-to-left paragraph); an ET at the end of a sequence stays ET; an ET
  before an NSM is not resolved; W4 looks at the next byte, so a two-byte separator (U+00A0)
  between digits does not join them. What the pass does instead is exact
  (C37_weak_exact, every position of every sequence).
* C38: a removed character directly before a neutral run hides the run's left neighbour
  (R BN WS R); the whole run then takes the embedding direction, and this is the only
  difference from N1/N2 (C38_neutrals_exact, every sequence). Rule N0 (brackets) is not implemented (a TODO in the code).

* C73: `has_rtl` is documented as a test for skipping the reordering; in a right-to-left
  paragraph all of whose levels are even ("ab", space, U+3000, "c") it is false, but the line
  "ab", space, U+3000 is reordered (its two spaces are exchanged).

* C41: `provide_context` panics ("invalid state") when the character after the chunk border
  is neither a regional indicator nor an E_Modifier: chunks "ab" | "cd", position 2, and when
  a run of regional indicators inside a chunk reaches back to its start. With a Prepend
  character before the border it answers "no boundary" even before a control character.
  Walking forwards over "a" U+1F1FA | U+1F1F8 cuts the flag: the indicator before the border
  is counted twice. Walking backwards over "a" | "b" ends in `InvalidOffset`.

* C43: forward word iteration departs from the rules in three ways: two E_Modifier after an
  emoji base stay in one piece (WB14 joins only the first); after ZWJ + Glue_After_Zwj the
  automaton keeps its old state, so "a" ZWJ U+2764 "b" is one piece; punctuation after a letter
  stays with it when ZWJ + E_Base_GAZ follows ("a:" ZWJ U+1F469). Outside of these it follows the rules.
* C44: hence the two directions disagree, e.g. on "a" ZWJ U+2764 "b" (backwards two pieces).
  Backward iteration departs from the rules only on ZWJ, E_Base, E_Modifier, which it
  does not break.
* C75: the reader of PropList.txt adds the characters of `Hyphen` to `Dash` and leaves `Hyphen`
  empty (neither is printed by any writer at this commit). Its regular expression requires white
  space before the semicolon; a line "0020; White_Space" (a form UAX #44 allows and Blocks.txt
  uses) is dropped without a message.
* C76: the dots of the range in `(?:..([[:xdigit:]]{4,6}))?` are not escaped and match any two
  characters: the line "0041; 0043 ; Other" for one character is read as the range 0041..0043.
* C79: DerivedBidiClass.txt documents BN as the default of noncharacters (and of unassigned
  default ignorable code points); the generator has no such default, so `BidiClass::of` answers
  L for U+FFFE and the other noncharacters. (Unproved remark: later Unicode versions also list
  U+086B..U+086F among the AL defaults where this code has R; the Unicode 10 file is not at hand.)
* C84: the dots of the version expression are not escaped: a ReadMe with "for Version 12345" is
  read as version 1.3.5.
* C86: `unic-echo -i codepoints "41, 42"` panics: every separator is a place between tokens and
  an empty token is no number, so input with two separators in a row
  is not read. The same holds for the two hexadecimal formats.
* C90: `to_unicode` drops a label that cannot be decoded ("xn--é" gives ""), and applies the mapping of a
  character that the STD3 rules disallow (U+2474 gives "(1)"); UTS #46 leaves both as they are.
  Both errors are reported.

* C99: normalizing cluster by cluster (or word by word) is not normalizing the text for NFKC: the compatibility letters
  U+3131 U+314F are two clusters but one syllable under NFKC, and U+3260 U+314F are two words. With legacy clusters not
  even NFC and NFD agree, since spacing marks such as U+1B35 and U+1D166 combine or are reordered across the cut.
  This is a limitation of the Unicode algorithms rather than of the code.

* C100: an emoji modifier after an emoji and a spacing mark: U+1F44D U+0CC0 U+1F3FB has two extended clusters (GB10 allows
  only Extend characters between), but U+0CC0 decomposes into two Extend characters, and the canonically equivalent
  U+1F44D U+0CBF U+0CD5 U+1F3FB is one cluster. This is a property of the data and the rules of Unicode 10, faithfully implemented.
  Legacy clusters are cut before spacing marks: U+1B06 is one, its decomposition U+1B05 U+1B35 two.
* C102: some combining characters have Bidi_Class L (U+302E), and canonical reordering moves them past nonspacing
  marks, which take the direction of the character before them: alef U+302E U+0327 and alef U+0327 U+302E are canonically
  equivalent, but the cedilla has level 2 in the first and 1 in the second. Again a property of the Unicode data.
  The same for U+1B3B, U+1B3D and U+1B43, which are L but decompose into a nonspacing mark and an L: after an alef
  the composed sign has level 2, the mark of the decomposition level 1.
* C106: compatibility equivalent names differ for sixty characters (`C106_accepted_refuted`). 31 are disallowed while
  their decompositions contain a full stop (U+2024, U+2488, ...); U+03F2 and five mathematical final sigmas map to sigma,
  while final sigma itself is kept (a deviation character); five CJK compatibility ideographs are disallowed. These
  lie in the data. The other 18 are due to the code looking for right-to-left characters in the unmapped name:
  U+2135..U+2138, and, without the STD3 rules, the Arabic presentation forms of single marks (U+FC5E..U+FC63, U+FE70..U+FE7E).
* C108: "some character is Lowercase" and nine more such questions have different answers for different spellings of
  one text (`C108_some_refuted`), and so have "every character is Alphabetic" and thirteen more
  (`C108_every_refuted`). These follow from the Unicode data, not from a mistake in the code.
* C110: NFC and NFKC can shrink a text without bound: an LV syllable followed by any number of U+11A7 becomes
  the syllable alone (`C110_nfc_shrinks_refuted`); same cause as C10 and C16.
* C103: U+0345 is a combining character (class 240) that maps to the letter iota. Where it stands matters for the
  mapping but not for canonical equivalence: U+1FB3 U+0316 (NFC) gives alpha iota U+0316, its NFD U+03B1 U+0316 U+0345
  gives alpha U+0316 iota. Both are accepted and different, so a name can change its meaning when it is normalized before
  processing; UTS #46 maps before normalizing, so the code follows it. The ideographs U+2F868, U+2F874, U+2F91F, U+2F95F
  and U+2F9BF are disallowed while the ideographs they are canonically equivalent to are valid (data of UTS #46).
* C104 (`C104_vowel_refuted`, `C104_sign_refuted`, `C104_flag_refuted`, `C104_cuts_refuted`): a word boundary can fall
  inside a grapheme cluster: Thai U+0E01 U+0E33 is one extended cluster and two words (WB has no rule for the spacing mark
  U+0E33, which is a letter of complex scripts), so is U+0600 before a space; and U+1F1FA U+0301 U+1F1FA U+1F1F8 has the
  words {U+1F1FA U+0301 U+1F1FA} {U+1F1F8} but the clusters {U+1F1FA U+0301} {U+1F1FA U+1F1F8}, so the second flag is torn.
  These are properties of the two rule sets of UAX #29 themselves, which the code follows. `C104_cuts_refuted` is a fault of
  the code: after a regional indicator, ZWJ and a glue character (U+1F1FA U+200D U+2764 U+1F1FA U+1F1F8) the forward word
  iterator pairs the following indicator with the one before the ZWJ and cuts the flag. It is the only way in which that iterator makes a cut the rules do not have.
* C105 (`C105_line_end_refuted`, `C105_separator_refuted`): `BidiInfo` ends a paragraph after CR and again after LF, so
  CR LF is one cluster, one word and two paragraphs (the newline guidelines of the Unicode Standard treat CR LF as one
  separator). U+001C..U+001E end paragraphs but are joined with following marks by the word rules (WB4).

Example in C98, not a refutation: the text printed for a value of an enumerated property is often not parsed
("Uppercase Letter" with a blank is printed, "Uppercase_Letter" is parsed); it is never parsed as another value.

## Checks of the model against the repository's test data

The models are computable, so besides the proofs they were run (outside the
committed development) on the repository's own data: the normalization model
agrees with all 18746 rows of `unic/normal/tests/tables/conformance_tests_data.rsv`, and the
grapheme model with all 744 rows of `unic/segment/tests/tables/grapheme_cluster_break_test_data.rsv`
(forwards and backwards, extended and legacy); the word model agrees with all 2057 rows of
`unic/segment/tests/tables/word_break_test_data.rsv`, forwards and backwards.

## Assumptions

`Print Assumptions` reports "Closed under the global context" for every
property theorem: no axioms, neither from the standard library nor of our own.

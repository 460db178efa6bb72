(** C88 and C89: the text of the generated files. *)
From Coq Require Import String List NArith Bool Permutation.
From Verif Require Import Base RangeModel TableModel TableSpec TextModel
  GenRegex GenModel GenSpec GenBinarySpec GenBinary GenExamples GenDataModel GenDataSpec GenDataExamples
  GenIdnaSpec GenListModel GenListSpec GenListExamples GenSegModel GenSegSpec.
From Verif Require Import RustSpec PrintModel PrintSpec PrintLex PrintProofs PrintFiles PrintEmit PrintExamples.
Import ListNotations.
Open Scope list_scope.
Open Scope N_scope.

(** A text is at most one expression. *)
Theorem C88_unique : forall s e e', source s e -> source s e' -> e = e'.
Proof. exact source_unique. Qed.
Print Assumptions C88_unique.

(** The file of a table is exactly the table, if what is printed for a value is the value. *)
Theorem C88_table : forall V (display : V -> str) (val : V -> expr) t, wf_table t ->
  (forall c v, scalar c -> find t c = Ret (Some v) -> source (display v) (val v)) ->
  forall e, source (file_of (table_text display t)) e <-> e = table_of val t.
Proof. exact (@table_source). Qed.
Print Assumptions C88_table.

Theorem C88_lookup : forall V (val : V -> expr) t c x, wf_table t -> scalar c ->
  (gives (table_of val t) c x <-> exists v, find t c = Ret (Some v) /\ x = val v).
Proof. exact (@table_gives). Qed.
Print Assumptions C88_lookup.

(** What is printed for the values is the values. *)
Theorem C88_values : 
  (forall v, source (unit_text v) (Tuple [])) /\
  (forall w, rust_name w -> source (plain_text w) (Name [w])) /\
  (forall p w, rust_name (chars_of p) -> rust_name w -> source (break_text p w) (Name [chars_of p; w])) /\
  (forall a b c, a <= 0xFFFF -> b <= 0xFFFF -> c <= 0xFFFF -> source (version_text (a, b, c)) (version_expr (a, b, c))) /\
  (forall w, unescaped w -> source (quoted_text w) (Text w)) /\
  (forall n, n <= 255 -> source (class_text n) (Call (path ["CanonicalCombiningClass"]%string) [Number n])) /\
  (forall l, Forall scalar l -> source (chars_text l) (chars_expr l)) /\
  (forall l, Forall (fun p => scalar (fst p) /\ scalar (snd p)) l ->
     source (pairs_text l) (table_of Character (Direct l))) /\
  (forall w l, rust_name (titled w) -> Forall scalar l -> source (compat_text (w, l)) (Tuple [Name [titled w]; chars_expr l])) /\
  (forall l, Forall rust_name l -> source (names_text l) (names_expr l)) /\
  (forall l, Forall unescaped l -> source (texts_text l) (texts_expr l)) /\
  (forall v, rust_name (chars_of (fst v)) -> (forall m, snd v = Some m -> Forall scalar m) ->
     source (mapping_text v) (mapping_expr v)).
Proof. exact values_read. Qed.
Print Assumptions C88_values.

Theorem C88_constants : forall l l', Forall (fun d => rust_name (fst d) /\ unescaped (snd d)) l ->
  (source_consts (file_of (consts_text l)) l' <-> l' = l).
Proof. exact consts_iff. Qed.
Print Assumptions C88_constants.

Theorem C88_tests : 
  (forall ts, Forall (fun t => Forall scalar (fst t) /\ Forall (Forall scalar) (snd t)) ts ->
     forall e, source (file_of (word_tests_text ts)) e <-> e = Slice (map word_test_expr ts)) /\
  (forall ts, Forall (fun t => let '(s, ext, leg) := t in Forall scalar s /\ Forall (Forall scalar) ext /\
                match leg with Some l => Forall (Forall scalar) l | None => True end) ts ->
     forall e, source (file_of (grapheme_tests_text ts)) e <-> e = Slice (map grapheme_test_expr ts)) /\
  (forall ts, Forall (fun t => let '(a, b, c, d, e) := t in Forall (Forall scalar) [a; b; c; d; e]) ts ->
     forall e, source (file_of (normal_tests_text ts)) e <-> e = Slice (map normal_test_expr ts)).
Proof. exact tests_read. Qed.
Print Assumptions C88_tests.

(** Names are quoted without escapes, so a name with a backslash may be read as another. *)
Example C88_example_backslash : exists v e, source (file_of (quoted_text v)) e /\ e <> Text v.
Proof. exact quoted_refuted. Qed.

Example C88_example : wf_table capitals /\ file_of (table_text unit_text capitals) = lit
"// WARNING: Auto-generated by the `unic-gen` crate.
// WARNING: DO NOT EDIT MANUALLY!
CharDataTable::Range(&[
    (chars!('\u{41}'..='\u{5a}'), ()),
    (chars!('\u{c9}'..='\u{c9}'), ()),
])
" /\
  source (file_of (table_text unit_text capitals))
    (Call (path ["CharDataTable"; "Range"]%string)
       [Slice [Tuple [Chars 0x41 0x5A; Tuple []]; Tuple [Chars 0xC9 0xC9; Tuple []]]]).
Proof. split; [exact capitals_wf|]. split; [exact capitals_text|exact capitals_source]. Qed.

(** From the data files to the generated files. Sets: those of C77, and the binary properties. *)
Theorem C89_sets : forall o P, tells_set o P -> prints_set o P.
Proof. exact tells_set_prints. Qed.
Print Assumptions C89_sets.

Theorem C89_core : forall uword uspace f name, In name core_names -> name <> "Grapheme_Link"%string ->
  ascii_classes uword uspace -> good_file word_value after_name f -> listed core_names f ->
  prints_set (emit_field uword uspace DERIVED_CORE_ARMS (field name) (file_text f)) (given f (letters name)).
Proof. exact core_prints. Qed.
Print Assumptions C89_core.

Theorem C89_emoji : forall uword uspace f name, In name emoji_names ->
  ascii_classes uword uspace -> good_file word_value after_name f -> listed emoji_names f ->
  prints_set (emit_field uword uspace EMOJI_ARMS (field name) (file_text f)) (given f (letters name)).
Proof. exact emoji_prints. Qed.
Print Assumptions C89_emoji.

Theorem C89_breaks : forall prefix f, good_file word_value after_word f -> rust_name (chars_of prefix) ->
  Forall (fun r => rust_name (value r)) (rows f) ->
  prints_map (emit_breaks (file_text f)) (break_text prefix)
    (fun c x => exists r, last_row f c = Some r /\ x = Name [chars_of prefix; value r]).
Proof. exact breaks_print. Qed.
Print Assumptions C89_breaks.

Theorem C89_age : forall f, good_file version_value after_version f ->
  prints_map (emit_age_values (file_text f)) version_text
    (fun c x => exists r v, last_row f c = Some r /\ is_version (value r) v /\ x = version_expr v).
Proof. exact age_print. Qed.
Print Assumptions C89_age.

Theorem C89_blocks : forall f, block_file f -> Forall (fun r => unescaped (value r)) (rows f) ->
  prints_map (emit_blocks (file_text f)) quoted_text (fun c x => exists r, last_row f c = Some r /\ x = Text (value r)).
Proof. exact blocks_print. Qed.
Print Assumptions C89_blocks.

Theorem C89_category : forall f, good_data f -> Forall (fun i => rust_name (gc (item_info i))) f ->
  prints_map (obind (data_from_str (data_text f)) emit_general_category) plain_text
    (fun c x => exists d, info_of f c = Some d /\ x = Name [gc d]).
Proof. exact category_prints. Qed.
Print Assumptions C89_category.

Theorem C89_bidi_class : forall f, good_data f -> Forall (fun i => rust_name (bc (item_info i))) f ->
  prints_map (obind (data_from_str (data_text f)) emit_bidi_class) plain_text
    (fun c x => exists w, bidi_class_of f c = Some w /\ x = Name [w]).
Proof. exact bidi_prints. Qed.
Print Assumptions C89_bidi_class.

Theorem C89_combining_class : forall f, good_data f ->
  prints_map (obind (data_from_str (data_text f)) emit_canonical_combining_class) class_text
    (fun c x => exists n, class_of f c = Some n /\ x = Call (path ["CanonicalCombiningClass"]%string) [Number n]).
Proof. exact class_prints. Qed.
Print Assumptions C89_combining_class.

Theorem C89_canonical : forall f, good_data f ->
  prints_map (obind (data_from_str (data_text f)) (fun es => Ret (emit_canonical_decomposition_mapping es))) chars_text
    (fun c x => exists m, canonical f c = Some m /\ x = chars_expr m).
Proof. exact canonical_prints. Qed.
Print Assumptions C89_canonical.

Theorem C89_compatibility : forall f, good_data f ->
  (forall i t, In i f -> tag (item_info i) = Some t -> rust_name (titled t)) ->
  prints_map (obind (data_from_str (data_text f)) (fun es => Ret (emit_compatibility_decomposition_mapping es))) compat_text
    (fun c x => exists t m, compatible f c = Some (t, m) /\ x = Tuple [Name [titled t]; chars_expr m]).
Proof. exact compatible_prints. Qed.
Print Assumptions C89_compatibility.

Theorem C89_composition : forall f x, good_data f -> exclusion_file x -> short_mappings f -> distinct_mappings f x ->
  exists t, obind (data_from_str (data_text f)) (fun es => obind (exclusions_from_str (file_text x)) (fun s =>
              emit_canonical_composition_mapping es s)) = Ret t /\
  exists e, (forall e', source (file_of (table_text nested_text t)) e' <-> e' = e) /\
    forall a b, scalar a -> scalar b -> forall y,
      (exists inner, gives e a inner /\ gives inner b y) <->
      exists c, y = Character c /\ scalar c /\ canonical f c = Some [a; b] /\ ~ excluded x c.
Proof. exact composition_prints. Qed.
Print Assumptions C89_composition.

Theorem C89_names : forall f, good_data f -> good_names f -> pronounceable f ->
  exists es, data_from_str (data_text f) = Ret es /\ NoDup (map fst (emit_name_values es)) /\
    (forall ds, Permutation ds (emit_name_values es) ->
       forall ds', source_consts (file_of (consts_text ds)) ds' <-> ds' = ds) /\
    says (file_of (table_text names_text (emit_name_map es)))
      (fun c x => exists n is ps, name_of f c = Some n /\ joined 0x20 ps = n /\
         Forall2 (fun i p => In (i, p) (emit_name_values es)) is ps /\ x = names_expr is).
Proof. exact names_print. Qed.
Print Assumptions C89_names.

Theorem C89_jamo : forall f, good_listing jamo_row_ok f ->
  prints_map (emit_jamo (listing show_jamo f)) quoted_text (fun c x => exists w, jamo_of f c = Some w /\ x = Text w).
Proof. exact jamo_prints. Qed.
Print Assumptions C89_jamo.

Theorem C89_aliases : forall f n ty, good_listing alias_row_ok f -> In (n, ty) alias_types ->
  prints_map (emit_aliases ty (listing show_alias f)) texts_text
    (fun c x => aliases_listed f n c <> [] /\ x = texts_expr (aliases_listed f n c)).
Proof. exact aliases_print. Qed.
Print Assumptions C89_aliases.

Theorem C89_alias_types : forall f, good_listing alias_row_ok f ->
  prints_map (emit_alias_types (listing show_alias f)) (fun l => names_text (map lit l))
    (fun c x => exists l, l <> [] /\ Forall2 (fun n ty => In (n, ty) alias_types) (types_listed f c) l /\
       x = names_expr (map chars_of l)).
Proof. exact alias_types_print. Qed.
Print Assumptions C89_alias_types.

Theorem C89_idna_mapping : forall f, idna_file f ->
  prints_map (emit_idna_mapping (idna_text f)) mapping_text
    (fun c x => exists r v, last_idna_row f c = Some r /\ row_says r v /\ x = mapping_expr v).
Proof. exact idna_prints. Qed.
Print Assumptions C89_idna_mapping.

Theorem C89_normalization_tests : forall f, good_listing test_row_ok f ->
  exists ts, tests_from_str (listing show_test f) = Ret ts /\
  forall e, source (file_of (normal_tests_text ts)) e <-> e = Slice (map (fun r => normal_test_expr (test_says r)) (items f)).
Proof. exact normal_tests_print. Qed.
Print Assumptions C89_normalization_tests.

Theorem C89_word_tests : forall uword uspace, (forall c, c < 128 -> uword c = GenRegex.word c) -> (forall c, c < 128 -> uspace c = space c) ->
  (forall b, uword (sign b) = false /\ uspace (sign b) = false) ->
  forall f, Forall good_test_line f ->
  exists out, emit_words uword uspace (tests_text f) = Ret out /\
    Forall2 (fun l o => fst o = test_chars_of l /\ divides (test_chars_of l) (break_after l) (snd o)) (usable_tests f) out /\
    forall e, source (file_of (word_tests_text out)) e <-> e = Slice (map word_test_expr out).
Proof. exact words_print. Qed.
Print Assumptions C89_word_tests.

Theorem C89_grapheme_tests : forall uword uspace, (forall c, c < 128 -> uword c = GenRegex.word c) -> (forall c, c < 128 -> uspace c = space c) ->
  (forall b, uword (sign b) = false /\ uspace (sign b) = false) ->
  forall f, Forall good_test_line f ->
  exists out, emit_graphemes uword uspace (tests_text f) = Ret out /\
    Forall2 (fun l o => let '(s, extended, legacy) := o in
        s = test_chars_of l /\ divides s (break_after l) extended /\
        match legacy with
        | None => forall k r, (0 < k < length l)%nat -> rule_after l k r -> ~ extended_only r
        | Some ls => divides s (fun k => break_after l k \/ exists r, rule_after l k r /\ extended_only r) ls
        end) (usable_tests f) out /\
    forall e, source (file_of (grapheme_tests_text out)) e <-> e = Slice (map grapheme_test_expr out).
Proof. exact graphemes_print. Qed.
Print Assumptions C89_grapheme_tests.

Theorem C89_unicode_version : forall udigit, ascii_digits udigit -> forall pre a b c post,
  number_value a -> number_value b -> number_value c -> after_number post ->
  first_place (letters "for Version ") pre (a ++ [0x2E] ++ b ++ [0x2E] ++ c ++ post) ->
  exists v, version_from_str udigit (pre ++ letters "for Version " ++ a ++ [0x2E] ++ b ++ [0x2E] ++ c ++ post) = Ret v /\
  forall e, source (version_file v) e <-> e = version_expr (dec_number a, dec_number b, dec_number c).
Proof. exact version_prints. Qed.
Print Assumptions C89_unicode_version.

Theorem C89_emoji_version : forall udigit, ascii_digits udigit -> forall pre a b post,
  number_value a -> number_value b -> dec_number a < 0x100 -> dec_number b < 0x100 -> after_number post ->
  first_place (letters "Unicode Emoji, Version ") pre (a ++ [0x2E] ++ b ++ post) ->
  exists v, emoji_version_from_str udigit (pre ++ letters "Unicode Emoji, Version " ++ a ++ [0x2E] ++ b ++ post) = Ret v /\
  forall e, source (version_file v) e <-> e = version_expr (dec_number a, dec_number b, 0).
Proof. exact emoji_version_prints. Qed.
Print Assumptions C89_emoji_version.

Example C89_example_names : good_data name_lines /\ good_names name_lines /\ pronounceable name_lines /\
  name_of name_lines 0xF68 = Some (letters "TIBETAN LETTER -A") /\
  exists es, data_from_str (data_text name_lines) = Ret es /\
  file_of (consts_text (emit_name_values es)) = lit
"// WARNING: Auto-generated by the `unic-gen` crate.
// WARNING: DO NOT EDIT MANUALLY!
const TIBETAN: &str = ""TIBETAN"";
const LETTER: &str = ""LETTER"";
const _A: &str = ""-A"";

" /\
  file_of (table_text names_text (emit_name_map es)) = lit
"// WARNING: Auto-generated by the `unic-gen` crate.
// WARNING: DO NOT EDIT MANUALLY!
CharDataTable::Direct(&[
    ('\u{f68}', &[TIBETAN, LETTER, _A]),
])
".
Proof.
  split; [apply name_lines_ok|]. split; [apply name_lines_ok|]. split; [exact name_lines_said|].
  split; [apply name_lines_ok|exact name_lines_files].
Qed.

Example C89_example_breaks : good_file word_value after_word break_lines /\
  Forall (fun r => rust_name (value r)) (rows break_lines) /\
  exists t, emit_breaks (file_text break_lines) = Ret t /\
  file_of (table_text (break_text "WB") t) = lit
"// WARNING: Auto-generated by the `unic-gen` crate.
// WARNING: DO NOT EDIT MANUALLY!
CharDataTable::Range(&[
    (chars!('\u{22}'..='\u{22}'), WB::Double_Quote),
    (chars!('\u{61}'..='\u{7a}'), WB::ALetter),
])
".
Proof. split; [apply break_lines_ok|exact break_lines_file]. Qed.

Example C89_example_idna : idna_file idna_lines /\
  exists t, emit_idna_mapping (idna_text idna_lines) = Ret t /\
  file_of (table_text mapping_text t) = lit
"// WARNING: Auto-generated by the `unic-gen` crate.
// WARNING: DO NOT EDIT MANUALLY!
CharDataTable::Range(&[
    (chars!('\u{41}'..='\u{41}'), Mapped(""\u{61}"")),
    (chars!('\u{61}'..='\u{7a}'), Valid),
    (chars!('\u{a8}'..='\u{a8}'), DisallowedStd3Mapped(""\u{20}\u{308}"")),
    (chars!('\u{ad}'..='\u{ad}'), Ignored),
    (chars!('\u{d7}'..='\u{d7}'), Valid),
    (chars!('\u{200c}'..='\u{200d}'), Deviation("""")),
])
".
Proof. split; [exact idna_lines_good|exact idna_lines_file]. Qed.

Example C89_example_tests : good_listing test_row_ok test_lines /\
  exists ts, tests_from_str (listing show_test test_lines) = Ret ts /\
  file_of (normal_tests_text ts) = lit
"// WARNING: Auto-generated by the `unic-gen` crate.
// WARNING: DO NOT EDIT MANUALLY!
&[
    (""\u{1e0a}"", ""\u{1e0a}"", ""\u{44}\u{307}"", ""\u{1e0a}"", ""\u{44}\u{307}""),
]
".
Proof. split; [exact test_lines_good|exact test_lines_file]. Qed.

(** C81 to C84: the tables the generator writes from IdnaMappingTable.txt, Jamo.txt
    and NameAliases.txt, the tests it reads from NormalizationTest.txt, and the
    versions it reads from the ReadMe.txt files. *)
From Coq Require Import String List NArith Bool.
From Verif Require Import Base RangeModel TableModel TableSpec TextModel TableGenModel GenRegex GenModel GenSpec GenBinarySpec
  GenDataModel GenDataSpec GenIdnaSpec GenIdna GenListModel GenListSpec GenList GenListExamples.
Import ListNotations.
Open Scope N_scope.
Open Scope list_scope.

(** ** C81 *)
Theorem C81_idna_mapping : forall f, idna_file f ->
  exists t, emit_idna_mapping (idna_text f) = Ret t /\ wf_table t /\
  forall c, scalar c -> forall o, find t c = Ret o <->
    match last_idna_row f c with
    | None => o = None
    | Some r => exists v, o = Some v /\ row_says r v
    end.
Proof. exact idna_answers. Qed.
Print Assumptions C81_idna_mapping.

Example C81_example : idna_file idna_lines /\
  emit_idna_mapping (idna_text idna_lines) =
  Ret (Range [(closed 0x41 0x41, ("Mapped"%string, Some [0x61])); (closed 0x61 0x7A, ("Valid"%string, None));
    (closed 0xA8 0xA8, ("DisallowedStd3Mapped"%string, Some [0x20; 0x308])); (closed 0xAD 0xAD, ("Ignored"%string, None));
    (closed 0xD7 0xD7, ("Valid"%string, None)); (closed 0x200C 0x200D, ("Deviation"%string, Some []))]).
Proof. split; [exact idna_lines_good|exact idna_lines_table]. Qed.

(** ** C82 *)
Theorem C82_jamo : forall f, good_listing jamo_row_ok f ->
  exists t, emit_jamo (listing show_jamo f) = Ret t /\ wf_table t /\
  forall c, scalar c -> find t c = Ret (jamo_of f c).
Proof. exact jamo_answers. Qed.
Print Assumptions C82_jamo.

Theorem C82_aliases : forall f n ty, good_listing alias_row_ok f -> In (n, ty) alias_types ->
  exists t, emit_aliases ty (listing show_alias f) = Ret t /\ wf_table t /\
  forall c, scalar c -> find t c = Ret (unless_empty (aliases_listed f n c)).
Proof. exact alias_answers. Qed.
Print Assumptions C82_aliases.

Theorem C82_alias_types : forall f, good_listing alias_row_ok f ->
  exists t, emit_alias_types (listing show_alias f) = Ret t /\ wf_table t /\
  forall c, scalar c -> exists l, find t c = Ret (unless_empty l) /\
    Forall2 (fun n ty => In (n, ty) alias_types) (types_listed f c) l.
Proof. exact alias_types_answers. Qed.
Print Assumptions C82_alias_types.

(** The table of types names a type of a character exactly if the table of that
    type has the character. *)
Theorem C82_consistent : forall f n ty, good_listing alias_row_ok f -> In (n, ty) alias_types ->
  exists t u, emit_alias_types (listing show_alias f) = Ret t /\ emit_aliases ty (listing show_alias f) = Ret u /\
  forall c, scalar c -> ((exists l, find t c = Ret (Some l) /\ In ty l) <-> exists l, find u c = Ret (Some l)).
Proof. exact alias_consistent. Qed.
Print Assumptions C82_consistent.

Example C82_example : good_listing jamo_row_ok jamo_lines /\ jamo_of jamo_lines 0x110B = Some [] /\
  emit_jamo (listing show_jamo jamo_lines) = Ret (Direct [(0x1100, letters "G"); (0x110B, []); (0x11C2, letters "H")]).
Proof. exact jamo_lines_ok. Qed.
Example C82_alias_example : good_listing alias_row_ok alias_lines /\
  aliases_listed alias_lines "control" 10 = [letters "LINE FEED"; letters "NEW LINE"] /\
  emit_aliases "ControlCodeNames" (listing show_alias alias_lines) =
    Ret (Direct [(10, [letters "LINE FEED"; letters "NEW LINE"])]) /\
  emit_alias_types (listing show_alias alias_lines) =
    Ret (Direct [(10, ["ControlCodeNames"; "NameAbbreviations"]%string); (0xFEFF, ["AlternateNames"%string])]).
Proof. split; [exact alias_lines_good|]. split; [|split]; vm_compute; reflexivity. Qed.

(** ** C83 *)
Theorem C83_normalization_tests : forall f, good_listing test_row_ok f ->
  tests_from_str (listing show_test f) = Ret (map test_says (items f)).
Proof. exact tests_ok. Qed.
Print Assumptions C83_normalization_tests.

Example C83_example : good_listing test_row_ok test_lines /\
  map test_says (items test_lines) = [([0x1E0A], [0x1E0A], [0x44; 0x307], [0x1E0A], [0x44; 0x307])].
Proof. split; [exact test_lines_good|reflexivity]. Qed.

(** ** C84 *)
Theorem C84_unicode_version : forall udigit, ascii_digits udigit -> forall pre a b c post,
  number_value a -> number_value b -> number_value c -> after_number post ->
  first_place (letters "for Version ") pre (a ++ [0x2E] ++ b ++ [0x2E] ++ c ++ post) ->
  version_from_str udigit (pre ++ letters "for Version " ++ a ++ [0x2E] ++ b ++ [0x2E] ++ c ++ post) =
    Ret (dec_number a, dec_number b, dec_number c).
Proof. exact version_ok. Qed.
Print Assumptions C84_unicode_version.

Theorem C84_emoji_version : forall udigit, ascii_digits udigit -> forall pre a b post,
  number_value a -> number_value b -> dec_number a < 0x100 -> dec_number b < 0x100 -> after_number post ->
  first_place (letters "Unicode Emoji, Version ") pre (a ++ [0x2E] ++ b ++ post) ->
  emoji_version_from_str udigit (pre ++ letters "Unicode Emoji, Version " ++ a ++ [0x2E] ++ b ++ post) =
    Ret (dec_number a, dec_number b, 0).
Proof. exact emoji_version_ok. Qed.
Print Assumptions C84_emoji_version.

(** A version should only be read where one is written; the dots of the expression
    stand for any character. *)
Theorem C84_dots_refuted : exists s v, version_from_str digit s = Ret v /\
  ~ exists pre a b c post, s = pre ++ letters "for Version " ++ a ++ [0x2E] ++ b ++ [0x2E] ++ c ++ post.
Proof. exact dots_refuted. Qed.
Print Assumptions C84_dots_refuted.

Example C84_example : ascii_digits digit /\
  first_place (letters "for Version ") readme_pre (letters "10.0.0 of the Unicode Standard.") /\
  version_from_str digit (readme_pre ++ letters "for Version " ++ letters "10.0.0 of the Unicode Standard.") = Ret (10, 0, 0).
Proof. split; [exact ascii_digit|]. split; [exact readme_first|]. vm_compute. reflexivity. Qed.

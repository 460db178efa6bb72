(** Model of the generator's readers of Jamo.txt, NameAliases.txt,
    NormalizationTest.txt and of the ReadMe.txt files, and of what is written
    from them. *)
From Coq Require Import String List NArith Bool PeanoNat.
From Verif Require Import Base RangeModel TableModel TextModel TableGenModel GenRegex GenModel GenDataModel.
Import ListNotations.
Open Scope N_scope.
Open Scope list_scope.

(** * Jamo.txt *)

(** gen/src/source/ucd/jamo.rs:34-40 *)
Definition JAMO_REGEX : re :=
  Seq Bol (Seq (Cap 1 hex46) (Seq semicolon (Seq blanks (Cap 2 (Star (Cls alpha)))))).

(** jamo.rs:44-48 *)
Definition jamo_step (m : list (N * str)) (capture : list (nat * str)) : outcome (list (N * str)) :=
  obind (index 1 capture) (fun t1 => obind (hex_char t1) (fun chr =>
  obind (index 2 capture) (fun v => Ret (map_insert chr v m)))).

(** jamo.rs:32-52 *)
Definition jamo_from_str (s : str) : outcome (list (N * str)) :=
  ofold jamo_step [] (captures_iter JAMO_REGEX s).

(** gen/src/writer/ucd/name.rs:81-89 *)
Definition emit_jamo (s : str) : outcome (CharDataTable str) :=
  obind (jamo_from_str s) (fun m => Ret (to_direct_char_table m)).

(** * NameAliases.txt *)

(** gen/src/source/ucd/name_aliases.rs:55-62 *)
Definition ALIAS_REGEX : re :=
  Seq Bol (Seq (Cap 1 hex46)
    (Seq semicolon (Seq (Cap 2 (Star (Cls (fun c => alnum c || (c =? 0x20) || (c =? 0x2D)))))
      (Seq semicolon (Cap 3 (Star (Cls alpha))))))).

(** name_aliases.rs:76-93 [insert_or_append!] *)
Definition insert_or_append {A} (eqb : A -> A -> bool) (chr : N) (v : A) (m : list (N * list A)) : list (N * list A) :=
  match map_get chr m with
  | Some values => if existsb (eqb v) values then m else map_insert chr (values ++ [v]) m
  | None => map_insert chr [v] m
  end.

(** name_aliases.rs:37-48 [struct NameAliasesData]: the map of types, and the map
    in the field for a type. *)
Record NameAliasesData := mkAliases {
  name_alias_types : list (N * list string);
  aliases_of_type : string -> list (N * list str) }.

(** name_aliases.rs:97-117: the label and the [TYPE_STR_..] constant (lines 21-25);
    the field is named by the constant. *)
Definition alias_labels : list (string * string) :=
  [("correction", "NameCorrections"); ("control", "ControlCodeNames"); ("alternate", "AlternateNames");
   ("figment", "Figments"); ("abbreviation", "NameAbbreviations")]%string.

Fixpoint alias_label (l : list (string * string)) (s : str) : outcome string :=
  match l with
  | [] => Panic
  | (k, v) :: l' => if str_eqb s (text k) then Ret v else alias_label l' s
  end.

(** name_aliases.rs:72-119 *)
Definition alias_step (d : NameAliasesData) (capture : list (nat * str)) : outcome NameAliasesData :=
  obind (index 1 capture) (fun t1 => obind (hex_char t1) (fun chr =>
  obind (index 2 capture) (fun alias =>
  obind (index 3 capture) (fun t3 => obind (alias_label alias_labels t3) (fun ty =>
  Ret (mkAliases (insert_or_append String.eqb chr ty (name_alias_types d))
        (fun n => if String.eqb n ty then insert_or_append str_eqb chr alias (aliases_of_type d n)
                  else aliases_of_type d n))))))).

(** name_aliases.rs:50-130 *)
Definition aliases_from_str (s : str) : outcome NameAliasesData :=
  ofold alias_step (mkAliases [] (fun _ => [])) (captures_iter ALIAS_REGEX s).

(** gen/src/writer/ucd/name_aliases.rs:25-45 *)
Definition emit_alias_types (s : str) : outcome (CharDataTable (list string)) :=
  obind (aliases_from_str s) (fun d => Ret (to_direct_char_table (name_alias_types d))).

(** name_aliases.rs:47-71 *)
Definition emit_aliases (ty : string) (s : str) : outcome (CharDataTable (list str)) :=
  obind (aliases_from_str s) (fun d => Ret (to_direct_char_table (aliases_of_type d ty))).

(** * NormalizationTest.txt *)

(** gen/src/source/ucd/test/normalization_test.rs:44-54 *)
Definition SEQUENCE : re := Seq hex46 (Star (Seq (lit 0x20) hex46)).
Definition NORMALIZATION_TEST_REGEX : re :=
  Seq Bol
    (fld (Cap 1 SEQUENCE) (fld (Cap 2 SEQUENCE) (fld (Cap 3 SEQUENCE) (fld (Cap 4 SEQUENCE)
    (fld (Cap 5 SEQUENCE) (Seq (lit 0x20) (lit 0x23))))))).

(** normalization_test.rs:28-34 [struct NormalizationTest]: source, nfc, nfd, nfkc, nfkd *)
Definition NormalizationTest : Type := str * str * str * str * str.

(** normalization_test.rs:61-65 (and 66-90): the sequence in a group.
    [split_whitespace] only meets spaces here. *)
Definition test_chars (n : nat) (capture : list (nat * str)) : outcome str :=
  obind (index n capture) (fun t => omap hex_char (split_whitespace t)).

(** normalization_test.rs:59-92 *)
Definition test_step (l : list NormalizationTest) (capture : list (nat * str)) : outcome (list NormalizationTest) :=
  obind (test_chars 1 capture) (fun a => obind (test_chars 2 capture) (fun b =>
  obind (test_chars 3 capture) (fun c => obind (test_chars 4 capture) (fun d =>
  obind (test_chars 5 capture) (fun e => Ret (l ++ [(a, b, c, d, e)])))))).

(** normalization_test.rs:39-97 *)
Definition tests_from_str (s : str) : outcome (list NormalizationTest) :=
  ofold test_step [] (captures_iter NORMALIZATION_TEST_REGEX s).

(** * ReadMe.txt *)
Section version.
(** [\d], by the tables of the [regex] crate. *)
Variable udigit : N -> bool.

(** [Regex::captures] *)
Definition captures (r : re) (s : str) : option (list (nat * str)) := hd_error (captures_iter r s).

(** gen/src/source/common/unicode_version.rs:29; the dots are not escaped. *)
Definition VERSION_REGEX : re :=
  Seq (lits 0x66 (text "or Version ")) (Seq (Cap 1 (plus (Cls udigit)))
    (Seq dot (Seq (Cap 2 (plus (Cls udigit))) (Seq dot (Cap 3 (plus (Cls udigit))))))).

(** unicode_version.rs:27-41 followed by [unwrap] (source/ucd/readme.rs:14-20):
    no match is an error and panics there. *)
Definition version_from_str (s : str) : outcome (N * N * N) :=
  match captures VERSION_REGEX s with
  | None => Panic
  | Some m =>
      obind (index 1 m) (fun t1 => obind (unwrap (parse_dec 0xFFFF t1)) (fun major =>
      obind (index 2 m) (fun t2 => obind (unwrap (parse_dec 0xFFFF t2)) (fun minor =>
      obind (index 3 m) (fun t3 => obind (unwrap (parse_dec 0xFFFF t3)) (fun micro =>
      Ret (major, minor, micro)))))))
  end.

(** gen/src/source/emoji/readme.rs:38 *)
Definition EMOJI_VERSION_REGEX : re :=
  Seq (lits 0x55 (text "nicode Emoji, Version ")) (Seq (Cap 1 (plus (Cls udigit)))
    (Seq dot (Cap 2 (plus (Cls udigit))))).

(** emoji/readme.rs:34-49; the numbers are [u8]. *)
Definition emoji_version_from_str (s : str) : outcome (N * N * N) :=
  match captures EMOJI_VERSION_REGEX s with
  | None => Panic
  | Some m =>
      obind (index 1 m) (fun t1 => obind (unwrap (parse_dec 0xFF t1)) (fun major =>
      obind (index 2 m) (fun t2 => obind (unwrap (parse_dec 0xFF t2)) (fun minor =>
      Ret (major, minor, 0)))))
  end.
End version.

(** Model of the text that the generator prints for its tables and tests. *)
From Coq Require Import String Ascii List NArith Bool.
From Verif Require Import Base RangeModel TableModel TextModel CliModel NameParseModel.
Import ListNotations.
Open Scope list_scope.
Open Scope N_scope.

Fixpoint lit (s : string) : str :=
  match s with EmptyString => [] | String c s' => N_of_ascii c :: lit s' end.

(** [Display] of unsigned integers (Rust core): decimal, no leading zeros. *)
Fixpoint dec_digits (fuel : nat) (n : N) (acc : str) : str :=
  match fuel with
  | O => acc
  | S f => let acc' := 0x30 + n mod 10 :: acc in if n / 10 =? 0 then acc' else dec_digits f (n / 10) acc'
  end.
Definition fmt_dec (n : N) : str := dec_digits 20 n [].

(** [[String]::join(", ")] (Rust alloc) *)
Fixpoint join_comma (l : list str) : str :=
  match l with [] => [] | [s] => s | s :: l' => s ++ lit ", " ++ join_comma l' end.

(** * Tables *)
Section Tables.
Context {V : Type} (display_fn : V -> str).

(** gen/src/writer/utils/tables/range.rs:35-44 [append_entry]
    (set.rs:28-36 with [()] for the value) *)
Definition range_entry (e : CharRange * V) : str :=
  lit "    (chars!('" ++ escape_unicode (r_low (fst e)) ++ lit "'..='" ++ escape_unicode (r_high (fst e)) ++ lit "'), "
  ++ display_fn (snd e) ++ lit ")," ++ [10].
(** gen/src/writer/utils/tables/direct.rs:32-39 *)
Definition direct_entry (e : N * V) : str :=
  lit "    ('" ++ escape_unicode (fst e) ++ lit "', " ++ display_fn (snd e) ++ lit ")," ++ [10].
(** range.rs:30-63, direct.rs:29-44, set.rs:22-54: the entries of the table are
    appended one after the other (see TableGenModel for which they are). *)
Definition table_text (t : CharDataTable V) : str :=
  match t with
  | Range l => lit "CharDataTable::Range(&[" ++ [10] ++ flat_map range_entry l ++ lit "])"
  | Direct l => lit "CharDataTable::Direct(&[" ++ [10] ++ flat_map direct_entry l ++ lit "])"
  end.
End Tables.

(** gen/src/writer/utils/mod.rs:37-47 [write] *)
Definition file_of (contents : str) : str :=
  lit "// WARNING: Auto-generated by the `unic-gen` crate." ++ [10] ++ lit "// WARNING: DO NOT EDIT MANUALLY!" ++ [10]
  ++ contents ++ [10].

(** * What is printed for a value *)
(** set.rs:31 *)
Definition unit_text (_ : unit) : str := lit "()".
(** writer/ucd/category.rs:36-39, bidi.rs:66-69: [Display] of a string *)
Definition plain_text (v : str) : str := v.
(** writer/ucd/segment.rs:35, 45, 55, [prefix] being GCB, WB and SB *)
Definition break_text (prefix : string) (v : str) : str := lit prefix ++ lit "::" ++ v.
(** gen/src/source/ucd/derived_age.rs:61-66 and writer/common/mod.rs:21-24 *)
Definition version_text (v : N * N * N) : str :=
  let '(major, minor, micro) := v in
  lit "UnicodeVersion { major: " ++ fmt_dec major ++ lit ", minor: " ++ fmt_dec minor ++ lit ", micro: " ++ fmt_dec micro ++ lit " }".
(** writer/ucd/blocks.rs:31, name.rs:84 *)
Definition quoted_text (v : str) : str := lit """" ++ v ++ lit """".
(** writer/ucd/normal.rs:54 *)
Definition class_text (v : N) : str := lit "CanonicalCombiningClass(" ++ fmt_dec v ++ lit ")".
(** normal.rs:77-81 *)
Definition chars_text (v : str) : str :=
  lit "&[" ++ flat_map (fun c => lit "'" ++ escape_unicode c ++ lit "',") v ++ lit "]".
(** normal.rs:111-122; the value is the table printed there *)
Definition pairs_text (v : list (N * N)) : str :=
  lit "CharDataTable::Direct(&[" ++
  flat_map (fun p => lit "('" ++ escape_unicode (fst p) ++ lit "','" ++ escape_unicode (snd p) ++ lit "'),") v ++ lit "])".
(** the same where the value is modelled as that table (GenDataModel) *)
Definition nested_text (t : CharDataTable N) : str := match t with Direct l => pairs_text l | Range _ => [] end.
(** [str::to_lowercase] of ASCII texts (Rust core) *)
Definition lowercase (s : str) : str := map to_ascii_lowercase s.
(** writer/utils/mod.rs:17-23 [capitalize], of ASCII texts *)
Definition capitalize (s : str) : str :=
  match s with [] => [] | c :: r => (if (0x61 <=? c) && (c <=? 0x7A) then c - 32 else c) :: r end.
(** normal.rs:143-148 *)
Definition compat_text (v : str * str) : str :=
  lit "(" ++ capitalize (lowercase (fst v)) ++ lit ", &[" ++
  flat_map (fun c => lit "'" ++ escape_unicode c ++ lit "',") (snd v) ++ lit "])".
(** writer/ucd/name_aliases.rs:32-42, name.rs:63-74 *)
Definition names_text (v : list str) : str := lit "&[" ++ join_comma v ++ lit "]".
(** name_aliases.rs:52-62 *)
Definition texts_text (v : list str) : str := lit "&[" ++ join_comma (map quoted_text v) ++ lit "]".
(** writer/idna/mapping.rs:25-42, the value being [idna_value] of the entry *)
Definition mapping_text (v : string * option str) : str :=
  lit (fst v) ++ match snd v with
                 | Some m => lit "(""" ++ flat_map escape_unicode m ++ lit """)"
                 | None => []
                 end.

(** * Other files *)
(** writer/ucd/name.rs:48-57 *)
Definition const_text (d : str * str) : str :=
  lit "const " ++ fst d ++ lit ": &str = """ ++ snd d ++ lit """;" ++ [10].
Definition consts_text (l : list (str * str)) : str := flat_map const_text l.
(** writer/common/mod.rs:17-26 *)
Definition version_file (v : N * N * N) : str := file_of (version_text v).

(** writer/segment/segment_tests.rs:23-34 [str_escape], [chars_escape] *)
Definition chars_escape (s : str) : str := lit """" ++ flat_map escape_unicode s ++ lit """".
(** segment_tests.rs:58-69: one after the other, with [", "] after all but the last *)
Fixpoint clusters_text (l : list str) : str :=
  match l with
  | [] => []
  | [c] => chars_escape c
  | c :: l' => chars_escape c ++ lit ", " ++ clusters_text l'
  end.
(** segment_tests.rs:41-93 *)
Definition grapheme_test_text (t : str * list str * option (list str)) : str :=
  let '(s, ext, leg) := t in
  lit "    (" ++ chars_escape s ++ lit ", " ++ lit "&[" ++ clusters_text ext ++ lit "], "
  ++ match leg with Some l => lit "Some(&[" ++ clusters_text l ++ lit "])" | None => lit "None" end
  ++ lit ")," ++ [10].
Definition grapheme_tests_text (ts : list (str * list str * option (list str))) : str :=
  lit "&[" ++ [10] ++ flat_map grapheme_test_text ts ++ lit "]".
(** segment_tests.rs:95-130 *)
Definition word_test_text (t : str * list str) : str :=
  lit "    (" ++ chars_escape (fst t) ++ lit ", " ++ lit "&[" ++ clusters_text (snd t) ++ lit "]" ++ lit ")," ++ [10].
Definition word_tests_text (ts : list (str * list str)) : str :=
  lit "&[" ++ [10] ++ flat_map word_test_text ts ++ lit "]".
(** writer/normal/normal_tests.rs:22-55 *)
Definition normal_test_text (t : str * str * str * str * str) : str :=
  let '(a, b, c, d, e) := t in
  let f := flat_map escape_unicode in
  lit "    (""" ++ f a ++ lit """, """ ++ f b ++ lit """, """ ++ f c ++ lit """, """ ++ f d ++ lit """, """ ++ f e
  ++ lit """)," ++ [10].
Definition normal_tests_text (ts : list (str * str * str * str * str)) : str :=
  lit "&[" ++ [10] ++ flat_map normal_test_text ts ++ lit "]".

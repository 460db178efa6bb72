(** What Jamo.txt, NameAliases.txt, NormalizationTest.txt and the ReadMe.txt
    files look like and what they say. *)
From Coq Require Import String List NArith Bool.
From Verif Require Import Base GenSpec GenBinarySpec GenDataSpec.
Import ListNotations.
Open Scope N_scope.
Open Scope list_scope.

(** A file with one item of data per line, and other lines that do not start
    with a hexadecimal digit. *)
Inductive entry (A : Type) := Item (a : A) | Note (t : str).
Arguments Item {A} a.
Arguments Note {A} t.

Definition listing {A} (show : A -> str) (f : list (entry A)) : str :=
  concat (map (fun l => match l with Item a => show a | Note t => t end ++ [10]) f).
Definition items {A} (f : list (entry A)) : list A :=
  flat_map (fun l => match l with Item a => [a] | Note _ => [] end) f.
Definition good_listing {A} (ok : A -> Prop) (f : list (entry A)) : Prop :=
  Forall (fun l => match l with Item a => ok a | Note t => no_newline t /\ not_starting is_hex t end) f.

Definition is_letter (c : N) : Prop := 0x41 <= c <= 0x5A \/ 0x61 <= c <= 0x7A.

(** Jamo.txt: [code; short name tail] *)
Record jamo_row := mkJamo { jcode : str; jpad : str; jname : str; jtail : str }.
Definition show_jamo (r : jamo_row) : str := jcode r ++ [0x3B] ++ jpad r ++ jname r ++ jtail r.
Definition jamo_row_ok (r : jamo_row) : Prop :=
  character_code (jcode r) /\ Forall is_blank (jpad r) /\ Forall is_letter (jname r) /\
  not_starting is_letter (jtail r) /\ (jname r = [] -> not_starting is_blank (jtail r)) /\ no_newline (jtail r).
(** The last line for a character. *)
Definition jamo_of (f : list (entry jamo_row)) (c : N) : option str :=
  option_map jname (List.find (fun r => hex_number (jcode r) =? c) (rev (items f))).

(** NameAliases.txt: [code;alias;type] *)
Record alias_row := mkAlias { acode : str; alias : str; atype : string; atail : str }.
Definition show_alias (r : alias_row) : str :=
  acode r ++ [0x3B] ++ alias r ++ [0x3B] ++ letters (atype r) ++ atail r.
Definition in_alias (c : N) : Prop := is_letter c \/ is_digit c \/ c = 0x20 \/ c = 0x2D.
(** The types and what they are called in the library. *)
Definition alias_types : list (string * string) :=
  [("correction", "NameCorrections"); ("control", "ControlCodeNames"); ("alternate", "AlternateNames");
   ("figment", "Figments"); ("abbreviation", "NameAbbreviations")]%string.
Definition alias_row_ok (r : alias_row) : Prop :=
  character_code (acode r) /\ Forall in_alias (alias r) /\ In (atype r) (map fst alias_types) /\
  not_starting is_letter (atail r) /\ no_newline (atail r).

(** The different elements of a list, in the order in which they first appear. *)
Definition firsts {A} (dec : forall a b : A, {a = b} + {a <> b}) (l : list A) : list A := rev (nodup dec (rev l)).

Definition of_char (c : N) (r : alias_row) : bool := hex_number (acode r) =? c.
(** The aliases of a type of a character. *)
Definition aliases_listed (f : list (entry alias_row)) (ty : string) (c : N) : list str :=
  firsts (list_eq_dec N.eq_dec)
    (map alias (filter (fun r => of_char c r && String.eqb (atype r) ty) (items f))).
(** The types of the aliases of a character. *)
Definition types_listed (f : list (entry alias_row)) (c : N) : list string :=
  firsts string_dec (map atype (filter (of_char c) (items f))).

(** A table has an entry where there is something to list. *)
Definition unless_empty {A} (l : list A) : option (list A) := match l with [] => None | _ => Some l end.

(** NormalizationTest.txt: [source; NFC; NFD; NFKC; NFKD; # comment] *)
Record test_row := mkTest { t1 : list str; t2 : list str; t3 : list str; t4 : list str; t5 : list str; tnote : str }.
Definition show_test (r : test_row) : str :=
  joined 0x20 (t1 r) ++ [0x3B] ++ joined 0x20 (t2 r) ++ [0x3B] ++ joined 0x20 (t3 r) ++ [0x3B] ++
  joined 0x20 (t4 r) ++ [0x3B] ++ joined 0x20 (t5 r) ++ [0x3B; 0x20; 0x23] ++ tnote r.
Definition test_row_ok (r : test_row) : Prop :=
  Forall (fun l => l <> [] /\ Forall character_code l) [t1 r; t2 r; t3 r; t4 r; t5 r] /\ no_newline (tnote r).
Definition test_says (r : test_row) : str * str * str * str * str :=
  let v := map hex_number in (v (t1 r), v (t2 r), v (t3 r), v (t4 r), v (t5 r)).

(** ReadMe.txt: the first place where [marker] occurs is after [pre]. *)
Definition first_place (marker pre rest : str) : Prop :=
  forall p q, pre ++ marker ++ rest = p ++ marker ++ q -> (length pre <= length p)%nat.
(** A text that does not go on with a digit. *)
Definition after_number (t : str) : Prop := match t with [] => True | c :: _ => c < 128 /\ ~ is_digit c end.
(** The ASCII part of [\d]. *)
Definition ascii_digits (udigit : N -> bool) : Prop := forall c, c < 128 -> (udigit c = true <-> is_digit c).

(** Dividing a text at given places, and the files of segmentation tests. *)
From Coq Require Import String List NArith Bool PeanoNat.
From Verif Require Import Base GenSpec GenBinarySpec.
Import ListNotations.
Open Scope list_scope.

(** A segmentation ends one of its segments [k] characters after its start. *)
Definition boundary (ls : list str) (k : nat) : Prop := exists p q, ls = p ++ q /\ p <> [] /\ q <> [] /\ length (concat p) = k.

(** [ls] divides [s] into non-empty segments exactly at the places [cut]. *)
Definition divides (s : str) (cut : nat -> Prop) (ls : list str) : Prop :=
  concat ls = s /\ Forall (fun l => l <> []) ls /\
  forall k, (0 < k < length s)%nat -> (boundary ls k <-> cut k).

(** The rules that only hold between extended grapheme clusters (UAX #29). *)
Definition extended_only (rule : str) : Prop := rule = letters "9.1" \/ rule = letters "9.2".

(** * GraphemeBreakTest.txt and WordBreakTest.txt *)
Open Scope N_scope.

(** A character of a test: its code point, its name and the value of its property
    (both only in the comment), whether there is a break after it, and the rule
    that decides that (the last character has the rule for the end of text). *)
Record tested := mkTested { code : str; named : str; valued : str; broken : bool; by_rule : str }.

(** The division sign marks a break, the multiplication sign none. *)
Definition sign (b : bool) : N := if b then 0xF7 else 0xD7.

Fixpoint source_text (l : list tested) : str :=
  match l with
  | [] => []
  | [x] => code x
  | x :: l' => code x ++ [0x20; sign (broken x); 0x20] ++ source_text l'
  end.

Definition comment_text (x : tested) : str :=
  [0x20] ++ named x ++ [0x20; 0x28] ++ valued x ++ [0x29; 0x20; sign (broken x); 0x20; 0x5B] ++ by_rule x ++ [0x5D].

(** A line of a test, with white space around the number sign. *)
Definition test_text (sp sp' : str) (l : list tested) : str :=
  [0xF7; 0x20] ++ source_text l ++ [0x20; 0xF7] ++ sp ++ [0x23] ++ sp' ++
  [0xF7; 0x20] ++ letters "[0.2]" ++ concat (map comment_text l).

(** Names such as [<CARRIAGE RETURN (CR)>]; rules such as [9.1]. *)
Definition good_tested (x : tested) : Prop :=
  code_point (code x) /\
  named x <> [] /\ Forall (fun c => is_word c \/ In c (letters " <>()-")) (named x) /\
  valued x <> [] /\ Forall is_word (valued x) /\
  by_rule x <> [] /\ Forall (fun c => ~ In c (10 :: letters "#]")) (by_rule x).

(** A file: tests and other lines, which are empty or comments. *)
Inductive test_line := Tested (sp sp' : str) (l : list tested) | Remark (t : str).

Definition test_line_text (x : test_line) : str :=
  match x with Tested sp sp' l => test_text sp sp' l | Remark t => t end ++ [10].
Definition tests_text (f : list test_line) : str := concat (map test_line_text f).

Definition good_test_line (x : test_line) : Prop :=
  match x with
  | Tested sp sp' l => Forall is_blank sp /\ Forall is_blank sp' /\ l <> [] /\ Forall good_tested l
  | Remark t => t = [] \/ exists u, t = 0x23 :: u /\ no_newline u
  end.

(** The characters of a test; tests with surrogates are left out. *)
Definition test_chars_of (l : list tested) : str := map (fun x => hex_number (code x)) l.
Fixpoint usable_tests (f : list test_line) : list (list tested) :=
  match f with
  | [] => []
  | Tested _ _ l :: f' => if forallb (fun x => scalarb (hex_number (code x))) l then l :: usable_tests f' else usable_tests f'
  | Remark _ :: f' => usable_tests f'
  end.

(** What is marked after the first [k] characters. *)
Definition break_after (l : list tested) (k : nat) : Prop := exists x, nth_error l (k - 1) = Some x /\ broken x = true.
Definition rule_after (l : list tested) (k : nat) (r : str) : Prop := exists x, nth_error l (k - 1) = Some x /\ by_rule x = r.

(** Model of the readers of GraphemeBreakTest.txt and WordBreakTest.txt and of
    the writer of the segmentation test data. *)
From Coq Require Import String List NArith Bool PeanoNat.
From Verif Require Import Base TextModel GenRegex GenModel GenDataModel.
Import ListNotations.
Open Scope N_scope.
Open Scope list_scope.

(** gen/src/source/ucd/test/grapheme_break_test.rs:41-47 [struct GraphemeBreakTest]
    (the same in word_break_test.rs:41-47); [char_gcbs] is not used by the writer. *)
Record BreakTest := mkBreakTest { chars : str; breaks : list bool; rules : list str }.

(** [v[i]] *)
Definition at_index {A} (l : list A) (i : nat) : outcome A := match nth_error l i with Some x => Ret x | None => Panic end.

(** * Reading (word_break_test.rs is the same but for the names of the types) *)
Section read.
(** [\w] and [\s], by the tables of the [regex] crate. *)
Variables uword uspace : N -> bool.

(** grapheme_break_test.rs:54-63; U+00F7 is the division sign.  The expression
    in two parts, before and from the captured comment. *)
Definition LINE_HEAD : re :=
  Seq (Star (Cls uspace)) (Seq (lit 0xF7) (Seq (plus (Cls uspace))
    (Seq (Cap 1 (Seq (Cls uword) (Seq (Star dot) (Cls uword))))
      (Seq (plus (Cls uspace)) (Seq (lit 0xF7) (Seq (Star (Cls uspace))
        (Seq (lit 0x23)
          (Seq (Star (Cls uspace)) (Seq (lit 0xF7) (Seq (plus (Cls uspace)) (lits 0x5B (text "0.2]")))))))))))).
Definition LINE_RE : re :=
  Seq Bol (Seq LINE_HEAD (Seq (Cap 2 (Star dot)) (Seq (Star (Cls uspace)) Eol))).

(** grapheme_break_test.rs:65-73; U+00D7 is the multiplication sign.  Whether a
    space inside the class counts with the flag [x] makes no difference as [\s]
    is in it. *)
Definition in_name (c : N) : bool :=
  uword c || uspace c || (c =? 0x3C) || (c =? 0x3E) || (c =? 0x28) || (c =? 0x29) || (c =? 0x2D).
Definition COMMENT_RE : re :=
  Seq (plus (Cls uspace)) (Seq (plus (Cls in_name))
    (Seq (plus (Cls uspace)) (Seq (lit 0x28) (Seq (Cap 1 (plus (Cls uword))) (Seq (lit 0x29)
      (Seq (plus (Cls uspace)) (Seq (Cap 2 (Cls (fun c => (c =? 0xF7) || (c =? 0xD7))))
        (Seq (plus (Cls uspace)) (Seq (lit 0x5B)
          (Seq (Cap 3 (plus (Cls (fun c => negb (c =? 0x5D))))) (lit 0x5D))))))))))).

(** [Itertools::step] *)
Fixpoint step_from {A} (n k : nat) (l : list A) : list A :=
  match l with
  | [] => []
  | x :: l' => match k with O => x :: step_from n (n - 1) l' | S k' => step_from n k' l' end
  end.
Definition step {A} (n : nat) (l : list A) : list A := step_from n 0 l.

(** [assert_eq!] *)
Definition check {A} (c : bool) (k : outcome A) : outcome A := if c then k else Panic.

(** grapheme_break_test.rs:98-106 *)
Definition token (s : str) : outcome bool :=
  if str_eqb s [0xF7] then Ret true else if str_eqb s [0xD7] then Ret false else Panic.

(** grapheme_break_test.rs:110-119: the items of the comment *)
Definition comment_items (s : str) : outcome (list str) :=
  obind (omap (fun c => obind (index 1 c) (fun x => obind (index 2 c) (fun y => obind (index 3 c) (fun z => Ret [x; y; z]))))
           (captures_iter COMMENT_RE s)) (fun l =>
  let flat := concat l in
  check (Nat.leb 2 (length flat)) (Ret (firstn (length flat - 2) flat))).

(** grapheme_break_test.rs:78-142: one line; [None] if the line is left out.
    [trim] has nothing to do after [split_whitespace].  [char_gcbs] is only counted. *)
Definition test_of_line (line : list (nat * str)) : outcome (option BreakTest) :=
  obind (index 1 line) (fun source =>
  let source_items := split_whitespace source in
  obind (omap hex (step 2 source_items)) (fun codepoints =>
  let chars := flat_map (fun u => match char_from_u32 u with Some c => [c] | None => [] end) codepoints in
  if negb (Nat.eqb (length codepoints) (length chars)) then Ret None else
  check (Nat.eqb (length chars * 2) (length source_items + 1)) (
  obind (omap token (step 2 (skipn 1 source_items))) (fun breaks =>
  check (Nat.leb 1 (length chars) && Nat.eqb (length breaks) (length chars - 1)) (
  obind (index 2 line) (fun comment =>
  obind (comment_items comment) (fun items =>
  check (Nat.leb 2 (length chars * 3) && Nat.eqb (length items) (length chars * 3 - 2)) (
  let char_gcbs := step 3 items in
  check (Nat.eqb (length char_gcbs) (length chars)) (
  let rules := step 3 (skipn 2 items) in
  check (Nat.eqb (length rules) (length chars - 1)) (
  Ret (Some (mkBreakTest chars breaks rules)))))))))))).

(** grapheme_break_test.rs:76-146 *)
Definition break_tests_from_str (s : str) : outcome (list BreakTest) :=
  obind (omap test_of_line (captures_iter LINE_RE s)) (fun l =>
  Ret (flat_map (fun o => match o with Some t => [t] | None => [] end) l)).
End read.

(** * Writing *)

(** gen/src/writer/segment/segment_tests.rs:58-67: the clusters pushed by the loop, in
    order, and the last one pushed after it.  [split i brk] is the condition. *)
Fixpoint cluster_loop (split : nat -> bool -> outcome bool) (cs : str) (i : nat) (bs : list bool) (cluster : str) (out : list str)
  : outcome (list str) :=
  match bs with
  | [] => Ret (out ++ [cluster])
  | brk :: bs' =>
      obind (split i brk) (fun s =>
      obind (at_index cs (i + 1)) (fun c =>
      if s then cluster_loop split cs (S i) bs' [c] (out ++ [cluster])
      else cluster_loop split cs (S i) bs' (cluster ++ [c]) out))
  end.

(** segment_tests.rs:57-68 and 120-131 *)
Definition clusters (t : BreakTest) : outcome (list str) :=
  obind (at_index (chars t) 0) (fun c =>
  cluster_loop (fun _ brk => Ret brk) (chars t) 0 (breaks t) [c] []).

(** segment_tests.rs:36-39 *)
Definition legacy_should_break (rule : str) : bool :=
  str_eqb rule (text "9.1") || str_eqb rule (text "9.2").

(** segment_tests.rs:71-84; [brk || ..] looks at the rule only if [brk] is false. *)
Definition legacy_clusters (t : BreakTest) : outcome (option (list str)) :=
  if existsb legacy_should_break (rules t) then
    obind (at_index (chars t) 0) (fun c =>
    obind (cluster_loop (fun i brk => if brk then Ret true else obind (at_index (rules t) i) (fun r => Ret (legacy_should_break r)))
             (chars t) 0 (breaks t) [c] []) (fun l => Ret (Some l)))
  else Ret None.

(** segment_tests.rs:41-95 and 97-140: what is written about each test (for
    the literals see PrintModel): the text, its clusters or words and, for grapheme
    clusters only, its legacy clusters. *)
Definition emit_words (uword uspace : N -> bool) (s : str) : outcome (list (str * list str)) :=
  obind (break_tests_from_str uword uspace s) (fun ts =>
  omap (fun t => obind (clusters t) (fun l => Ret (chars t, l))) ts).
Definition emit_graphemes (uword uspace : N -> bool) (s : str) : outcome (list (str * list str * option (list str))) :=
  obind (break_tests_from_str uword uspace s) (fun ts =>
  omap (fun t => obind (clusters t) (fun l => obind (legacy_clusters t) (fun o => Ret (chars t, l, o)))) ts).

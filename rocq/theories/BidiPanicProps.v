(** Property C36, lines anywhere in the text: when [reorder_line] returns. *)
From Coq Require Import List NArith Permutation Arith Lia.
From Verif Require Import Base RangeModel Enums UcdModel BidiModel BidiSpec BidiPanicSpec BidiPanic.
Import ListNotations.
Open Scope nat_scope.

(** The levels of a line are computed if the line has a level below 126; rule
    L1 sets only levels at offsets below the length of the line, counted from
    the beginning of the text. *)
Theorem C36_line_levels : forall t default b pl a line z, bidi_new t default = Ret b -> t = a ++ line ++ z -> line <> [] ->
  (pl <= 125)%N -> some_low (b_levels b) (slen a) line ->
  exists levels, reordered_levels b pl (slen a) (slen a + slen line) = Ret levels /\ length levels = slen t /\
    forall j, nth j levels 0%N = nth j (b_levels b) 0%N \/ j < slen line /\ nth j levels 0%N = pl.
Proof. exact line_levels. Qed.
Print Assumptions C36_line_levels.

(** With these levels, reordering fails exactly if there is something to
    reverse and the new levels differ within a character. *)
Theorem C36_panics_exact : forall t default b pl a line z, bidi_new t default = Ret b -> t = a ++ line ++ z -> line <> [] ->
  forall levels, reordered_levels b pl (slen a) (slen a + slen line) = Ret levels ->
  (reorder_line b pl (slen a) (slen a + slen line) = Panic <-> some_odd levels (slen a) line /\ torn levels (slen a) line).
Proof. exact line_panics. Qed.
Print Assumptions C36_panics_exact.

(** so it returns for every line no longer than the text before it, and for lines of one-byte characters *)
Theorem C36_later_lines_partial : forall t default b pl a line z, bidi_new t default = Ret b -> t = a ++ line ++ z -> line <> [] ->
  (pl <= 125)%N -> slen line <= slen a -> some_low (b_levels b) (slen a) line ->
  exists out, reorder_line b pl (slen a) (slen a + slen line) = Ret out /\ Permutation out line.
Proof. exact later_line. Qed.
Print Assumptions C36_later_lines_partial.
Theorem C36_one_byte_partial : forall t default b pl a line z, bidi_new t default = Ret b -> t = a ++ line ++ z -> line <> [] ->
  (pl <= 125)%N -> Forall (fun c => clen c = 1) line -> some_low (b_levels b) (slen a) line ->
  exists out, reorder_line b pl (slen a) (slen a + slen line) = Ret out /\ Permutation out line.
Proof. exact one_byte_line. Qed.
Print Assumptions C36_one_byte_partial.

(** a later line all of whose levels are 126 always fails *)
Theorem C36_high_line_panics : forall t default b pl a line z, bidi_new t default = Ret b -> t = a ++ line ++ z -> line <> [] ->
  ~ some_low (b_levels b) (slen a) line -> slen line <= slen a ->
  reordered_levels b pl (slen a) (slen a + slen line) = Panic.
Proof. exact high_line_panics. Qed.
Print Assumptions C36_high_line_panics.
(** "a" after RLE in a paragraph of level 123 *)
Theorem C36_high_line_refuted : exists t b a line, bidi_new t (Some 123%N) = Ret b /\ t = a ++ line /\ line <> [] /\
  reorder_line b 123 (slen a) (slen a + slen line) = Panic.
Proof. exact high_line. Qed.
Print Assumptions C36_high_line_refuted.

(** the second paragraph of "ab\n\u{e9}\u{e9}", right-to-left: L1 sets the first byte of the first e-acute *)
Example C36_ex_torn : exists b, bidi_new [0x61; 0x62; 0xA; 0xE9; 0xE9]%N (Some 1%N) = Ret b /\
  b_levels b = [2; 2; 1; 2; 2; 2; 2]%N /\ reordered_levels b 1 3 7 = Ret [2; 2; 1; 1; 2; 2; 2]%N /\ reorder_line b 1 3 7 = Panic.
Proof. eexists. split; [vm_compute; reflexivity|]. vm_compute. auto. Qed.
Example C36_ex_later : exists b, bidi_new [0x61; 0x62; 0x63; 0x20; 0xA; 0x5D0; 0x5D1]%N None = Ret b /\
  reorder_line b 1 5 9 = Ret [0x5D1; 0x5D0]%N.
Proof. eexists. split; [vm_compute; reflexivity|]. vm_compute. auto. Qed.

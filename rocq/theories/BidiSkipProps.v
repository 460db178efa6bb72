(** Properties C73 and C74: skipping the reordering, and the arithmetic of levels. *)
From Coq Require Import List NArith Bool.
From Verif Require Import Base Enums UcdModel BidiModel BidiSpec BidiLemmas BidiPara BidiLtr BidiSkipSpec BidiSkip.
Import ListNotations.
Open Scope nat_scope.

(** ** C73 *)
Theorem C73_has_rtl : forall t default b, bidi_new t default = Ret b ->
  (bidi_has_rtl b = true <-> exists i, i < slen t /\ N.odd (level_at (b_levels b) i) = true).
Proof. exact has_rtl_text. Qed.
Print Assumptions C73_has_rtl.
(** No right-to-left level and an even paragraph level: a line is returned as it is. *)
Theorem C73_skip_partial : forall b pl ls le out, bidi_has_rtl b = false -> N.even pl = true ->
  reorder_line b pl ls le = Ret out -> str_slice (b_text b) ls le = Ret out.
Proof. exact skip_sound. Qed.
Print Assumptions C73_skip_partial.
(** For lines at the beginning of the text there is no panic either. *)
Theorem C73_skip_first_line_partial : forall t default b line z pl,
  default_ok default 123 -> bidi_new t default = Ret b ->
  bidi_has_rtl b = false -> N.even pl = true -> (pl <= 125)%N -> t = line ++ z -> line <> [] ->
  reorder_line b pl 0 (slen line) = Ret line.
Proof. exact skip_first_line. Qed.
Print Assumptions C73_skip_first_line_partial.
(** In a paragraph of odd level whose resolved levels are all even, L1 still gives trailing
    white space the odd level, and the line is reordered. *)
Theorem C73_skip_refuted : exists t b p line,
  bidi_new t (Some 1%N) = Ret b /\ b_paras b = [p] /\ bidi_has_rtl b = false /\ p_level p = 1%N /\
  str_slice t 0 (slen line) = Ret line /\
  exists out, reorder_line b (p_level p) 0 (slen line) = Ret out /\ out <> line.
Proof. exact skip_refuted. Qed.
Print Assumptions C73_skip_refuted.
(** "a", LRE, "b ", PDF, "c": levels 0 and 2 *)
Example C73_ex : exists b, bidi_new [0x61; 0x202A; 0x62; 0x20; 0x202C; 0x63]%N None = Ret b /\
  bidi_has_rtl b = false /\ map (level_at (b_levels b)) [0; 4; 9] = [0; 2; 0]%N /\
  reorder_line b 0 0 10 = Ret [0x61; 0x202A; 0x62; 0x20; 0x202C; 0x63]%N.
Proof. eexists. split; [vm_compute; reflexivity|]. repeat split; vm_compute; reflexivity. Qed.
(** an even paragraph level does not mean that there is nothing to reorder *)
Example C73_ex_rtl : exists b, bidi_new [0x61; 0x5D0; 0x5D1]%N None = Ret b /\
  map p_level (b_paras b) = [0%N] /\ bidi_has_rtl b = true /\ reorder_line b 0 0 5 = Ret [0x61; 0x5D1; 0x5D0]%N.
Proof. eexists. split; [vm_compute; reflexivity|]. repeat split; vm_compute; reflexivity. Qed.

(** ** C74 *)
Theorem C74_new : forall n l, level_new n = Some l <-> l = n /\ (n <= 126)%N.
Proof. exact level_new_iff. Qed.
Print Assumptions C74_new.
Theorem C74_new_explicit : forall n l, level_new_explicit n = Some l <-> l = n /\ (n <= 125)%N.
Proof. exact level_new_explicit_iff. Qed.
Print Assumptions C74_new_explicit.
Theorem C74_raise : forall l a m, level_raise l a = Some m <-> m = (l + a)%N /\ (m <= 126)%N.
Proof. exact level_raise_iff. Qed.
Print Assumptions C74_raise.
Theorem C74_raise_explicit : forall l a m, level_raise_explicit l a = Some m <-> m = (l + a)%N /\ (m <= 125)%N.
Proof. exact level_raise_explicit_iff. Qed.
Print Assumptions C74_raise_explicit.
Theorem C74_lower : forall l a m, level_lower l a = Some m <-> (m + a = l)%N.
Proof. exact level_lower_iff. Qed.
Print Assumptions C74_lower.
Theorem C74_next_ltr : forall l m, (l <= 126)%N ->
  level_next_ltr l = Some m <-> least (fun k => N.even k = true /\ (l < k)%N) m /\ (m <= 125)%N.
Proof. exact next_ltr_iff. Qed.
Print Assumptions C74_next_ltr.
Theorem C74_next_rtl : forall l m, (l <= 126)%N ->
  level_next_rtl l = Some m <-> least (fun k => N.odd k = true /\ (l < k)%N) m /\ (m <= 125)%N.
Proof. exact next_rtl_iff. Qed.
Print Assumptions C74_next_rtl.
Theorem C74_lowest_ge_rtl : forall l m, (l <= 126)%N ->
  level_lowest_ge_rtl l = Some m <-> least (fun k => N.odd k = true /\ (l <= k)%N) m /\ (m <= 126)%N.
Proof. exact lowest_ge_rtl_iff. Qed.
Print Assumptions C74_lowest_ge_rtl.
Theorem C74_direction : forall l,
  (level_is_rtl l = true <-> N.odd l = true) /\ level_is_ltr l = negb (level_is_rtl l) /\
  (level_class l = cR <-> N.odd l = true) /\ (level_class l = cL <-> N.even l = true).
Proof. exact level_direction. Qed.
Print Assumptions C74_direction.
Example C74_ex : level_next_ltr 7 = Some 8%N /\ level_next_ltr 8 = Some 10%N /\ level_next_ltr 124 = None /\
  level_next_rtl 7 = Some 9%N /\ level_next_rtl 8 = Some 9%N /\ level_next_rtl 125 = None /\
  level_lowest_ge_rtl 6 = Some 7%N /\ level_lowest_ge_rtl 7 = Some 7%N /\ level_lowest_ge_rtl 126 = None /\
  level_raise 120 6 = Some 126%N /\ level_raise 120 136 = None /\ level_lower 3 4 = None.
Proof. vm_compute. repeat split. Qed.

(** Properties C29-C38 and C68-C70: the bidirectional algorithm. *)
From Coq Require Import List NArith Bool Permutation.
From Verif Require Import Base Enums UcdModel BidiModel BidiSpec BidiLemmas BidiWeak BidiSeqs BidiPara BidiLtr BidiRules BidiIso
  BidiLine BidiRefute BidiEnd BidiAnyLine.
Import ListNotations.
Open Scope nat_scope.

(** ** C29 *)
Theorem C29_one_entry_per_byte : forall t default b, bidi_new t default = Ret b ->
  exists cc lc, length cc = length t /\ length lc = length t /\
    b_classes b = expand (map clen t) cc /\ b_levels b = expand (map clen t) lc.
Proof. exact bidi_arrays. Qed.
Print Assumptions C29_one_entry_per_byte.
Example C29_ex : bidi_new [0x61; 0x5D0; 0x20; 0x20AC]%N None =
  Ret (mkbidi [0x61; 0x5D0; 0x20; 0x20AC]%N [cL; cR; cR; cWS; cET; cET; cET]
         [0; 1; 1; 0; 0; 0; 0]%N [mkpara 0 7 0%N]).
Proof. vm_compute. reflexivity. Qed.

(** ** C30 *)
Theorem C30_paragraphs : forall t default b, bidi_new t default = Ret b ->
  exists pieces, paragraphs_of t pieces /\
    map (fun p => (p_start p, p_end p)) (b_paras b) = ranges_from 0 pieces.
Proof. exact bidi_paragraph_ranges. Qed.
Print Assumptions C30_paragraphs.
Example C30_ex : exists b, bidi_new [0x61; 0x2029; 0xE9; 0xA; 0xA]%N None = Ret b /\
  map (fun p => (p_start p, p_end p)) (b_paras b) = [(0, 4); (4, 7); (7, 8)].
Proof. eexists. split; [vm_compute; reflexivity|]. vm_compute. reflexivity. Qed.

(** ** C31 *)
Theorem C31_paragraph_level : forall t default b, bidi_new t default = Ret b -> exists pieces,
  paragraphs_of t pieces /\ map (fun p => (p_start p, p_end p)) (b_paras b) = ranges_from 0 pieces /\
  forall n piece p, nth_error pieces n = Some piece -> nth_error (b_paras b) n = Some p ->
    match default with
    | Some l => p_level p = l
    | None => (p_level p = 1%N <-> first_strong (map bidi_class piece) cR \/ first_strong (map bidi_class piece) cAL) /\
              (p_level p = 0%N <-> ~ (first_strong (map bidi_class piece) cR \/ first_strong (map bidi_class piece) cAL))
    end.
Proof. exact bidi_paragraphs. Qed.
Print Assumptions C31_paragraph_level.
(** RLI a PDI alef: the letter inside the isolate does not count *)
Example C31_ex : exists b, bidi_new [0x2067; 0x61; 0x2069; 0x5D0; 0xA; 0x31; 0x61; 0x5D0]%N None = Ret b /\
  map p_level (b_paras b) = [1; 0]%N.
Proof. eexists. split; [vm_compute; reflexivity|]. vm_compute. reflexivity. Qed.

(** ** C32 *)
Theorem C32_explicit_levels : forall ws para cs,
  (para <= 125)%N -> length cs = length ws -> Forall (fun w => 0 < w) ws ->
  exists lv xc, length lv = length cs /\ length xc = length cs /\
    explicit_compute ws para (expand ws cs) (repeat para (length (expand ws cs))) (expand ws cs) = (expand ws lv, expand ws xc) /\
    Forall (fun l => (para <= l <= 125)%N) lv /\
    forall k, k < length cs -> ~ x9 (class_at cs k) ->
      nth_error (x_rules para (x_start para) cs) k = Some (level_at lv k, class_at xc k).
Proof. exact explicit_rules. Qed.
Print Assumptions C32_explicit_levels.
(** a RLO 1 LRI x PDI PDF b: the override makes the number and the isolate R *)
Example C32_ex : explicit_compute (repeat 1 8) 0 [cL; cRLO; cEN; cLRI; cL; cPDI; cPDF; cL]
    (repeat 0%N 8) [cL; cRLO; cEN; cLRI; cL; cPDI; cPDF; cL]
  = ([0; 1; 1; 1; 2; 1; 0; 0]%N, [cL; cRLO; cR; cR; cL; cR; cPDF; cL]).
Proof. vm_compute. reflexivity. Qed.
(** 126 right-to-left embeddings: the level stops at 125 *)
Example C32_ex_depth : x_next cRLE (mkx [mkstatus 125 None false] 0 0 0) = mkx [mkstatus 125 None false] 0 1 0.
Proof. reflexivity. Qed.

(** ** C33 *)
Theorem C33_levels_bounded : forall t default, default_ok default 125 -> exists b,
  bidi_new t default = Ret b /\ b_text b = t /\ length (b_levels b) = slen t /\ length (b_classes b) = slen t /\
  forall p i, In p (b_paras b) -> p_start p <= i < p_end p ->
    (p_level p <= level_at (b_levels b) i <= 126)%N.
Proof. exact bidi_bounds. Qed.
Print Assumptions C33_levels_bounded.
Theorem C33_default_126_panics : exists t, bidi_new t (Some 126%N) = Panic.
Proof. exact default_126_panics. Qed.
Print Assumptions C33_default_126_panics.
Example C33_ex : exists b, bidi_new [0x660; 0x61]%N (Some 125%N) = Ret b /\ b_levels b = [126; 126; 126]%N.
Proof. eexists. split; [vm_compute; reflexivity|]. vm_compute. reflexivity. Qed.

(** ** C34 *)
Theorem C34_left_to_right_unchanged : forall t,
  (forall c, In c t -> ~ In (bidi_class c) [cR; cAL; cAN; cLRE; cLRO; cRLE; cRLO; cPDF; cLRI; cRLI; cFSI; cPDI]) ->
  exists b, bidi_new t None = Ret b /\
    (forall i, level_at (b_levels b) i = 0%N) /\
    (forall p, In p (b_paras b) -> p_level p = 0%N) /\
    bidi_has_rtl b = false /\
    forall p ls le line, In p (b_paras b) -> str_slice t ls le = Ret line -> ls < slen t ->
      reorder_line b (p_level p) ls le = Ret line.
Proof. exact ltr_text. Qed.
Print Assumptions C34_left_to_right_unchanged.
Example C34_ex : exists b, bidi_new [0x61; 0x20; 0x31; 0x2C; 0x32; 0x25; 0xA; 0xE9]%N None = Ret b /\
  reorder_line b 0 1 9 = Ret [0x20; 0x31; 0x2C; 0x32; 0x25; 0xA; 0xE9]%N.
Proof. eexists. split; [vm_compute; reflexivity|]. vm_compute. reflexivity. Qed.

(** ** C35 *)
Theorem C35_level_runs : forall levels oc, are_level_runs oc levels 0 (level_runs levels oc).
Proof. exact level_runs_spec. Qed.
Print Assumptions C35_level_runs.
Theorem C35_sequences_are_the_level_runs : forall para oc levels,
  Permutation (concat (map s_runs (isolating_run_sequences para oc levels))) (level_runs levels oc).
Proof. exact sequences_perm. Qed.
Print Assumptions C35_sequences_are_the_level_runs.
Theorem C35_sequences_cover_once : forall para oc levels,
  Permutation (flat_map (fun s => seq_indices (s_runs s)) (isolating_run_sequences para oc levels))
              (seq 0 (length levels)).
Proof. exact sequences_cover. Qed.
Print Assumptions C35_sequences_cover_once.
Theorem C35_sequences_in_text_order : forall para oc levels,
  Forall (fun s => s_runs s <> [] /\ in_order 0 (s_runs s)) (isolating_run_sequences para oc levels).
Proof. exact sequences_ordered. Qed.
Print Assumptions C35_sequences_in_text_order.
(** BD13 and X10 for the paragraphs of a text in which no isolate initiator is directly
    followed by a character that X9 removes. *)
Theorem C35_isolating_run_sequences_partial : forall ws para cs,
  (para <= 125)%N -> length cs = length ws -> Forall (fun w => 0 < w) ws ->
  separator_last cs -> isolates_begin_kept cs ->
  exists lv ss,
    fst (explicit_compute ws para (expand ws cs) (repeat para (length (expand ws cs))) (expand ws cs)) = expand ws lv /\
    length lv = length cs /\
    isolating_run_sequences para (expand ws cs) (expand ws lv)
    = map (fun s => mkseq (map (bound ws) (s_runs s)) (s_sos s) (s_eos s)) ss /\
    Forall (fun s => isolating_chain cs (s_runs s) /\
                     (exists l, Forall (fun r => level_at lv (fst r) = l) (s_runs s)) /\
                     sos_eos para cs lv s) ss.
Proof. exact paragraph_sequences. Qed.
Print Assumptions C35_isolating_run_sequences_partial.
(** without that condition a sequence can join runs of different levels *)
Theorem C35_same_level_refuted : exists cs,
  separator_last cs /\
  exists s r r', In s (isolating_run_sequences 0 cs (fst (explicit_compute (repeat 1 (length cs)) 0 cs (repeat 0%N (length cs)) cs))) /\
    In r (s_runs s) /\ In r' (s_runs s) /\
    let lv := fst (explicit_compute (repeat 1 (length cs)) 0 cs (repeat 0%N (length cs)) cs) in
    level_at lv (fst r) <> level_at lv (fst r').
Proof. exact same_level_refuted. Qed.
Print Assumptions C35_same_level_refuted.
Example C35_ex : map s_runs (isolating_run_sequences 0 [cL; cRLI; cR; cLRI; cL; cPDI; cR; cPDI; cL]
    [0; 0; 1; 1; 2; 1; 1; 0; 0]%N) = [[(4, 5)]; [(2, 4); (5, 7)]; [(0, 2); (7, 9)]].
Proof. vm_compute. reflexivity. Qed.

(** ** C36 *)
Theorem C36_line_permuted : forall t default b line z pl,
  default_ok default 123 -> bidi_new t default = Ret b ->
  t = line ++ z -> line <> [] -> (pl <= 125)%N ->
  exists levels runs out,
    visual_runs b pl 0 (slen line) = Ret (levels, runs) /\
    Forall (fun r => fst r < snd r) runs /\ Permutation (seq_indices runs) (seq 0 (slen line)) /\
    reorder_line b pl 0 (slen line) = Ret out /\ Permutation out line.
Proof. exact first_line. Qed.
Print Assumptions C36_line_permuted.
(** any other line, if rule L1 changes no level in it *)
Theorem C36_other_lines_partial : forall t default b a line z pl levels runs,
  bidi_new t default = Ret b -> t = a ++ line ++ z -> line <> [] ->
  visual_runs b pl (slen a) (slen a + slen line) = Ret (levels, runs) ->
  (forall i, slen a <= i < slen a + slen line -> level_at levels i = level_at (b_levels b) i) ->
  Forall (fun r => fst r < snd r) runs /\ Permutation (seq_indices runs) (seq (slen a) (slen line)) /\
  exists out, reorder_line b pl (slen a) (slen a + slen line) = Ret out /\ Permutation out line.
Proof. exact steady_line_permuted. Qed.
Print Assumptions C36_other_lines_partial.
(** whatever line is asked for, if there is a result it is a permutation of the line *)
Theorem C36_any_line : forall b pl ls le out, reorder_line b pl ls le = Ret out ->
  exists line, str_slice (b_text b) ls le = Ret line /\ Permutation out line.
Proof. exact reorder_any. Qed.
Print Assumptions C36_any_line.
(** the second paragraph of "ab\n\u{e9}\u{e9}" cannot be reordered *)
Theorem C36_other_lines_refuted : exists t default b p,
  bidi_new t default = Ret b /\ In p (b_paras b) /\ p_start p < p_end p /\
  reorder_line b (p_level p) (p_start p) (p_end p) = Panic.
Proof. exact second_paragraph_panics. Qed.
Print Assumptions C36_other_lines_refuted.
Theorem C36_default_124_refuted : exists t b,
  bidi_new t (Some 124%N) = Ret b /\ t <> [] /\ reorder_line b 124 0 (slen t) = Panic.
Proof. exact default_124_panics. Qed.
Print Assumptions C36_default_124_refuted.
Example C36_ex : exists b, bidi_new [0x61; 0x20; 0x5D0; 0x31; 0x32; 0x5D1]%N None = Ret b /\
  visual_runs b 0 0 8 = Ret ([0; 0; 1; 1; 2; 2; 1; 1]%N, [(0, 2); (6, 8); (4, 6); (2, 4)]) /\
  reorder_line b 0 0 8 = Ret [0x61; 0x20; 0x5D1; 0x31; 0x32; 0x5D0]%N.
Proof. eexists. split; [vm_compute; reflexivity|]. split; vm_compute; reflexivity. Qed.

(** ** C37 *)
Theorem C37_weak_types_partial : forall s pc ws cs,
  NoDup (seq_indices (s_runs s)) -> in_range pc (seq_indices (s_runs s)) ->
  Forall (fun w => 0 < w) ws -> length cs = length ws ->
  reads pc (seq_indices (s_runs s)) = expand ws cs ->
  (s_sos s = cL \/ s_sos s = cR) -> (s_eos s = cL \/ s_eos s = cR) ->
  weak_tame (s_sos s) ws cs ->
  exists out,
    reads (resolve_weak s pc) (seq_indices (s_runs s)) = expand ws out /\
    filter kept out = w_rules (s_sos s) (filter kept cs) /\
    Forall2 (fun c d => kept d = kept c /\ (kept c = false -> d = c)) cs out /\
    (forall j, ~ In j (seq_indices (s_runs s)) -> class_at (resolve_weak s pc) j = class_at pc j).
Proof. exact weak_pass. Qed.
Print Assumptions C37_weak_types_partial.
(** W2 never applies *)
Theorem C37_w2_refuted : exists cs, resolve_weak (mkseq [(0, length cs)] cR cR) cs <> w_rules cR cs /\
  ets_followed cs /\ separators_short (repeat 1 (length cs)) cs /\ forallb kept cs = true.
Proof. exact w2_refuted. Qed.
Print Assumptions C37_w2_refuted.
(** W5 is applied before W4, a final ET is left over, and an ET before a NSM is lost *)
Theorem C37_w5_refuted : exists cs1 cs2 cs3,
  Forall (fun cs => resolve_weak (mkseq [(0, length cs)] cR cR) cs <> w_rules cR cs /\
    w2_idle cR cs /\ separators_short (repeat 1 (length cs)) cs /\ forallb kept cs = true) [cs1; cs2; cs3] /\
  In cES cs1 /\ last cs2 cL = cET /\ In cNSM cs3.
Proof. exact w5_refuted. Qed.
Print Assumptions C37_w5_refuted.
(** a separator of two bytes between numbers does not become a number *)
Theorem C37_w4_refuted : exists ws cs,
  forall out, resolve_weak (mkseq [(0, list_sum ws)] cR cR) (expand ws cs) = expand ws out ->
  out <> w_rules cR cs.
Proof. exact w4_refuted. Qed.
Print Assumptions C37_w4_refuted.
(** the level of '+' in "1$+1" with a right-to-left paragraph: 1 by the rules *)
Theorem C37_observable_refuted : exists b,
  bidi_new [0x31; 0x24; 0x2B; 0x31]%N (Some 1%N) = Ret b /\ b_levels b = [2; 2; 2; 2]%N /\
  map (implicit_level 1) (n_rules cR cR cR (w_rules cR [cEN; cET; cES; cEN])) = [2; 2; 1; 2]%N.
Proof. exact w5_observable. Qed.
Print Assumptions C37_observable_refuted.
Example C37_ex : let cs := [cR; cNSM; cEN; cES; cEN; cET; cEN; cRLE; cCS; cL; cEN; cET; cEN; cS] in
  weak_tame cR (repeat 1 14) cs /\
  resolve_weak (mkseq [(0, 14)] cR cL) cs
  = [cR; cR; cEN; cEN; cEN; cEN; cEN; cRLE; cON; cL; cL; cL; cL; cS].
Proof. vm_compute. repeat split; auto; discriminate. Qed.

(** ** C38 *)
Theorem C38_neutrals_partial : forall s levels pc,
  NoDup (seq_indices (s_runs s)) -> in_range pc (seq_indices (s_runs s)) ->
  runs_unbroken false (reads pc (seq_indices (s_runs s))) ->
  let e := if N.odd (level_at levels (seq_start (s_runs s))) then cR else cL in
  let out := resolve_neutral s levels pc in
  filter kept (reads out (seq_indices (s_runs s)))
  = n_rules (s_sos s) (s_eos s) e (filter kept (reads pc (seq_indices (s_runs s)))) /\
  Forall2 (fun c d => kept c = false -> d = c) (reads pc (seq_indices (s_runs s))) (reads out (seq_indices (s_runs s))) /\
  (forall j, ~ In j (seq_indices (s_runs s)) -> class_at out j = class_at pc j).
Proof. exact neutral_pass. Qed.
Print Assumptions C38_neutrals_partial.
(** with a removed character before a neutral run the left side is lost *)
Theorem C38_neutrals_refuted : exists cs, let s := mkseq [(0, length cs)] cL cL in
  filter kept (resolve_neutral s (repeat 0%N (length cs)) cs) <> n_rules cL cL cL (filter kept cs).
Proof. exact n_refuted. Qed.
Print Assumptions C38_neutrals_refuted.
Theorem C38_implicit_levels : forall c l, (l <= 125)%N ->
  resolve_level c l = Ret (implicit_level l c) /\ (l <= implicit_level l c <= 126)%N.
Proof. exact resolve_level_spec. Qed.
Print Assumptions C38_implicit_levels.
Example C38_ex : resolve_neutral (mkseq [(0, 9)] cL cR) (repeat 0%N 9)
    [cWS; cR; cON; cEN; cWS; cL; cWS; cBN; cON] = [cL; cR; cR; cEN; cL; cL; cL; cBN; cL] /\
  resolve_level cEN 0 = Ret 2%N /\ resolve_level cL 1 = Ret 2%N /\ resolve_level cR 1 = Ret 1%N.
Proof. repeat split; vm_compute; reflexivity. Qed.

(** ** C68 *)
Theorem C68_first_strong_isolates : forall t default b, bidi_new t default = Ret b ->
  exists cc, fsi_resolved (map bidi_class t) cc /\ b_classes b = expand (map clen t) cc.
Proof. exact bidi_fsi. Qed.
Print Assumptions C68_first_strong_isolates.
(** FSI 1 FSI a PDI alef PDI FSI *)
Example C68_ex : exists b, bidi_new [0x2068; 0x31; 0x2068; 0x61; 0x2069; 0x5D0; 0x2069; 0x2068]%N None = Ret b /\
  map (class_at (b_classes b)) [0; 4; 16] = [cRLI; cLRI; cFSI].
Proof. eexists. split; [vm_compute; reflexivity|]. vm_compute. reflexivity. Qed.

(** ** C69 *)
Theorem C69_l1_partial : forall t default b line z pl,
  default_ok default 123 -> bidi_new t default = Ret b ->
  t = line ++ z -> line <> [] -> (pl <= 125)%N ->
  exists cc before after,
    fsi_resolved (map bidi_class t) cc /\ b_classes b = expand (map clen t) cc /\ b_levels b = expand (map clen t) before /\
    length before = length t /\ reordered_levels_per_char b pl 0 (slen line) = Ret after /\ length after = length t /\
    (forall j, j < length line -> kept (class_at cc j) = true ->
       level_at after j = if is_in [cB; cS] (class_at cc j) ||
                             is_in [cWS; cFSI; cLRI; cRLI; cPDI] (class_at cc j) && reset_here (skipn (S j) (firstn (length line) cc))
                          then pl else level_at before j) /\
    (forall j, length line <= j -> level_at after j = level_at before j).
Proof. exact first_line_l1. Qed.
Print Assumptions C69_l1_partial.
(** a line that does not start the text: its final space keeps level 1 *)
Theorem C69_l1_refuted : exists t b a after,
  bidi_new t None = Ret b /\ t = a ++ [0x5D0; 0x20]%N /\
  reordered_levels_per_char b 0 (slen a) (slen t) = Ret after /\
  bidi_class 0x20 = cWS /\ last after 0%N = 1%N.
Proof. exact l1_refuted. Qed.
Print Assumptions C69_l1_refuted.
Theorem C69_l2_partial : forall t default b a line z pl out,
  bidi_new t default = Ret b -> t = a ++ line ++ z -> line <> [] ->
  reorder_line b pl (slen a) (slen a + slen line) = Ret out ->
  (exists levels, reordered_levels b pl (slen a) (slen a + slen line) = Ret levels /\
     forall i, slen a <= i < slen a + slen line -> level_at levels i = level_at (b_levels b) i) ->
  exists before, b_levels b = expand (map clen t) before /\ length before = length t /\
    out = map fst (l2_rule snd (combine line (firstn (length line) (skipn (length a) before)))).
Proof. exact line_rule_l2. Qed.
Print Assumptions C69_l2_partial.
(** L2 looks at the levels before L1: "a", alef, space as the first line of a longer text *)
Theorem C69_l2_refuted : exists t b line z after out,
  bidi_new t None = Ret b /\ t = line ++ z /\
  reordered_levels_per_char b 0 0 (slen line) = Ret after /\
  reorder_line b 0 0 (slen line) = Ret out /\
  out <> map fst (l2_rule snd (combine line (firstn (length line) after))).
Proof. exact l2_refuted. Qed.
Print Assumptions C69_l2_refuted.
Example C69_ex : l2_rule (fun n => n) [0; 1; 2; 2; 1; 0; 3]%N = [0; 1; 2; 2; 1; 0; 3]%N /\
  map fst (l2_rule snd (combine [10; 11; 12; 13; 14; 15] [0; 1; 2; 2; 1; 0]%N)) = [10; 14; 12; 13; 11; 15].
Proof. split; vm_compute; reflexivity. Qed.
Example C69_ex_l1 : exists b, bidi_new [0x5D0; 0x20; 0x9; 0x5D1; 0x20; 0x2067]%N (Some 0%N) = Ret b /\
  reordered_levels_per_char b 0 0 (slen [0x5D0; 0x20; 0x9; 0x5D1; 0x20; 0x2067]%N) = Ret [1; 0; 0; 1; 0; 0]%N /\
  b_levels b = expand [2; 1; 1; 2; 1; 3] [1; 1; 1; 1; 0; 0]%N.
Proof. eexists. split; [vm_compute; reflexivity|]. split; vm_compute; reflexivity. Qed.

(** ** C70 *)
(** Every paragraph in which no isolate initiator is directly followed by a removed
    character has the levels of X1-X8, BD13, X10, W1-W7, N1-N2 and I1-I2, where W1-N2 are
    claimed for the sequences that are tame. *)
Theorem C70_resolved_levels_partial : forall t default b,
  default_ok default 125 -> bidi_new t default = Ret b ->
  exists pieces ccs lcs,
    paragraphs_of t pieces /\ map (fun p => (p_start p, p_end p)) (b_paras b) = ranges_from 0 pieces /\
    fsi_resolved (map bidi_class t) (concat ccs) /\ b_classes b = expand (map clen t) (concat ccs) /\
    b_levels b = expand (map clen t) (concat lcs) /\
    length ccs = length pieces /\ length lcs = length pieces /\
    forall n piece cs l p, nth_error pieces n = Some piece -> nth_error ccs n = Some cs -> nth_error lcs n = Some l ->
      nth_error (b_paras b) n = Some p ->
      length cs = length piece /\ length l = length piece /\
      (isolates_begin_kept cs -> uax9_levels (tame_sequence (map clen piece)) (p_level p) cs l).
Proof. exact text_levels. Qed.
Print Assumptions C70_resolved_levels_partial.
(** Without Arabic letters, European terminators, characters that X9 removes and separators
    longer than a byte, all of the rules hold of every sequence. *)
Theorem C70_simple_text_partial : forall t default b,
  default_ok default 125 -> bidi_new t default = Ret b ->
  Forall (fun c => ~ In (bidi_class c) [cAL; cET; cLRE; cRLE; cLRO; cRLO; cPDF; cBN] /\
                   (In (bidi_class c) [cES; cCS] -> clen c = 1)) t ->
  exists pieces ccs lcs,
    paragraphs_of t pieces /\ map (fun p => (p_start p, p_end p)) (b_paras b) = ranges_from 0 pieces /\
    fsi_resolved (map bidi_class t) (concat ccs) /\ b_classes b = expand (map clen t) (concat ccs) /\
    b_levels b = expand (map clen t) (concat lcs) /\
    length ccs = length pieces /\ length lcs = length pieces /\
    forall n piece cs l p, nth_error pieces n = Some piece -> nth_error ccs n = Some cs -> nth_error lcs n = Some l ->
      nth_error (b_paras b) n = Some p ->
      length cs = length piece /\ length l = length piece /\ uax9_levels (fun _ _ => True) (p_level p) cs l.
Proof. exact simple_text_levels. Qed.
Print Assumptions C70_simple_text_partial.
(** alef 1 , 2 LRI a bet PDI b newline *)
Example C70_ex : let t := [0x5D0; 0x31; 0x2C; 0x32; 0x2066; 0x61; 0x20; 0x5D1; 0x2069; 0x62; 0xA]%N in
  exists b, bidi_new t None = Ret b /\
  map (level_at (b_levels b)) [0; 2; 3; 4; 5; 8; 9; 10; 12; 15; 16] = [1; 2; 2; 2; 1; 2; 2; 3; 1; 2; 1]%N /\
  forallb (fun c => negb (is_in [cAL; cET; cLRE; cRLE; cLRO; cRLO; cPDF; cBN] (bidi_class c)) &&
                    implb (is_in [cES; cCS] (bidi_class c)) (Nat.eqb (clen c) 1)) t = true.
Proof. eexists. split; [vm_compute; reflexivity|]. split; vm_compute; reflexivity. Qed.

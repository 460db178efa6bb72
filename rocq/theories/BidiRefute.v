(** Statements about the bidi crate that do not hold, and the forms of the positive ones
    used by BidiProps.v. *)
From Coq Require Import List NArith Lia Permutation.
From Verif Require Import Base Enums UcdModel BidiModel BidiSpec BidiLemmas BidiInit BidiWeak BidiSeqs BidiPara BidiLtr BidiRules BidiIso
  BidiLine.
Import ListNotations.
Open Scope nat_scope.

Lemma bidi_arrays t default b : bidi_new t default = Ret b ->
  exists cc lc, length cc = length t /\ length lc = length t /\
    b_classes b = expand (map clen t) cc /\ b_levels b = expand (map clen t) lc.
Proof.
  intros H. destruct (bidi_shape t default b H) as (cc & lc & pieces & A & B & _ & _ & _ & ->). exists cc, lc. auto.
Qed.

Lemma bidi_paragraph_ranges t default b : bidi_new t default = Ret b ->
  exists pieces, paragraphs_of t pieces /\
    map (fun p => (p_start p, p_end p)) (b_paras b) = ranges_from 0 pieces.
Proof. intros H. destruct (bidi_paragraphs t default b H) as (pieces & A & B & _). eauto. Qed.

Lemma bidi_fsi t default b : bidi_new t default = Ret b ->
  exists cc, fsi_resolved (map bidi_class t) cc /\ b_classes b = expand (map clen t) cc.
Proof.
  intros H. destruct (bidi_shape t default b H) as (cc & lc & pieces & _ & _ & F & _ & _ & ->). exists cc. auto.
Qed.

Lemma neutral_pass s levels pc :
  NoDup (seq_indices (s_runs s)) -> in_range pc (seq_indices (s_runs s)) ->
  runs_unbroken false (reads pc (seq_indices (s_runs s))) ->
  let e := if N.odd (level_at levels (seq_start (s_runs s))) then cR else cL in
  let out := resolve_neutral s levels pc in
  filter kept (reads out (seq_indices (s_runs s)))
  = n_rules (s_sos s) (s_eos s) e (filter kept (reads pc (seq_indices (s_runs s)))) /\
  Forall2 (fun c d => kept c = false -> d = c) (reads pc (seq_indices (s_runs s))) (reads out (seq_indices (s_runs s))) /\
  (forall j, ~ In j (seq_indices (s_runs s)) -> class_at out j = class_at pc j).
Proof. rewrite <- level_is_rtl_odd. exact (filter_reads_neutral s levels pc). Qed.

Lemma default_126_panics : exists t, bidi_new t (Some 126%N) = Panic.
Proof. exists [0x5D0%N]. vm_compute. reflexivity. Qed.

Lemma same_level_refuted : exists cs,
  separator_last cs /\
  exists s r r', In s (isolating_run_sequences 0 cs (fst (explicit_compute (repeat 1 (length cs)) 0 cs (repeat 0%N (length cs)) cs))) /\
    In r (s_runs s) /\ In r' (s_runs s) /\
    let lv := fst (explicit_compute (repeat 1 (length cs)) 0 cs (repeat 0%N (length cs)) cs) in
    level_at lv (fst r) <> level_at lv (fst r').
Proof.
  exists [cRLI; cL; cRLI; cBN; cL; cPDI; cL; cPDI; cL]. split.
  - intros k H Hk. do 9 (destruct k as [|k]; [discriminate H|]). cbn in Hk. lia.
  - exists (mkseq [(0, 1); (5, 7)] cL cL), (0, 1), (5, 7). split; [|split; [|split]].
    + vm_compute. tauto.
    + now left.
    + right. now left.
    + vm_compute. discriminate.
Qed.

Lemma second_paragraph_panics : exists t default b p,
  bidi_new t default = Ret b /\ In p (b_paras b) /\ p_start p < p_end p /\
  reorder_line b (p_level p) (p_start p) (p_end p) = Panic.
Proof.
  exists [0x61; 0x62; 0xA; 0xE9; 0xE9]%N, (Some 1%N). eexists. exists (mkpara 3 7 1%N).
  split; [vm_compute; reflexivity|]. split; [right; now left|]. split; [cbn; lia|]. vm_compute. reflexivity.
Qed.

Lemma default_124_panics : exists t b,
  bidi_new t (Some 124%N) = Ret b /\ t <> [] /\ reorder_line b 124 0 (slen t) = Panic.
Proof.
  exists [0x660%N]. eexists. split; [vm_compute; reflexivity|]. split; [discriminate|]. vm_compute. reflexivity.
Qed.

Lemma w2_refuted : exists cs, resolve_weak (mkseq [(0, length cs)] cR cR) cs <> w_rules cR cs /\
  ets_followed cs /\ separators_short (repeat 1 (length cs)) cs /\ forallb kept cs = true.
Proof.
  exists [cAL; cEN]. split; [vm_compute; discriminate|]. vm_compute. repeat split; discriminate.
Qed.

Lemma w5_refuted : exists cs1 cs2 cs3,
  Forall (fun cs => resolve_weak (mkseq [(0, length cs)] cR cR) cs <> w_rules cR cs /\
    w2_idle cR cs /\ separators_short (repeat 1 (length cs)) cs /\ forallb kept cs = true) [cs1; cs2; cs3] /\
  In cES cs1 /\ last cs2 cL = cET /\ In cNSM cs3.
Proof.
  exists [cEN; cET; cES; cEN], [cR; cET], [cET; cNSM; cEN]. split; [|vm_compute; tauto].
  repeat constructor; vm_compute; discriminate.
Qed.

Lemma w4_refuted : exists ws cs,
  forall out, resolve_weak (mkseq [(0, list_sum ws)] cR cR) (expand ws cs) = expand ws out ->
  out <> w_rules cR cs.
Proof.
  exists [1; 2; 1], [cEN; cCS; cEN]. intros out H E. subst out. vm_compute in H. discriminate H.
Qed.

Lemma w5_observable : exists b,
  bidi_new [0x31; 0x24; 0x2B; 0x31]%N (Some 1%N) = Ret b /\ b_levels b = [2; 2; 2; 2]%N /\
  map (implicit_level 1) (n_rules cR cR cR (w_rules cR [cEN; cET; cES; cEN])) = [2; 2; 1; 2]%N.
Proof. eexists. split; [vm_compute; reflexivity|]. split; vm_compute; reflexivity. Qed.

Lemma n_refuted : exists cs, let s := mkseq [(0, length cs)] cL cL in
  filter kept (resolve_neutral s (repeat 0%N (length cs)) cs) <> n_rules cL cL cL (filter kept cs).
Proof. exists [cR; cBN; cWS; cR]. vm_compute. discriminate. Qed.

Lemma l1_refuted : exists t b a after,
  bidi_new t None = Ret b /\ t = a ++ [0x5D0; 0x20]%N /\
  reordered_levels_per_char b 0 (slen a) (slen t) = Ret after /\
  bidi_class 0x20 = cWS /\ last after 0%N = 1%N.
Proof.
  exists [0x61; 0x202B; 0x5D0; 0x20]%N. do 1 eexists. exists [0x61; 0x202B]%N. eexists.
  split; [vm_compute; reflexivity|]. split; [reflexivity|]. split; [vm_compute; reflexivity|]. split; vm_compute; reflexivity.
Qed.

Lemma l2_refuted : exists t b line z after out,
  bidi_new t None = Ret b /\ t = line ++ z /\
  reordered_levels_per_char b 0 0 (slen line) = Ret after /\
  reorder_line b 0 0 (slen line) = Ret out /\
  out <> map fst (l2_rule snd (combine line (firstn (length line) after))).
Proof.
  exists [0x61; 0x5D0; 0x20; 0x5D0]%N. do 1 eexists. exists [0x61; 0x5D0; 0x20]%N, [0x5D0]%N. do 2 eexists.
  split; [vm_compute; reflexivity|]. split; [reflexivity|]. split; [vm_compute; reflexivity|].
  split; [vm_compute; reflexivity|]. vm_compute. discriminate.
Qed.

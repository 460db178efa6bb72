(** The cluster boundary rules as an automaton that reads the classes of a
    text from left to right. *)
From Coq Require Import List NArith Lia Bool Arith.
Import ListNotations.
From Verif Require Import Base Enums UcdModel BidiModel GraphSpec SegLemmas.
Open Scope nat_scope.

Inductive gstate := QStart | QCR | QControl | QL | QV | QT | QPrepend | QZWJ | QRI | QPlain (base marked : bool).
(** [base]: (E_Base | EBG) Extend* before; [marked]: (E_Base | EBG) (Extend | SpacingMark)* before *)

Definition qbase (q : gstate) : bool := match q with QPlain b _ => b | _ => false end.
Definition qmarked (q : gstate) : bool := match q with QPlain _ b => b | _ => false end.

Definition qstep (q : gstate) (g : GraphemeClusterBreak) : gstate :=
  match g with
  | GCB_CR => QCR
  | GCB_LF | GCB_Control => QControl
  | GCB_L => QL
  | GCB_V | GCB_LV => QV
  | GCB_T | GCB_LVT => QT
  | GCB_Prepend => QPrepend
  | GCB_ZWJ => QZWJ
  | GCB_RegionalIndicator => match q with QRI => QPlain false false | _ => QRI end
  | GCB_EBase | GCB_EBaseGAZ => QPlain true true
  | GCB_Extend => QPlain (qbase q) (qmarked q)
  | GCB_SpacingMark => QPlain false (qmarked q)
  | _ => QPlain false false
  end.

(** is there a boundary before the next class?  GB10 with [b] for what is before the modifier *)
Definition qcut_with (b ext : bool) (q : gstate) (g : GraphemeClusterBreak) : bool :=
  match q with
  | QStart | QControl => true
  | QCR => match g with GCB_LF => false | _ => true end
  | _ =>
    match g with
    | GCB_Control | GCB_CR | GCB_LF => true
    | GCB_Extend | GCB_ZWJ => false
    | GCB_SpacingMark => negb ext
    | _ =>
      match q with
      | QPrepend => negb ext
      | QL => match g with GCB_L | GCB_V | GCB_LV | GCB_LVT => false | _ => true end
      | QV => match g with GCB_V | GCB_T => false | _ => true end
      | QT => match g with GCB_T => false | _ => true end
      | QZWJ => match g with GCB_GlueAfterZwj | GCB_EBaseGAZ => false | _ => true end
      | QRI => match g with GCB_RegionalIndicator => false | _ => true end
      | _ => match g with GCB_EModifier => negb b | _ => true end
      end
    end
  end.
Definition qcut (ext : bool) (q : gstate) (g : GraphemeClusterBreak) : bool := qcut_with (qmarked q) ext q g.

Fixpoint qof (P : list GraphemeClusterBreak) : gstate := match P with [] => QStart | g :: r => qstep (qof r) g end.

Lemma qbase_of P : qbase (qof P) = emoji_base_extend P.
Proof.
  induction P as [|g P IH]; [reflexivity|]. cbn [qof emoji_base_extend]. rewrite <- IH.
  destruct g; try reflexivity. cbn [qstep]. destruct (qof P); reflexivity.
Qed.
Definition is_ri (q : gstate) : bool := match q with QRI => true | _ => false end.
Lemma qri_of P : is_ri (qof P) = Nat.odd (ri_run P).
Proof.
  induction P as [|g P IH]; [reflexivity|]. cbn [qof ri_run].
  destruct g; try reflexivity. change (any_of [GCB_RegionalIndicator] GCB_RegionalIndicator) with true. cbv iota.
  rewrite Nat.odd_succ, <- Nat.negb_odd, <- IH. cbn [qstep]. destruct (qof P); reflexivity.
Qed.

Lemma qcut_rule ext P g A : gb_boundary ext P (g :: A) = qcut_with (qbase (qof P)) ext (qof P) g.
Proof.
  destruct P as [|h P]; [reflexivity|].
  pose proof (qbase_of (h :: P)) as HB. pose proof (qri_of (h :: P)) as HR. rewrite HB.
  unfold gb_boundary, first_rule, gb_rules.
  remember (emoji_base_extend (h :: P)) as eb eqn:Eb. remember (Nat.odd (ri_run (h :: P))) as ri eqn:Er. clear Eb Er.
  cbn [qof] in *. generalize dependent (qof P). intros q HB HR.
  destruct h; cbn [qstep is_ri qbase] in HB, HR |- *; subst eb ri;
    try (destruct ext, g; reflexivity); try (destruct ext, g; try reflexivity; destruct (qbase q); reflexivity).
  destruct q; destruct ext, g; reflexivity.
Qed.

(** ** Runs *)
Fixpoint qcuts (ext : bool) (q : gstate) (l : list GraphemeClusterBreak) : list bool :=
  match l with [] => [] | g :: r => qcut ext q g :: qcuts ext (qstep q g) r end.
Definition qrun (q : gstate) (l : list GraphemeClusterBreak) : gstate := fold_left qstep l q.
(** no modifier after a base and marks that are not all Extend *)
Fixpoint calm (q : gstate) (l : list GraphemeClusterBreak) : bool :=
  match l with
  | [] => true
  | g :: r => implb (match g with GCB_EModifier => true | _ => false end) (Bool.eqb (qbase q) (qmarked q)) && calm (qstep q g) r
  end.

Lemma qcuts_app ext l : forall q m, qcuts ext q (l ++ m) = qcuts ext q l ++ qcuts ext (qrun q l) m.
Proof. induction l as [|g l IH]; intros q m; [reflexivity|]. cbn [app qcuts]. rewrite IH. reflexivity. Qed.
Lemma calm_app l : forall q m, calm q (l ++ m) = calm q l && calm (qrun q l) m.
Proof. induction l as [|g l IH]; intros q m; [reflexivity|]. cbn [app calm]. rewrite IH, andb_assoc. reflexivity. Qed.
Lemma qrun_app q l m : qrun q (l ++ m) = qrun (qrun q l) m.
Proof. apply fold_left_app. Qed.
Lemma qcuts_length ext l : forall q, length (qcuts ext q l) = length l.
Proof. induction l as [|g l IH]; intros q; [reflexivity|]. cbn. now rewrite IH. Qed.
Lemma qof_rev l : qof (rev l) = qrun QStart l.
Proof. induction l as [|g l IH] using rev_ind; [reflexivity|]. rewrite rev_app_distr, qrun_app. cbn [rev app qof]. now rewrite IH. Qed.

Lemma qcut_calm ext q g : calm q [g] = true -> qcut_with (qbase q) ext q g = qcut ext q g.
Proof.
  cbn [calm]. rewrite andb_true_r. unfold qcut. intros H. destruct g; try (destruct q; reflexivity).
  cbn [implb] in H. apply eqb_prop in H. now rewrite H.
Qed.

(** ** The boundaries of a text, one after the other *)
Section Marks.
Context (bd : str -> str -> bool).
Fixpoint bcuts (pre post : str) : list bool := match post with [] => [] | c :: r => bd pre post :: bcuts (pre ++ [c]) r end.
Definition mark1 (p : str) : list bool := match p with [] => [] | _ :: r => true :: repeat false (length r) end.
Definition marks (ps : list str) : list bool := flat_map mark1 ps.

Lemma bcuts_nth m : forall pre x r, nth_error (bcuts pre (m ++ x :: r)) (length m) = Some (bd (pre ++ m) (x :: r)).
Proof.
  induction m as [|y m IH]; intros pre x r; [cbn; now rewrite app_nil_r|]. cbn [app bcuts length nth_error]. rewrite IH, <- app_assoc. reflexivity.
Qed.
Lemma bcuts_length m : forall pre, length (bcuts pre m) = length m.
Proof. induction m as [|y m IH]; intros pre; [reflexivity|]. cbn. now rewrite IH. Qed.
Lemma mark1_length p : length (mark1 p) = length p.
Proof. destruct p; [reflexivity|]. cbn. now rewrite repeat_length. Qed.
Lemma marks_length ps : length (marks ps) = length (concat ps).
Proof. induction ps as [|p ps IH]; [reflexivity|]. cbn [marks flat_map concat]. fold (marks ps). rewrite !app_length, IH, mark1_length. reflexivity. Qed.

Lemma marks_nth ps : Forall (fun p => p <> []) ps -> forall i, i < length (concat ps) ->
  (nth_error (marks ps) i = Some true <-> exists b a, ps = b ++ a /\ i = length (concat b)).
Proof.
  induction ps as [|p ps IH]; intros NE i L; [cbn in L; lia|]. inversion NE as [|? ? N1 N2]; subst.
  cbn [marks flat_map concat] in *. fold (marks ps). rewrite app_length in L.
  destruct (lt_dec i (length p)) as [I|I].
  - rewrite nth_error_app1 by (rewrite mark1_length; lia). destruct p as [|x p]; [contradiction|]. cbn [mark1].
    destruct i as [|i]; cbn [nth_error].
    + split; [|reflexivity]. intros _. exists [], ((x :: p) :: ps). auto.
    + cbn [length] in I. rewrite nth_error_repeat by lia. split; [discriminate|]. intros ([|q b] & a & E & F); [discriminate|].
      cbn [app] in E. assert (q = x :: p) by congruence. subst q. cbn [concat] in F. rewrite app_length in F. cbn [length] in F. lia.
  - rewrite nth_error_app2 by (rewrite mark1_length; lia). rewrite mark1_length, IH by (auto; lia). split.
    + intros (b & a & -> & E). exists (p :: b), a. split; [reflexivity|]. cbn [concat]. rewrite app_length. lia.
    + intros ([|q b] & a & E & F). { cbn in F. subst i. destruct p; [contradiction|cbn in I; lia]. }
      cbn [app] in E. assert (q = p) by congruence. subst q. cbn [concat] in F. rewrite app_length in F. exists b, a. split; [congruence|lia].
Qed.

Hypothesis bd_end : forall t, bd t [] = true.

Lemma segments_marks s ps : segments bd s ps <-> concat ps = s /\ Forall (fun p => p <> []) ps /\ bcuts [] s = marks ps.
Proof.
  split.
  - intros (E & NE & B). split; [assumption|]. split; [assumption|]. subst s.
    assert (L : length (bcuts [] (concat ps)) = length (marks ps)) by (rewrite bcuts_length, marks_length; reflexivity).
    apply (nth_ext _ _ false false); [assumption|]. intros i I. rewrite bcuts_length in I.
    assert (exists m x r, concat ps = m ++ x :: r /\ length m = i) as (m & x & r & Em & Li).
    { exists (firstn i (concat ps)). pose proof (firstn_skipn i (concat ps)) as F. destruct (skipn i (concat ps)) as [|x r] eqn:Sk.
      - apply (f_equal (@length _)) in Sk. rewrite skipn_length in Sk. cbn in Sk. lia.
      - exists x, r. split; [symmetry; exact F|]. rewrite firstn_length. lia. }
    assert (G : nth i (bcuts [] (concat ps)) false = bd m (x :: r)).
    { apply nth_error_nth. rewrite Em, <- Li, bcuts_nth. reflexivity. }
    rewrite G. specialize (B m (x :: r) Em). pose proof (marks_nth ps NE i I) as M.
    destruct (bd m (x :: r)) eqn:Bd.
    + symmetry. apply nth_error_nth. apply M. destruct (proj1 B eq_refl) as (b & a & E1 & E2). exists b, a. split; [assumption|]. congruence.
    + destruct (nth i (marks ps) false) eqn:Nt; [|reflexivity]. exfalso.
      assert (nth_error (marks ps) i = Some true) as Y.
      { rewrite (nth_error_nth' _ false) by (rewrite marks_length; assumption). now rewrite Nt. }
      apply M in Y as (b & a & E1 & E2). enough (false = true) by discriminate. apply B. exists b, a. split; [assumption|].
      rewrite E1, concat_app in Em. apply (app_len_inj _ _ _ _ (eq_sym Em)). lia.
  - intros (E & NE & M). split; [assumption|]. split; [assumption|]. intros pre post F. destruct post as [|x r].
    { rewrite bd_end. split; [|reflexivity]. intros _. exists ps, []. rewrite app_nil_r in *. split; congruence. }
    assert (I : length pre < length (concat ps)) by (rewrite E, F, app_length; cbn; lia).
    pose proof (marks_nth ps NE _ I) as X. rewrite <- M, F, bcuts_nth in X. cbn [app] in X. split.
    + intros B. rewrite B in X. destruct (proj1 X eq_refl) as (b & a & E1 & E2). exists b, a. split; [assumption|].
      rewrite <- E, E1, concat_app in F. apply (app_len_inj _ _ _ _ (eq_sym F)). assumption.
    + intros (b & a & E1 & E2). enough (Some (bd pre (x :: r)) = Some true) by congruence. apply X. exists b, a. split; [assumption|]. now rewrite E2.
Qed.
End Marks.

(** the boundaries of the rules are those of the automaton *)
Notation gclasses := (map grapheme_cluster_break).
Lemma bcuts_qcuts ext post : forall pre, calm (qof (rev (gclasses pre))) (gclasses post) = true ->
  bcuts (grapheme_boundary ext) pre post = qcuts ext (qof (rev (gclasses pre))) (gclasses post).
Proof.
  induction post as [|c r IH]; intros pre Q; [reflexivity|]. cbn [map calm] in Q. cbn [bcuts map qcuts].
  apply andb_true_iff in Q as [Q1 Q2].
  assert (E : qof (rev (gclasses (pre ++ [c]))) = qstep (qof (rev (gclasses pre))) (grapheme_cluster_break c)).
  { rewrite map_app, rev_app_distr. reflexivity. }
  rewrite <- E in Q2 |- *. rewrite <- IH by assumption. f_equal.
  unfold grapheme_boundary. cbn [map]. rewrite qcut_rule. apply qcut_calm. cbn [calm]. rewrite Q1. reflexivity.
Qed.

(** Level runs and isolating run sequences (prepare.rs). *)
From Coq Require Import List NArith ZArith Lia Bool Arith Permutation ZifyBool ZifyNat ZifyN.
Import ListNotations.
From Verif Require Import Base Enums EnumFacts UcdModel BidiModel BidiSpec BidiLemmas BidiWeak.
Open Scope nat_scope.

(** ** Level runs *)

Lemma level_runs_loop_spec oc levels : forall n i cur start,
  start < i -> i + n = length levels -> level_at levels start = cur ->
  (forall j, start <= j < i -> removed_by_x9 (class_at oc j) = false -> level_at levels j = cur) ->
  are_level_runs oc levels start (level_runs_loop levels oc i n cur start) /\
  exists e rest, level_runs_loop levels oc i n cur start = (start, e) :: rest.
Proof.
  induction n as [|n IH]; intros i cur start Hs Hn Hc Hj; cbn [level_runs_loop].
  - split; [|eauto]. cbn [are_level_runs fst snd]. split; [reflexivity|]. split; [|split; [trivial|lia]].
    split; [cbn; lia|]. split; [reflexivity|]. cbn [fst snd]. intros j H1 H2. rewrite Hc. apply Hj; [assumption|].
    now apply removed_false.
  - destruct (negb (removed_by_x9 (class_at oc i)) && negb (level_at levels i =? cur)%N) eqn:E.
    + apply andb_true_iff in E as [E1 E2]. apply negb_true_iff in E1, E2. apply N.eqb_neq in E2.
      destruct (IH (S i) (level_at levels i) i) as (A & e & rest & B); try lia; try reflexivity.
      { intros j H1 _. replace j with i by lia. reflexivity. }
      split; [|eauto]. rewrite B in *. cbn [are_level_runs fst snd]. cbn [are_level_runs fst snd] in A.
      split; [reflexivity|]. split; [|split; [|exact A]].
      * split; [cbn; lia|]. split; [reflexivity|]. cbn [fst snd]. intros j H1 H2. rewrite Hc.
        apply Hj; [assumption|]. now apply removed_false.
      * split; [now apply removed_false|congruence].
    + apply IH; try lia; try assumption. intros j H1 H2.
      destruct (Nat.eq_dec j i) as [->|]; [|apply Hj; [lia|assumption]].
      rewrite H2 in E. cbn [negb andb] in E. apply negb_false_iff in E. now apply N.eqb_eq in E.
Qed.

Lemma level_runs_spec levels oc : are_level_runs oc levels 0 (level_runs levels oc).
Proof.
  unfold level_runs. destruct levels as [|l0 ls] eqn:E; [reflexivity|].
  apply level_runs_loop_spec; try reflexivity; try (cbn; lia).
  intros j Hj _. replace j with 0 by lia. reflexivity.
Qed.

Lemma are_level_runs_in_order oc levels runs : forall from,
  are_level_runs oc levels from runs -> in_order from runs /\ seq_indices runs = seq from (length levels - from) /\
  Forall (fun r => fst r < snd r <= length levels) runs /\ from <= length levels.
Proof.
  induction runs as [|r rest IH]; intros from H; cbn [are_level_runs in_order] in *.
  - subst. rewrite Nat.sub_diag. repeat split; auto.
  - destruct H as (E & (B & _ & _) & _ & H). destruct (IH _ H) as (A1 & A2 & A3 & A4).
    split; [split; [lia|assumption]|]. split; [|split; [constructor; [lia|assumption]|lia]].
    change (seq_indices (r :: rest)) with (run_indices r ++ seq_indices rest). rewrite A2.
    unfold run_indices. rewrite E. rewrite E in B.
    replace (length levels - from) with ((snd r - from) + (length levels - snd r)) by lia.
    rewrite seq_app. f_equal. f_equal. lia.
Qed.

(** ** Sequences *)

Definition nonempty_seq (s : list run) : bool := match s with [] => false | _ => true end.

Lemma concat_filter_nonempty l : concat (filter nonempty_seq l) = concat l.
Proof. induction l as [|[|r s] l IH]; cbn; congruence. Qed.

Lemma collect_perm oc runs : forall stack seqs,
  Permutation (concat (collect_sequences oc runs stack seqs)) (concat seqs ++ concat stack ++ runs).
Proof.
  induction runs as [|r runs IH]; intros stack seqs; cbn [collect_sequences].
  - rewrite concat_app. change (fun s => match s with [] => false | _ :: _ => true end) with nonempty_seq.
    rewrite concat_filter_nonempty, app_nil_r. reflexivity.
  - assert (K : forall sq st, Permutation (concat stack) (sq ++ concat st) ->
      Permutation (concat (if is_isolate_initiator (class_at oc (snd r - 1))
        then collect_sequences oc runs ((sq ++ [r]) :: st) seqs
        else collect_sequences oc runs st (seqs ++ [sq ++ [r]])))
        (concat seqs ++ concat stack ++ r :: runs)).
    { intros sq st H. destruct (is_isolate_initiator _); rewrite IH.
      - cbn [concat]. apply Permutation_app_head. rewrite H. rewrite <- !app_assoc. apply Permutation_app_head.
        cbn [app]. rewrite Permutation_middle. reflexivity.
      - rewrite concat_app. cbn [concat]. rewrite app_nil_r. rewrite <- !app_assoc. apply Permutation_app_head.
        rewrite H. rewrite <- !app_assoc. apply Permutation_app_head. cbn [app]. apply Permutation_middle. }
    destruct stack as [|s [|s2 st]]; destruct (class_at oc (fst r));
      cbv iota beta zeta;
      first [exact (K [] _ (Permutation_refl _)) | apply K; reflexivity].
Qed.

Definition upto (b : nat) (s : list run) : Prop := in_order 0 s /\ (s <> [] -> seq_end s <= b).

Lemma seq_end_snoc s r : seq_end (s ++ [r]) = snd r.
Proof. unfold seq_end. now rewrite last_last. Qed.

Lemma in_order_snoc s r : forall from, in_order from s -> (s <> [] -> seq_end s <= fst r) ->
  (s = [] -> from <= fst r) -> fst r < snd r -> in_order from (s ++ [r]).
Proof.
  induction s as [|a s IH]; intros from H1 H2 H2' H3; cbn [app in_order] in *.
  - split; [split; [now apply H2'|assumption]|trivial].
  - destruct H1 as (A & B). split; [assumption|]. apply IH; auto.
    + intros Hs. assert (HH : seq_end (a :: s) <= fst r) by (apply H2; discriminate).
      unfold seq_end in *. destruct s; [congruence|]. exact HH.
    + intros ->. apply (H2 ltac:(discriminate)).
Qed.

Lemma upto_weaken a b s : a <= b -> upto a s -> upto b s.
Proof. intros H (A & B). split; [assumption|]. intros X. specialize (B X). lia. Qed.

Lemma collect_ordered oc runs : forall stack seqs from,
  in_order from runs -> Forall (upto from) stack -> Forall (fun s => s <> [] /\ in_order 0 s) seqs ->
  Forall (fun s => s <> [] /\ in_order 0 s) (collect_sequences oc runs stack seqs).
Proof.
  induction runs as [|r runs IH]; intros stack seqs from HI HS HQ; cbn [collect_sequences].
  - apply Forall_app. split; [assumption|]. apply Forall_forall. intros s Hs. apply filter_In in Hs as [H1 H2].
    split; [destruct s; congruence|]. rewrite Forall_forall in HS. apply HS. assumption.
  - cbn [in_order] in HI. destruct HI as (HI1 & HI2).
    assert (K : forall sq st, upto from sq -> Forall (upto from) st ->
      Forall (fun s => s <> [] /\ in_order 0 s) (if is_isolate_initiator (class_at oc (snd r - 1))
        then collect_sequences oc runs ((sq ++ [r]) :: st) seqs
        else collect_sequences oc runs st (seqs ++ [sq ++ [r]]))).
    { intros sq st (U1 & U2) Hst.
      assert (O : in_order 0 (sq ++ [r])).
      { apply in_order_snoc; [assumption|intros X; specialize (U2 X); lia|intros; lia|lia]. }
      assert (Hst' : Forall (upto (snd r)) st).
      { eapply Forall_impl; [|exact Hst]. intros s. apply upto_weaken. lia. }
      destruct (is_isolate_initiator _); eapply IH; try exact HI2; auto.
      - constructor; [|assumption]. split; [assumption|]. intros _. rewrite seq_end_snoc. lia.
      - apply Forall_app. split; [assumption|]. constructor; [|constructor]. split; [|assumption].
        destruct sq; discriminate. }
    assert (U0 : upto from []) by (split; [exact I|congruence]).
    destruct stack as [|s [|s2 st]]; destruct (class_at oc (fst r));
      cbv iota beta zeta;
      first [exact (K [] _ U0 HS) | exact (K _ _ (Forall_inv HS) (Forall_inv_tail HS))].
Qed.

Lemma sequences_perm para oc levels :
  Permutation (concat (map s_runs (isolating_run_sequences para oc levels))) (level_runs levels oc).
Proof.
  unfold isolating_run_sequences. rewrite map_map.
  rewrite (map_ext _ (fun s => s)) by reflexivity. rewrite map_id.
  rewrite collect_perm. reflexivity.
Qed.

Lemma seq_indices_app a b : seq_indices (a ++ b) = seq_indices a ++ seq_indices b.
Proof. apply flat_map_app. Qed.

Lemma seq_indices_concat l : flat_map seq_indices l = seq_indices (concat l).
Proof. induction l; cbn [flat_map concat]; [reflexivity|]. now rewrite seq_indices_app, IHl. Qed.

Lemma flat_map_perm {A B} (f : A -> list B) l m : Permutation l m -> Permutation (flat_map f l) (flat_map f m).
Proof.
  induction 1; cbn; auto.
  - now apply Permutation_app_head.
  - rewrite !app_assoc. apply Permutation_app_tail, Permutation_app_comm.
  - etransitivity; eassumption.
Qed.

Lemma sequences_cover para oc levels :
  Permutation (flat_map (fun s => seq_indices (s_runs s)) (isolating_run_sequences para oc levels))
              (seq 0 (length levels)).
Proof.
  destruct (are_level_runs_in_order _ _ _ _ (level_runs_spec levels oc)) as (_ & E & _).
  rewrite Nat.sub_0_r in E. rewrite <- E.
  replace (flat_map (fun s => seq_indices (s_runs s)) (isolating_run_sequences para oc levels))
    with (seq_indices (concat (map s_runs (isolating_run_sequences para oc levels)))).
  - apply flat_map_perm. apply sequences_perm.
  - rewrite <- seq_indices_concat. generalize (isolating_run_sequences para oc levels).
    intros l. induction l; cbn; congruence.
Qed.

Lemma sequences_ordered para oc levels :
  Forall (fun s => s_runs s <> [] /\ in_order 0 (s_runs s)) (isolating_run_sequences para oc levels).
Proof.
  unfold isolating_run_sequences. apply Forall_map. cbn [finish_sequence s_runs].
  destruct (are_level_runs_in_order _ _ _ _ (level_runs_spec levels oc)) as (O & _).
  eapply collect_ordered; [exact O| |constructor].
  constructor; [|constructor]. split; [exact I|congruence].
Qed.

(** ** Working on sequence after sequence *)

Lemma NoDup_app_inv {A} (l m : list A) : NoDup (l ++ m) -> NoDup l /\ NoDup m /\ (forall x, In x l -> ~ In x m).
Proof.
  induction l as [|a l IH]; cbn; intros H.
  - split; [constructor|]. split; [assumption|]. intros x [].
  - inversion H as [|? ? H1 H2]; subst. destruct (IH H2) as (A1 & A2 & A3). split; [|split; [assumption|]].
    + constructor; [|assumption]. intros X. apply H1. apply in_or_app. now left.
    + intros x [->|Hx]; [|now apply A3]. intros X. apply H1. apply in_or_app. now right.
Qed.

Section Fold.
  Context {S : Type} (idx : S -> list nat) (step : list BidiClass -> S -> list BidiClass)
          (f : S -> list BidiClass -> list BidiClass).
  Hypothesis step_ok : forall s pc, NoDup (idx s) -> in_range pc (idx s) ->
    list_out (f s) (idx s) pc (step pc s).

  Lemma fold_out seqs : forall pc,
    NoDup (flat_map idx seqs) -> in_range pc (flat_map idx seqs) ->
    let out := fold_left step seqs pc in
    length out = length pc /\
    (forall s, In s seqs -> reads out (idx s) = f s (reads pc (idx s))) /\
    (forall j, ~ In j (flat_map idx seqs) -> class_at out j = class_at pc j).
  Proof.
    induction seqs as [|s seqs IH]; intros pc ND RI; cbn [flat_map fold_left] in *; cbn zeta.
    - repeat split; auto. intros s [].
    - apply NoDup_app_inv in ND as (N1 & N2 & N3).
      assert (R1 : in_range pc (idx s)) by (intros j Hj; apply RI, in_or_app; now left).
      destruct (step_ok s pc N1 R1) as (L & R & O).
      destruct (IH (step pc s) N2) as (L2 & R2 & O2).
      { intros j Hj. rewrite L. apply RI, in_or_app. now right. }
      split; [congruence|]. split.
      + intros s' [->|Hs].
        * rewrite <- R. apply reads_ext. intros j Hj. apply O2. now apply N3.
        * rewrite R2 by assumption. f_equal. apply reads_ext. intros j Hj. apply O.
          intros X. apply (N3 j X). apply in_flat_map. eauto.
      + intros j Hj. rewrite O2 by (intros X; apply Hj, in_or_app; now right).
        apply O. intros X. apply Hj, in_or_app. now left.
  Qed.
End Fold.

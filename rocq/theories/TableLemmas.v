(** Final lemmas for TableProps. *)
From Coq Require Import List NArith ZArith Lia Bool Sorted ZifyBool ZifyN.
From Verif Require Import Base RangeModel TableModel TableSpec TableProofs
  TableGenModel TableGenSpec TableGenProofs Enums TableTypes TablesNormal UcdModel UcdProofs.
Import ListNotations.
Open Scope N_scope.

Lemma find_covering_entry V (t : CharDataTable V) c : wf_table t ->
  (forall v, find t c = Ret (Some v) <-> exists e, In e (entries t) /\ covers e c /\ snd e = v) /\
  (find t c = Ret None <-> forall e, In e (entries t) -> ~ covers e c).
Proof.
  intros Hw. split.
  - intros v. split; [now apply find_some|]. intros (e & He & Hc & <-).
    rewrite find_scan by assumption. f_equal. destruct (scan (entries t) c) as [w|] eqn:Es.
    + apply scan_some in Es as (e' & He' & Hc' & <-). f_equal. f_equal. eapply entries_disjoint; eauto.
    + exfalso. eapply scan_none; eauto.
  - split; [now apply find_none|]. intros Hn. rewrite find_scan by assumption. f_equal.
    destruct (scan (entries t) c) as [w|] eqn:Es; [|reflexivity].
    apply scan_some in Es as (e' & He' & Hc' & _). exfalso. eapply Hn; eauto.
Qed.

Lemma entry_unique V (t : CharDataTable V) c e e' : wf_table t ->
  In e (entries t) -> In e' (entries t) -> covers e c -> covers e' c -> e = e'.
Proof. intros. eapply entries_disjoint; eauto. Qed.

Lemma accessors_agree V (t : CharDataTable V) (d : V) c : wf_table t ->
  exists o, find t c = Ret o /\
    tcontains t c = Ret (match o with Some _ => true | None => false end) /\
    find_or_default d t c = Ret (match o with Some v => v | None => d end) /\
    (forall l, t = Range l ->
       match o with
       | Some v => exists r, find_with_range t c = Ret (Some (r, v)) /\ In (r, v) l /\
                             r_low r <= c <= r_high r
       | None => find_with_range t c = Ret None
       end).
Proof.
  intros Hw. exists (scan (entries t) c). rewrite tcontains_find by assumption.
  unfold find_or_default. rewrite find_scan by assumption.
  split; [reflexivity|]. split; [reflexivity|]. split; [reflexivity|].
  intros l ->. destruct (find_with_range_spec l c Hw) as (o & Ho & Hs).
  rewrite Ho. rewrite find_scan in Hs by assumption. destruct o as [[r v]|].
  - destruct Hs as (Hin & Hc & Hf). assert (scan (entries (Range l)) c = Some v) as -> by congruence. exists r. split; [reflexivity|].
    split; [assumption|]. unfold contains in Hc. lia.
  - assert (scan (entries (Range l)) c = None) as -> by congruence. reflexivity.
Qed.

Lemma table_iteration V (t : CharDataTable V) l :
  table_collects t 0 l <-> map (fun rv => (r_low (fst rv), r_high (fst rv), snd rv)) l = entries t.
Proof.
  pose proof (table_collects_from t 0 (Nat.le_0_l _)) as H0. cbn [skipn] in H0. split.
  - intros H. rewrite (table_collects_det _ _ _ _ H H0). apply range_view_entries.
  - intros H. rewrite <- range_view_entries in H.
    assert (l = range_view t) as ->; [|assumption].
    revert H. generalize (range_view t). clear. intros l'. revert l'.
    induction l as [|[[a b] v] l IH]; intros [|[[a' b'] v'] l'] H; cbn in H; try discriminate; [reflexivity|].
    injection H as -> -> -> H. f_equal. now apply IH.
Qed.

Lemma shipped_tables_ok t : In t shipped ->
  wf_table (projT2 t) /\
  forall c, find (projT2 t) c = Ret (scan (entries (projT2 t)) c) /\
    tcontains (projT2 t) c =
      Ret (match scan (entries (projT2 t)) c with Some _ => true | None => false end).
Proof. intros H. split; [now apply shipped_wf|]. intros c. now apply shipped_lookup. Qed.

Lemma composition_tables_ok c t : canonical_composition c = Some t -> wf_table t.
Proof.
  unfold canonical_composition. rewrite lookup_scan by apply wf_CANONICAL_COMPOSITION_MAPPING.
  intros H. apply scan_some in H as (e & He & _ & <-). apply wf_entriesb_sound.
  pose proof composition_inner_wfb as Hall. rewrite forallb_forall in Hall. now apply Hall.
Qed.

Lemma gen_example :
  to_range_char_table N.eqb [(0xD7FE, 1); (0xD7FF, 1); (0xE000, 1); (0xE001, 2); (0xE002, 2)] =
    Ret (Range [(mkRange 0xD7FE 0xD7FF, 1); (mkRange 0xE000 0xE000, 1); (mkRange 0xE001 0xE002, 2)]) /\
  sorted_map [(0xD7FE, 1); (0xD7FF, 1); (0xE000, 1); (0xE001, 2); (0xE002, 2)].
Proof.
  split; [reflexivity|]. split; cbn [map fst].
  - repeat (apply SSorted_cons || apply Forall_cons || apply SSorted_nil || apply Forall_nil); reflexivity.
  - repeat (apply Forall_cons || apply Forall_nil); apply scalarb_spec; reflexivity.
Qed.

(** From the data files to the text of the generated files. *)
From Coq Require Import String List NArith Lia Bool PeanoNat ZifyBool ZifyNat ZifyN Permutation.
From Verif Require Import Base RangeModel TableModel TableSpec TableProofs TextModel TableGenModel TableGenSpec TableGenProofs
  GenRegex GenModel GenSpec GenBinarySpec GenMap GenProofs GenBinary GenDataModel GenDataSpec GenDataTables GenDataCompose GenDataNames
  GenIdnaSpec GenIdna GenListModel GenListSpec GenList GenSegModel GenSegSpec GenSegTests.
From Verif Require Import RustSpec PrintModel PrintLex PrintProofs.
Import ListNotations.
Open Scope list_scope.
Open Scope N_scope.

(** * A well-formed table, printed *)
Section Printed.
  Context {V : Type} (display : V -> str) (val : V -> expr).

  Lemma wf_chars (t : CharDataTable V) : wf_table t -> Forall scalar (table_chars t).
  Proof using V.
    intros [_ H]. destruct t as [l|l]; cbn [entries table_chars] in *.
    - rewrite Forall_map in H |- *. eapply Forall_impl; [|exact H]. intros x (_ & Hx & _). exact Hx.
    - rewrite Forall_map in H. apply Forall_forall. intros c I. apply in_flat_map in I as (x & Ix & Ic).
      rewrite Forall_forall in H. specialize (H x Ix). destruct H as (_ & Hl & Hh). cbn in Hl, Hh, Ic.
      destruct Ic as [<-|[<-|[]]]; assumption.
  Qed.

  Lemma entry_found (t : CharDataTable V) e c : wf_table t -> In e (entries t) -> covers e c -> find t c = Ret (Some (snd e)).
  Proof using V.
    intros Hw I Hc. destruct (find_total t c Hw) as [[v|] Hf].
    - rewrite Hf. destruct (TableProofs.find_some t c v Hw Hf) as (e' & I' & Hc' & <-).
      rewrite (entries_disjoint t e e' c Hw I I' Hc Hc'). reflexivity.
    - exfalso. exact (find_none t c Hw Hf e I Hc).
  Qed.

  Lemma value_found (t : CharDataTable V) v : wf_table t -> In v (table_values t) -> exists c, scalar c /\ find t c = Ret (Some v).
  Proof using V.
    intros Hw I. assert (K : exists e, In e (entries t) /\ snd e = v).
    { destruct t as [l|l]; cbn [table_values entries] in *; apply in_map_iff in I as (x & <- & Ix).
      - eexists. split; [apply in_map_iff; eexists; split; [reflexivity|exact Ix]|reflexivity].
      - eexists. split; [apply in_map_iff; eexists; split; [reflexivity|exact Ix]|reflexivity]. }
    destruct K as (e & Ie & <-). destruct Hw as [Hs Hok]. pose proof Hok as Hok'. rewrite Forall_forall in Hok'.
    specialize (Hok' e Ie). destruct Hok' as (Hle & Hl & Hh). exists (fst (fst e)). split; [exact Hl|].
    apply entry_found; [split; assumption|exact Ie|]. unfold covers. lia.
  Qed.

  Definition readable (t : CharDataTable V) : Prop :=
    forall c v, scalar c -> find t c = Ret (Some v) -> source (display v) (val v).

  Lemma table_source t : wf_table t -> readable t ->
    forall e, source (file_of (table_text display t)) e <-> e = table_of val t.
  Proof.
    intros Hw Hr e. apply file_iff. apply reads_table; [apply wf_chars, Hw|].
    intros v I. destruct (value_found t v Hw I) as (c & Hc & Hf). apply source_reads_as, (Hr c v Hc Hf).
  Qed.

  Lemma table_gives t c x : wf_table t -> scalar c ->
    (gives (table_of val t) c x <-> exists v, find t c = Ret (Some v) /\ x = val v).
  Proof using V val.
    clear display.
    intros Hw Hc. split.
    - intros (es & [(E & I)|(E & lo & hi & I & Hlh)]); destruct t as [l|l]; try discriminate E; cbn [table_of] in E; injection E as <-;
        apply in_map_iff in I as ([k v] & E & Ik); cbn [fst snd] in E.
      + injection E as <- <-. exists v. split; [|reflexivity].
        apply (entry_found (Direct l) (k, k, v) k Hw); [|unfold covers; cbn; lia].
        cbn [entries]. apply in_map_iff. exists (k, v). auto.
      + injection E as <- <- <-. exists v. split; [|reflexivity].
        apply (entry_found (Range l) (r_low k, r_high k, v) c Hw); [|unfold covers; cbn; lia].
        cbn [entries]. apply in_map_iff. exists (k, v). auto.
    - intros (v & Hf & ->). destruct (TableProofs.find_some t c v Hw Hf) as (e & I & Hcov & <-).
      destruct t as [l|l]; cbn [entries table_of] in *; apply in_map_iff in I as ([k v] & <- & Ik); cbn in Hcov; unfold covers in Hcov; cbn in Hcov.
      + eexists. left. split; [reflexivity|]. apply in_map_iff. exists (k, v). split; [|exact Ik]. cbn. repeat f_equal. lia.
      + eexists. right. split; [reflexivity|]. exists (r_low k), (r_high k). split; [|lia].
        apply in_map_iff. exists (k, v). auto.
  Qed.

  Lemma table_says t : wf_table t -> readable t ->
    says (file_of (table_text display t)) (fun c x => exists v, find t c = Ret (Some v) /\ x = val v).
  Proof.
    intros Hw Hr. exists (table_of val t). split; [apply table_source; assumption|].
    intros c Hc x. apply table_gives; assumption.
  Qed.
End Printed.

Lemma says_ext s m m' : says s m -> (forall c, scalar c -> forall x, m c x <-> m' c x) -> says s m'.
Proof. intros (e & H1 & H2) H. exists e. split; [exact H1|]. intros c Hc x. rewrite (H2 c Hc). apply H, Hc. Qed.

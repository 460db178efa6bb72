From Coq Require Import List NArith ZArith Lia Bool ZifyBool ZifyN.
From Verif Require Import Base Enums EnumFacts NameParseModel NameParseSpec.
Import ListNotations.
Open Scope N_scope.

Lemma str_eqb_eq s t : str_eqb s t = true <-> s = t.
Proof.
  revert t. induction s as [|a s IH]; intros [|b t]; cbn; try (split; (discriminate || reflexivity)).
  rewrite andb_true_iff, IH, N.eqb_eq. split; [intros [-> ->]; reflexivity|intros [= -> ->]; auto].
Qed.

Lemma lower_same a b : to_ascii_lowercase a = to_ascii_lowercase b <-> same_letter a b.
Proof.
  unfold to_ascii_lowercase, same_letter.
  destruct ((0x41 <=? a) && (a <=? 0x5A)) eqn:Ea, ((0x41 <=? b) && (b <=? 0x5A)) eqn:Eb; lia.
Qed.

Lemma eq_ci_iff s t : eq_ignore_ascii_case s t = true <-> same_ci s t.
Proof.
  unfold same_ci. revert t. induction s as [|a s IH]; intros [|b t]; cbn.
  - split; auto.
  - split; [discriminate|inversion 1].
  - split; [discriminate|inversion 1].
  - rewrite andb_true_iff, IH, N.eqb_eq, lower_same. split.
    + intros [H1 H2]. now constructor.
    + inversion 1; auto.
Qed.

Lemma same_letter_sym a b : same_letter a b -> same_letter b a.
Proof. unfold same_letter. lia. Qed.
Lemma same_letter_trans a b c : same_letter a b -> same_letter b c -> same_letter a c.
Proof. rewrite <- !lower_same. congruence. Qed.
Lemma same_ci_refl s : same_ci s s.
Proof. unfold same_ci. induction s; constructor; [now left|assumption]. Qed.
Lemma same_ci_sym s t : same_ci s t -> same_ci t s.
Proof. unfold same_ci. induction 1; constructor; auto using same_letter_sym. Qed.
Lemma same_ci_trans s t u : same_ci s t -> same_ci t u -> same_ci s u.
Proof.
  unfold same_ci. intros H. revert u. induction H; intros u Hu; inversion Hu; subst; constructor.
  - eapply same_letter_trans; eauto.
  - auto.
Qed.

Section F.
  Context {V : Type} (veqb : V -> V -> bool).
  Hypothesis veqb_eq : forall x y, veqb x y = true <-> x = y.

  Definition ids_distinctb (ids : list (str * V)) : bool :=
    forallb (fun a => forallb (fun b =>
      implb (eq_ignore_ascii_case (fst a) (fst b)) (veqb (snd a) (snd b))) ids) ids.

  Lemma first_match_some eqv (ids : list (str * V)) s v : first_match eqv ids s = Some v ->
    exists id, In (id, v) ids /\ eqv s id = true.
  Proof.
    induction ids as [|[id w] ids IH]; cbn; [discriminate|].
    destruct (eqv s id) eqn:E.
    - intros [= <-]. eauto.
    - intros H. destruct (IH H) as (id' & Hin & He). eauto.
  Qed.

  Lemma first_match_none eqv (ids : list (str * V)) s : first_match eqv ids s = None ->
    forall id v, In (id, v) ids -> eqv s id = false.
  Proof.
    induction ids as [|[id w] ids IH]; cbn; [intros _ ? ? []|].
    destruct (eqv s id) eqn:E; [discriminate|].
    intros H id' v [[= <- <-]|Hin]; [assumption|eapply IH; eauto].
  Qed.

  Lemma from_str_iff ids s v : ids_distinctb ids = true ->
    (from_str ids s = Some v <-> exists id, In (id, v) ids /\ same_ci s id).
  Proof.
    intros Hd.
    assert (forall id1 v1 id2 v2, In (id1, v1) ids -> In (id2, v2) ids ->
              same_ci s id1 -> same_ci s id2 -> v1 = v2) as Huniq.
    { intros id1 v1 id2 v2 H1 H2 E1 E2. unfold ids_distinctb in Hd.
      rewrite forallb_forall in Hd. specialize (Hd _ H1). rewrite forallb_forall in Hd.
      specialize (Hd _ H2). cbn in Hd.
      assert (same_ci id1 id2) as Hs by (eapply same_ci_trans; [apply same_ci_sym; eassumption|assumption]).
      apply eq_ci_iff in Hs. rewrite Hs in Hd. cbn in Hd. now apply veqb_eq. }
    unfold from_str. split.
    - destruct (first_match str_eqb ids s) as [w|] eqn:E.
      + intros [= <-]. apply first_match_some in E as (id & Hin & He). apply str_eqb_eq in He as ->.
        exists id. split; [assumption|apply same_ci_refl].
      + intros H. apply first_match_some in H as (id & Hin & He). apply eq_ci_iff in He. eauto.
    - intros (id & Hin & Hs). destruct (first_match str_eqb ids s) as [w|] eqn:E.
      + apply first_match_some in E as (id' & Hin' & He). apply str_eqb_eq in He as ->.
        f_equal. eapply Huniq; eauto. apply same_ci_refl.
      + destruct (first_match eq_ignore_ascii_case ids s) as [w|] eqn:E'.
        * apply first_match_some in E' as (id' & Hin' & He). apply eq_ci_iff in He.
          f_equal. eapply Huniq; eauto.
        * exfalso. pose proof (first_match_none _ _ _ E' _ _ Hin) as H.
          apply eq_ci_iff in Hs. congruence.
  Qed.

  Lemma enum_parses all abbr long : (forall v, In v all) ->
    ids_distinctb (enum_ids all abbr long) = true ->
    parses_exactly (from_str (enum_ids all abbr long)) abbr long.
  Proof.
    intros Hall Hd s v. rewrite (from_str_iff _ _ _ Hd). unfold enum_ids. split.
    - intros (id & Hin & Hs). apply in_flat_map in Hin as (w & _ & [[= <- <-]|[[= <- <-]|[]]]); auto.
    - intros [H|H].
      + exists (abbr v). split; [|assumption]. apply in_flat_map. exists v. split; [apply Hall|now left].
      + exists (long v). split; [|assumption]. apply in_flat_map. exists v. split; [apply Hall|right; now left].
  Qed.
End F.

Lemma GC_parses : parses_exactly GC_from_str GC_abbr GC_long.
Proof. apply (enum_parses GC_eqb GC_eqb_eq); [apply GC_all_complete|vm_compute; reflexivity]. Qed.
Lemma BC_parses : parses_exactly BC_from_str BC_abbr BC_long.
Proof. apply (enum_parses BC_eqb BC_eqb_eq); [apply BC_all_complete|vm_compute; reflexivity]. Qed.
Lemma GCB_parses : parses_exactly GCB_from_str GCB_abbr GCB_long.
Proof. apply (enum_parses GCB_eqb GCB_eqb_eq); [apply GCB_all_complete|vm_compute; reflexivity]. Qed.
Lemma WB_parses : parses_exactly WB_from_str WB_abbr WB_long.
Proof. apply (enum_parses WB_eqb WB_eqb_eq); [apply WB_all_complete|vm_compute; reflexivity]. Qed.
Lemma SB_parses : parses_exactly SB_from_str SB_abbr SB_long.
Proof. apply (enum_parses SB_eqb SB_eqb_eq); [apply SB_all_complete|vm_compute; reflexivity]. Qed.
Lemma DT_parses : parses_exactly DT_from_str DT_abbr DT_long.
Proof. apply (enum_parses DT_eqb DT_eqb_eq); [apply DT_all_complete|vm_compute; reflexivity]. Qed.

Lemma binary_parses s b :
  binary_from_str s = Some b <->
  exists name, same_ci s name /\
    In name (if b then [[0x79]; [0x79; 0x65; 0x73]; [0x74]; [0x74; 0x72; 0x75; 0x65]]
             else [[0x6e]; [0x6e; 0x6f]; [0x66]; [0x66; 0x61; 0x6c; 0x73; 0x65]]).
Proof.
  unfold binary_from_str. rewrite (from_str_iff Bool.eqb); [| intros x y; apply Bool.eqb_true_iff | vm_compute; reflexivity].
  unfold binary_ids. split.
  - intros (id & Hin & Hs). exists id. split; [assumption|].
    cbn [In] in Hin |- *. destruct b;
    repeat (destruct Hin as [Hin|Hin]; [injection Hin; intros; subst; try discriminate; cbn; tauto|]); destruct Hin.
  - intros (id & Hs & Hin). exists id. split; [|assumption].
    destruct b; cbn in Hin |- *; decompose [or] Hin; subst; try tauto; contradiction.
Qed.

Lemma names_round_trip {V} (parse : str -> option V) abbr long : parses_exactly parse abbr long ->
  forall v, parse (abbr v) = Some v /\ parse (long v) = Some v.
Proof. intros H v. split; apply H; [left|right]; apply same_ci_refl. Qed.

From Coq Require Import List NArith ZArith Lia Bool Sorted ZifyBool ZifyNat ZifyN.
From Verif Require Import Base RangeModel TableModel TableSpec TableProofs TableGenModel TableGenSpec.
Import ListNotations.
Open Scope N_scope.

Section G.
  Context {T : Type} (teqb : T -> T -> bool).
  Hypothesis teqb_spec : forall a b, teqb a b = true <-> a = b.

  Lemma range_loop_ok rest : forall low high v,
    StronglySorted N.lt (high :: map fst rest) -> Forall scalar (map fst rest) ->
    low <= high -> scalar low -> scalar high ->
    exists out, range_loop teqb rest low high v = Ret out /\
      wf_table (Range out) /\ maximally_merged out /\
      (exists h tl, out = (mkRange low h, v) :: tl) /\
      (forall c w, (exists e, In e (entries (Range out)) /\ covers e c /\ snd e = w) <->
         (low <= c <= high /\ w = v) \/ In (c, w) rest).
  Proof.
    induction rest as [|[ch p] rest IH]; intros low high v Hs Hsc Hle Hl Hh.
    - eexists. split; [reflexivity|]. split; [|split; [|split]].
      + split; cbn; [constructor; constructor|constructor; [|constructor]].
        unfold entry_ok. cbn. auto.
      + exact I.
      + eauto.
      + intros c w. cbn. split.
        * intros (e & [<-|[]] & Hc & <-). unfold covers in Hc. cbn in Hc. left. cbn. split; [lia|reflexivity].
        * intros [[Hc ->]|[]]. eexists. split; [left; reflexivity|]. unfold covers. cbn. split; [lia|reflexivity].
    - cbn [map fst] in Hs, Hsc. inversion Hs as [|? ? Hs' Hf]; subst. inversion Hsc as [|? ? Hc1 Hc2]; subst.
      inversion Hf as [|? ? Hlt Hf']; subst. cbn [range_loop].
      destruct (negb (teqb p v) || (high + 1 <? ch)) eqn:E.
      + destruct (IH ch ch p Hs' Hc2 (N.le_refl _) Hc1 Hc1) as (out & Eo & [Hws Hwo] & Hm & (h & tl & ->) & Hiff).
        rewrite Eo. cbn [obind]. eexists. split; [reflexivity|]. split; [|split; [|split]].
        * split; cbn [entries map]; constructor; try assumption.
          -- apply Forall_forall. intros e He. unfold entry_lt. cbn [fst snd r_low r_high].
             cbn [entries map] in Hws, He. destruct He as [<-|He]; [cbn; lia|].
             inversion Hws as [|? ? _ Hall]; subst. rewrite Forall_forall in Hall. specialize (Hall e He).
             unfold entry_lt in Hall. cbn in Hall. rewrite Forall_forall in Hwo.
             specialize (Hwo (ch, h, p)). unfold entry_ok in Hwo. cbn in Hwo.
             assert (ch <= h) by (apply Hwo; now left). lia.
          -- unfold entry_ok. cbn. auto.
        * cbn [maximally_merged]. split; [|exact Hm]. cbn. intros [-> Heq].
          rewrite (proj2 (teqb_spec p p) eq_refl) in E. cbn [negb orb] in E. lia.
        * eauto.
        * intros c w. specialize (Hiff c w). cbn [entries map] in *. split.
          -- intros (e & [<-|He] & Hc & <-).
             ++ unfold covers in Hc. cbn in Hc. left. cbn. split; [lia|reflexivity].
             ++ right. assert ((ch <= c <= ch /\ snd e = p) \/ In (c, snd e) rest) as [[H1 H2]|H1].
                { apply Hiff. eauto. }
                ** left. f_equal; [lia|congruence].
                ** now right.
          -- intros [[Hc ->]|[Hin|Hin]].
             ++ eexists. split; [left; reflexivity|]. unfold covers. cbn. split; [lia|reflexivity].
             ++ injection Hin as <- <-. destruct (proj2 Hiff) as (e & He & Hc).
                { left. split; [lia|reflexivity]. }
                exists e. split; [now right|assumption].
             ++ destruct (proj2 Hiff) as (e & He & Hc); [now right|].
                exists e. split; [now right|assumption].
      + apply orb_false_iff in E as [E1 E2]. apply negb_false_iff, teqb_spec in E1. subst p.
        assert (ch = high + 1) as Hch by lia. destruct (N.eqb_spec ch (high + 1)); [|lia].
        destruct (IH low ch v Hs' Hc2) as (out & Eo & Hw & Hm & Hhd & Hiff); try assumption; [lia|].
        exists out. split; [assumption|]. split; [assumption|]. split; [assumption|]. split; [assumption|].
        intros c w. rewrite Hiff. cbn [In]. split.
        * intros [[Hc ->]|Hin]; [|right; now right].
          destruct (N.eq_dec c ch) as [->|Hne]; [right; now left|left; split; [lia|reflexivity]].
        * intros [[Hc ->]|[Hin|Hin]].
          -- left. split; [lia|reflexivity].
          -- injection Hin as <- <-. left. split; [lia|reflexivity].
          -- now right.
  Qed.

  Lemma to_range_ok m : sorted_map m ->
    exists l, to_range_char_table teqb m = Ret (Range l) /\ wf_table (Range l) /\
      maximally_merged l /\
      forall c v, find (Range l) c = Ret (Some v) <-> In (c, v) m.
  Proof.
    intros [Hs Hsc]. destruct m as [|[low v] m].
    - exists []. split; [reflexivity|]. split; [split; constructor|]. split; [exact I|].
      intros c v. cbn. split; [discriminate|intros []].
    - cbn [map fst] in *. inversion Hsc; subst.
      destruct (range_loop_ok m low low v) as (out & Eo & Hw & Hm & _ & Hiff); try assumption; [lia|].
      exists out. cbn [to_range_char_table]. rewrite Eo. split; [reflexivity|].
      split; [assumption|]. split; [assumption|].
      intros c w. cbn [In]. transitivity (exists e, In e (entries (Range out)) /\ covers e c /\ snd e = w).
      + split; [apply find_some; assumption|].
        intros (e & He & Hc & <-). rewrite find_scan by assumption. f_equal.
        destruct (scan (entries (Range out)) c) as [w|] eqn:Es.
        * apply scan_some in Es as (e' & He' & Hc' & <-). f_equal. f_equal. eapply entries_disjoint; eauto.
        * exfalso. eapply scan_none; eauto.
      + rewrite Hiff. split.
        * intros [[Hc ->]|Hin]; [left; f_equal; lia|now right].
        * intros [Hin|Hin]; [left; injection Hin as <- <-; split; [lia|reflexivity]|now right].
  Qed.

End G.

Lemma to_direct_ok {T} (m : list (N * T)) : sorted_map m ->
  wf_table (to_direct_char_table m) /\
  forall c v, find (to_direct_char_table m) c = Ret (Some v) <-> In (c, v) m.
Proof.
  intros [Hs Hsc]. unfold to_direct_char_table.
  assert (wf_table (Direct m)) as Hw.
  { split; cbn.
    - induction m as [|[k v] m IH]; cbn in *; [constructor|].
      inversion Hs as [|? ? Hs' Hf]; subst. inversion Hsc; subst. constructor; [now apply IH|].
      rewrite Forall_forall in *. intros e He. apply in_map_iff in He as (kv & <- & Hin).
      unfold entry_lt. cbn. apply Hf. now apply in_map.
    - apply Forall_forall. intros e He. apply in_map_iff in He as (kv & <- & Hin).
      unfold entry_ok. cbn. rewrite Forall_forall in Hsc.
      assert (scalar (fst kv)) by (apply Hsc; now apply in_map). split; [lia|auto]. }
  split; [assumption|]. intros c v. split.
  - intros H. apply find_some in H as ([[lo hi] w] & He & [C1 C2] & <-); [|assumption].
    apply in_entries_direct in He as [-> Hin]. cbn in *. assert (c = hi) as -> by lia. assumption.
  - intros Hin. rewrite find_scan by assumption. f_equal.
    assert (In (c, c, v) (entries (Direct m))) as He by (apply in_entries_direct; auto).
    assert (covers (c, c, v) c) as Hc by (split; cbn; lia).
    destruct (scan (entries (Direct m)) c) as [w|] eqn:Es.
    + apply scan_some in Es as (e' & He' & Hc' & <-). f_equal.
      rewrite (entries_disjoint _ _ _ _ Hw He' He Hc' Hc). reflexivity.
    + exfalso. eapply scan_none; eauto.
Qed.

Lemma set_loop_range s : forall low high,
  set_loop s low high = range_loop (fun _ _ : unit => true) (map (fun c => (c, tt)) s) low high tt.
Proof.
  induction s as [|c s IH]; intros low high; cbn; [reflexivity|].
  destruct (high + 1 <? c); [now rewrite IH|]. destruct (c =? high + 1); [apply IH|reflexivity].
Qed.

Lemma to_set_ok s : sorted_set s ->
  exists l, to_range_char_set s = Ret (Range l) /\ wf_table (Range l) /\ maximally_merged l /\
    forall c, tcontains (Range l) c = Ret true <-> In c s.
Proof.
  intros [Hs Hsc].
  destruct (to_range_ok (fun _ _ : unit => true)
             (fun a b => conj (fun _ => match a, b with tt, tt => eq_refl end) (fun _ => eq_refl))
             (map (fun c => (c, tt)) s)) as (l & El & Hw & Hm & Hiff).
  { split; rewrite map_map; cbn; rewrite map_id; assumption. }
  exists l. split.
  { destruct s as [|c s]; cbn in *; [assumption|]. rewrite set_loop_range. assumption. }
  split; [assumption|]. split; [assumption|].
  intros c. specialize (Hiff c tt). rewrite find_scan in Hiff by assumption.
  rewrite tcontains_find by assumption. rewrite in_map_iff in Hiff.
  destruct (scan (entries (Range l)) c) as [[]|]; split; intros H.
  - destruct (proj1 Hiff eq_refl) as (x & [= ->] & Hx). assumption.
  - reflexivity.
  - discriminate.
  - assert (Ret (@None unit) = Ret (Some tt)) as Hd; [|discriminate].
    apply Hiff. exists c. auto.
Qed.

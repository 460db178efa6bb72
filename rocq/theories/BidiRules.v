(** The weak and neutral passes follow W1-W7 and N1-N2. *)
From Coq Require Import List NArith ZArith Lia Bool Arith Permutation ZifyBool ZifyNat ZifyN.
Import ListNotations.
From Verif Require Import Base Enums EnumFacts UcdModel BidiModel BidiSpec BidiLemmas BidiWeak BidiSeqs BidiExplicit BidiChars.
Open Scope nat_scope.

Lemma kept_removed c : removed_by_x9 c = negb (kept c).
Proof. destruct c; reflexivity. Qed.
Lemma neutral_NI c : neutral c = is_NI c.
Proof. destruct c; reflexivity. Qed.
Lemma n_class_spec e a b : n_class e a b = neutral_class a b e.
Proof. destruct a, b; reflexivity. Qed.

Lemma neutral_kept c : neutral c = true -> kept c = true.
Proof. destruct c; cbn; congruence. Qed.

Lemma next_non_neutral_spec r eos : next_non_neutral r eos = nearest eos (filter kept r).
Proof.
  unfold next_non_neutral, nearest. induction r as [|c r IH]; [reflexivity|].
  cbn [find filter]. rewrite kept_removed, <- neutral_NI.
  destruct (neutral c) eqn:N.
  - rewrite (neutral_kept c N), orb_true_r. cbn [negb filter]. rewrite N. cbn [negb]. exact IH.
  - destruct (kept c) eqn:K; cbn [negb orb].
    + cbn [filter]. rewrite N. reflexivity.
    + exact IH.
Qed.

Lemma neutral_class_kept prev next e : kept e = true -> kept (neutral_class prev next e) = true.
Proof. intros H. destruct prev, next; cbn; assumption || reflexivity. Qed.

Definition n_at (sos eos e : BidiClass) : list BidiClass -> BidiClass -> list BidiClass -> BidiClass :=
  fun pre c post => if neutral c then n_class e (nearest sos pre) (nearest eos post) else c.

Lemma nl_rules sos eos e : kept e = true -> forall cs pre prev b,
  runs_unbroken b cs ->
  (b = true -> prev = nearest sos pre) ->
  (b = false -> prev = nearest sos pre \/ match find kept cs with Some d => neutral d = false | None => True end) ->
  filter kept (nl e eos cs prev b) = at_each (n_at sos eos e) pre (filter kept cs) /\
  Forall2 (fun c d => kept c = false -> d = c) cs (nl e eos cs prev b).
Proof.
  intros He. induction cs as [|c r IH]; intros pre prev b U Hb1 Hb2; [split; [reflexivity|constructor]|].
  cbn [nl runs_unbroken filter] in *. rewrite <- neutral_NI. destruct (neutral c) eqn:N.
  - rewrite (neutral_kept c N). cbn [at_each filter]. rewrite neutral_class_kept by assumption.
    assert (Hp : prev = nearest sos pre).
    { destruct b; [auto|]. destruct (Hb2 eq_refl) as [|X]; [assumption|]. cbn [find] in X.
      rewrite (neutral_kept c N) in X. congruence. }
    destruct (IH (c :: pre) prev true) as (A & B).
    + assumption.
    + intros _. unfold nearest. cbn [filter]. rewrite N. cbn [negb]. exact Hp.
    + discriminate.
    + split.
      * f_equal; [|exact A]. unfold n_at. rewrite N, n_class_spec, next_non_neutral_spec, Hp. reflexivity.
      * constructor; [|exact B]. rewrite (neutral_kept c N). discriminate.
  - rewrite kept_removed. destruct (kept c) eqn:K; cbn [negb]; rewrite ?andb_false_r.
    + cbn [filter]. rewrite K. cbn [at_each].
      destruct (IH (c :: pre) c false) as (A & B); auto.
      * discriminate.
      * intros _. left. unfold nearest. cbn [filter]. rewrite N. reflexivity.
      * split; [|constructor; auto]. rewrite A. unfold n_at at 2. now rewrite N.
    + destruct U as (U1 & U2). rewrite andb_true_r. destruct b.
      * cbn [filter]. rewrite K. destruct (IH pre prev true) as (A & B);
          auto; try discriminate; try (split; [exact A|]; constructor; auto).
      * cbn [filter]. rewrite K. destruct U1 as [U1|U1]; [discriminate|].
        destruct (IH pre c false) as (A & B);
          auto; try discriminate; try (split; [exact A|]; constructor; auto).
Qed.

Lemma filter_reads_neutral s levels pc :
  NoDup (seq_indices (s_runs s)) -> in_range pc (seq_indices (s_runs s)) ->
  runs_unbroken false (reads pc (seq_indices (s_runs s))) ->
  let e := level_class (level_at levels (seq_start (s_runs s))) in
  let out := resolve_neutral s levels pc in
  filter kept (reads out (seq_indices (s_runs s)))
  = n_rules (s_sos s) (s_eos s) e (filter kept (reads pc (seq_indices (s_runs s)))) /\
  Forall2 (fun c d => kept c = false -> d = c) (reads pc (seq_indices (s_runs s))) (reads out (seq_indices (s_runs s))) /\
  (forall j, ~ In j (seq_indices (s_runs s)) -> class_at out j = class_at pc j).
Proof.
  intros ND RI U. cbn zeta. destruct (resolve_neutral_out s levels pc ND RI) as (L & R & O).
  rewrite R. cbv beta.
  assert (He : kept (level_class (level_at levels (seq_start (s_runs s)))) = true).
  { unfold level_class. destruct (level_is_rtl _); reflexivity. }
  destruct (nl_rules (s_sos s) (s_eos s) _ He (reads pc (seq_indices (s_runs s))) [] (s_sos s) false U) as (A & B).
  - discriminate.
  - auto.
  - split; [exact A|]. split; [exact B|exact O].
Qed.

(** ** W1-W7 *)

Fixpoint kept_widths (ws : list nat) (cs : list BidiClass) : list nat :=
  match ws, cs with
  | w :: ws', c :: r => if kept c then w :: kept_widths ws' r else kept_widths ws' r
  | _, _ => []
  end.

Lemma next_in_kept r eos : next_in (filter kept r) eos = next_in r eos.
Proof.
  unfold next_in. induction r as [|c r IH]; [reflexivity|]. cbn [filter].
  assert (E : not_removed_by_x9 c = kept c) by (destruct c; reflexivity).
  destruct (kept c) eqn:K; cbn [find]; rewrite E; [reflexivity|exact IH].
Qed.
Lemma et_fate_kept r al : et_fate (filter kept r) al = et_fate r al.
Proof.
  induction r as [|c r IH]; [reflexivity|].
  destruct c; cbn; try exact IH; reflexivity.
Qed.
Lemma seen_looks eos c w r : kept c = true -> looks eos (seen_after c w r) (seen_after c w (filter kept r)).
Proof.
  intros K. unfold seen_after. destruct (1 <? w).
  - split; [|intros al]; rewrite <- ?(next_in_kept (c :: r)), <- ?(et_fate_kept (c :: r)); cbn [filter]; rewrite K; reflexivity.
  - split; [|intros al]; rewrite ?next_in_kept, ?et_fate_kept; reflexivity.
Qed.

Lemma et_fate_is r al : et_fate r al = cET \/ et_fate r al = cON \/ et_fate r al = cEN.
Proof. induction r as [|c r IH]; cbn [et_fate]; auto. destruct c; cbn [removed_by_x9]; auto. destruct al; auto. Qed.

Lemma wl_class_kept eos c r prev al : kept c = true -> kept prev = true ->
  kept (wl_class eos c r prev al) = true /\ kept (wl_prev eos c r prev al) = true.
Proof.
  intros K P. unfold wl_prev, wl_class, sep_class, nsm_class.
  destruct (et_fate_is r al) as [E|[E|E]]; rewrite E;
  destruct c; try discriminate K; (split; try assumption; try reflexivity; try (destruct al; reflexivity);
    destruct prev; try discriminate P; try reflexivity; try (destruct (next_in r eos); reflexivity)).
Qed.

Lemma wlc_kept eos ws : forall cs prev al, length cs = length ws -> kept prev = true ->
  filter kept (wlc eos ws cs prev al) = wlc eos (kept_widths ws cs) (filter kept cs) prev al /\
  Forall2 (fun c d => kept d = kept c /\ (kept c = false -> d = c)) cs (wlc eos ws cs prev al).
Proof.
  induction ws as [|w ws IH]; intros [|c cs] prev al H P; cbn [length] in H; try lia; [split; [reflexivity|constructor]|].
  cbn [wlc filter kept_widths]. rewrite kept_removed. destruct (kept c) eqn:K; cbn [negb].
  - destruct (wl_class_kept eos c (seen_after c w cs) prev al K P) as (K1 & K2).
    cbn [filter]. rewrite K1. cbn [wlc]. rewrite kept_removed, K. cbn [negb].
    destruct (wl_class_looks eos c _ _ prev al (seen_looks eos c w cs K)) as (E1 & E2). rewrite <- E1, <- E2.
    destruct (IH cs (wl_prev eos c (seen_after c w cs) prev al) (al_after (wl_prev eos c (seen_after c w cs) prev al) al)) as (A & B); [lia|assumption|].
    split; [now rewrite A|]. constructor; [|exact B]. split; congruence.
  - cbn [filter]. rewrite K. destruct (IH cs prev al) as (A & B); [lia|assumption|].
    split; [exact A|]. constructor; auto.
Qed.

Definition w3c (c : BidiClass) : BidiClass := if is_in [cAL] c then cR else c.
Definition w1c (prev c : BidiClass) : BidiClass :=
  if is_in [cNSM] c then if is_in [cLRI; cRLI; cFSI; cPDI] prev then cON else prev else c.
Definition w4f : list BidiClass -> BidiClass -> list BidiClass -> BidiClass :=
  fun pre c post =>
    match pre, post with
    | p :: _, q :: _ =>
        if is_in [cES; cCS] c && is_in [cEN] p && is_in [cEN] q then cEN
        else if is_in [cCS] c && is_in [cAN] p && is_in [cAN] q then cAN
        else c
    | _, _ => c
    end.
Definition ben (l : list BidiClass) : bool := match beyond_et l with Some p => is_in [cEN] p | None => false end.
Definition w5f : list BidiClass -> BidiClass -> list BidiClass -> BidiClass :=
  fun pre c post => if is_in [cET] c && (ben pre || ben post) then cEN else c.
Definition w6c (c : BidiClass) : BidiClass := if is_in [cES; cET; cCS] c then cON else c.

Lemma w4f_other pre c post : is_in [cES; cCS] c = false -> w4f pre c post = c.
Proof.
  intros H. unfold w4f. destruct pre as [|p pre], post as [|q post]; try reflexivity.
  rewrite H. destruct c; try discriminate H; reflexivity.
Qed.

Lemma ben_cons c l : c <> cET -> ben (c :: l) = is_in [cEN] c.
Proof. intros H. unfold ben, beyond_et. cbn [filter]. destruct c; try congruence; reflexivity. Qed.
Lemma ben_et l : ben (cET :: l) = ben l.
Proof. reflexivity. Qed.

Definition head_ok (pu : BidiClass) (fs : list BidiClass) : Prop :=
  pu = cET -> match fs with [] => False | d :: _ => is_in [cNSM; cES; cCS] d = false end.

(** what is ahead of pending ETs *)
Lemma fate_ahead fs : forall pre, Forall (fun c => kept c = true) fs -> ets_followed fs -> head_ok cET fs ->
  et_fate fs false = (if ben (at_each w4f pre (map w3c (w1 cET fs))) then cEN else cON).
Proof.
  induction fs as [|d r IH]; intros pre K F H; [destruct (H eq_refl)|].
  specialize (H eq_refl). destruct F as (F1 & F2). inversion K as [|? ? Kd Kr]; subst.
  cbn [w1 map at_each]. fold (w1c cET d).
  assert (E1 : w1c cET d = d) by (destruct d; try discriminate H; reflexivity). rewrite E1.
  rewrite w4f_other by (destruct d; try discriminate H; reflexivity).
  destruct (BC_eq_dec d cET) as [-> |Hd].
  - change (w3c cET) with cET. rewrite ben_et. cbn [et_fate]. apply IH; auto. 
  - rewrite ben_cons by (destruct d; cbn; congruence).
    destruct d; try discriminate H; try discriminate Kd; try congruence; reflexivity.
Qed.

Definition Rel (pu p : BidiClass) (pre4 pre5 fs : list BidiClass) : Prop :=
  (pre4 = [] /\ pre5 = [] /\ (pu = cL \/ pu = cR) /\ p = pu) \/
  ((exists t4, pre4 = w3c pu :: t4) /\
   ((is_in [cET; cES; cCS; cNSM; cRLE; cLRE; cRLO; cLRO; cPDF; cBN] pu = false /\
       p = w3c pu /\ exists t5, pre5 = w3c pu :: t5) \/
    (is_in [cES; cCS] pu = true /\
       ((p = cON /\ exists t5, pre5 = pu :: t5) \/
        (is_in [cEN; cAN] p = true /\ (exists t5, pre5 = p :: t5) /\ exists t, fs = p :: t))) \/
    (pu = cET /\ p = (if ben pre5 then cEN else cET)))).

Lemma weak_one eos : (eos = cL \/ eos = cR) -> forall fs ws pu p pre4 pre5,
  length fs = length ws -> Forall (fun c => kept c = true) fs ->
  ets_followed fs -> separators_short ws fs -> (fs = [] \/ head_ok pu fs) ->
  Rel pu p pre4 pre5 fs ->
  map w6c (at_each w5f pre5 (at_each w4f pre4 (map w3c (w1 pu fs)))) = wlc eos ws fs p false.
Proof.
  intros He. induction fs as [|c r IH]; intros ws pu p pre4 pre5 HL HK HF HS HH HR.
  { destruct ws; [reflexivity|cbn in HL; lia]. }
  destruct ws as [|w ws]; [cbn in HL; lia|]. cbn [length] in HL.
  inversion HK as [|? ? Kc Kr]; subst. destruct HF as (F1 & F2). destruct HS as (S1 & S2).
  destruct HH as [HH|HH]; [discriminate|].
  cbn [w1 map at_each wlc]. fold (w1c pu c). rewrite kept_removed, Kc. cbn [negb]. cbn zeta.
  set (v := w3c (w1c pu c)) in *. set (post4 := map w3c (w1 (w1c pu c) r)).
  (* what is needed to go on *)
  assert (Go : forall x z, x = w4f pre4 v post4 ->
     z = w6c (w5f pre5 x (at_each w4f (v :: pre4) post4)) ->
     wl_class eos c (seen_after c w r) p false = z ->
     al_after (wl_prev eos c (seen_after c w r) p false) false = false ->
     Rel (w1c pu c) (wl_prev eos c (seen_after c w r) p false) (v :: pre4) (x :: pre5) r ->
     (w1c pu c = cET -> c = cET) ->
     w6c (w5f pre5 (w4f pre4 v post4) (at_each w4f (v :: pre4) post4))
       :: map w6c (at_each w5f (w4f pre4 v post4 :: pre5) (at_each w4f (v :: pre4) post4))
     = wl_class eos c (seen_after c w r) p false
       :: wlc eos ws r (wl_prev eos c (seen_after c w r) p false) (al_after (wl_prev eos c (seen_after c w r) p false) false)).
  { intros x z Ex Ez Ec Ea ER Eet. rewrite <- Ex. rewrite <- Ez, Ec, Ea. f_equal.
    apply IH; auto; try lia. destruct r as [|d r']; [now left|right]. intros X. specialize (Eet X). subst c. exact (F1 eq_refl). }
  (* plain characters *)
  assert (Plain : is_in [cET; cES; cCS; cNSM] c = false ->
     wl_class eos c (seen_after c w r) p false = w3c c -> wl_prev eos c (seen_after c w r) p false = w3c c ->
     w6c (w5f pre5 (w4f pre4 v post4) (at_each w4f (v :: pre4) post4))
       :: map w6c (at_each w5f (w4f pre4 v post4 :: pre5) (at_each w4f (v :: pre4) post4))
     = wl_class eos c (seen_after c w r) p false
       :: wlc eos ws r (wl_prev eos c (seen_after c w r) p false) (al_after (wl_prev eos c (seen_after c w r) p false) false)).
  { intros Hc E1 E2. assert (Eu : w1c pu c = c) by (destruct c; try discriminate Hc; reflexivity).
    assert (Ev : v = w3c c) by (unfold v; now rewrite Eu).
    assert (Ex : w4f pre4 v post4 = w3c c).
    { rewrite Ev. apply w4f_other. destruct c; try discriminate Hc; reflexivity. }
    eapply (Go (w3c c) (w3c c)); auto.
    - unfold w5f, w6c. destruct c; try discriminate Hc; reflexivity.
    - rewrite E2. destruct c; try discriminate Hc; reflexivity.
    - rewrite Eu, E2, Ev. right. split; [eauto|]. left. split; [destruct c; try discriminate Hc; try discriminate Kc; reflexivity|].
      split; [reflexivity|eauto].
    - congruence. }
  destruct (is_in [cET; cES; cCS; cNSM] c) eqn:Hc.
  2:{ apply Plain; [reflexivity| |]; unfold wl_prev, wl_class; destruct c; try discriminate Hc; reflexivity. }
  clear Plain.
  destruct (BC_eq_dec c cNSM) as [-> |HN].
  { (* NSM *)
    assert (Hpu : pu <> cET) by (intros X; specialize (HH X); discriminate HH).
    destruct HR as [(-> & -> & Hs & ->)|((t4 & ->) & [(Hp & -> & t5 & ->)|[(Hp & HR)|(X & _)]])]; [| | |congruence].
    - (* at the start *)
      destruct Hs as [-> | ->]; eapply (Go _ _ eq_refl); try reflexivity; try (intro X; discriminate X);
        right; (split; [eauto|]); left; (split; [reflexivity|]); (split; [reflexivity|]); eexists; reflexivity.
    - assert (Ex : w4f (w3c pu :: t4) v post4 = v).
      { apply w4f_other. unfold v. destruct pu; try discriminate Hp; reflexivity. }
      destruct pu; try discriminate Hp; try congruence;
        (eapply (Go v _ (eq_sym Ex) eq_refl); try reflexivity; try (intro X; discriminate X);
         right; (split; [eauto|]); left; (split; [reflexivity|]); (split; [reflexivity|]); eexists; reflexivity).
    - destruct HR as [(-> & t5 & ->)|(Hn & _ & t & Ht)]; [|injection Ht as <- _; discriminate Hn].
      assert (Ex : w4f (w3c pu :: t4) v post4 = pu).
      { unfold v. destruct pu; try discriminate Hp; unfold w4f; destruct post4; reflexivity. }
      destruct pu; try discriminate Hp;
        (eapply (Go _ cON (eq_sym Ex)); try reflexivity; try (intro X; discriminate X);
         right; (split; [eauto|]); right; left; (split; [reflexivity|]); left; (split; [reflexivity|]); eauto). }
  destruct (BC_eq_dec c cET) as [-> |HE].
  { (* ET *)
    assert (Ev : v = cET) by reflexivity. assert (Eu : w1c pu cET = cET) by reflexivity.
    assert (Ex : w4f pre4 v post4 = cET) by (rewrite Ev; now apply w4f_other).
    assert (B : ben pre5 = is_in [cEN] p).
    { destruct HR as [(-> & -> & Hs & ->)|(_ & [(Hp & -> & t5 & ->)|[(Hp & HR)|(-> & ->)]])].
      - destruct Hs as [-> | ->]; reflexivity.
      - apply ben_cons. destruct pu; try discriminate Hp; discriminate.
      - destruct HR as [(-> & t5 & ->)|(Hn & (t5 & ->) & t & Ht)].
        + rewrite ben_cons; destruct pu; try discriminate Hp; (reflexivity || discriminate).
        + injection Ht as <- _. discriminate Hn.
      - destruct (ben pre5); reflexivity. }
    assert (HA : et_fate r false = if ben (at_each w4f (v :: pre4) post4) then cEN else cON).
    { unfold post4. rewrite Eu. apply fate_ahead; auto. }
    assert (HA' : et_fate (seen_after cET w r) false = et_fate r false).
    { unfold seen_after. destruct (1 <? w); reflexivity. }
    assert (P1 : wl_prev eos cET (seen_after cET w r) p false = if ben pre5 then cEN else cET).
    { rewrite B. unfold wl_prev. destruct p; reflexivity. }
    eapply (Go cET _ (eq_sym Ex) eq_refl).
    - unfold w5f. cbn [is_in existsb BC_eqb]. change (is_in [cET] cET) with true. cbn [andb].
      unfold wl_class. rewrite HA', HA. rewrite B.
      destruct (ben (at_each w4f (v :: pre4) post4)); destruct p; reflexivity.
    - rewrite P1. destruct (ben pre5); reflexivity.
    - rewrite Eu, Ev, P1. right. split; [eexists; reflexivity|]. right; right. split; [reflexivity|].
      rewrite ben_et. reflexivity.
    - auto. }
  (* ES, CS *)
  assert (Hsep : is_in [cES; cCS] c = true) by (destruct c; try discriminate Hc; try congruence; reflexivity).
  assert (Hpu : pu <> cET). { intros X. specialize (HH X). destruct c; try discriminate Hsep; discriminate HH. }
  rewrite (S1 Hsep) in *.
  assert (Eu : w1c pu c = c) by (destruct c; try discriminate Hsep; reflexivity).
  assert (Ev : v = c) by (unfold v; rewrite Eu; destruct c; try discriminate Hsep; reflexivity).
  change (seen_after c 1 r) with r.
  (* the next class *)
  assert (Nx : forall n, (n = cEN \/ n = cAN) ->
     (match post4 with q :: _ => is_in [n] q = true | [] => False end <-> next_in r eos = n)).
  { intros n Hn. unfold post4. rewrite Eu. destruct r as [|d r']; [cbn; destruct He as [-> | ->], Hn as [-> | ->]; cbn; intuition discriminate|].
    cbn [w1 map]. fold (w1c c d). pose proof (Forall_inv Kr) as Kd; cbv beta in Kd.
    assert (Nd : next_in (d :: r') eos = d) by (destruct d; try discriminate Kd; reflexivity). rewrite Nd.
    destruct c; try discriminate Hsep; destruct d; try discriminate Kd; destruct Hn as [-> | ->]; cbn; intuition discriminate. }
  assert (Hx : exists x, x = w4f pre4 v post4 /\ wl_class eos c r p false = w6c x /\
     ((x = c /\ wl_class eos c r p false = cON) \/
      (is_in [cEN; cAN] x = true /\ wl_class eos c r p false = x /\ next_in r eos = x))).
  { assert (Dn : forall n, is_in [n] n = true) by (intros n; apply is_in_spec; now left).
    assert (Wc : wl_class eos c r p false = sep_class p c (next_in r eos)) by (destruct c; try discriminate Hsep; reflexivity).
    rewrite Wc. rewrite Ev.
    assert (NoW4 : (pre4 = [] \/ exists q t, pre4 = q :: t /\ is_in [cEN; cAN] q = false) -> w4f pre4 c post4 = c).
    { intros [-> |(q & t & -> & Hq)]; [reflexivity|]. unfold w4f. destruct post4; [reflexivity|].
      destruct q; try discriminate Hq; destruct c; try discriminate Hsep; reflexivity. }
    destruct HR as [(-> & -> & Hs & ->)|((t4 & ->) & [(Hp & -> & t5 & ->)|[(Hp & HR)|(X & _)]])]; [| | |congruence].
    - exists c. rewrite NoW4 by auto. split; [reflexivity|].
      assert (sep_class pu c (next_in r eos) = cON) as -> by (destruct Hs as [-> | ->]; destruct c; reflexivity).
      split; [destruct c; try discriminate Hsep; reflexivity|auto].
    - destruct (is_in [cEN; cAN] (w3c pu)) eqn:HN2.
      + destruct (Nx cEN (or_introl eq_refl)) as (N1 & N2). destruct (Nx cAN (or_intror eq_refl)) as (N3 & N4).
        exists (w4f (w3c pu :: t4) c post4). split; [reflexivity|].
        destruct pu; try discriminate HN2; change (w3c cEN) with cEN in *; change (w3c cAN) with cAN in *.
        * (* AN *) unfold w4f. destruct post4 as [|q post4'].
          -- assert (sep_class cAN c (next_in r eos) = cON) as ->.
             { destruct (next_in r eos) eqn:NE; destruct c; try discriminate Hsep; try reflexivity. destruct (N4 eq_refl). }
             split; [destruct c; try discriminate Hsep; reflexivity|auto].
          -- destruct (BC_eq_dec c cCS) as [-> |]; [|destruct c; try discriminate Hsep; try congruence; cbn; auto].
             destruct (is_in [cAN] q) eqn:Q.
             ++ rewrite (N3 eq_refl). clear - Q. destruct q; try discriminate Q.
                split; [reflexivity|right; repeat split; reflexivity].
             ++ assert (sep_class cAN cCS (next_in r eos) = cON) as ->.
                { destruct (next_in r eos) eqn:NE; try reflexivity. specialize (N4 eq_refl). congruence. }
                clear - Q. destruct q; try discriminate Q; (split; [reflexivity|left; split; reflexivity]).
        * (* EN *) unfold w4f. destruct post4 as [|q post4'].
          -- assert (sep_class cEN c (next_in r eos) = cON) as ->.
             { destruct (next_in r eos) eqn:NE; destruct c; try discriminate Hsep; try reflexivity; destruct (N2 eq_refl). }
             split; [destruct c; try discriminate Hsep; reflexivity|auto].
          -- rewrite Hsep. change (is_in [cEN] cEN) with true. change (is_in [cAN] cEN) with false. rewrite andb_false_r. cbn [andb].
             destruct (is_in [cEN] q) eqn:Q.
             ++ rewrite (N1 eq_refl). destruct c; try discriminate Hsep; (split; [reflexivity|right; repeat split; reflexivity]).
             ++ assert (sep_class cEN c (next_in r eos) = cON) as ->.
                { destruct (next_in r eos) eqn:NE; destruct c; try discriminate Hsep; try reflexivity; specialize (N2 eq_refl); congruence. }
                split; [destruct c; try discriminate Hsep; reflexivity|auto].
      + exists c. rewrite NoW4 by (right; eauto). split; [reflexivity|].
        assert (sep_class (w3c pu) c (next_in r eos) = cON) as -> by (destruct pu; try discriminate HN2; destruct c; reflexivity).
        split; [destruct c; try discriminate Hsep; reflexivity|auto].
    - destruct HR as [(-> & t5 & ->)|(Hn & _ & t & Ht)].
      + exists c. rewrite NoW4 by (right; do 2 eexists; split; [reflexivity|]; destruct pu; try discriminate Hp; reflexivity).
        split; [reflexivity|]. cbn. split; [destruct c; try discriminate Hsep; reflexivity|auto].
      + injection Ht as -> _. destruct p; try discriminate Hn; discriminate Hsep. }
  destruct Hx as (x & Ex & Ez & Hx).
  assert (Pv : wl_prev eos c r p false = wl_class eos c r p false) by (destruct c; try discriminate Hsep; reflexivity).
  change (seen_after c 1 r) with r in Go.
  eapply (Go x (w6c x) Ex).
  - unfold w5f. destruct Hx as [(-> & _)|(Hx & _)]; [destruct c; try discriminate Hsep; reflexivity|].
    destruct x; try discriminate Hx; reflexivity.
  - exact Ez.
  - rewrite Pv. destruct Hx as [(_ & ->)|(Hx & -> & _)]; [reflexivity|]. destruct x; try discriminate Hx; reflexivity.
  - rewrite Eu, Ev, Pv. right. split; [exists pre4; destruct c; try discriminate Hsep; reflexivity|]. right; left. split; [assumption|].
    destruct Hx as [(-> & ->)|(Hx & -> & Hn)]; [left; split; [reflexivity|eauto]|right].
    split; [assumption|]. split; [eauto|].
    destruct r as [|d r']; [exfalso; cbn in Hn; rewrite <- Hn in Hx; destruct He as [E1|E1]; rewrite E1 in Hx; discriminate Hx|].
    pose proof (Forall_inv Kr) as Kd; cbv beta in Kd. exists r'. f_equal. rewrite <- Hn. destruct d; try discriminate Kd; reflexivity.
  - intros X. congruence.
Qed.

Definition w7f (sos : BidiClass) : list BidiClass -> BidiClass -> list BidiClass -> BidiClass :=
  fun pre c _ => if is_in [cEN] c && is_in [cL] (last_strong sos pre) then cL else c.

Lemma w7l_kept sos cs : forall pre b, b = is_in [cL] (last_strong sos pre) ->
  filter kept (w7l cs b) = at_each (w7f sos) pre (filter kept cs) /\
  Forall2 (fun c d => kept d = kept c /\ (kept c = false -> d = c)) cs (w7l cs b).
Proof.
  induction cs as [|c r IH]; intros pre b Hb; [split; [reflexivity|constructor]|].
  cbn [w7l filter].
  assert (K : kept (w7_class c b) = kept c /\ (kept c = false -> w7_class c b = c)).
  { destruct c; cbn; auto; destruct b; auto; split; auto; discriminate. }
  rewrite (proj1 K). destruct (kept c) eqn:Kc.
  - cbn [at_each]. destruct (IH (c :: pre) (l_after c b)) as (A & B).
    { destruct c; cbn [l_after]; unfold last_strong; cbn [filter]; try exact Hb; reflexivity. }
    split; [|constructor; [rewrite Kc; exact K|exact B]].
    f_equal; [|exact A]. unfold w7f. rewrite <- Hb. destruct c; cbn; try reflexivity.
  - destruct (IH pre (l_after c b)) as (A & B).
    { rewrite <- Hb. destruct c; try discriminate Kc; reflexivity. }
    split; [exact A|]. constructor; [rewrite Kc; exact K|exact B].
Qed.

Lemma kept_widths_length cs : forall ws, length cs = length ws -> length (filter kept cs) = length (kept_widths ws cs).
Proof.
  induction cs as [|c cs IH]; intros [|w ws] H; cbn [length] in *; try lia; [reflexivity|].
  cbn [filter kept_widths]. destruct (kept c); cbn [length]; rewrite (IH ws) by lia; reflexivity.
Qed.

Lemma separators_short_kept cs : forall ws, length cs = length ws -> separators_short ws cs ->
  separators_short (kept_widths ws cs) (filter kept cs).
Proof.
  induction cs as [|c cs IH]; intros [|w ws] H S; cbn [length] in *; try lia; [exact I|].
  cbn [filter kept_widths separators_short] in *. destruct S as (S1 & S2).
  destruct (kept c); cbn [separators_short]; [split; [assumption|]|]; apply IH; auto; lia.
Qed.

Lemma weak_rules sos eos ws cs : (sos = cL \/ sos = cR) -> (eos = cL \/ eos = cR) ->
  length cs = length ws -> weak_tame sos ws cs ->
  let out := w7l (wlc eos ws cs sos false) (is_class_L sos) in
  filter kept out = w_rules sos (filter kept cs) /\
  Forall2 (fun c d => kept d = kept c /\ (kept c = false -> d = c)) cs out.
Proof.
  intros Hs He HL (W & E & S) out.
  assert (Ks : kept sos = true) by (destruct Hs as [-> | ->]; reflexivity).
  destruct (wlc_kept eos ws cs sos false HL Ks) as (A & B).
  destruct (w7l_kept sos (wlc eos ws cs sos false) [] (is_class_L sos)) as (C & D).
  { destruct Hs as [-> | ->]; reflexivity. }
  split.
  - unfold out. rewrite C, A. unfold w_rules. rewrite W.
    change (w7 sos) with (at_each (w7f sos) []). f_equal.
    symmetry. apply (weak_one eos He (filter kept cs) (kept_widths ws cs) sos sos [] []).
    + now apply kept_widths_length.
    + apply Forall_forall. intros c Hc. apply filter_In in Hc. apply Hc.
    + assumption.
    + now apply separators_short_kept.
    + right. unfold head_ok. intros ->. destruct Hs; discriminate.
    + left. auto.
  - clear - B D. unfold out. revert D. generalize (w7l (wlc eos ws cs sos false) (is_class_L sos)).
    induction B as [|c d cs ds (H1 & H2) B IH]; intros o D; inversion D as [|? e ? es (G1 & G2) D']; subst; constructor; auto.
    split; [congruence|]. intros K. rewrite G2 by congruence. auto.
Qed.

Lemma weak_pass s pc ws cs : NoDup (seq_indices (s_runs s)) -> in_range pc (seq_indices (s_runs s)) ->
  Forall (fun w => 0 < w) ws -> length cs = length ws ->
  reads pc (seq_indices (s_runs s)) = expand ws cs ->
  (s_sos s = cL \/ s_sos s = cR) -> (s_eos s = cL \/ s_eos s = cR) ->
  weak_tame (s_sos s) ws cs ->
  exists out,
    reads (resolve_weak s pc) (seq_indices (s_runs s)) = expand ws out /\
    filter kept out = w_rules (s_sos s) (filter kept cs) /\
    Forall2 (fun c d => kept d = kept c /\ (kept c = false -> d = c)) cs out /\
    (forall j, ~ In j (seq_indices (s_runs s)) -> class_at (resolve_weak s pc) j = class_at pc j).
Proof.
  intros ND RI Hw HL HR Hs He T.
  destruct (resolve_weak_out s pc ND RI) as (L & R & O).
  destruct (weak_rules (s_sos s) (s_eos s) ws cs Hs He HL T) as (A & B).
  eexists. split; [|split; [exact A|split; [exact B|exact O]]].
  rewrite R, HR. unfold weak_list. rewrite wl_expand by assumption. apply w7l_expand; [assumption|].
  rewrite wlc_length by assumption. assumption.
Qed.

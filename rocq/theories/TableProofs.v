From Coq Require Import List NArith ZArith Lia Bool Sorted ZifyBool ZifyNat ZifyN PeanoNat.
From Verif Require Import Base RangeModel TableModel TableSpec.
Import ListNotations.
Open Scope N_scope.

Section BS.
  Context {A : Type} (f : A -> outcome comparison) (s : list A).
  Hypothesis ftotal : forall x, In x s -> exists o, f x = Ret o.
  Hypothesis fmono : forall i j x y, (i < j)%nat -> nth_error s i = Some x -> nth_error s j = Some y ->
    f x <> Ret Lt -> f y = Ret Gt.

  Lemma bs_loop_ok fuel : forall base size, (size < fuel)%nat -> (1 <= size)%nat ->
    (base + size <= length s)%nat ->
    (base = 0%nat \/ exists x, nth_error s base = Some x /\ f x <> Ret Gt) ->
    (forall j y, (base + size <= j)%nat -> nth_error s j = Some y -> f y = Ret Gt) ->
    exists b, bs_loop f s fuel base size = Ret b /\ (b < length s)%nat /\
      (b = 0%nat \/ exists x, nth_error s b = Some x /\ f x <> Ret Gt) /\
      (forall j y, (S b <= j)%nat -> nth_error s j = Some y -> f y = Ret Gt).
  Proof.
    induction fuel as [|fuel IH]; intros base size Hf Hs Hlen Hb Hup; [lia|].
    cbn [bs_loop]. destruct (Nat.leb_spec size 1).
    - assert (size = 1%nat) as -> by lia. exists base. repeat split; try assumption; [lia|].
      intros j y Hj. apply Hup. lia.
    - pose proof (Nat.div2_odd size) as Hd.
      assert (1 <= Nat.div2 size < size)%nat as Hhalf.
      { destruct (Nat.odd size); cbn [Nat.b2n] in Hd; lia. }
      destruct (nth_error s (base + Nat.div2 size)) as [x|] eqn:Hx.
      2:{ apply nth_error_None in Hx. lia. }
      destruct (ftotal x (nth_error_In _ _ Hx)) as [o Ho]. rewrite Ho.
      destruct o.
      + apply IH; try lia.
        * right. exists x. split; [assumption|]. rewrite Ho. discriminate.
        * intros j y Hj. apply Hup. lia.
      + apply IH; try lia.
        * right. exists x. split; [assumption|]. rewrite Ho. discriminate.
        * intros j y Hj. apply Hup. lia.
      + apply IH; try lia; try assumption.
        intros j y Hj Hy. destruct (Nat.eq_dec j (base + Nat.div2 size)) as [->|Hne].
        * congruence.
        * eapply (fmono (base + Nat.div2 size) j); eauto; [|rewrite Ho; discriminate].
          destruct (Nat.odd size); cbn [Nat.b2n] in Hd; lia.
  Qed.

  Lemma bs_spec :
    exists r, binary_search_by f s = Ret r /\
      match r with
      | inl i => exists x, nth_error s i = Some x /\ f x = Ret Eq
      | inr _ => forall x, In x s -> f x <> Ret Eq
      end.
  Proof.
    unfold binary_search_by. destruct s as [|a s'] eqn:Es.
    - eexists. split; [reflexivity|]. intros x [].
    - rewrite <- Es in *.
      destruct (bs_loop_ok (S (length s)) 0 (length s)) as (b & Hb & Hlt & Hlo & Hup); try lia.
      + rewrite Es. cbn. lia.
      + intros j y Hj Hy. assert (j < length s)%nat by (apply nth_error_Some; congruence). lia.
      + rewrite Hb. destruct (nth_error s b) as [x|] eqn:Hx.
        2:{ apply nth_error_None in Hx. lia. }
        destruct (ftotal x (nth_error_In _ _ Hx)) as [o Ho]. rewrite Ho.
        assert (forall y, In y s -> f y = Ret Eq -> o = Eq) as Huniq.
        { intros y Hy Hey. apply In_nth_error in Hy as [j Hj].
          destruct (Nat.lt_trichotomy j b) as [Hjb|[->|Hjb]].
          - assert (f x = Ret Gt) as Hg.
            { eapply (fmono j b); eauto. rewrite Hey. discriminate. }
            destruct Hlo as [->|(x' & Hx' & Hne)]; [lia|].
            exfalso. apply Hne. congruence.
          - congruence.
          - specialize (Hup j y Hjb Hj). congruence. }
        destruct o; eexists; (split; [reflexivity|]).
        * exists x. split; assumption.
        * intros y Hy He. discriminate (Huniq y Hy He).
        * intros y Hy He. discriminate (Huniq y Hy He).
  Qed.
End BS.

Lemma SS_nth {A} (R : A -> A -> Prop) l : StronglySorted R l ->
  forall i j x y, (i < j)%nat -> nth_error l i = Some x -> nth_error l j = Some y -> R x y.
Proof.
  induction 1 as [|a l Hs IH Hf]; intros i j x y Hij Hx Hy.
  - destruct i; discriminate.
  - rewrite Forall_forall in Hf. destruct i, j; try lia; cbn in *.
    + injection Hx as <-. apply Hf. eapply nth_error_In; eauto.
    + apply (IH i j); auto. lia.
Qed.

Section T.
  Context {V : Type}.
  Implicit Types (t : CharDataTable V) (c : N).

  Lemma nth_error_entries_direct (l : list (N * V)) i :
    nth_error (entries (Direct l)) i =
    option_map (fun kv => (fst kv, fst kv, snd kv)) (nth_error l i).
  Proof. cbn. apply nth_error_map. Qed.

  Lemma nth_error_entries_range (l : list (CharRange * V)) i :
    nth_error (entries (Range l)) i =
    option_map (fun rv => (r_low (fst rv), r_high (fst rv), snd rv)) (nth_error l i).
  Proof. cbn. apply nth_error_map. Qed.

  Lemma search_direct_spec (l : list (N * V)) c : wf_table (Direct l) ->
    exists r, search_direct l c = Ret r /\
      match r with
      | inl i => exists v, nth_error l i = Some (c, v)
      | inr _ => forall k v, In (k, v) l -> k <> c
      end.
  Proof.
    intros [Hs _]. unfold search_direct.
    destruct (bs_spec (fun kv : N * V => Ret (fst kv ?= c)) l) as (r & Hr & Hspec).
    - intros x _. eauto.
    - intros i j x y Hij Hx Hy Hne.
      pose proof (SS_nth _ _ Hs i j (fst x, fst x, snd x) (fst y, fst y, snd y) Hij) as H.
      rewrite !nth_error_entries_direct, Hx, Hy in H. specialize (H eq_refl eq_refl).
      unfold entry_lt in H. cbn in H. f_equal.
      destruct (N.compare_spec (fst x) c), (N.compare_spec (fst y) c); try reflexivity; try congruence; lia.
    - exists r. split; [assumption|]. destruct r as [i|i].
      + destruct Hspec as ([k v] & Hx & He). exists v. rewrite Hx. f_equal. f_equal.
        cbn in He. injection He as He. now apply N.compare_eq.
      + intros k v Hin ->. apply (Hspec _ Hin). cbn. now rewrite N.compare_refl.
  Qed.

  Lemma cmp_char_cases (r : CharRange) c : r_low r <= r_high r ->
    exists o, cmp_char r c = Ret o /\
      (o = Lt <-> r_high r < c) /\ (o = Gt <-> c < r_low r) /\ (o = Eq <-> r_low r <= c <= r_high r).
  Proof.
    intros H. unfold cmp_char, is_empty.
    destruct (N.ltb_spec (r_high r) (r_low r)); [lia|].
    destruct (N.ltb_spec (r_high r) c); [|destruct (N.ltb_spec c (r_low r))];
      eexists; (split; [reflexivity|]); repeat split; try discriminate; try lia; intros; try reflexivity; lia.
  Qed.

  Lemma search_range_spec (l : list (CharRange * V)) c : wf_table (Range l) ->
    exists r, search_range l c = Ret r /\
      match r with
      | inl i => exists rv, nth_error l i = Some rv /\ r_low (fst rv) <= c <= r_high (fst rv)
      | inr _ => forall rv, In rv l -> ~ (r_low (fst rv) <= c <= r_high (fst rv))
      end.
  Proof.
    intros [Hs Hok]. unfold search_range.
    assert (forall rv, In rv l -> r_low (fst rv) <= r_high (fst rv)) as Hle.
    { intros rv Hin. rewrite Forall_forall in Hok.
      specialize (Hok (r_low (fst rv), r_high (fst rv), snd rv)). cbn in Hok.
      assert (entry_ok (r_low (fst rv), r_high (fst rv), snd rv)) as H.
      { apply Hok. apply in_map_iff. exists rv. split; [reflexivity|assumption]. }
      apply H. }
    destruct (bs_spec (fun rv : CharRange * V => cmp_char (fst rv) c) l) as (r & Hr & Hspec).
    - intros x Hx. destruct (cmp_char_cases (fst x) c (Hle _ Hx)) as (o & -> & _). eauto.
    - intros i j x y Hij Hx Hy Hne.
      pose proof (SS_nth _ _ Hs i j _ _ Hij
        (eq_trans (nth_error_entries_range l i) (f_equal (option_map _) Hx))
        (eq_trans (nth_error_entries_range l j) (f_equal (option_map _) Hy))) as H.
      unfold entry_lt in H. cbn in H.
      destruct (cmp_char_cases (fst x) c (Hle _ (nth_error_In _ _ Hx))) as (ox & Ex & Lx & Gx & Qx).
      destruct (cmp_char_cases (fst y) c (Hle _ (nth_error_In _ _ Hy))) as (oy & Ey & Ly & Gy & Qy).
      rewrite Ex in Hne. rewrite Ey. f_equal.
      assert (ox <> Lt) by congruence. apply Gy. pose proof (Hle _ (nth_error_In _ _ Hx)).
      destruct ox; [pose proof (proj1 Qx eq_refl)|congruence|pose proof (proj1 Gx eq_refl)]; lia.
    - exists r. split; [assumption|]. destruct r as [i|i].
      + destruct Hspec as (rv & Hx & He). exists rv. split; [assumption|].
        destruct (cmp_char_cases (fst rv) c (Hle _ (nth_error_In _ _ Hx))) as (o & Eo & _ & _ & Q).
        apply Q. congruence.
      + intros rv Hin Hc. apply (Hspec _ Hin).
        destruct (cmp_char_cases (fst rv) c (Hle _ Hin)) as (o & Eo & _ & _ & Q).
        rewrite Eo. f_equal. now apply Q.
  Qed.

  Lemma in_entries_direct (l : list (N * V)) lo hi v :
    In (lo, hi, v) (entries (Direct l)) <-> lo = hi /\ In (lo, v) l.
  Proof.
    cbn. rewrite in_map_iff. split.
    - intros ([k w] & E & Hin). cbn in E. injection E as <- <- <-. auto.
    - intros [-> Hin]. exists (hi, v). auto.
  Qed.

  Lemma in_entries_range (l : list (CharRange * V)) lo hi v :
    In (lo, hi, v) (entries (Range l)) <-> In (mkRange lo hi, v) l.
  Proof.
    cbn. rewrite in_map_iff. split.
    - intros ([[a b] w] & E & Hin). cbn in E. injection E as <- <- <-. auto.
    - intros Hin. exists (mkRange lo hi, v). auto.
  Qed.

  (** The search returns the covering entry. *)
  Lemma find_some t c v : wf_table t -> find t c = Ret (Some v) ->
    exists e, In e (entries t) /\ covers e c /\ snd e = v.
  Proof.
    intros Hwf. unfold find. destruct t as [l|l].
    - destruct (search_direct_spec l c Hwf) as (r & -> & Hr). destruct r as [i|i]; cbn; [|discriminate].
      destruct Hr as [w Hw]. rewrite Hw. cbn. intros [= <-].
      exists (c, c, w). split; [apply in_entries_direct; split; [reflexivity|eapply nth_error_In; eauto]|].
      split; [split; cbn; lia|reflexivity].
    - destruct (search_range_spec l c Hwf) as (r & -> & Hr). destruct r as [i|i]; cbn; [|discriminate].
      destruct Hr as ([[lo hi] w] & Hw & Hc). rewrite Hw. cbn. intros [= <-].
      exists (lo, hi, w). split; [apply in_entries_range; eapply nth_error_In; eauto|].
      split; [exact Hc|reflexivity].
  Qed.

  Lemma find_none t c : wf_table t -> find t c = Ret None ->
    forall e, In e (entries t) -> ~ covers e c.
  Proof.
    intros Hwf. unfold find. destruct t as [l|l].
    - destruct (search_direct_spec l c Hwf) as (r & -> & Hr). destruct r as [i|i]; cbn.
      + destruct Hr as [w Hw]. rewrite Hw. discriminate.
      + intros _ [[lo hi] w] Hin [H1 H2]. apply in_entries_direct in Hin as [-> Hin].
        cbn in *. apply (Hr _ _ Hin). lia.
    - destruct (search_range_spec l c Hwf) as (r & -> & Hr). destruct r as [i|i]; cbn.
      + destruct Hr as (rv & Hw & _). rewrite Hw. discriminate.
      + intros _ [[lo hi] w] Hin [H1 H2]. apply in_entries_range in Hin.
        apply (Hr _ Hin). cbn in *. lia.
  Qed.

  Lemma find_total t c : wf_table t -> exists o, find t c = Ret o.
  Proof.
    intros Hwf. unfold find. destruct t as [l|l].
    - destruct (search_direct_spec l c Hwf) as (r & -> & Hr). destruct r as [i|i]; cbn.
      + destruct Hr as [w Hw]. rewrite Hw. cbn. eauto.
      + eauto.
    - destruct (search_range_spec l c Hwf) as (r & -> & Hr). destruct r as [i|i]; cbn.
      + destruct Hr as (rv & Hw & _). rewrite Hw. cbn. eauto.
      + eauto.
  Qed.

  Lemma entries_disjoint t e e' c : wf_table t -> In e (entries t) -> In e' (entries t) ->
    covers e c -> covers e' c -> e = e'.
  Proof.
    intros [Hs _] H1 H2 [C1 C2] [C3 C4].
    apply In_nth_error in H1 as [i Hi]. apply In_nth_error in H2 as [j Hj].
    destruct (Nat.lt_trichotomy i j) as [Hij|[->|Hij]].
    - pose proof (SS_nth _ _ Hs _ _ _ _ Hij Hi Hj) as H. unfold entry_lt in H. lia.
    - congruence.
    - pose proof (SS_nth _ _ Hs _ _ _ _ Hij Hj Hi) as H. unfold entry_lt in H. lia.
  Qed.

  Lemma scan_some (l : list (N * N * V)) c v : scan l c = Some v ->
    exists e, In e l /\ covers e c /\ snd e = v.
  Proof.
    induction l as [|[[lo hi] w] l IH]; cbn [scan]; [discriminate|].
    destruct ((lo <=? c) && (c <=? hi)) eqn:E.
    - intros [= <-]. exists (lo, hi, w). unfold covers. cbn. split; [now left|]. split; [lia|reflexivity].
    - intros H. destruct (IH H) as (e & He & Hc). exists e. split; [now right|assumption].
  Qed.

  Lemma scan_none (l : list (N * N * V)) c : scan l c = None -> forall e, In e l -> ~ covers e c.
  Proof.
    induction l as [|[[lo hi] w] l IH]; cbn [scan]; [intros _ e []|].
    destruct ((lo <=? c) && (c <=? hi)) eqn:E; [discriminate|].
    intros H e [<-|He]; [unfold covers; cbn; lia|now apply IH].
  Qed.

  Lemma find_scan t c : wf_table t -> find t c = Ret (scan (entries t) c).
  Proof.
    intros Hwf. destruct (find_total t c Hwf) as [[v|] Ho]; rewrite Ho; f_equal.
    - destruct (find_some _ _ _ Hwf Ho) as (e & He & Hc & <-).
      destruct (scan (entries t) c) as [w|] eqn:Es.
      + apply scan_some in Es as (e' & He' & Hc' & <-). f_equal. f_equal.
        eapply entries_disjoint; eauto.
      + exfalso. eapply scan_none; eauto.
    - pose proof (find_none _ _ Hwf Ho) as Hn.
      destruct (scan (entries t) c) as [w|] eqn:Es; [|reflexivity].
      apply scan_some in Es as (e' & He' & Hc' & _). exfalso. eapply Hn; eauto.
  Qed.

  Lemma tcontains_find t c : wf_table t ->
    tcontains t c = Ret (match scan (entries t) c with Some _ => true | None => false end).
  Proof.
    intros Hwf. pose proof (find_scan t c Hwf) as Hf. unfold tcontains, find in *. destruct t as [l|l].
    - destruct (search_direct_spec l c Hwf) as (r & Hr & Hs). rewrite Hr in *. destruct r as [i|i]; cbn in *.
      + destruct Hs as [w Hw]. rewrite Hw in Hf. cbn in Hf. injection Hf as <-. reflexivity.
      + injection Hf as <-. reflexivity.
    - destruct (search_range_spec l c Hwf) as (r & Hr & Hs). rewrite Hr in *. destruct r as [i|i]; cbn in *.
      + destruct Hs as (w & Hw & _). rewrite Hw in Hf. cbn in Hf. injection Hf as <-. reflexivity.
      + injection Hf as <-. reflexivity.
  Qed.

  Lemma find_with_range_spec (l : list (CharRange * V)) c : wf_table (Range l) ->
    exists o, find_with_range (Range l) c = Ret o /\
      match o with
      | Some (r, v) => In (r, v) l /\ contains r c = true /\ find (Range l) c = Ret (Some v)
      | None => find (Range l) c = Ret None
      end.
  Proof.
    intros Hwf. unfold find_with_range, find.
    destruct (search_range_spec l c Hwf) as (r & -> & Hs). destruct r as [i|i]; cbn.
    - destruct Hs as ([r v] & Hw & Hc). rewrite Hw. eexists. split; [reflexivity|]. cbn.
      split; [eapply nth_error_In; eauto|]. split; [|reflexivity]. unfold contains. cbn in Hc. lia.
    - eexists. split; [reflexivity|]. reflexivity.
  Qed.

  (** Iteration. *)
  Definition range_view (t : CharDataTable V) : list (CharRange * V) :=
    match t with
    | Direct l => map (fun kv => (mkRange (fst kv) (fst kv), snd kv)) l
    | Range l => l
    end.

  Lemma table_collects_from t i : (i <= length (range_view t))%nat ->
    table_collects t i (skipn i (range_view t)).
  Proof.
    remember (length (range_view t) - i)%nat as k eqn:Ek. revert i Ek.
    induction k as [|k IH]; intros i Ek Hi.
    - rewrite skipn_all2 by lia. apply (tc_nil _ _ i). unfold table_iter_next, range_view in *.
      destruct t as [l|l].
      + rewrite map_length in *. destruct (nth_error l i) eqn:E; [|reflexivity].
        assert (i < length l)%nat by (apply nth_error_Some; congruence). lia.
      + destruct (nth_error l i) eqn:E; [|reflexivity].
        assert (i < length l)%nat by (apply nth_error_Some; congruence). lia.
    - assert (exists e, nth_error (range_view t) i = Some e) as [e He].
      { destruct (nth_error (range_view t) i) eqn:E; [eauto|]. apply nth_error_None in E. lia. }
      assert (skipn i (range_view t) = e :: skipn (S i) (range_view t)) as ->.
      { revert He. clear. generalize (range_view t). intros l. revert i.
        induction l as [|a l IH]; intros [|i] H; cbn in *; try discriminate; [congruence|now apply IH]. }
      apply (tc_cons _ _ (S i)); [|apply IH; lia].
      unfold table_iter_next, range_view in *. destruct t as [l|l].
      + rewrite nth_error_map in He. destruct (nth_error l i) as [[k' v]|]; [|discriminate].
        cbn in He. injection He as <-. reflexivity.
      + rewrite He. reflexivity.
  Qed.

  Lemma table_collects_det t i l l' : table_collects t i l -> table_collects t i l' -> l = l'.
  Proof.
    intros H. revert l'. induction H; intros l'' H'; inversion H'; subst; try congruence.
    assert (i'0 = i') as -> by congruence. f_equal; [congruence|]. now apply IHtable_collects.
  Qed.

  Lemma range_view_entries t :
    map (fun rv => (r_low (fst rv), r_high (fst rv), snd rv)) (range_view t) = entries t.
  Proof. destruct t as [l|l]; cbn; [rewrite map_map|]; reflexivity. Qed.

  (** The boolean checker is sound. *)
  Lemma wf_entriesb_head (l : list (N * N * V)) a e :
    wf_entriesb (a :: l) = true -> In e l -> snd (fst a) < fst (fst e) /\ True.
  Proof.
    revert a. induction l as [|b l IH]; intros a Hw Hin; [destruct Hin|].
    destruct a as [[lo hi] v], b as [[lo' hi'] v']. cbn [wf_entriesb] in Hw.
    apply andb_true_iff in Hw as [Hw Hwl]. destruct Hin as [<-|Hin].
    - cbn. split; [lia|trivial].
    - specialize (IH (lo', hi', v')). cbn [wf_entriesb] in IH. specialize (IH Hwl Hin).
      cbn in IH |- *. cbn [wf_entriesb] in Hwl. split; [lia|trivial].
  Qed.

  Lemma wf_entriesb_sound t : wf_entriesb (entries t) = true -> wf_table t.
  Proof.
    unfold wf_table. generalize (entries t). clear t. intros l. induction l as [|a l IH]; intros Hw.
    - split; constructor.
    - pose proof (fun e => wf_entriesb_head l a e Hw) as Hhd.
      destruct a as [[lo hi] v]. cbn [wf_entriesb] in Hw.
      apply andb_true_iff in Hw as [Hw Hwl]. destruct (IH Hwl) as [Hs Hok].
      split; constructor; try assumption.
      + apply Forall_forall. intros e He. apply (Hhd e He).
      + rewrite !andb_true_iff in Hw. destruct Hw as [[[Hw1 Hw2] Hw3] _].
        unfold entry_ok. cbn [fst snd]. rewrite <- !scalarb_spec. split; [lia|]. split; assumption.
  Qed.
End T.

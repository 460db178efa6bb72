From Coq Require Import List NArith ZArith Lia Bool Sorted ZifyBool ZifyNat ZifyN.
From Verif Require Import Base RangeModel RangeSpec.
Import ListNotations.
Open Scope N_scope.

(** The scalars between two scalars, built from the top down. *)
Definition between (lo hi c : N) : Prop := lo <= c /\ c <= hi.

Lemma SSorted_app_one l x :
  StronglySorted N.lt l -> (forall y, In y l -> y < x) -> StronglySorted N.lt (l ++ [x]).
Proof.
  induction 1 as [|a l Hs IH Hf]; intros Hx; cbn.
  - constructor; constructor.
  - constructor.
    + apply IH. intros y Hy. apply Hx. now right.
    + apply Forall_app. split; [assumption|]. constructor; [|constructor]. apply Hx. now left.
Qed.

Lemma SSorted_unique l l' :
  StronglySorted N.lt l -> StronglySorted N.lt l' ->
  (forall c, In c l <-> In c l') -> l = l'.
Proof.
  intros Hl. revert l'.
  induction Hl as [|a l Hs IH Hf]; intros l' Hl' Heq.
  - destruct l' as [|b l']; [reflexivity|]. exfalso. apply (Heq b). now left.
  - destruct Hl' as [|b l' Hs' Hf'].
    + exfalso. apply (Heq a). now left.
    + rewrite Forall_forall in Hf, Hf'.
      assert (a = b) as ->.
      { destruct (proj1 (Heq a) (or_introl eq_refl)) as [|H1]; [congruence|].
        destruct (proj2 (Heq b) (or_introl eq_refl)) as [|H2]; [congruence|].
        specialize (Hf _ H2). specialize (Hf' _ H1). lia. }
      f_equal. apply IH; [assumption|]. intros c. split; intros Hc.
      * destruct (proj1 (Heq c) (or_intror Hc)) as [->|]; [|assumption].
        specialize (Hf _ Hc). lia.
      * destruct (proj2 (Heq c) (or_intror Hc)) as [->|]; [|assumption].
        specialize (Hf' _ Hc). lia.
Qed.

Lemma enumerates_unique P l l' : enumerates P l -> enumerates P l' -> l = l'.
Proof.
  intros [H1 H2] [H3 H4]. apply SSorted_unique; auto. intros c. now rewrite H2, H4.
Qed.

Lemma enumerates_ext P Q l :
  (forall c, scalar c -> (P c <-> Q c)) -> enumerates P l -> enumerates Q l.
Proof.
  intros HPQ [H1 H2]. split; [assumption|]. intros c. rewrite H2.
  split; intros [Hs Hc]; split; auto; now apply HPQ.
Qed.

(** Existence of the enumeration of any interval. *)
Lemma enumerates_exists_aux n : forall lo hi, (N.to_nat (hi + 1 - lo) <= n)%nat ->
  exists l, enumerates (between lo hi) l.
Proof.
  induction n as [|n IH]; intros lo hi Hn.
  - exists []. split; [constructor|]. intros c; unfold between; split; [intros []|lia].
  - destruct (N.ltb_spec hi lo) as [Hlt|Hge].
    + exists []. split; [constructor|]. intros c; unfold between; split; [intros []|lia].
    + destruct (IH (lo + 1) hi ltac:(lia)) as [l [Hs Hin]].
      destruct (scalarb lo) eqn:Hsc.
      * exists (lo :: l). split.
        -- constructor; [assumption|]. apply Forall_forall. intros c Hc.
           apply Hin in Hc. unfold between in Hc. lia.
        -- intros c. cbn. rewrite Hin. apply scalarb_spec in Hsc. unfold between.
           split; [intros [<-|]; [split|]; [assumption|lia|]|].
           { intuition lia. }
           intros [Hc Hb]. destruct (N.eq_dec lo c); [now left|right]. split; [assumption|lia].
      * exists l. split; [assumption|]. intros c. rewrite Hin. unfold between.
        split; intros [Hc Hb]; split; try assumption; try lia.
        assert (lo <> c). { intros ->. apply scalarb_spec in Hc. congruence. }
        lia.
Qed.

Lemma enumerates_exists lo hi : exists l, enumerates (between lo hi) l.
Proof. eapply enumerates_exists_aux. reflexivity. Qed.

(** What an iterator state stands for. *)
Definition wf_iter (i : CharIter) : Prop := scalar (i_low i) /\ scalar (i_high i).
Definition denotes (i : CharIter) (l : list N) : Prop :=
  wf_iter i /\ enumerates (between (i_low i) (i_high i)) l.

Lemma enum_head lo hi l :
  scalar lo -> lo <= hi -> enumerates (between lo hi) l ->
  exists l', l = lo :: l'.
Proof.
  intros Hs Hle [Hss Hin].
  assert (In lo l) as Hl. { apply Hin. unfold between. split; [assumption|lia]. }
  destruct l as [|a l']; [destruct Hl|]. exists l'. f_equal.
  destruct Hl as [|Hl]; [assumption|].
  inversion Hss as [|? ? _ Hf]; subst. rewrite Forall_forall in Hf. specialize (Hf _ Hl).
  assert (In a (a :: l')) as Ha by now left. apply Hin in Ha. unfold between in Ha. lia.
Qed.

Lemma enum_last lo hi l :
  scalar hi -> lo <= hi -> enumerates (between lo hi) l ->
  exists l', l = l' ++ [hi].
Proof.
  intros Hs Hle [Hss Hin].
  assert (In hi l) as Hl. { apply Hin. unfold between. split; [assumption|lia]. }
  destruct (in_split _ _ Hl) as (l1 & l2 & ->).
  exists l1. destruct l2 as [|b l2]; [reflexivity|exfalso].
  assert (hi < b).
  { clear - Hss. induction l1 as [|a l1 IH]; cbn in Hss.
    - inversion Hss as [|? ? _ Hf]; subst. inversion Hf; assumption.
    - inversion Hss; subst. now apply IH. }
  assert (In b (l1 ++ hi :: b :: l2)) as Hb by (apply in_or_app; right; right; now left).
  apply Hin in Hb. unfold between in Hb. lia.
Qed.

Lemma SSorted_app_inv l l' :
  StronglySorted N.lt (l ++ l') ->
  StronglySorted N.lt l /\ StronglySorted N.lt l' /\ (forall x y, In x l -> In y l' -> x < y).
Proof.
  induction l as [|a l IH]; cbn; intros H.
  - repeat split; [constructor|assumption|intros ? ? []].
  - inversion H as [|? ? Hs Hf]; subst. destruct (IH Hs) as (H1 & H2 & H3).
    rewrite Forall_forall in Hf. repeat split.
    + constructor; [assumption|]. apply Forall_forall. intros x Hx. apply Hf. apply in_or_app. now left.
    + assumption.
    + intros x y [<-|Hx] Hy; [apply Hf; apply in_or_app; now right|auto].
Qed.

Lemma denotes_finished i l : denotes i l -> is_finished i = true -> l = [].
Proof.
  intros [_ [_ Hin]] Hf. unfold is_finished in Hf. destruct l as [|c l]; [reflexivity|].
  assert (In c (c :: l)) as Hc by now left. apply Hin in Hc. unfold between in Hc. lia.
Qed.

Lemma denotes_next i l : denotes i l ->
  match l with
  | [] => next i = (None, i)
  | c :: l' => exists i', next i = (Some c, i') /\ denotes i' l'
  end.
Proof.
  intros Hd. pose proof Hd as [[Hlo Hhi] He]. unfold next.
  destruct (is_finished i) eqn:Hf.
  - rewrite (denotes_finished _ _ Hd Hf). reflexivity.
  - unfold is_finished in Hf.
    assert (Hle : i_low i <= i_high i) by lia.
    destruct (enum_head _ _ _ Hlo Hle He) as [l' ->].
    eexists. split; [reflexivity|]. destruct He as [Hss Hin].
    inversion Hss as [|? ? Hss' Hfa]; subst. rewrite Forall_forall in Hfa.
    assert (Hin' : forall c, In c l' <-> scalar c /\ i_low i < c /\ c <= i_high i).
    { intros c. split.
      - intros Hc. specialize (Hfa _ Hc).
        assert (In c (i_low i :: l')) as Hc' by now right.
        apply Hin in Hc'. unfold between in Hc'. intuition.
      - intros (Hc & H1 & H2). destruct (proj2 (Hin c)) as [|]; [unfold between; split; [assumption|lia]|lia|assumption]. }
    unfold step_forward, forward, BEFORE_SURROGATE, AFTER_SURROGATE, MAX_CHAR.
    destruct (N.eqb_spec (i_low i) 0x10FFFF) as [Hm|Hm]; [|destruct (N.eqb_spec (i_low i) 0xD7FF) as [Hb|Hb]];
      (split; [split|split]); cbn [i_low i_high] in *; try assumption; unfold scalar in *; try lia;
      intros c; rewrite Hin'; unfold between, scalar in *; lia.
Qed.

Lemma denotes_next_back i l : denotes i l ->
  (l = [] /\ next_back i = (None, i)) \/
  (exists c l' i', l = l' ++ [c] /\ next_back i = (Some c, i') /\ denotes i' l').
Proof.
  intros Hd. pose proof Hd as [[Hlo Hhi] He]. unfold next_back.
  destruct (is_finished i) eqn:Hf.
  - left. rewrite (denotes_finished _ _ Hd Hf). split; reflexivity.
  - right. unfold is_finished in Hf.
    assert (Hle : i_low i <= i_high i) by lia.
    destruct (enum_last _ _ _ Hhi Hle He) as [l' ->].
    do 3 eexists. split; [reflexivity|]. split; [reflexivity|]. destruct He as [Hss Hin].
    destruct (SSorted_app_inv _ _ Hss) as (Hss' & _ & Hlt).
    assert (Hin' : forall c, In c l' <-> scalar c /\ i_low i <= c /\ c < i_high i).
    { intros c. split.
      - intros Hc. specialize (Hlt _ _ Hc (or_introl eq_refl)).
        assert (In c (l' ++ [i_high i])) as Hc' by (apply in_or_app; now left).
        apply Hin in Hc'. unfold between in Hc'. intuition.
      - intros (Hc & H1 & H2).
        assert (In c (l' ++ [i_high i])) as Hc'. { apply Hin. unfold between. split; [assumption|lia]. }
        apply in_app_or in Hc'. destruct Hc' as [|[|[]]]; [assumption|lia]. }
    unfold step_backward, backward, BEFORE_SURROGATE, AFTER_SURROGATE, MAX_CHAR.
    destruct (N.eqb_spec (i_high i) 0) as [Hm|Hm]; [|destruct (N.eqb_spec (i_high i) 0xE000) as [Hb|Hb]];
      (split; [split|split]); cbn [i_low i_high] in *; try assumption; unfold scalar in *; try lia;
      intros c; rewrite Hin'; unfold between, scalar in *; lia.
Qed.

Lemma denotes_of lo hi : scalar lo -> scalar hi ->
  exists l, denotes (mkIter lo hi) l.
Proof. intros. destruct (enumerates_exists lo hi) as [l Hl]. exists l. split; [split|]; assumption. Qed.

Lemma denotes_unique i l l' : denotes i l -> denotes i l' -> l = l'.
Proof. intros [_ H1] [_ H2]. eapply enumerates_unique; eauto. Qed.

Lemma denotes_collects i l : denotes i l -> collects i l.
Proof.
  revert i. induction l as [|c l IH]; intros i Hd; pose proof (denotes_next _ _ Hd) as H; cbn in H.
  - econstructor; eassumption.
  - destruct H as (i' & Hn & Hd'). econstructor; eauto.
Qed.

Lemma collects_det i l l' : collects i l -> collects i l' -> l = l'.
Proof.
  intros H. revert l'. induction H; intros l'' H'; inversion H'; subst; try congruence.
  assert (i'0 = i') as -> by congruence. f_equal; [congruence|]. now apply IHcollects.
Qed.

Lemma denotes_collects_back i l : denotes i l -> collects_back i (rev l).
Proof.
  revert i. induction l as [|c l IH] using rev_ind; intros i Hd;
    destruct (denotes_next_back _ _ Hd) as [[He Hn]|(c' & l' & i' & He & Hn & Hd')].
  - econstructor; eassumption.
  - destruct l'; discriminate.
  - destruct l; discriminate.
  - apply app_inj_tail in He as [-> ->]. rewrite rev_app_distr. cbn. econstructor; eauto.
Qed.

Lemma denotes_run sched : forall i l, denotes i l ->
  fst (iter_run i sched) = fst (deque_run l sched) /\
  denotes (snd (iter_run i sched)) (snd (deque_run l sched)).
Proof.
  induction sched as [|b sched IH]; intros i l Hd; cbn [iter_run deque_run].
  - split; [reflexivity|assumption].
  - destruct b.
    + pose proof (denotes_next _ _ Hd) as Hn. destruct l as [|c l'].
      * rewrite Hn. destruct (IH i [] Hd) as [H1 H2].
        destruct (iter_run i sched), (deque_run [] sched). cbn in *. split; [congruence|assumption].
      * destruct Hn as (i' & Hn & Hd'). rewrite Hn. destruct (IH i' l' Hd') as [H1 H2].
        destruct (iter_run i' sched), (deque_run l' sched). cbn in *. split; [congruence|assumption].
    + destruct (denotes_next_back _ _ Hd) as [[-> Hn]|(c & l' & i' & -> & Hn & Hd')].
      * rewrite Hn. cbn [rev]. destruct (IH i [] Hd) as [H1 H2].
        destruct (iter_run i sched), (deque_run [] sched). cbn in *. split; [congruence|assumption].
      * rewrite Hn, rev_app_distr. cbn [rev app]. rewrite rev_involutive.
        destruct (IH i' l' Hd') as [H1 H2].
        destruct (iter_run i' sched), (deque_run l' sched). cbn in *. split; [congruence|assumption].
Qed.

(** Length. *)
Lemma denotes_len i l : denotes i l -> iter_len i = N.of_nat (length l).
Proof.
  revert i. induction l as [|c l IH]; intros i Hd; pose proof (denotes_next _ _ Hd) as Hn; cbn in Hn.
  - unfold next in Hn. unfold iter_len. destruct (is_finished i); [reflexivity|discriminate].
  - destruct Hn as (i' & Hn & Hd'). specialize (IH _ Hd'). cbn [length]. rewrite Nat2N.inj_succ, <- IH.
    unfold next in Hn. unfold iter_len at 1. destruct (is_finished i) eqn:Hf; [discriminate|].
    injection Hn as Hc <-. destruct Hd as [[Hlo Hhi] _].
    destruct Hd' as [[Hlo' Hhi'] _].
    unfold is_finished in Hf.
    unfold iter_len, step_forward, is_finished, forward, BEFORE_SURROGATE, AFTER_SURROGATE, MAX_CHAR in *.
    unfold scalar in *.
    destruct (N.eqb_spec (i_low i) 0x10FFFF); [|destruct (N.eqb_spec (i_low i) 0xD7FF)];
      cbn [i_low i_high] in *;
      repeat match goal with |- context [if ?b then _ else _] => destruct b eqn:? end; lia.
Qed.

(** Constructors. *)
Lemma next_denotes i l : denotes i l -> denotes (snd (next i)) (tl l).
Proof.
  intros Hd. pose proof (denotes_next _ _ Hd) as Hn. destruct l; cbn.
  - now rewrite Hn.
  - destruct Hn as (i' & -> & ?). assumption.
Qed.

Lemma next_back_denotes i l : denotes i l -> denotes (snd (next_back i)) (removelast l).
Proof.
  intros Hd. destruct (denotes_next_back _ _ Hd) as [[-> Hn]|(c & l' & i' & -> & Hn & Hd')]; rewrite Hn; cbn.
  - assumption.
  - now rewrite removelast_last.
Qed.

Lemma enum_tl lo hi l : scalar lo -> enumerates (between lo hi) l ->
  enumerates (fun c => lo < c /\ c <= hi) (tl l).
Proof.
  intros Hs He. destruct (N.ltb_spec hi lo) as [Hlt|Hge].
  - destruct He as [_ Hin]. destruct l as [|c l].
    + split; [constructor|]. intros c; split; [intros []|lia].
    + assert (In c (c :: l)) as Hc by now left. apply Hin in Hc. unfold between in Hc. lia.
  - destruct (enum_head _ _ _ Hs Hge He) as [l' ->]. destruct He as [Hss Hin]. cbn.
    inversion Hss as [|? ? Hss' Hfa]; subst. rewrite Forall_forall in Hfa. split; [assumption|].
    intros c. split.
    + intros Hc. specialize (Hfa _ Hc).
      assert (In c (lo :: l')) as Hc' by now right. apply Hin in Hc'. unfold between in Hc'. intuition.
    + intros (Hc & H1 & H2). destruct (proj2 (Hin c)) as [|]; [unfold between; split; [assumption|lia]|lia|assumption].
Qed.

Lemma enum_removelast (P : N -> Prop) hi l : (forall c, P c -> c <= hi) -> (scalar hi -> l <> [] -> P hi) -> scalar hi ->
  enumerates P l -> enumerates (fun c => P c /\ c < hi) (removelast l).
Proof.
  intros Hhi HP Hs [Hss Hin]. assert (l = [] \/ l <> []) as [->|Hne] by (destruct l; [now left|right; discriminate]).
  - split; [constructor|]. intros c. split; [intros []|]. intros (Hc & Hp & _). now apply (Hin c).
  - assert (P hi) as Hph by (apply HP; assumption).
    assert (exists l', l = l' ++ [hi]) as [l' El'].
    { assert (In hi l) as Hl by (apply Hin; split; assumption).
      destruct (in_split _ _ Hl) as (l1 & l2 & E). exists l1.
      destruct l2 as [|b l2]; [assumption|exfalso]. rewrite E in Hss.
      destruct (SSorted_app_inv _ _ Hss) as (_ & Hss2 & _). inversion Hss2 as [|? ? _ Hf].
      inversion Hf.
      assert (In b l) as Hb by (rewrite E; apply in_or_app; right; right; now left).
      apply Hin in Hb. destruct Hb as [_ Hb]. apply Hhi in Hb. lia. }
    rewrite El', removelast_last. rewrite El' in Hss. destruct (SSorted_app_inv _ _ Hss) as (Hss' & _ & Hlt).
    split; [assumption|]. intros c. split.
    + intros Hc. specialize (Hlt _ _ Hc (or_introl eq_refl)).
      assert (In c l) as Hc' by (rewrite El'; apply in_or_app; now left). apply Hin in Hc'. intuition.
    + intros (Hc & H1 & H2). assert (In c l) as Hc' by (apply Hin; split; assumption).
      rewrite El' in Hc'. apply in_app_or in Hc'. destruct Hc' as [|[|[]]]; [assumption|lia].
Qed.

Lemma open_right_denotes a b l : scalar a -> scalar b ->
  enumerates (fun c => a <= c /\ c < b) l -> denotes (iter_of (open_right a b)) l.
Proof.
  intros Ha Hb He. destruct (denotes_of a b Ha Hb) as [l0 Hd].
  pose proof (next_back_denotes _ _ Hd) as Hd'. unfold open_right, iter_of, range_of, closed.
  cbn [r_low r_high i_low i_high].
  change {| i_low := a; i_high := b |} with (mkIter a b).
  destruct (snd (next_back (mkIter a b))) as [x y] eqn:E. cbn [i_low i_high].
  replace l with (removelast l0); [assumption|].
  eapply enumerates_unique; [|exact He].
  destruct Hd as [_ Hd]. cbn [i_low i_high] in Hd.
  eapply enumerates_ext; [|apply (enum_removelast (between a b) b)]; try assumption.
  - unfold between. intros; lia.
  - unfold between. intros; lia.
  - intros _ Hne. destruct l0 as [|c0 l1]; [congruence|]. destruct Hd as [_ Hin].
    assert (In c0 (c0 :: l1)) as Hc by now left. apply Hin in Hc. unfold between in *. lia.
Qed.

Lemma open_left_denotes a b l : scalar a -> scalar b ->
  enumerates (fun c => a < c /\ c <= b) l -> denotes (iter_of (open_left a b)) l.
Proof.
  intros Ha Hb He. destruct (denotes_of a b Ha Hb) as [l0 Hd].
  pose proof (next_denotes _ _ Hd) as Hd'. unfold open_left, iter_of, range_of, closed.
  cbn [r_low r_high i_low i_high].
  destruct (snd (next (mkIter a b))) as [x y] eqn:E. cbn [i_low i_high].
  replace l with (tl l0); [assumption|].
  eapply enumerates_unique; [|exact He]. destruct Hd as [_ Hd]. now apply enum_tl.
Qed.

Lemma open_denotes a b l : scalar a -> scalar b ->
  enumerates (fun c => a < c /\ c < b) l -> denotes (iter_of (open a b)) l.
Proof.
  intros Ha Hb He. destruct (denotes_of a b Ha Hb) as [l0 Hd].
  pose proof (next_back_denotes _ _ (next_denotes _ _ Hd)) as Hd'. unfold open, iter_of, range_of, closed.
  cbn [r_low r_high i_low i_high].
  destruct (snd (next_back (snd (next (mkIter a b))))) as [x y] eqn:E. cbn [i_low i_high].
  replace l with (removelast (tl l0)); [assumption|].
  eapply enumerates_unique; [|exact He]. destruct Hd as [_ Hd]. cbn [i_low i_high] in Hd.
  pose proof (enum_tl _ _ _ Ha Hd) as Ht.
  eapply enumerates_ext; [|apply (enum_removelast (fun c => a < c /\ c <= b) b)]; try assumption.
  - cbv beta; intros; lia.
  - cbv beta; intros; lia.
  - cbv beta. intros _ Hne. destruct (tl l0) as [|c0 l1]; [congruence|]. destruct Ht as [_ Hin].
    assert (In c0 (c0 :: l1)) as Hc by now left. apply Hin in Hc. lia.
Qed.

Lemma closed_denotes a b l : scalar a -> scalar b ->
  enumerates (fun c => a <= c /\ c <= b) l -> denotes (iter_of (closed a b)) l.
Proof. intros. split; [split|]; assumption. Qed.

(** Parallel iteration. *)
Lemma SSorted_map_seq (f : nat -> N) n m :
  (forall i j, (n <= i < j)%nat -> (j < n + m)%nat -> f i < f j) ->
  StronglySorted N.lt (map f (seq n m)).
Proof.
  revert n. induction m as [|m IH]; intros n Hf; cbn; [constructor|].
  constructor.
  - apply IH. intros i j Hi Hj. apply Hf; lia.
  - apply Forall_forall. intros x Hx. apply in_map_iff in Hx as (j & <- & Hj).
    apply in_seq in Hj. apply Hf; lia.
Qed.

Lemma par_items_enumerates r : scalar (r_low r) -> scalar (r_high r) ->
  enumerates (between (if 0xE000 <=? r_low r then r_low r + 0x800 else r_low r) (r_high r)) (par_items r).
Proof.
  intros Hlo Hhi. unfold par_items, compact_range. split.
  - apply SSorted_map_seq. intros i j Hi Hj.
    unfold par_map, SKIP_LENGTH, AFTER_SURROGATE, BEFORE_SURROGATE in *.
    change (0xE000 - 0xD7FF - 1) with 0x800.
    destruct (N.ltb_spec 0xD7FF (r_low r + N.of_nat i)), (N.ltb_spec 0xD7FF (r_low r + N.of_nat j)); lia.
  - intros c. rewrite in_map_iff. unfold par_map, between, SKIP_LENGTH, AFTER_SURROGATE, BEFORE_SURROGATE, scalar in *.
    change (0xE000 - 0xD7FF - 1) with 0x800.
    remember (if 0xE000 <=? r_high r then r_high r + 1 - 0x800 else r_high r + 1) as top eqn:Et.
    assert ((0xE000 <= r_high r /\ top + 0x7FF = r_high r) \/ (r_high r < 0xD800 /\ top = r_high r + 1)) as Htop.
    { destruct (N.leb_spec 0xE000 (r_high r)); lia. }
    clear Et.
    assert (forall k, In k (seq 0 (N.to_nat (top - r_low r))) <-> r_low r + N.of_nat k < top) as Hseq.
    { intros k. rewrite in_seq. lia. }
    split.
    + intros (k & <- & Hk). apply Hseq in Hk. clear Hseq.
      destruct (N.leb_spec 0xE000 (r_low r)); destruct (N.ltb_spec 0xD7FF (r_low r + N.of_nat k)); lia.
    + intros [Hc Hb].
      destruct (N.leb_spec 0xE000 c) as [Hcc|Hcc].
      * exists (N.to_nat (c - 0x800 - r_low r)). rewrite Hseq, N2Nat.id. clear Hseq.
        assert (r_low r + (c - 0x800 - r_low r) = c - 0x800) as ->.
        { destruct (N.leb_spec 0xE000 (r_low r)); lia. }
        destruct (N.ltb_spec 0xD7FF (c - 0x800)); lia.
      * exists (N.to_nat (c - r_low r)). rewrite Hseq, N2Nat.id. clear Hseq.
        assert (r_low r + (c - r_low r) = c) as ->.
        { destruct (N.leb_spec 0xE000 (r_low r)); lia. }
        destruct (N.ltb_spec 0xD7FF c); destruct (N.leb_spec 0xE000 (r_low r)); lia.
Qed.

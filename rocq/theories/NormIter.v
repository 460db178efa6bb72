(** The [Decompositions] iterator yields the ordered decomposition. *)
From Coq Require Import List NArith ZArith Lia Bool Relations Permutation ZifyBool ZifyN.
From Verif Require Import Base NormSpec NormOrder UcdModel NormModel NormBubble.
Import ListNotations.
Open Scope N_scope.

Notation nonstarters := (Forall (fun c => ccc c <> 0)).

Lemma split_lead w : exists r t, w = r ++ t /\ nonstarters r /\
  match t with [] => True | x :: _ => ccc x = 0 end.
Proof.
  induction w as [|a w (r & t & -> & Hr & Ht)].
  - exists [], []. repeat split. constructor.
  - destruct (N.eq_dec (ccc a) 0) as [E|E].
    + exists [], (a :: r ++ t). repeat split; [constructor|assumption].
    + exists (a :: r), t. repeat split; [now constructor|assumption].
Qed.

Lemma callback_pairs b s c : d_callback (pairs b, s) c =
  if (ccc c =? 0) && negb s then (pairs (order ccc b ++ [c]), true) else (pairs (b ++ [c]), s).
Proof.
  unfold d_callback. destruct ((ccc c =? 0) && negb s).
  - rewrite canonical_sort_pairs, pairs_app. reflexivity.
  - rewrite pairs_app. reflexivity.
Qed.

Lemma callbacks_sorted : forall l b, fold_left d_callback l (pairs b, true) = (pairs (b ++ l), true).
Proof.
  induction l as [|c l IH]; intros b; cbn [fold_left]; [now rewrite app_nil_r|].
  rewrite callback_pairs, andb_false_r, IH, <- app_assoc. reflexivity.
Qed.

Lemma callbacks_plain : forall l b, nonstarters l ->
  fold_left d_callback l (pairs b, false) = (pairs (b ++ l), false).
Proof.
  induction l as [|c l IH]; intros b Hl; cbn [fold_left]; [now rewrite app_nil_r|].
  inversion Hl; subst. rewrite callback_pairs.
  assert (ccc c =? 0 = false) as -> by lia. cbn [andb]. rewrite IH by assumption.
  rewrite <- app_assoc. reflexivity.
Qed.

Lemma callbacks_starter l x t b : nonstarters l -> ccc x = 0 ->
  fold_left d_callback (l ++ x :: t) (pairs b, false) = (pairs (order ccc (b ++ l) ++ x :: t), true).
Proof.
  intros Hl Hx. rewrite fold_left_app, callbacks_plain by assumption. cbn [fold_left].
  rewrite callback_pairs, Hx. cbn [N.eqb negb andb]. rewrite callbacks_sorted, <- app_assoc. reflexivity.
Qed.

Notation flat k := (flat_map (decompose k)).

(** The buffer is ready for popping: its leading run is in order and complete. *)
Definition ready (b : list N) (iter : str) : Prop :=
  exists r t, b = r ++ t /\ nonstarters r /\ ordered ccc r /\
    match t with [] => iter = [] | x :: _ => ccc x = 0 end.

Lemma pull_spec k : forall iter b, exists iter' b' s,
  d_pull k iter (pairs b) false = (iter', pairs b', s) /\
  order ccc (b ++ flat k iter) = order ccc (b' ++ flat k iter') /\
  if s then ready b' iter' else iter' = [].
Proof.
  induction iter as [|ch rest IH]; intros b; cbn [d_pull flat_map].
  - exists [], b, false. repeat split.
  - destruct (split_lead (decompose k ch)) as (l & t & E & Hl & Ht). rewrite E.
    destruct t as [|x t].
    + rewrite app_nil_r, callbacks_plain by assumption.
      destruct (IH (b ++ l)) as (iter' & b' & s & -> & Ho & Hs).
      exists iter', b', s. split; [reflexivity|]. split; [|assumption].
      rewrite app_assoc. exact Ho.
    + rewrite callbacks_starter by assumption.
      exists rest, (order ccc (b ++ l) ++ x :: t), true. split; [reflexivity|]. split.
      * rewrite <- !app_assoc. rewrite app_assoc. cbn [app].
        rewrite !order_starter_app by assumption. now rewrite order_idem.
      * destruct (split_lead (order ccc (b ++ l))) as (r & u & E2 & Hr & Hu).
        assert (ordered ccc r) as Hor.
        { pose proof (order_ordered ccc (b ++ l)) as Ho. rewrite E2 in Ho. now apply ordered_app_inv in Ho. }
        exists r, (u ++ x :: t). rewrite E2, <- app_assoc. split; [reflexivity|].
        split; [assumption|]. split; [assumption|]. destruct u; [assumption|exact Hu].
Qed.

Definition pending (st : Decompositions) (b : list N) : list N :=
  order ccc (b ++ flat (d_kind st) (d_iter st)).

(** [st] is a reachable state that will yield [out]. *)
Definition yields (st : Decompositions) (out : list N) : Prop :=
  exists b, d_buffer st = pairs b /\ (d_sorted st = true -> ready b (d_iter st)) /\ out = pending st b.

Lemma ready_pop c b iter : ready (c :: b) iter -> ccc c <> 0 -> ready b iter.
Proof.
  intros (r & t & E & Hr & Ho & Ht) Hc. destruct r as [|a r].
  - cbn in E. subst t. contradiction.
  - cbn in E. injection E as <- ->. inversion Hr; subst. cbn [ordered] in Ho. destruct Ho as [_ Ho].
    now exists r, t.
Qed.

Lemma ready_order c b iter k : ready (c :: b) iter -> ccc c <> 0 ->
  order ccc (c :: b ++ flat k iter) = c :: order ccc (b ++ flat k iter).
Proof.
  intros (r & t & E & Hr & Ho & Ht) Hc. destruct r as [|a r].
  - cbn in E. subst t. contradiction.
  - cbn in E. injection E as <- ->. cbn [ordered] in Ho. destruct Ho as [H1 Ho].
    cbn [order fold_right]. fold (order ccc ((r ++ t) ++ flat k iter)).
    assert (match order ccc ((r ++ t) ++ flat k iter) with [] => True | y :: _ => reord ccc c y = false end) as H.
    { rewrite <- app_assoc. destruct t as [|x t].
      - rewrite Ht. cbn [app flat_map]. rewrite app_nil_r, order_fixed by assumption. exact H1.
      - cbn [app]. rewrite order_starter_app by assumption. rewrite order_fixed by assumption.
        destruct r; cbn [app]; [unfold reord; lia|exact H1]. }
    destruct (order ccc ((r ++ t) ++ flat k iter)); [reflexivity|]. cbn [ins]. now rewrite H.
Qed.

(** Popping from a ready or starter-headed buffer. *)
Lemma pop_yields k iter c b s :
  (ccc c = 0 \/ (s = true /\ ready (c :: b) iter)) ->
  pending (mkD k iter (pairs (c :: b)) s) (c :: b) = c :: pending (mkD k iter (pairs b) (if ccc c =? 0 then false else s)) b /\
  yields (mkD k iter (pairs b) (if ccc c =? 0 then false else s))
         (pending (mkD k iter (pairs b) (if ccc c =? 0 then false else s)) b).
Proof.
  intros H. unfold pending. cbn [d_kind d_iter]. destruct (N.eqb_spec (ccc c) 0) as [E|E].
  - split; [cbn [app]; now apply order_starter|]. exists b. cbn. repeat split. discriminate.
  - destruct H as [H|[-> H]]; [contradiction|]. split; [now apply ready_order|].
    exists b. cbn. split; [reflexivity|]. split; [|reflexivity]. intros _.
    now apply (ready_pop c b iter).
Qed.

Lemma order_nil l : order ccc l = [] -> l = [].
Proof.
  intros H. pose proof (order_perm ccc l) as P. rewrite H in P. apply Permutation_sym in P.
  now apply Permutation_nil in P.
Qed.

Lemma next_spec st out : yields st out ->
  match d_next st with
  | (None, _) => out = []
  | (Some c, st') => exists out', out = c :: out' /\ yields st' out'
  end.
Proof.
  destruct st as [k iter buffer s]. intros (b & Hb & Hs & ->). cbn [d_buffer d_sorted d_iter] in *. subst buffer.
  unfold d_next.
  assert (pending (mkD k iter (pairs b) s) b = [] ->
     b = []) as Hnil.
  { intros H. apply order_nil in H. now apply app_eq_nil in H. }
  assert (let out := pending (mkD k iter (pairs b) s) b in
    match
      (let '(iter0, buffer, sorted) := d_pull k iter (pairs b) false in
       let '(buffer0, sorted0) := if sorted then (buffer, sorted) else (canonical_sort buffer, true) in
       match buffer0 with
       | [] => (None, mkD k iter0 [] sorted0)
       | (c, k0) :: rest => if k0 =? 0 then (Some c, mkD k iter0 rest false) else (Some c, mkD k iter0 rest sorted0)
       end)
    with (None, _) => out = [] | (Some c, st') => exists out', out = c :: out' /\ yields st' out' end) as Hread.
  { cbv zeta. destruct (pull_spec k iter b) as (iter' & b' & s' & -> & Ho & Hr).
    unfold pending. cbn [d_kind d_iter]. rewrite Ho.
    assert (exists b2, (if s' then (pairs b', s') else (canonical_sort (pairs b'), true)) = (pairs b2, true) /\
       ready b2 iter' /\ order ccc (b' ++ flat k iter') = order ccc (b2 ++ flat k iter')) as (b2 & -> & Hr2 & Ho2).
    { destruct s'.
      - now exists b'.
      - subst iter'. exists (order ccc b'). rewrite canonical_sort_pairs. split; [reflexivity|]. split.
        + destruct (split_lead (order ccc b')) as (r & u & E2 & Hnr & Hu). exists r, u.
          split; [assumption|]. split; [assumption|]. split; [|destruct u; [reflexivity|assumption]].
          pose proof (order_ordered ccc b') as Hx. rewrite E2 in Hx. now apply ordered_app_inv in Hx.
        + cbn [flat_map]. rewrite !app_nil_r. now rewrite order_idem. }
    rewrite Ho2. destruct b2 as [|c b2].
    - cbn [pairs map]. destruct Hr2 as (r & t & E & _ & _ & Ht). symmetry in E. apply app_eq_nil in E as [-> ->].
      subst iter'. reflexivity.
    - cbn [pairs map]. fold (pairs b2).
      destruct (pop_yields k iter' c b2 true (or_intror (conj eq_refl Hr2))) as [E1 Hy].
      unfold pending in E1. cbn [d_kind d_iter] in E1. cbn [app] in *. rewrite E1.
      destruct (ccc c =? 0); (eexists; split; [reflexivity|exact Hy]). }
  destruct b as [|c b]; [exact Hread|]. cbn [pairs map] in *. fold (pairs b) in *.
  destruct (N.eqb_spec (ccc c) 0) as [E|E].
  - destruct (pop_yields k iter c b s (or_introl E)) as [E1 Hy]. rewrite E in Hy, E1. cbn [N.eqb] in Hy, E1.
    eexists. split; [exact E1|exact Hy].
  - destruct s; [|exact Hread].
    destruct (pop_yields k iter c b true (or_intror (conj eq_refl (Hs eq_refl)))) as [E1 Hy].
    assert (ccc c =? 0 = false) as Ec by lia. rewrite Ec in Hy, E1.
    eexists. split; [exact E1|exact Hy].
Qed.

Lemma collect_spec : forall fuel st out, yields st out -> (length out < fuel)%nat -> d_collect fuel st = Some out.
Proof.
  induction fuel as [|fuel IH]; intros st out Hy Hlen; [lia|]. cbn [d_collect].
  pose proof (next_spec st out Hy) as Hn. destruct (d_next st) as [[c|] st'].
  - destruct Hn as (out' & -> & Hy'). cbn [length] in Hlen.
    rewrite (IH st' out' Hy') by lia. reflexivity.
  - now subst out.
Qed.

Lemma yields_new k s : yields (new_decompositions k s) (order ccc (flat k s)).
Proof. exists []. cbn. repeat split. discriminate. Qed.

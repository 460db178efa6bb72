(** The bubble sort of [canonical_sort] computes the canonical order. *)
From Coq Require Import List NArith ZArith Lia Bool Relations Permutation ZifyBool ZifyN.
From Verif Require Import Base NormSpec NormOrder UcdModel NormModel.
Import ListNotations.
Open Scope N_scope.

Global Opaque ccc decompose compose.

Section Bubble.
  Variable cls : N -> N.
  Notation reord := (reord cls).
  Notation order := (order cls).
  Notation exchanges := (clos_refl_trans _ (exchange cls)).

  Fixpoint bpass (m : nat) (l : list N) : list N * bool :=
    match m, l with
    | S m', a :: b :: r =>
        if reord a b
        then let '(r', _) := bpass m' (a :: r) in (b :: r', true)
        else let '(r', s) := bpass m' (b :: r) in (a :: r', s)
    | _, _ => (l, false)
    end.
  Fixpoint bpasses (n : nat) (l : list N) : list N :=
    match n with
    | O => l
    | S n' => let '(l', s) := bpass n' l in if s then bpasses n' l' else l'
    end.

  (** [b] does not travel past the end of [l] when some element stops it. *)
  Lemma ins_stops b l z : (exists y, In y (l ++ [z]) /\ reord b y = false) ->
    ins cls b (l ++ [z]) = ins cls b l ++ [z].
  Proof.
    induction l as [|x l IH]; intros (y & Hy & Hr); cbn [app ins].
    - cbn in Hy. destruct Hy as [<-|[]]. rewrite Hr. reflexivity.
    - destruct (reord b x) eqn:E; [|reflexivity].
      rewrite IH; [reflexivity|]. exists y. split; [|assumption].
      cbn in Hy. destruct Hy as [<-|Hy]; [congruence|assumption].
  Qed.

  Lemma order_perm l : Permutation l (order l).
  Proof. eapply exchanges_perm, order_exchanges. Qed.

  Lemma bpass_spec q : forall p a, exists p' z s,
    bpass (length p) (a :: p ++ q) = (p' ++ z :: q, s) /\ length p' = length p /\
    exchanges (a :: p) (p' ++ [z]) /\ order (p' ++ [z]) = order p' ++ [z] /\
    (s = false -> p' ++ [z] = a :: p /\ ordered cls (a :: p)).
  Proof.
    induction p as [|x r IH]; intros a.
    - exists [], a, false. cbn. repeat split; try apply rt_refl.
    - cbn [length app bpass]. destruct (reord a x) eqn:E.
      + destruct (IH a) as (p' & z & s & -> & Hlen & Hex & Hord & _).
        exists (x :: p'), z, true. cbn [app length].
        assert (order (x :: p' ++ [z]) = order (x :: p') ++ [z]) as Ho.
        { cbn [NormOrder.order fold_right]. fold (order (p' ++ [z])). fold (order p'). rewrite Hord.
          apply ins_stops. exists a. split.
          - rewrite <- Hord. eapply Permutation_in; [apply order_perm|].
            eapply Permutation_in; [eapply exchanges_perm; exact Hex|now left].
          - unfold NormOrder.reord in *. lia. }
        split; [reflexivity|]. split; [lia|]. split; [|split; [exact Ho|discriminate]].
        eapply rt_trans; [apply rt_step, (exchange_intro cls [] a x r); now apply reord_spec|].
        now apply exchanges_cons.
      + destruct (IH x) as (p' & z & s & -> & Hlen & Hex & Hord & Hs).
        exists (a :: p'), z, s. cbn [app length].
        assert (order (a :: p' ++ [z]) = order (a :: p') ++ [z]) as Ho.
        { cbn [NormOrder.order fold_right]. fold (order (p' ++ [z])). fold (order p'). rewrite Hord.
          apply ins_stops. exists x. split; [|assumption].
          rewrite <- Hord. eapply Permutation_in; [apply order_perm|].
          eapply Permutation_in; [eapply exchanges_perm; exact Hex|now left]. }
        split; [reflexivity|]. split; [lia|]. split; [|split; [exact Ho|]].
        * now apply exchanges_cons.
        * intros ->. destruct (Hs eq_refl) as [Heq Hor]. split; [now rewrite Heq|].
          cbn [ordered]. split; [assumption|exact Hor].
  Qed.

  Lemma bpasses_inv : forall n p q, length p = n -> order (p ++ q) = order p ++ q ->
    bpasses n (p ++ q) = order (p ++ q).
  Proof.
    induction n as [|n IH]; intros p q Hlen Hinv.
    - destruct p; [|discriminate]. cbn. symmetry. exact Hinv.
    - destruct p as [|a p]; [discriminate|]. injection Hlen as Hlen. cbn [bpasses app].
      rewrite <- Hlen. destruct (bpass_spec q p a) as (p' & z & s & E & Hl & Hex & Hord & Hs).
      rewrite E.
      assert (order ((a :: p) ++ q) = order (p' ++ z :: q)) as Heq.
      { rewrite (exchanges_order cls _ _ Hex). now rewrite <- app_assoc. }
      change (a :: p ++ q) with ((a :: p) ++ q). rewrite Heq.
      assert (order (p' ++ z :: q) = order p' ++ z :: q) as Hinv'.
      { rewrite <- Heq, Hinv.
        pose proof (exchanges_order cls _ _ Hex []) as E2. rewrite !app_nil_r in E2.
        rewrite E2, Hord, <- app_assoc. reflexivity. }
      destruct s.
      + rewrite Hlen in *. now apply IH.
      + destruct (Hs eq_refl) as [Hsame Hor]. rewrite <- Heq, Hinv.
        rewrite (order_fixed cls (a :: p) Hor). rewrite <- Hsame, <- app_assoc. reflexivity.
  Qed.

  Lemma bpasses_order l : bpasses (length l) l = order l.
  Proof.
    pose proof (bpasses_inv (length l) l [] eq_refl) as H. rewrite !app_nil_r in H. now apply H.
  Qed.
End Bubble.

Definition pairs (l : list N) : list (N * N) := map (fun c => (c, ccc c)) l.

Lemma pairs_app l m : pairs (l ++ m) = pairs l ++ pairs m.
Proof. apply map_app. Qed.

Lemma must_swap_reord a b : must_swap (a, ccc a) (b, ccc b) = reord ccc a b.
Proof. unfold must_swap, reord. cbn [snd]. lia. Qed.

Lemma sort_pass_pairs : forall m l,
  sort_pass m (pairs l) = (pairs (fst (bpass ccc m l)), snd (bpass ccc m l)).
Proof.
  induction m as [|m IH]; intros [|a [|b r]]; try reflexivity.
  cbn [pairs map sort_pass bpass]. rewrite must_swap_reord.
  change ((a, ccc a) :: map (fun c => (c, ccc c)) r) with (pairs (a :: r)).
  change ((b, ccc b) :: map (fun c => (c, ccc c)) r) with (pairs (b :: r)).
  rewrite !IH. destruct (reord ccc a b); destruct (bpass ccc m _); reflexivity.
Qed.

Lemma sort_passes_pairs : forall n l, sort_passes n (pairs l) = pairs (bpasses ccc n l).
Proof.
  induction n as [|n IH]; intros l; [reflexivity|]. cbn [sort_passes bpasses].
  rewrite sort_pass_pairs. destruct (bpass ccc n l) as [l' s]. cbn [fst snd].
  destruct s; [apply IH|reflexivity].
Qed.

Lemma canonical_sort_pairs l : canonical_sort (pairs l) = pairs (order ccc l).
Proof.
  unfold canonical_sort. rewrite sort_passes_pairs.
  replace (length (pairs l)) with (length l) by (unfold pairs; now rewrite map_length).
  now rewrite bpasses_order.
Qed.

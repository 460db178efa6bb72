(** The normalization iterators call by call. *)
From Coq Require Import List NArith ZArith Lia Bool Permutation ZifyBool ZifyN.
From Verif Require Import Base NormSpec NormOrder UcdModel NormModel NormTables NormBubble NormIter NormRecomp NormAlgebra
  NormLemmas NormStreamModel.
Import ListNotations.
Open Scope N_scope.

(** the answers a well-behaved iterator over [l] gives to [n] calls *)
Lemma firsts_cons (c : N) l n : map (nth_error (c :: l)) (seq 0 (S n)) = Some c :: map (nth_error l) (seq 0 n).
Proof. cbn [seq map nth_error]. f_equal. rewrite <- seq_shift, map_map. reflexivity. Qed.
Lemma firsts_nil n : map (nth_error (@nil N)) (seq 0 n) = repeat None n.
Proof.
  assert (forall k, map (nth_error (@nil N)) (seq k n) = repeat None n) as H; [|apply H].
  induction n as [|n IH]; intros k; [reflexivity|]. cbn [seq map repeat]. rewrite IH. now destruct k.
Qed.

Lemma d_calls_spec : forall n st out, yields st out -> exists st',
  d_calls n st = (map (nth_error out) (seq 0 n), st') /\ yields st' (skipn n out).
Proof.
  induction n as [|n IH]; intros st out Hy.
  - exists st. split; [reflexivity|exact Hy].
  - cbn [d_calls]. pose proof (next_spec st out Hy) as Hn. destruct (d_next st) as [[c|] st1] eqn:E.
    + destruct Hn as (out' & -> & Hy'). destruct (IH st1 out' Hy') as (st' & E' & Hy2). exists st'.
      rewrite E'. split; [|exact Hy2]. f_equal. symmetry. apply firsts_cons.
    + subst out. pose proof (yields_end _ _ Hy E) as Hy'. destruct (IH st1 [] Hy') as (st' & E' & Hy2).
      exists st'. rewrite E'. split; [|destruct n; exact Hy2].
      f_equal. rewrite !firsts_nil. reflexivity.
Qed.

Lemma yields_hint st out : yields st out -> (length (d_iter st) <= length out)%nat.
Proof.
  intros (b & _ & _ & ->). unfold pending.
  rewrite <- (Permutation_length (order_perm ccc (b ++ flat (d_kind st) (d_iter st)))).
  rewrite app_length. assert (forall k s, (length s <= length (flat k s))%nat) as H.
  { intros k s. induction s as [|c s IH]; [auto|]. cbn [flat_map length]. rewrite app_length.
    pose proof (decompose_length k c). lia. }
  specialize (H (d_kind st) (d_iter st)). lia.
Qed.

Lemma chars_hint_honest t : (chars_hint t <= length t)%nat.
Proof.
  unfold chars_hint. assert (N.to_nat (str_bytes t) <= 4 * length t)%nat as H.
  { induction t as [|c t IH]; [auto|]. cbn [str_bytes fold_right length]. fold (str_bytes t).
    pose proof (utf8_len_pos c). lia. }
  apply (Nat.le_trans _ (Nat.div (4 * length t + 3) 4)); [apply Nat.div_le_mono; lia|].
  replace (4 * length t + 3)%nat with (3 + length t * 4)%nat by lia. rewrite Nat.div_add by lia. cbn. lia.
Qed.

Lemma d_stream (k : bool) s out hint n : (forall t, (hint t <= length t)%nat) ->
  (if k then nfkd s else nfd s) = Some out ->
  exists st, d_calls n (new_decompositions k s) = (map (nth_error out) (seq 0 n), st) /\
    (fst (d_size_hint hint st) <= length (skipn n out))%nat /\ snd (d_size_hint hint st) = None /\
    (forall fuel, (length out < fuel)%nat -> d_display fuel st = Some (skipn n out)).
Proof.
  intros Hh H. assert (out = D k s) as -> by (destruct k; rewrite ?nfd_eq, ?nfkd_eq in H; congruence).
  destruct (d_calls_spec n _ _ (yields_new k s)) as (st & E & Hy). fold (D k s) in *. exists st. split; [exact E|].
  split; [|split; [reflexivity|]].
  - cbn. pose proof (yields_hint _ _ Hy). specialize (Hh (d_iter st)). lia.
  - intros fuel Hf. apply collect_spec; [exact Hy|]. rewrite skipn_length. lia.
Qed.

(** ** Recompositions *)
Definition rdone (st : Recompositions) : Prop := r_state st = Finished /\ r_buffer st = [] /\ r_composee st = None.

Lemma rnext_done : forall fuel st st', r_next fuel st = Some (None, st') -> rdone st'.
Proof.
  induction fuel as [|fuel IH]; intros [it state buf comp last] st' H; [discriminate|]. cbn [r_next] in H.
  destruct state.
  - destruct (d_next it) as [[ch|] it'].
    + destruct comp as [k|].
      * destruct last as [lc|].
        -- destruct (ccc ch <=? lc).
           ++ destruct (ccc ch =? 0); [discriminate|]. exact (IH _ _ H).
           ++ destruct (compose k ch); exact (IH _ _ H).
        -- destruct (compose k ch); [exact (IH _ _ H)|]. destruct (ccc ch =? 0); [discriminate|]. exact (IH _ _ H).
      * destruct (negb (ccc ch =? 0)); [discriminate|]. exact (IH _ _ H).
    + destruct comp; [discriminate|]. exact (IH _ _ H).
  - destruct buf; [exact (IH _ _ H)|discriminate].
  - destruct buf; [|discriminate]. injection H as E <-. subst comp. unfold rdone. auto.
Qed.
Lemma rdone_next fuel st : rdone st -> r_next (S fuel) st = Some (None, st).
Proof. destruct st as [it state buf comp last]. intros (H1 & H2 & H3). cbn in *. subst. reflexivity. Qed.
Lemma rdone_calls fuel st : rdone st -> forall n, r_calls (S fuel) n st = Some (repeat None n, st).
Proof.
  intros H. induction n as [|n IH]; [reflexivity|]. cbn [r_calls]. rewrite (rdone_next fuel st H), IH. reflexivity.
Qed.

Lemma r_calls_spec : forall n st l fuel, rinv st l -> (mass st l + 3 <= fuel)%nat -> exists st',
  r_calls fuel n st = Some (map (nth_error (rresult st l)) (seq 0 n), st') /\
  (rdone st' /\ skipn n (rresult st l) = [] \/
   exists l', rinv st' l' /\ rresult st' l' = skipn n (rresult st l) /\ (mass st' l' <= mass st l)%nat).
Proof.
  induction n as [|n IH]; intros st l fuel Hi Hf.
  - exists st. split; [reflexivity|]. right. exists l. auto.
  - cbn [r_calls]. destruct (rnext_spec fuel st l Hi) as (o & st1 & E & Ho); [unfold mass in Hf; lia|]. rewrite E.
    destruct o as [c|].
    + destruct Ho as (l' & Er & Hi' & Hm). destruct (IH st1 l' fuel Hi') as (st' & E' & H'); [lia|].
      exists st'. rewrite E', Er. cbn [option_map fst snd]. split.
      * f_equal. f_equal. symmetry. apply firsts_cons.
      * cbn [skipn]. destruct H' as [H'|(l2 & A & B & G)]; [left; exact H'|]. right. exists l2. split; [exact A|]. split; [exact B|lia].
    + destruct fuel as [|fuel]; [lia|]. pose proof (rnext_done _ _ _ E) as Hd.
      rewrite (rdone_calls fuel st1 Hd n), Ho. exists st1. cbn [option_map fst snd]. split.
      * rewrite firsts_nil. reflexivity.
      * left. split; [exact Hd|reflexivity].
Qed.

Lemma r_stream (k : bool) s out n fuel : (n_fuel s <= fuel)%nat -> (if k then nfkc s else nfc s) = Some out ->
  exists st, r_calls fuel n (new_recompositions k s) = Some (map (nth_error out) (seq 0 n), st) /\
    r_display fuel st = Some (skipn n out).
Proof.
  intros Hf H. assert (out = C k s) as -> by (destruct k; rewrite ?nfc_eq, ?nfkc_eq in H; congruence).
  assert (rinv (new_recompositions k s) (D k s)) as Hi by (split; [apply yields_new|cbn; auto]).
  assert (mass (new_recompositions k s) (D k s) + 3 <= fuel)%nat as Hm.
  { unfold mass. cbn [new_recompositions r_buffer r_composee olist length]. rewrite D_length.
    pose proof (flat_length k s). unfold n_fuel in Hf. lia. }
  destruct (r_calls_spec n _ _ fuel Hi Hm) as (st & E & Hr). exists st.
  change (rresult (new_recompositions k s) (D k s)) with (C k s) in *. split; [exact E|]. unfold r_display.
  destruct Hr as [[Hd ->]|(l' & Hi' & <- & Hl)].
  - destruct fuel as [|fuel]; [lia|]. cbn [r_collect]. now rewrite (rdone_next fuel st Hd).
  - apply rcollect_spec; [exact Hi'|lia].
Qed.

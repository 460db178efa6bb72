(** How long Punycode forms are. *)
From Coq Require Import List NArith ZArith Lia Bool ZifyBool ZifyN ZifyNat.
From Verif Require Import Base PunyModel PunySpec PunyProofs PunyDecode PunyEncode PunyLemmas.
Import ListNotations.
Open Scope N_scope.

(** ** Decoding *)
Lemma obind_some {A B} (x : outcome A) (f : A -> outcome B) b : obind x f = Ret b -> exists a, x = Ret a /\ f a = Ret b.
Proof. destruct x as [a|]; cbn [obind]; intros H; [exists a; auto|discriminate]. Qed.
Lemma delta_consumes : forall iter byte bias i w k i' rest,
  decode_delta byte iter bias i w k = Ret (Some (i', rest)) -> (length rest <= length iter)%nat.
Proof.
  induction iter as [|b iter IH]; intros byte bias i w k i' rest H; cbn [decode_delta] in H;
    (destruct (decode_digit byte) as [digit|]; [|discriminate]);
    (destruct (w =? 0); [discriminate|]); (destruct (_ <? digit); [discriminate|]);
    apply obind_some in H as (x1 & _ & H); apply obind_some in H as (x2 & _ & H); apply obind_some in H as (t & _ & H);
    (destruct (digit <? t); [injection H as <- <-; lia|]);
    apply obind_some in H as (r & _ & H); (destruct (r =? 0); [discriminate|]); (destruct (_ <? w); [discriminate|]);
    apply obind_some in H as (x3 & _ & H); apply obind_some in H as (x4 & _ & H).
  - discriminate.
  - apply IH in H. cbn [length]. lia.
Qed.
Lemma vec_insert_length l i c r : vec_insert l i c = Ret r -> length r = S (length l).
Proof.
  unfold vec_insert. destruct (_ <=? _); [|discriminate]. intros [= <-]. rewrite app_length. cbn [length].
  rewrite <- plus_n_Sm, <- app_length, firstn_skipn. reflexivity.
Qed.
Lemma loop_length : forall fuel iter out cp bias i r, decode_loop fuel iter out cp bias i = Ret (Some r) ->
  (length r <= length out + length iter)%nat.
Proof.
  induction fuel as [|fuel IH]; intros iter out cp bias i r H; cbn [decode_loop] in H; [discriminate|].
  destruct iter as [|byte iter]; [injection H as <-; lia|].
  apply obind_some in H as (o & Ho & H). destruct o as [[i' rest]|]; [|discriminate]. apply delta_consumes in Ho.
  apply obind_some in H as (x1 & _ & H); apply obind_some in H as (x2 & _ & H); apply obind_some in H as (x3 & _ & H).
  destruct (_ <? _); [discriminate|]. apply obind_some in H as (cp' & _ & H). destruct (scalarb cp'); [|discriminate].
  apply obind_some in H as (out' & Hv & H). apply vec_insert_length in Hv. apply obind_some in H as (x4 & _ & H).
  apply IH in H. cbn [length]. lia.
Qed.
Lemma rsplit_length : forall s a b, rsplit s = Some (a, b) -> (length s = length a + S (length b))%nat.
Proof.
  induction s as [|c s IH]; intros a b H; cbn [rsplit] in H; [discriminate|].
  destruct (rsplit s) as [[x y]|].
  - injection H as <- <-. cbn [length]. rewrite (IH x y eq_refl). lia.
  - destruct (c =? DELIMITER); [|discriminate]. injection H as <- <-. reflexivity.
Qed.
Lemma rsplit_some : forall b q, b <> [] -> exists x y, rsplit (b ++ 0x2D :: q) = Some (x, y) /\ x <> [].
Proof.
  assert (forall b q, exists x y, rsplit (b ++ 0x2D :: q) = Some (x, y)) as K.
  { induction b as [|c b IH]; intros q; cbn [app rsplit].
    - destruct (rsplit q) as [[x y]|]; [eexists; eexists; reflexivity|]. change (0x2D =? DELIMITER) with true. eexists; eexists; reflexivity.
    - destruct (IH q) as (x & y & ->). eexists; eexists; reflexivity. }
  intros [|c b] q H; [now destruct H|]. cbn [app rsplit]. destruct (K b q) as (x & y & ->). exists (c :: x), y. split; [reflexivity|discriminate].
Qed.
Lemma decode_length p s : decode p = Ret (Some s) -> (length s <= length p)%nat.
Proof.
  unfold decode. destruct (rsplit p) as [[a b]|] eqn:E; [apply rsplit_length in E; destruct a as [|c a]|]; intros H; apply loop_length in H;
    cbn [length] in *; lia.
Qed.
Lemma decode_length_delimiter b q s : b <> [] -> decode (b ++ 0x2D :: q) = Ret (Some s) -> (length s < length (b ++ 0x2D%N :: q))%nat.
Proof.
  intros Hb. destruct (rsplit_some b q Hb) as (x & y & E & Hx). unfold decode. rewrite E. apply rsplit_length in E.
  destruct x as [|c x]; [now destruct Hx|]. intros H. apply loop_length in H. lia.
Qed.

(** ** Encoding *)
(** A lower bound for what [n] more digits code: [fst] if the threshold is 26, [snd] in any case. *)
Fixpoint least (n : nat) : N * N :=
  match n with
  | O => (0, 0)
  | S n => let '(a, o) := least n in (26 + 10 * a, if a =? 0 then 1 else N.min (26 + 10 * a) (1 + 35 * o))
  end.
Lemma least_ok bias j ds v : varint bias j ds v -> forall n, length ds = S n ->
  snd (least n) <= v /\ (thr bias j = 26 -> fst (least n) <= v).
Proof.
  intros H. induction H as [j d Hd|j d ds v H1 H2 H3 IH]; intros n Hn; cbn [length] in Hn.
  - injection Hn as <-. cbn [least fst snd]. lia.
  - injection Hn as Hn. destruct n as [|n].
    { destruct ds; [inversion H3|discriminate]. }
    specialize (IH n Hn). cbn [least]. destruct (least n) as [a o]. cbn [fst snd] in *. destruct IH as [I1 I2].
    assert (1 < thr bias j -> thr bias (j + 1) = 26) as N1 by (unfold thr; lia).
    assert (thr bias j = 26 -> thr bias (j + 1) = 26) as N2 by (unfold thr; lia).
    pose proof (thr_bounds bias j) as B. generalize dependent (thr bias j). intros t H1 N1 N2 B.
    assert (1 < t -> 26 + 10 * a <= 26 + 10 * v) as G by (intros T; specialize (I2 (N1 T)); lia).
    split.
    + destruct (a =? 0) eqn:Ea; [transitivity d; [lia|apply N.le_add_r]|]. destruct (N.eq_dec t 1) as [->|T].
      * assert (1 + 35 * o <= d + v * (36 - 1)) by lia. lia.
      * assert (1 < t) as T' by lia. specialize (I2 (N1 T')).
        assert (26 + 10 * a <= d + v * (36 - t)); [|lia].
        assert (exists u, t + u = 26) as (u & Eu) by (exists (26 - t); lia). replace (36 - t) with (10 + u) by lia.
        assert (1 <= v) by lia. assert (u <= v * u) by nia. lia.
    + intros ->. specialize (I2 (N2 eq_refl)). lia.
Qed.
Lemma varint_long bias j ds v : varint bias j ds v -> (11 <= length ds)%nat -> U32_MAX < v.
Proof.
  intros H. induction H as [j d Hd|j d ds v H1 H2 H3 IH]; cbn [length]; intros L; [lia|].
  destruct (Nat.eq_dec (length ds) 10) as [E|E].
  - pose proof (least_ok bias j (d :: ds) _ (varint_more bias j d ds v H1 H2 H3) 10%nat ltac:(cbn [length]; lia)) as [K _].
    assert (U32_MAX < snd (least 10)) as M by (vm_compute; reflexivity). lia.
  - specialize (IH ltac:(lia)). pose proof (thr_bounds bias j) as B. assert (v <= v * (36 - thr bias j)) by nia. lia.
Qed.
Lemma varint_nonempty bias j ds v : varint bias j ds v -> (1 <= length ds)%nat.
Proof. intros H. destruct H; cbn [length]; lia. Qed.
Lemma expands_digits first bias n i out ds tr res : expands first bias n i out ds tr res -> Forall (fun q => snd q <= U32_MAX) tr ->
  (length res - length out <= length ds <= 10 * (length res - length out) /\ length out <= length res)%nat.
Proof.
  intros H. induction H as [first bias n i out|first bias n i out ds delta bias' rest tr res Hv len1 n' i' Hs Ha He IH]; intros F.
  - cbn [length]. lia.
  - inversion F as [|? ? F1 F2]; subst. specialize (IH F2). cbn [snd] in F1.
    assert (length (insert_at i' n' out) = S (length out)) as L by (pose proof (insert_len i' n' out) as Q; unfold PunyProofs.len in Q; lia).
    rewrite L in IH. rewrite app_length. pose proof (varint_nonempty _ _ _ _ Hv).
    assert (length ds <= 10)%nat.
    { destruct (le_lt_dec 11 (length ds)) as [G|G]; [|lia]. pose proof (varint_long _ _ _ _ Hv G). lia. }
    lia.
Qed.

Definition non_ascii (c : N) : bool := negb (is_ascii c).
Lemma ascii_split s : (length s = length (filter is_ascii s) + length (filter non_ascii s))%nat.
Proof. induction s as [|c s IH]; [reflexivity|]. cbn [filter]. unfold non_ascii at 1. destruct (is_ascii c); cbn [negb length]; lia. Qed.
Lemma encode_length checked s p : Forall scalar s -> PunyProofs.len s <= U32_MAX -> encode checked s = Ret (Some p) ->
  let basic := (length (filter is_ascii s) + (if existsb is_ascii s then 1 else 0))%nat in
  let others := length (filter non_ascii s) in
  (basic + others <= length p <= basic + 10 * others)%nat.
Proof.
  intros Hs Hl E. pose proof (encode_spec checked s Hs Hl) as H. rewrite E in H.
  destruct H as (tr & (b & ds & cs & Hb & Hex & HF & ->) & Hsm). cbv zeta.
  pose proof (punycode_basic _ _ _ _ Hb Hex) as Eb. pose proof (expands_digits _ _ _ _ _ _ _ _ Hex Hsm) as D.
  pose proof (ascii_split s) as A. rewrite (filter_ext is_ascii (below 128) ascii_below s), <- Eb in *.
  assert (existsb is_ascii s = match b with [] => false | _ => true end) as ->.
  { rewrite Eb. clear. induction s as [|c s IH]; [reflexivity|]. cbn [existsb filter].
    rewrite ascii_below. destruct (below 128 c); [reflexivity|exact IH]. }
  assert (length cs = length ds) as L by (clear - HF; induction HF; cbn [length]; lia).
  destruct b as [|c b]; rewrite ?app_length; cbn [length] in *; lia.
Qed.
Lemma ten_digits : exists s p, Forall scalar s /\ existsb is_ascii s = false /\ encode true s = Ret (Some p) /\ (length p = length s + 9)%nat.
Proof.
  set (s := repeat 0x80 (N.to_nat 2700) ++ [0x10FFFF]).
  assert (match encode true s with Ret (Some p) => Nat.eqb (length p) (length s + 9) | _ => false end = true) as H by (vm_cast_no_check (eq_refl true)).
  assert (Forall scalar s) as Hs by (apply scalars_check; vm_cast_no_check (eq_refl true)).
  assert (existsb is_ascii s = false) as Ha by (vm_cast_no_check (eq_refl false)).
  clearbody s. destruct (encode true s) as [[p|]|] eqn:E; try discriminate H. exists s, p. split; [assumption|]. split; [assumption|].
  split; [assumption|]. now apply PeanoNat.Nat.eqb_eq.
Qed.

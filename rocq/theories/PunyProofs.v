(** Punycode: arithmetic of digits and bias, and the combinatorics of the
    insertion sequence. *)
From Coq Require Import List NArith ZArith Lia Bool ZifyBool ZifyNat ZifyN.
From Verif Require Import Base PunyModel PunySpec.
Import ListNotations.
Open Scope N_scope.
Ltac Zify.zify_post_hook ::= Z.div_mod_to_equations.

Lemma obind_ret {A B} (x : outcome A) (f : A -> outcome B) b :
  obind x f = Ret b -> exists a, x = Ret a /\ f a = Ret b.
Proof. destruct x as [a|]; [eauto|discriminate]. Qed.
Lemma chk_ret x : x <= U32_MAX -> chk x = Ret x.
Proof. unfold chk. intros H. destruct (N.leb_spec x U32_MAX); [reflexivity|lia]. Qed.

(** ** Digits *)
Lemma thr_bounds bias j : 1 <= thr bias j <= 26.
Proof. unfold thr. lia. Qed.

Lemma threshold_thr j bias : bias <= 1000 -> threshold (36 * (j + 1)) bias = Ret (thr bias j).
Proof.
  intros H. unfold threshold, thr, T_MIN, T_MAX.
  destruct (N.leb_spec (36 * (j + 1)) bias); [f_equal; lia|].
  rewrite chk_ret by (unfold U32_MAX; lia). cbn [obind].
  destruct (N.leb_spec (bias + 26) (36 * (j + 1))); [f_equal; lia|].
  unfold sub32. destruct (N.leb_spec bias (36 * (j + 1))); [f_equal; lia|lia].
Qed.

Lemma varint_digit bias j ds v : varint bias j ds v -> Forall (fun d => d < 36) ds.
Proof.
  induction 1 as [j d H|j d ds v _ H _ IH]; constructor; auto.
  pose proof (thr_bounds bias j). lia.
Qed.

Lemma varint_value_fun bias j ds v : varint bias j ds v -> forall w, varint bias j ds w -> v = w.
Proof.
  induction 1 as [j d H|j d ds v H1 H2 H3 IH]; intros w Hw.
  - inversion Hw as [|? ? ? ? ? ? Hv]; subst; [reflexivity|inversion Hv].
  - inversion Hw as [|? ? ? ? ? ? Hv]; subst; [inversion H3|]. now rewrite (IH _ Hv).
Qed.

Lemma split_digit t d v d' v' : 1 <= t <= 26 -> t <= d < 36 -> t <= d' < 36 ->
  d + v * (36 - t) = d' + v' * (36 - t) -> d = d' /\ v = v'.
Proof.
  intros Ht Hd Hd' E. set (r := 36 - t) in *. assert (v = v').
  { assert ((d - t + v * r) / r = (d' - t + v' * r) / r) as E2 by (f_equal; lia).
    rewrite !N.div_add in E2 by lia. rewrite !N.div_small in E2 by lia. lia. }
  subst. split; lia.
Qed.

Lemma varint_digits_eq bias j ds v : varint bias j ds v ->
  forall ds' v', varint bias j ds' v' -> v = v' -> ds = ds'.
Proof.
  induction 1 as [j d H|j d ds v H1 H2 H3 IH]; intros ds' v' Hd E; pose proof (thr_bounds bias j) as Ht.
  - inversion Hd as [|? d' ds2 w B1 B2 B3]; subst; [reflexivity|]. nia.
  - inversion Hd as [? d' B1|? d' ds2 w B1 B2 B3]; subst.
    + exfalso. nia.
    + destruct (split_digit (thr bias j) d v d' w) as [-> ->]; [assumption|lia|lia|now symmetry|].
      f_equal. now apply (IH _ _ B3).
Qed.
Lemma varint_digits_fun bias j ds v : varint bias j ds v -> forall ds', varint bias j ds' v -> ds = ds'.
Proof. intros H ds' H'. exact (varint_digits_eq _ _ _ _ H _ _ H' eq_refl). Qed.

Lemma varint_prefix_free bias j ds v : varint bias j ds v -> forall ds' v' rest rest',
  varint bias j ds' v' -> ds ++ rest = ds' ++ rest' -> ds = ds' /\ v = v' /\ rest = rest'.
Proof.
  induction 1 as [j d H|j d ds v H1 H2 H3 IH]; intros ds' v' rest rest' Hd E.
  - inversion Hd as [? d' B1|? d' ds2 w B1 B2 B3]; subst; cbn in E; injection E as E1 E2; subst; [auto|lia].
  - inversion Hd as [? d' B1|? d' ds2 w B1 B2 B3]; subst; cbn in E; injection E as E1 E2; subst; [lia|].
    destruct (IH _ _ _ _ B3 E2) as (-> & -> & ->). auto.
Qed.

Lemma varint_exists bias : forall v j, exists ds, varint bias j ds v.
Proof.
  intros v. induction v as [v IH] using (well_founded_induction N.lt_wf_0). intros j.
  pose proof (thr_bounds bias j) as Ht. destruct (N.ltb_spec v (thr bias j)) as [H|H].
  - exists [v]. now constructor.
  - set (t := thr bias j) in *. set (r := 36 - t).
    assert (10 <= r <= 35) as Hr by lia.
    pose proof (N.div_mod (v - t) r ltac:(lia)) as Hdm. pose proof (N.mod_lt (v - t) r ltac:(lia)) as Hm.
    destruct (IH ((v - t) / r)) with (j := j + 1) as (ds & Hds).
    { assert ((v - t) / r <= v - t) by (apply N.div_le_upper_bound; nia). lia. }
    exists ((t + (v - t) mod r) :: ds).
    replace v with ((t + (v - t) mod r) + ((v - t) / r) * r) at 2 by lia.
    constructor; fold t; [lia|lia|assumption].
Qed.

Lemma digit_of_value v : v < 36 -> exists c, value_to_digit v = Ret c /\ digit_char v c.
Proof.
  intros H. unfold value_to_digit, digit_char. destruct (N.leb_spec v 25); [eexists; split; [reflexivity|left; lia]|].
  destruct (N.leb_spec v 35); [eexists; split; [reflexivity|right; lia]|lia].
Qed.

Lemma encode_delta_step fuel q k bias : encode_delta (S fuel) q k bias =
  (let* t := threshold k bias in
   if q <? t then let* c := value_to_digit q in Ret [c] else
   let* r := sub32 BASE t in
   if r =? 0 then Panic else
   let* c := value_to_digit (t + (q - t) mod r) in
   let* k := chk (k + BASE) in
   let* cs := encode_delta fuel ((q - t) / r) k bias in
   Ret (c :: cs)).
Proof. reflexivity. Qed.

Lemma encode_delta_spec bias : bias <= 1000 -> forall fuel q j, q < 10 ^ N.of_nat fuel -> j + N.of_nat fuel <= 2000 ->
  exists ds cs, encode_delta (S fuel) q (36 * (j + 1)) bias = Ret cs /\ varint bias j ds q /\ Forall2 digit_char ds cs.
Proof.
  intros Hb. induction fuel as [|fuel IH]; intros q j Hq Hj;
    rewrite encode_delta_step, threshold_thr by assumption; cbn [obind];
    pose proof (thr_bounds bias j) as Ht; set (t := thr bias j) in *;
    destruct (N.ltb_spec q t) as [H|H].
  - destruct (digit_of_value q) as (c & -> & Hc); [lia|]. cbn [obind]. exists [q], [c].
    split; [reflexivity|]. split; [now constructor|]. constructor; [assumption|constructor].
  - change (10 ^ N.of_nat 0) with 1 in Hq. lia.
  - destruct (digit_of_value q) as (c & -> & Hc); [lia|]. cbn [obind]. exists [q], [c].
    split; [reflexivity|]. split; [now constructor|]. constructor; [assumption|constructor].
  - unfold sub32, BASE. destruct (N.leb_spec t 36); [|lia]. cbn [obind].
    set (r := 36 - t). assert (10 <= r <= 35) as Hr by lia.
    destruct (N.eqb_spec r 0); [lia|].
    pose proof (N.div_mod (q - t) r ltac:(lia)) as Hdm. pose proof (N.mod_lt (q - t) r ltac:(lia)) as Hm.
    destruct (digit_of_value (t + (q - t) mod r)) as (c & -> & Hc); [lia|]. cbn [obind].
    rewrite chk_ret by (unfold U32_MAX; lia). cbn [obind].
    replace (36 * (j + 1) + 36) with (36 * (j + 1 + 1)) by lia.
    destruct (IH ((q - t) / r) (j + 1)) as (ds & cs & E & Hv & Hd).
    { apply N.div_lt_upper_bound; [lia|].
      rewrite Nnat.Nat2N.inj_succ, N.pow_succ_r' in Hq. nia. }
    { lia. }
    rewrite E. cbn [obind]. exists ((t + (q - t) mod r) :: ds), (c :: cs). split; [reflexivity|]. split; [|now constructor].
    replace q with ((t + (q - t) mod r) + ((q - t) / r) * r) at 2 by lia.
    constructor; fold t; [lia|lia|assumption].
Qed.

(** ** Bias adaptation *)
Lemma settle_fun x d k : settle x d k -> forall d' k', settle x d' k' -> d = d' /\ k = k'.
Proof.
  induction 1 as [x H|x d k H _ IH]; intros d' k' Hs; inversion Hs as [|? ? ? ? Hi]; subst; try lia.
  destruct (IH _ _ Hi) as [-> ->]. auto.
Qed.
Lemma adapts_fun first delta np b b' : adapts first delta np b -> adapts first delta np b' -> b = b'.
Proof.
  intros (d & k & H & ->) (d' & k' & H' & ->). destruct (settle_fun _ _ _ H _ _ H') as [-> ->]. reflexivity.
Qed.
Lemma settle_exists x : exists d k, settle x d k.
Proof.
  induction x as [x IH] using (well_founded_induction N.lt_wf_0).
  destruct (N.leb_spec x 455) as [H|H]; [exists x, 0; now constructor|].
  destruct (IH (x / 35)) as (d & k & Hd); [apply N.div_lt; lia|]. exists d, (k + 36). now constructor.
Qed.
Lemma adapts_exists first delta np : exists b, adapts first delta np b.
Proof.
  destruct (settle_exists (let delta := if first then delta / 700 else delta / 2 in delta + delta / np)) as (d & k & H).
  eexists. exists d, k. split; [exact H|reflexivity].
Qed.
Lemma settle_bound x d k : settle x d k -> d <= 455.
Proof. induction 1; assumption. Qed.

Lemma adapt_loop_spec : forall fuel x k0, x <= 455 * 35 ^ N.of_nat fuel -> k0 + 36 * N.of_nat fuel <= 1000 ->
  exists d k, adapt_loop (S fuel) x k0 = Ret (d, k0 + k) /\ settle x d k /\ k <= 36 * N.of_nat fuel.
Proof.
  induction fuel as [|fuel IH]; intros x k0 Hx Hk; cbn [adapt_loop]; unfold BASE, T_MIN, T_MAX;
    change ((36 - 1) * 26 / 2) with 455; change (36 - 1) with 35; destruct (N.ltb_spec 455 x) as [H|H].
  - change (35 ^ N.of_nat 0) with 1 in Hx. lia.
  - exists x, 0. rewrite N.add_0_r. split; [reflexivity|]. split; [now constructor|lia].
  - rewrite chk_ret by (unfold U32_MAX; lia). cbn [obind].
    destruct (IH (x / 35) (k0 + 36)) as (d & k & E & Hs & Hb).
    { rewrite Nnat.Nat2N.inj_succ, N.pow_succ_r' in Hx. apply N.div_le_upper_bound; lia. }
    { lia. }
    cbn [adapt_loop] in E. unfold BASE, T_MIN, T_MAX in E. change ((36 - 1) * 26 / 2) with 455 in E. change (36 - 1) with 35 in E.
    rewrite E. exists d, (k + 36). split; [f_equal; f_equal; lia|]. split; [now constructor|lia].
  - exists x, 0. rewrite N.add_0_r. split; [reflexivity|]. split; [now constructor|lia].
Qed.

Lemma adapt_loop_more fuel x k d r : adapt_loop fuel x k = Ret (d, r) -> adapt_loop (S fuel) x k = Ret (d, r).
Proof.
  revert x k. induction fuel as [|fuel IH]; intros x k H; [discriminate|].
  change (adapt_loop (S (S fuel)) x k) with
    (if ((BASE - T_MIN) * T_MAX) / 2 <? x
     then let* k := chk (k + BASE) in adapt_loop (S fuel) (x / (BASE - T_MIN)) k else Ret (x, k)).
  cbn [adapt_loop] in H. destruct (_ <? x); [|assumption].
  apply obind_ret in H as (k' & -> & H). cbn [obind]. now apply IH.
Qed.

Lemma adapt_spec delta np first : delta <= U32_MAX -> 1 <= np ->
  exists b, adapt delta np first = Ret b /\ adapts first delta np b /\ b <= 213.
Proof.
  intros Hd Hn. unfold adapt, DAMP. destruct (N.eqb_spec np 0); [lia|].
  replace (delta / (if first then 700 else 2)) with (if first then delta / 700 else delta / 2) by now destruct first.
  set (x := if first then delta / 700 else delta / 2).
  assert (x <= delta / 2) as Hx. { unfold x. destruct first; [|lia]. lia. }
  assert (x / np <= x) as Hq by (apply N.div_le_upper_bound; nia).
  assert (x + x / np <= U32_MAX) as Hs by (unfold U32_MAX in *; lia).
  rewrite chk_ret by assumption. cbn [obind].
  destruct (adapt_loop_spec 5 (x + x / np) 0) as (d & k & E & Hst & Hk).
  { apply (N.le_trans _ U32_MAX); [exact Hs|]. vm_compute. discriminate. }
  { vm_compute. discriminate. }
  rewrite (adapt_loop_more 7 _ _ d (0 + k)) by (apply adapt_loop_more; exact E). cbn [obind].
  pose proof (settle_bound _ _ _ Hst) as Hd455. change (N.of_nat 5) with 5 in Hk.
  unfold BASE, T_MIN, SKEW. change (36 - 1 + 1) with 36. rewrite chk_ret by (unfold U32_MAX; lia). cbn [obind].
  rewrite chk_ret by (unfold U32_MAX; lia). cbn [obind].
  assert (36 * d / (d + 38) <= 33) as H33.
  { apply N.lt_succ_r. apply N.div_lt_upper_bound; lia. }
  rewrite chk_ret by (unfold U32_MAX; lia).
  eexists. split; [reflexivity|]. split; [|lia]. exists d, k. split; [exact Hst|lia].
Qed.

(** ** Insertion sequences *)
Definition upto (n : N) (c : N) : bool := c <=? n.
Definition below (n : N) (c : N) : bool := c <? n.
Definition len (l : list N) : N := N.of_nat (length l).

Lemma len_app a b : len (a ++ b) = len a + len b.
Proof. unfold len. rewrite app_length. lia. Qed.
Lemma len_cons c l : len (c :: l) = len l + 1.
Proof. unfold len. cbn [length]. lia. Qed.
Lemma len_nil : len [] = 0.
Proof. reflexivity. Qed.

Lemma filter_split {A} (f : A -> bool) : forall r x y, filter f r = x ++ y ->
  exists a b, r = a ++ b /\ filter f a = x /\ filter f b = y.
Proof.
  induction r as [|c r IH]; intros x y H; cbn [filter] in H.
  - symmetry in H. apply app_eq_nil in H as [-> ->]. exists [], []. auto.
  - destruct (f c) eqn:E.
    + destruct x as [|c' x].
      * exists [], (c :: r). cbn [filter app]. rewrite E. auto.
      * cbn [app] in H. injection H as <- H. destruct (IH _ _ H) as (a & b & -> & Ha & Hb).
        exists (c :: a), b. cbn [filter app]. rewrite E, Ha. auto.
    + destruct (IH _ _ H) as (a & b & -> & Ha & Hb). exists (c :: a), b. cbn [filter app]. rewrite E. auto.
Qed.
Lemma filter_id {A} (f : A -> bool) l : Forall (fun c => f c = true) l -> filter f l = l.
Proof. induction 1 as [|c l H _ IH]; [reflexivity|]. cbn [filter]. now rewrite H, IH. Qed.
Lemma filter_filter {A} (f g : A -> bool) l : (forall c, f c = true -> g c = true) ->
  filter f (filter g l) = filter f l.
Proof.
  intros H. induction l as [|c l IH]; [reflexivity|]. cbn [filter].
  destruct (g c) eqn:E; cbn [filter]; destruct (f c) eqn:F; rewrite ?IH; try reflexivity.
  rewrite (H c F) in E. discriminate.
Qed.
Lemma filter_all {A} (f : A -> bool) l : Forall (fun c => f c = true) (filter f l).
Proof. apply Forall_forall. intros c Hc. now apply filter_In in Hc. Qed.

(** The text so far: everything up to [n] in the part already passed, and
    everything below [n] in the rest. *)
Definition Inv (n i : N) (out s : list N) : Prop :=
  exists r1 r2, s = r1 ++ r2 /\ out = filter (upto n) r1 ++ filter (below n) r2 /\ i = len (filter (upto n) r1).

Definition OK (n i : N) (out : list N) : Prop :=
  Forall (fun c => c <= n) out /\ Forall (fun c => c < n) (skipn (N.to_nat i) out) /\ i <= len out.

Lemma upto_le n l : Forall (fun c => c <= n) l -> filter (upto n) l = l.
Proof. intros H. apply filter_id. eapply Forall_impl; [|exact H]. cbv beta. intros c Hc. now apply N.leb_le. Qed.
Lemma below_lt n l : Forall (fun c => c < n) l -> filter (below n) l = l.
Proof. intros H. apply filter_id. eapply Forall_impl; [|exact H]. cbv beta. intros c Hc. now apply N.ltb_lt. Qed.
Lemma below_upto n m l : n <= m -> filter (below n) (filter (upto m) l) = filter (below n) l.
Proof. intros H. apply filter_filter. intros c. unfold below, upto. lia. Qed.
Lemma upto_upto n m l : n <= m -> filter (upto n) (filter (upto m) l) = filter (upto n) l.
Proof. intros H. apply filter_filter. intros c. unfold upto. lia. Qed.
Lemma upto_below n m l : n < m -> filter (upto n) (filter (below m) l) = filter (upto n) l.
Proof. intros H. apply filter_filter. intros c. unfold below, upto. lia. Qed.
Lemma below_below n m l : n <= m -> filter (below n) (filter (below m) l) = filter (below n) l.
Proof. intros H. apply filter_filter. intros c. unfold below. lia. Qed.
Lemma upto_app_last n l : filter (upto n) (l ++ [n]) = filter (upto n) l ++ [n].
Proof. rewrite filter_app. cbn [filter]. unfold upto at 2. rewrite N.leb_refl. reflexivity. Qed.

Lemma skipn_skipn {A} : forall y x (l : list A), skipn x (skipn y l) = skipn (x + y) l.
Proof.
  induction y as [|y IH]; intros x l; [now rewrite Nat.add_0_r|].
  rewrite Nat.add_succ_r. destruct l as [|a l]; [now rewrite !skipn_nil|]. cbn [skipn]. apply IH.
Qed.
Lemma insert_firstn i c l : i <= len l -> firstn (N.to_nat (i + 1)) (insert_at i c l) = firstn (N.to_nat i) l ++ [c].
Proof.
  intros H. unfold insert_at, len in *. rewrite firstn_app, firstn_length, firstn_firstn.
  replace (Nat.min (N.to_nat (i + 1)) (N.to_nat i)) with (N.to_nat i) by lia.
  replace (N.to_nat (i + 1) - Nat.min (N.to_nat i) (length l))%nat with 1%nat by lia. reflexivity.
Qed.
Lemma insert_skipn i c l : i <= len l -> skipn (N.to_nat (i + 1)) (insert_at i c l) = skipn (N.to_nat i) l.
Proof.
  intros H. unfold insert_at, len in *. rewrite skipn_app, firstn_length.
  replace (N.to_nat (i + 1) - Nat.min (N.to_nat i) (length l))%nat with 1%nat by lia.
  rewrite skipn_all2 by (rewrite firstn_length; lia). reflexivity.
Qed.
Lemma insert_len i c l : len (insert_at i c l) = len l + 1.
Proof.
  unfold insert_at. rewrite len_app, len_cons, N.add_assoc, <- len_app, firstn_skipn. reflexivity.
Qed.
Lemma Forall_insert (P : N -> Prop) i c l : Forall P l -> P c -> Forall P (insert_at i c l).
Proof.
  intros H Hc. rewrite <- (firstn_skipn (N.to_nat i) l) in H. apply Forall_app in H as [H1 H2].
  apply Forall_app. auto.
Qed.
Lemma filter_insert f i c l : f c = false -> filter f (insert_at i c l) = filter f l.
Proof.
  intros H. unfold insert_at. rewrite filter_app. cbn [filter]. rewrite H, <- filter_app, firstn_skipn. reflexivity.
Qed.

Lemma step_pos (i delta L n : N) : 0 < L ->
  (i + delta) / L = 0 -> (i + delta) mod L = i + delta.
Proof. intros HL H. apply N.mod_small. apply N.div_small_iff in H; lia. Qed.

Lemma OK_step n i out delta : OK n i out ->
  let len1 := len out + 1 in
  let n' := n + (i + delta) / len1 in
  let i' := (i + delta) mod len1 in
  i' <= len out /\ OK n' (i' + 1) (insert_at i' n' out) /\ n <= n' /\ (n' = n -> i <= i').
Proof.
  intros (H1 & H2 & H3) len1 n' i'.
  assert (0 < len1) as HL by (unfold len1; lia).
  assert (i' <= len out) as Hi'. { pose proof (N.mod_lt (i + delta) len1 ltac:(lia)) as Hm. unfold i', len1 in *. lia. }
  assert (n <= n') as Hn by apply N.le_add_r.
  assert (n' = n -> i <= i') as Hii.
  { intros E. unfold i'. rewrite (step_pos i delta len1 n); [apply N.le_add_r|assumption|].
    unfold n' in E. clear -E. generalize dependent ((i + delta) / len1). intros; lia. }
  split; [assumption|]. split; [|split; assumption]. split; [|split].
  - apply Forall_insert; [|apply N.le_refl]. eapply Forall_impl; [|exact H1]. cbv beta. intros c Hc. exact (N.le_trans _ _ _ Hc Hn).
  - rewrite insert_skipn by assumption. destruct (N.eqb_spec n' n) as [E|E].
    + rewrite E. specialize (Hii E). rewrite <- (firstn_skipn (N.to_nat (i' - i)) (skipn (N.to_nat i) out)) in H2.
      apply Forall_app in H2 as [_ H2]. rewrite skipn_skipn in H2.
      now replace (N.to_nat (i' - i) + N.to_nat i)%nat with (N.to_nat i') in H2 by lia.
    + rewrite <- (firstn_skipn (N.to_nat i') out) in H1. apply Forall_app in H1 as [_ H1].
      eapply Forall_impl; [|exact H1]. cbv beta. intros c Hc. clearbody n' i' len1. lia.
  - rewrite insert_len. lia.
Qed.

Lemma expands_inv first bias n i out ds tr res : expands first bias n i out ds tr res ->
  OK n i out -> Inv n i out res.
Proof.
  induction 1 as [first bias n i out|first bias n i out ds delta bias' rest tr res Hv len1 n' i' Hsc Had Hex IH]; intros HOK.
  - destruct HOK as (H1 & H2 & H3). exists (firstn (N.to_nat i) out), (skipn (N.to_nat i) out).
    rewrite firstn_skipn. split; [reflexivity|].
    rewrite <- (firstn_skipn (N.to_nat i) out) in H1. apply Forall_app in H1 as [H1 _].
    rewrite (upto_le n _ H1), (below_lt n _ H2), firstn_skipn. split; [reflexivity|].
    unfold len in *. rewrite firstn_length. lia.
  - pose proof (OK_step n i out delta HOK) as Hst. cbv zeta in Hst. destruct Hst as (Hi' & HOK' & Hn & Hii).
    change (len out + 1) with len1 in *. fold n' i' in Hi', HOK', Hn, Hii.
    destruct (IH HOK') as (r1 & r2 & Hres & Hout & Hlen).
    destruct HOK as (H1 & H2 & H3).
    assert (firstn (N.to_nat i') out ++ [n'] = filter (upto n') r1) as E1.
    { rewrite <- insert_firstn by assumption. rewrite Hout, Hlen.
      unfold len. rewrite Nnat.Nat2N.id, firstn_app, firstn_all.
      replace (length (filter (upto n') r1) - length (filter (upto n') r1))%nat with 0%nat by lia.
      cbn [firstn]. apply app_nil_r. }
    assert (skipn (N.to_nat i') out = filter (below n') r2) as E2.
    { rewrite <- (insert_skipn i' n') by assumption. rewrite Hout, Hlen.
      unfold len. rewrite Nnat.Nat2N.id, skipn_app, skipn_all.
      replace (length (filter (upto n') r1) - length (filter (upto n') r1))%nat with 0%nat by lia. reflexivity. }
    destruct (N.eqb_spec n' n) as [E|E].
    + specialize (Hii E). rewrite E in *.
      assert (filter (upto n) r1 = firstn (N.to_nat i) out ++ (firstn (N.to_nat (i' - i)) (skipn (N.to_nat i) out) ++ [n])) as E3.
      { rewrite <- E1, app_assoc. f_equal.
        rewrite <- (firstn_skipn (N.to_nat i) out) at 1. rewrite firstn_app, firstn_firstn, firstn_length.
        unfold len in H3. replace (Nat.min (N.to_nat i') (N.to_nat i)) with (N.to_nat i) by lia. f_equal. f_equal. lia. }
      apply filter_split in E3 as (a & b & -> & Ha & Hb).
      exists a, (b ++ r2). split; [now rewrite app_assoc|].
      assert (filter (below n) b = firstn (N.to_nat (i' - i)) (skipn (N.to_nat i) out)) as E4.
      { rewrite <- (below_upto n n) by lia. rewrite Hb, filter_app. cbn [filter]. unfold below at 2. rewrite N.ltb_irrefl, app_nil_r.
        apply below_lt. rewrite <- (firstn_skipn (N.to_nat (i' - i)) (skipn (N.to_nat i) out)) in H2. now apply Forall_app in H2 as [H2 _]. }
      rewrite filter_app, E4, <- E2, Ha. split.
      * rewrite <- (firstn_skipn (N.to_nat i) out) at 1. f_equal.
        rewrite <- (firstn_skipn (N.to_nat (i' - i)) (skipn (N.to_nat i) out)) at 1. f_equal.
        rewrite skipn_skipn. f_equal. lia.
      * unfold len in *. rewrite firstn_length. lia.
    + assert (n < n') as Hlt by lia.
      assert (filter (upto n) res = out) as E3.
      { rewrite Hres, filter_app. rewrite <- (upto_upto n n' r1), <- (upto_below n n' r2) by lia.
        rewrite <- filter_app, <- Hout. rewrite filter_insert by (unfold upto; lia). now apply upto_le. }
      rewrite <- (firstn_skipn (N.to_nat i) out) in E3. apply filter_split in E3 as (a & b & -> & Ha & Hb).
      exists a, b. split; [reflexivity|]. rewrite Ha.
      assert (filter (below n) b = skipn (N.to_nat i) out) as E4.
      { rewrite <- (below_upto n n) by lia. rewrite Hb. now apply below_lt. }
      rewrite E4, firstn_skipn. split; [reflexivity|]. unfold len in *. rewrite firstn_length. lia.
Qed.

(** Reading the next inserted character off the result. *)
Lemma Inv_insert n i out res : Inv n (i + 1) (insert_at i n out) res -> i <= len out ->
  filter (below n) res = filter (below n) out /\
  exists t, filter (upto n) res = firstn (N.to_nat i) out ++ n :: t.
Proof.
  intros (r1 & r2 & -> & Hout & Hlen) Hi. split.
  - rewrite filter_app, <- (below_upto n n r1), <- (below_below n n r2) by lia.
    rewrite <- filter_app, <- Hout. apply filter_insert. unfold below. apply N.ltb_irrefl.
  - assert (firstn (N.to_nat i) out ++ [n] = filter (upto n) r1) as E1.
    { rewrite <- insert_firstn by assumption. rewrite Hout, Hlen.
      unfold len. rewrite Nnat.Nat2N.id, firstn_app, firstn_all.
      replace (length (filter (upto n) r1) - length (filter (upto n) r1))%nat with 0%nat by lia.
      cbn [firstn]. apply app_nil_r. }
    exists (filter (upto n) r2). rewrite filter_app, <- E1, <- app_assoc. reflexivity.
Qed.

Lemma Inv_count n i out res : Inv n (i + 1) (insert_at i n out) res -> i <= len out ->
  (length (filter (N.eqb n) out) < length (filter (N.eqb n) res))%nat.
Proof.
  intros (r1 & r2 & -> & Hout & Hlen) Hi.
  assert (length (filter (N.eqb n) (insert_at i n out)) = S (length (filter (N.eqb n) out))) as E.
  { unfold insert_at. rewrite filter_app. cbn [filter]. rewrite N.eqb_refl, app_length. cbn [length].
    rewrite <- plus_n_Sm, <- app_length, <- filter_app, firstn_skipn. reflexivity. }
  rewrite Hout in E. rewrite filter_app in E |- *. rewrite app_length in *.
  rewrite filter_filter in E by (unfold upto; intros; lia).
  assert (length (filter (N.eqb n) (filter (below n) r2)) = 0)%nat as E0.
  { rewrite (proj2 (Forall_forall (fun _ => False) (filter (N.eqb n) (filter (below n) r2)))) at 1 || idtac.
    destruct (filter (N.eqb n) (filter (below n) r2)) as [|x l] eqn:F; [reflexivity|].
    assert (In x (filter (N.eqb n) (filter (below n) r2))) as Hin by (rewrite F; now left).
    apply filter_In in Hin as [Hin Hx]. apply filter_In in Hin as [_ Hb]. unfold below in Hb. lia. }
  lia.
Qed.

Lemma next_unique n i out res n1 i1 n2 i2 : OK n i out ->
  i1 <= len out -> i2 <= len out ->
  n <= n1 -> n <= n2 -> (n1 = n -> i <= i1) -> (n2 = n -> i <= i2) ->
  Inv n1 (i1 + 1) (insert_at i1 n1 out) res ->
  Inv n2 (i2 + 1) (insert_at i2 n2 out) res -> n1 = n2 /\ i1 = i2.
Proof.
  intros (O1 & O2 & O3) B1 B2 L1 L2 S1 S2 I1 I2.
  assert (forall n1 i1 n2 i2, i1 <= len out -> i2 <= len out -> n <= n1 ->
    Inv n1 (i1 + 1) (insert_at i1 n1 out) res -> Inv n2 (i2 + 1) (insert_at i2 n2 out) res -> n1 < n2 -> False) as G.
  { clear. intros n1 i1 n2 i2 B1 B2 L1 I1 I2 H.
    pose proof (Inv_count _ _ _ _ I1 B1) as Hc. destruct (Inv_insert _ _ _ _ I2 B2) as [E _].
    assert (filter (N.eqb n1) res = filter (N.eqb n1) out) as E2.
    { rewrite <- (filter_filter (N.eqb n1) (below n2) res), <- (filter_filter (N.eqb n1) (below n2) out)
        by (unfold below; intros; lia). now rewrite E. }
    rewrite E2 in Hc. lia. }
  assert (n1 = n2) as En.
  { destruct (N.lt_trichotomy n1 n2) as [H|[H|H]]; [|assumption|]; exfalso.
    - exact (G n1 i1 n2 i2 B1 B2 L1 I1 I2 H).
    - exact (G n2 i2 n1 i1 B2 B1 L2 I2 I1 H). }
  split; [assumption|]. subst n2. rename n1 into m.
  assert (forall j1 j2, j1 <= len out -> j2 <= len out -> (m = n -> i <= j1) ->
    Inv m (j1 + 1) (insert_at j1 m out) res -> Inv m (j2 + 1) (insert_at j2 m out) res -> j1 < j2 -> False) as G2.
  { clear -O1 O2 O3 L1. intros j1 j2 B1 B2 S1 I1 I2 H.
    destruct (Inv_insert _ _ _ _ I1 B1) as [_ (t1 & E1)]. destruct (Inv_insert _ _ _ _ I2 B2) as [_ (t2 & E2)].
    assert (nth_error (filter (upto m) res) (N.to_nat j1) = Some m) as N1.
    { rewrite E1. unfold len in *. rewrite nth_error_app2 by (rewrite firstn_length; lia).
      rewrite firstn_length. replace (N.to_nat j1 - Nat.min (N.to_nat j1) (length out))%nat with 0%nat by lia. reflexivity. }
    assert (exists c, nth_error out (N.to_nat j1) = Some c /\ c <> m) as (c & Hc & Hne).
    { destruct (nth_error out (N.to_nat j1)) as [c|] eqn:Ec.
      - exists c. split; [reflexivity|]. destruct (N.eqb_spec m n) as [E|E].
        + specialize (S1 E). rewrite Forall_forall in O2. intros ->. subst m.
          assert (In n (skipn (N.to_nat i) out)) as Hin.
          { apply (nth_error_In _ (N.to_nat (j1 - i))). rewrite <- Ec.
            rewrite <- (firstn_skipn (N.to_nat i) out) at 2. unfold len in *.
            rewrite nth_error_app2 by (rewrite firstn_length; lia). rewrite firstn_length. f_equal. lia. }
          specialize (O2 n Hin). lia.
        + rewrite Forall_forall in O1. specialize (O1 c (nth_error_In _ _ Ec)). lia.
      - exfalso. apply nth_error_None in Ec. unfold len in *. lia. }
    rewrite E2 in N1. unfold len in *. rewrite nth_error_app1 in N1 by (rewrite firstn_length; lia).
    rewrite <- (firstn_skipn (N.to_nat j2) out) in Hc. rewrite nth_error_app1 in Hc by (rewrite firstn_length; lia).
    congruence. }
  destruct (N.lt_trichotomy i1 i2) as [H|[H|H]]; [|assumption|]; exfalso.
  - exact (G2 i1 i2 B1 B2 S1 I1 I2 H).
  - exact (G2 i2 i1 B2 B1 S2 I2 I1 H).
Qed.

Lemma expands_length first bias n i out ds tr res : expands first bias n i out ds tr res ->
  len res = len out + N.of_nat (length tr).
Proof.
  induction 1 as [|? ? n i out ? delta ? ? tr res ? len1 n' i' ? ? ? IH]; [cbn; lia|].
  rewrite IH, insert_len. cbn [length]. lia.
Qed.

(** The result determines the digits and the trace. *)
Lemma expands_inj first bias n i out ds tr res : expands first bias n i out ds tr res -> OK n i out ->
  forall ds' tr', expands first bias n i out ds' tr' res -> ds = ds' /\ tr = tr'.
Proof.
  induction 1 as [first bias n i out|first bias n i out ds delta bias' rest tr res Hv len1 n' i' Hsc Had Hex IH];
    intros HOK ds' tr' H'.
  - pose proof (expands_length _ _ _ _ _ _ _ _ H') as Hl. destruct tr'; [|cbn [length] in Hl; lia].
    inversion H'; subst. auto.
  - pose proof (expands_length _ _ _ _ _ _ _ _ Hex) as Hl. rewrite insert_len in Hl.
    inversion H' as [? ? ? ? ? E1 E2 E3 E4|? ? ? ? ? ds2 delta2 bias2 rest2 tr2 res2 Hv2 len2 n2 i2 Hsc2 Had2 Hex2]; subst.
    { lia. }
    pose proof (OK_step n i out delta HOK) as Hst. cbv zeta in Hst. destruct Hst as (Hi' & HOK' & Hn & Hii).
    pose proof (OK_step n i out delta2 HOK) as Hst2. cbv zeta in Hst2. destruct Hst2 as (Hi2 & HOK2 & Hn2 & Hii2).
    change (len out + 1) with len1 in Hi', HOK', Hn, Hii, Hi2, HOK2, Hn2, Hii2.
    fold n' i' in Hi', HOK', Hn, Hii. change len2 with len1 in n2, i2, Had2.
    fold n2 i2 in Hi2, HOK2, Hn2, Hii2.
    destruct (next_unique n i out res n' i' n2 i2 HOK Hi' Hi2 Hn Hn2 Hii Hii2
      (expands_inv _ _ _ _ _ _ _ _ Hex HOK') (expands_inv _ _ _ _ _ _ _ _ Hex2 HOK2)) as [En Ei].
    assert (delta = delta2) as Ed.
    { assert (0 < len1) as HL by (unfold len1; lia).
      pose proof (N.div_mod (i + delta) len1 ltac:(lia)) as D1. pose proof (N.div_mod (i + delta2) len1 ltac:(lia)) as D2.
      fold i' in D1. fold i2 in D2. unfold n', n2 in En.
      assert ((i + delta) / len1 = (i + delta2) / len1) as Eq by lia. rewrite Eq, Ei in D1. lia. }
    subst delta2. fold i' n' in Hex2. subst i2 n2. fold i' n' in Hex2.
    rewrite (varint_digits_fun _ _ _ _ Hv _ Hv2). rewrite <- (adapts_fun _ _ _ _ _ Had Had2) in Hex2.
    destruct (IH HOK' _ _ Hex2) as [-> ->]. auto.
Qed.

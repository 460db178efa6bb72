(** The decoder accepts exactly the strings of RFC 3492, within 32 bits. *)
From Coq Require Import List NArith ZArith Lia Bool ZifyBool ZifyNat ZifyN.
From Verif Require Import Base PunyModel PunySpec PunyProofs.
Import ListNotations.
Open Scope N_scope.
Ltac Zify.zify_post_hook ::= Z.div_mod_to_equations.

Lemma decode_digit_iff c d : decode_digit c = Some d <-> digit_char_ci d c.
Proof.
  unfold decode_digit, digit_char_ci, digit_char.
  destruct ((0x30 <=? c) && (c <=? 0x39)) eqn:E1; [split; [intros H; assert (c - 0x30 + 26 = d) by congruence; lia|intros; f_equal; lia]|].
  destruct ((0x41 <=? c) && (c <=? 0x5A)) eqn:E2; [split; [intros H; assert (c - 0x41 = d) by congruence; lia|intros; f_equal; lia]|].
  destruct ((0x61 <=? c) && (c <=? 0x7A)) eqn:E3; [split; [intros H; assert (c - 0x61 = d) by congruence; lia|intros; f_equal; lia]|].
  split; [discriminate|lia].
Qed.
Lemma digit_lt d c : digit_char_ci d c -> d < 36.
Proof. unfold digit_char_ci, digit_char. lia. Qed.

(** ** One variable-length integer *)
Definition weight_ok (j w : N) : Prop := 10 ^ j <= w /\ w <= 35 ^ j /\ w <= U32_MAX.

Lemma weight_j j w : weight_ok j w -> j <= 9.
Proof.
  intros (H1 & _ & H3). destruct (N.leb_spec j 9) as [|H]; [assumption|exfalso].
  assert (10 ^ 10 <= 10 ^ j) as Hp by (apply N.pow_le_mono_r; lia).
  change (10 ^ 10) with 10000000000 in Hp. unfold U32_MAX in H3. lia.
Qed.
Lemma weight_pos j w : weight_ok j w -> 1 <= w.
Proof. intros (H & _). assert (10 ^ j <> 0) by (apply N.pow_nonzero; lia). lia. Qed.

Lemma weight_next j w bias : weight_ok j w -> w * (36 - thr bias j) <= U32_MAX -> weight_ok (j + 1) (w * (36 - thr bias j)).
Proof.
  intros (H1 & H2 & _) H. pose proof (thr_bounds bias j). rewrite N.add_1_r. unfold weight_ok. rewrite !N.pow_succ_r'.
  split; [nia|]. split; [nia|assumption].
Qed.

(** The weight overflows only when the value does. *)
Lemma weight_fits bias j w : bias <= 213 -> weight_ok j w -> thr bias j * w <= U32_MAX ->
  w * (36 - thr bias j) <= U32_MAX.
Proof.
  intros Hb (H1 & H2 & H3) Ht. pose proof (thr_bounds bias j) as Hthr.
  destruct (N.leb_spec 18 (thr bias j)) as [H|H]; [nia|].
  assert (j <= 5) as Hj by (unfold thr in H; lia).
  assert (35 ^ j <= 35 ^ 5) as Hp by (apply N.pow_le_mono_r; lia).
  change (35 ^ 5) with 52521875 in Hp. unfold U32_MAX in *. nia.
Qed.

Lemma decode_delta_step byte iter bias i w k : decode_delta byte iter bias i w k =
  match decode_digit byte with
  | None => Ret None
  | Some digit =>
      if w =? 0 then Panic else
      if (U32_MAX - i) / w <? digit then Ret None else
      let* step := chk (digit * w) in
      let* i := chk (i + step) in
      let* t := threshold k bias in
      if digit <? t then Ret (Some (i, iter)) else
      let* r := sub32 BASE t in
      if r =? 0 then Panic else
      if U32_MAX / r <? w then Ret None else
      let* w := chk (w * r) in
      let* k := chk (k + BASE) in
      match iter with
      | [] => Ret None
      | byte :: iter => decode_delta byte iter bias i w k
      end
  end.
Proof. destruct iter; reflexivity. Qed.

Lemma decode_delta_sound bias : bias <= 213 -> forall iter byte i w j, weight_ok j w -> i <= U32_MAX ->
  exists o, decode_delta byte iter bias i w (36 * (j + 1)) = Ret o /\
    match o with
    | None => True
    | Some (i', rest) => exists ds cs v, byte :: iter = cs ++ rest /\ Forall2 digit_char_ci ds cs /\
        varint bias j ds v /\ i' = i + v * w /\ i' <= U32_MAX
    end.
Proof.
  intros Hb. induction iter as [|byte' iter IH]; intros byte i w j Hw Hi; rewrite decode_delta_step;
    pose proof (weight_pos j w Hw) as Hw1; pose proof (weight_j j w Hw) as Hj; pose proof (thr_bounds bias j) as Ht;
    (destruct (decode_digit byte) as [digit|] eqn:Ed; [|eexists; split; [reflexivity|exact I]]);
    apply decode_digit_iff in Ed; pose proof (digit_lt _ _ Ed) as Hd36;
    (destruct (N.eqb_spec w 0); [lia|]);
    (destruct (N.ltb_spec ((U32_MAX - i) / w) digit) as [Hov|Hov]; [eexists; split; [reflexivity|exact I]|]);
    assert (digit * w <= U32_MAX - i) as Hdw
      by (pose proof (N.mul_div_le (U32_MAX - i) w ltac:(lia)); nia);
    (rewrite chk_ret by lia); cbn [obind]; (rewrite chk_ret by lia); cbn [obind];
    rewrite threshold_thr by lia; cbn [obind];
    (destruct (N.ltb_spec digit (thr bias j)) as [Hlt|Hge];
      [eexists; split; [reflexivity|]; exists [digit], [byte], digit; split; [reflexivity|];
       split; [constructor; [assumption|constructor]|]; split; [now constructor|]; lia|]);
    unfold sub32, BASE; (destruct (N.leb_spec (thr bias j) 36); [|lia]); cbn [obind];
    (destruct (N.eqb_spec (36 - thr bias j) 0); [lia|]);
    (destruct (N.ltb_spec (U32_MAX / (36 - thr bias j)) w) as [Hwo|Hwo]; [eexists; split; [reflexivity|exact I]|]);
    assert (w * (36 - thr bias j) <= U32_MAX) as Hwn
      by (pose proof (N.mul_div_le U32_MAX (36 - thr bias j) ltac:(lia)); nia);
    (rewrite chk_ret by assumption); cbn [obind]; (rewrite chk_ret by (unfold U32_MAX; lia)); cbn [obind].
  - eexists. split; [reflexivity|exact I].
  - replace (36 * (j + 1) + 36) with (36 * (j + 1 + 1)) by lia.
    destruct (IH byte' (i + digit * w) (w * (36 - thr bias j)) (j + 1)) as (o & -> & Ho);
      [now apply weight_next|lia|].
    exists o. split; [reflexivity|]. destruct o as [[i' rest]|]; [|exact I].
    destruct Ho as (ds & cs & v & E & HF & Hv & Hi' & Hm).
    exists (digit :: ds), (byte :: cs), (digit + v * (36 - thr bias j)).
    split; [cbn [app]; now rewrite E|]. split; [now constructor|]. split; [now constructor|].
    split; [|assumption]. rewrite Hi'. clear. nia.
Qed.

Lemma decode_delta_complete bias : bias <= 213 -> forall j ds v, varint bias j ds v ->
  forall cs byte iter rest i w, Forall2 digit_char_ci ds cs -> byte :: iter = cs ++ rest ->
  i + v * w <= U32_MAX -> weight_ok j w ->
  decode_delta byte iter bias i w (36 * (j + 1)) = Ret (Some (i + v * w, rest)).
Proof.
  intros Hb. induction 1 as [j d H|j d ds v H1 H2 Hv IH]; intros cs byte iter rest i w HF E Hi Hw;
    inversion HF as [|? c' ? cs' Hc HF']; subst; cbn [app] in E; injection E as E1 E2; subst;
    rewrite decode_delta_step; rewrite (proj2 (decode_digit_iff c' d) Hc);
    pose proof (weight_pos j w Hw) as Hw1; pose proof (weight_j j w Hw) as Hj; pose proof (thr_bounds bias j) as Ht;
    (destruct (N.eqb_spec w 0); [lia|]);
    [assert (d * w <= U32_MAX - i) as Hdw by lia|assert (d * w <= U32_MAX - i) as Hdw by nia];
    (destruct (N.ltb_spec ((U32_MAX - i) / w) d) as [Hov|Hov];
      [exfalso; assert (d <= (U32_MAX - i) / w) by (apply N.div_le_lower_bound; lia); lia|]);
    (rewrite chk_ret by lia); cbn [obind]; (rewrite chk_ret by lia); cbn [obind];
    rewrite threshold_thr by lia; cbn [obind].
  - inversion HF'; subst. destruct (N.ltb_spec d (thr bias j)); [|lia]. reflexivity.
  - destruct (N.ltb_spec d (thr bias j)); [lia|].
    unfold sub32, BASE. destruct (N.leb_spec (thr bias j) 36); [|lia]. cbn [obind].
    destruct (N.eqb_spec (36 - thr bias j) 0); [lia|].
    assert (w * (36 - thr bias j) <= U32_MAX) as Hwn.
    { apply weight_fits; [assumption|assumption|]. nia. }
    destruct (N.ltb_spec (U32_MAX / (36 - thr bias j)) w) as [Hwo|Hwo].
    { exfalso. assert (w <= U32_MAX / (36 - thr bias j)) by (apply N.div_le_lower_bound; lia). lia. }
    rewrite chk_ret by assumption. cbn [obind]. rewrite chk_ret by (unfold U32_MAX; lia). cbn [obind].
    destruct (cs' ++ rest) as [|byte' iter'] eqn:E.
    { exfalso. apply app_eq_nil in E as [-> _]. inversion HF'; subst. inversion Hv. }
    replace (36 * (j + 1) + 36) with (36 * (j + 1 + 1)) by lia.
    rewrite (IH cs' byte' iter' rest (i + d * w) (w * (36 - thr bias j)) HF' (eq_sym E)).
    + f_equal. f_equal. f_equal. clear. nia.
    + clear -Hi. nia.
    + now apply weight_next.
Qed.

Lemma varint_nonempty bias j ds v : varint bias j ds v -> ds <> [].
Proof. now destruct 1. Qed.

(** ** The loop *)
Definition fits (p : N * N) : Prop := fst p + snd p <= U32_MAX.

Lemma decode_loop_step fuel byte iter output n bias i : decode_loop (S fuel) (byte :: iter) output n bias i =
  (let* o := decode_delta byte iter bias i 1 BASE in
   match o with
   | None => Ret None
   | Some (i', iter) =>
       let* len1 := chk (as_u32 (N.of_nat (length output)) + 1) in
       let* d := sub32 i' i in
       let* bias := adapt d len1 (i =? 0) in
       if U32_MAX - n <? i' / len1 then Ret None else
       let* n := chk (n + i' / len1) in
       if scalarb n then
         let* output := vec_insert output (i' mod len1) n in
         let* i := chk (i' mod len1 + 1) in
         decode_loop fuel iter output n bias i
       else Ret None
   end).
Proof. reflexivity. Qed.

Lemma scalar_max n : scalar n -> n <= 0x10FFFF.
Proof. unfold scalar. lia. Qed.

(** One turn of the loop after its integer was read. *)
Lemma turn fuel byte iter output n bias i delta rest : bias <= 213 ->
  len output < U32_MAX -> n <= 0x10FFFF -> i + delta <= U32_MAX ->
  decode_delta byte iter bias i 1 BASE = Ret (Some (i + delta, rest)) ->
  let len1 := len output + 1 in
  let n' := n + (i + delta) / len1 in
  let i' := (i + delta) mod len1 in
  exists bias', adapts (i =? 0) delta len1 bias' /\ bias' <= 213 /\
    decode_loop (S fuel) (byte :: iter) output n bias i =
    if scalarb n' then decode_loop fuel rest (insert_at i' n' output) n' bias' (i' + 1) else Ret None.
Proof.
  intros Hb Hlen Hn Hi E len1 n' i'. rewrite decode_loop_step, E. cbn [obind].
  change (N.of_nat (length output)) with (len output).
  assert (as_u32 (len output) = len output) as Eas by (unfold as_u32; apply N.mod_small; unfold U32_MAX in *; lia).
  rewrite Eas, chk_ret by lia. cbn [obind]. fold len1.
  unfold sub32. destruct (N.leb_spec i (i + delta)) as [_|]; [|lia]. cbn [obind].
  replace (i + delta - i) with delta by lia.
  assert (1 <= len1) as H1 by (unfold len1; lia).
  destruct (adapt_spec delta len1 (i =? 0)) as (bias' & -> & Had & Hb'); [lia|assumption|].
  cbn [obind]. exists bias'. split; [assumption|]. split; [assumption|].
  assert (i' <= len output) as Hi'.
  { pose proof (N.mod_lt (i + delta) len1 ltac:(lia)). unfold i', len1 in *. lia. }
  destruct (N.ltb_spec (U32_MAX - n) ((i + delta) / len1)) as [Hov|Hov].
  { assert (scalarb n' = false) as ->; [|reflexivity].
    destruct (scalarb n') eqn:Es; [|reflexivity]. exfalso. apply scalarb_spec, scalar_max in Es.
    clearbody i' len1. unfold n' in Es. generalize dependent ((i + delta) / len1). intros x Hx Hy. unfold U32_MAX in *. lia. }
  assert (n' <= U32_MAX) as Hn'.
  { unfold n'. generalize dependent ((i + delta) / len1). intros x Hx. unfold U32_MAX in *. lia. }
  fold n' i'. rewrite chk_ret by assumption. cbn [obind].
  destruct (scalarb n'); [|reflexivity].
  unfold vec_insert. change (N.of_nat (length output)) with (len output).
  destruct (N.leb_spec i' (len output)); [|lia]. cbn [obind].
  rewrite chk_ret by lia. cbn [obind]. reflexivity.
Qed.

Lemma weight_ok_0 : weight_ok 0 1.
Proof. unfold weight_ok, U32_MAX. cbn. lia. Qed.

Lemma decode_loop_sound : forall fuel iter output n bias i,
  (length iter < fuel)%nat -> bias <= 213 -> len output + len iter <= U32_MAX -> n <= 0x10FFFF -> i <= len output ->
  exists o, decode_loop fuel iter output n bias i = Ret o /\
    match o with
    | None => True
    | Some res => exists ds tr, Forall2 digit_char_ci ds iter /\
        expands (i =? 0) bias n i output ds tr res /\ Forall fits tr
    end.
Proof.
  induction fuel as [|fuel IH]; intros iter output n bias i Hf Hb Hl Hn Hi; [lia|].
  destruct iter as [|byte iter].
  - eexists. split; [reflexivity|]. exists [], []. split; [constructor|]. split; [constructor|constructor].
  - rewrite len_cons in Hl. cbn [length] in Hf.
    destruct (decode_delta_sound bias Hb iter byte i 1 0 weight_ok_0) as (o & E & Ho); [unfold U32_MAX in *; lia|].
    change (36 * (0 + 1)) with BASE in E.
    destruct o as [[i2 rest]|].
    2:{ exists None. rewrite decode_loop_step, E. split; [reflexivity|exact I]. }
    destruct Ho as (ds & cs & v & Ecs & HF & Hv & Hi2 & Hm). rewrite N.mul_1_r in Hi2. subst i2.
    destruct (turn fuel byte iter output n bias i v rest Hb) as (bias' & Had & Hb' & ->); [lia|assumption|assumption|exact E|].
    set (len1 := len output + 1) in *. set (n' := n + (i + v) / len1) in *. set (i' := (i + v) mod len1) in *.
    destruct (scalarb n') eqn:Es; [|exists None; auto].
    apply scalarb_spec in Es.
    assert (cs <> []) as Hcs.
    { intros ->. inversion HF; subst. now apply varint_nonempty in Hv. }
    assert (len rest <= len iter) as Hlr.
    { destruct cs as [|c0 cs]; [congruence|]. cbn [app] in Ecs. injection Ecs as -> ->. rewrite len_app. lia. }
    assert (i' <= len output) as Hi'.
    { pose proof (N.mod_lt (i + v) len1 ltac:(unfold len1; lia)). unfold i', len1 in *. lia. }
    destruct (IH rest (insert_at i' n' output) n' bias' (i' + 1)) as (o & Eo & Ho).
    { unfold len in Hlr. lia. } { assumption. } { rewrite insert_len. lia. } { now apply scalar_max. } { rewrite insert_len. lia. }
    exists o. split; [assumption|]. destruct o as [res|]; [|exact I].
    destruct Ho as (ds2 & tr & HF2 & Hex & Hfits).
    exists (ds ++ ds2), ((i, v) :: tr). split; [rewrite Ecs; now apply Forall2_app|]. split.
    + destruct (N.eqb_spec (i' + 1) 0); [lia|]. eapply expands_step; [exact Hv|exact Es|exact Had|exact Hex].
    + constructor; [exact Hm|assumption].
Qed.

Lemma decode_loop_complete : forall first bias n i output ds tr res,
  expands first bias n i output ds tr res -> first = (i =? 0) -> Forall fits tr ->
  forall fuel iter, Forall2 digit_char_ci ds iter -> (length iter < fuel)%nat -> bias <= 213 ->
  len res <= U32_MAX -> n <= 0x10FFFF -> i <= len output ->
  decode_loop fuel iter output n bias i = Ret (Some res).
Proof.
  induction 1 as [first bias n i out|first bias n i out ds delta bias' rest tr res Hv len1 n' i' Hsc Had Hex IH];
    intros Hfirst Hfits fuel iter HF Hf Hb Hl Hn Hi.
  - inversion HF; subst. destruct fuel; [lia|reflexivity].
  - apply Forall2_app_inv_l in HF as (cs & iter2 & HF1 & HF2 & ->).
    inversion Hfits as [|? ? Hfit Hfits']; subst. unfold fits in Hfit. cbn [fst snd] in Hfit.
    destruct cs as [|byte cs].
    { inversion HF1; subst. now apply varint_nonempty in Hv. }
    destruct fuel as [|fuel]; [lia|]. cbn [app] in *. cbn [length] in Hf.
    rewrite app_length in Hf.
    pose proof (expands_length _ _ _ _ _ _ _ _ Hex) as Hlr. rewrite insert_len in Hlr.
    destruct (turn fuel byte (cs ++ iter2) out n bias i delta iter2 Hb) as (bias2 & Had2 & Hb2 & ->);
      [lia|assumption|assumption| |].
    { rewrite <- (N.mul_1_r delta).
      exact (decode_delta_complete bias Hb 0 ds delta Hv (byte :: cs) byte (cs ++ iter2) iter2 i 1 HF1 eq_refl
        ltac:(lia) weight_ok_0). }
    change (len out + 1) with len1 in *. fold n' i'.
    rewrite (proj2 (scalarb_spec n') Hsc).
    change (N.of_nat (length out) + 1) with len1 in Had. rewrite (adapts_fun _ _ _ _ _ Had2 Had) in *.
    assert (i' <= len out) as Hi'.
    { pose proof (N.mod_lt (i + delta) len1 ltac:(unfold len1; lia)) as Hm. unfold i', len1, len in *. lia. }
    apply IH; [|assumption|assumption|lia|assumption|assumption|now apply scalar_max|].
    + destruct (N.eqb_spec (i' + 1) 0); [lia|reflexivity].
    + rewrite insert_len. lia.
Qed.

(** ** The delimiter *)
Lemma rsplit_none s : rsplit s = None <-> ~ In DELIMITER s.
Proof.
  induction s as [|c s IH]; cbn [rsplit]; [tauto|]. destruct (rsplit s) as [[a b]|] eqn:E.
  - split; [discriminate|]. intros H. exfalso. apply H. right.
    destruct (In_dec N.eq_dec DELIMITER s) as [|Hn]; [assumption|]. apply IH in Hn. discriminate.
  - destruct (N.eqb_spec c DELIMITER) as [->|Hne].
    + split; [discriminate|]. intros H. exfalso. apply H. now left.
    + split; [|reflexivity]. intros _ [H|H]; [congruence|]. now apply (proj1 IH eq_refl).
Qed.
Lemma rsplit_some s a b : rsplit s = Some (a, b) <-> s = a ++ DELIMITER :: b /\ ~ In DELIMITER b.
Proof.
  revert a b. induction s as [|c s IH]; intros a b; cbn [rsplit].
  - split; [discriminate|]. intros [H _]. now destruct a.
  - destruct (rsplit s) as [[a' b']|] eqn:E.
    + destruct (proj1 (IH a' b') eq_refl) as [-> Hb']. split.
      * intros [= <- <-]. auto.
      * intros [H Hb]. destruct a as [|c' a]; cbn [app] in H; injection H as -> H.
        { exfalso. apply Hb. rewrite <- H. apply in_or_app. right. now left. }
        assert (Some (a', b') = Some (a, b)) as E2 by (apply IH; auto). now injection E2 as -> ->.
    + destruct (N.eqb_spec c DELIMITER) as [->|Hne].
      * split.
        -- intros [= <- <-]. split; [reflexivity|]. now apply rsplit_none.
        -- intros [H Hb]. destruct a as [|c' a]; cbn [app] in H; [now injection H as ->|]. injection H as H1 H2.
           exfalso. apply rsplit_none in E. apply E. rewrite H2. apply in_or_app. right. now left.
      * split; [discriminate|]. intros [H Hb]. destruct a as [|c' a]; cbn [app] in H; injection H as H1 H2; [congruence|].
        exfalso. apply rsplit_none in E. apply E. rewrite H2. apply in_or_app. right. now left.
Qed.

Lemma digit_not_delimiter d c : digit_char_ci d c -> c <> DELIMITER.
Proof. unfold digit_char_ci, digit_char, DELIMITER. lia. Qed.
Lemma digits_no_delimiter ds cs : Forall2 digit_char_ci ds cs -> ~ In DELIMITER cs.
Proof.
  induction 1 as [|d c ds cs H _ IH]; [auto|]. intros [E|Hin]; [|auto]. now apply digit_not_delimiter in H.
Qed.

(** The two parts the decoder works on. *)
Definition parts (p : str) : str * str :=
  match rsplit p with
  | None => ([], p)
  | Some ([], _) => ([], p)
  | Some (basic, rest) => (basic, rest)
  end.
Lemma decode_parts p : decode p =
  decode_loop (S (length (snd (parts p)))) (snd (parts p)) (fst (parts p)) INITIAL_N INITIAL_BIAS 0.
Proof. unfold decode, parts. destruct (rsplit p) as [[[|c b] r]|]; reflexivity. Qed.
Lemma parts_len p : len (fst (parts p)) + len (snd (parts p)) <= len p.
Proof.
  unfold parts. destruct (rsplit p) as [[[|c b] r]|] eqn:E; cbn [fst snd]; rewrite ?len_nil; [lia| |lia].
  apply rsplit_some in E as [-> _]. rewrite len_app, !len_cons. lia.
Qed.
Lemma parts_join p ds : Forall2 digit_char_ci ds (snd (parts p)) ->
  p = match fst (parts p) with [] => snd (parts p) | _ => fst (parts p) ++ 0x2D :: snd (parts p) end.
Proof.
  unfold parts. destruct (rsplit p) as [[[|c b] r]|] eqn:E; cbn [fst snd]; intros HF; try reflexivity.
  now apply rsplit_some in E as [-> _].
Qed.
Lemma parts_of b ds cs : Forall2 digit_char_ci ds cs ->
  parts (match b with [] => cs | _ => b ++ 0x2D :: cs end) = (b, cs).
Proof.
  intros HF. pose proof (digits_no_delimiter _ _ HF) as Hn. unfold parts. destruct b as [|c b].
  - now rewrite (proj2 (rsplit_none cs) Hn).
  - change 0x2D with DELIMITER. now rewrite (proj2 (rsplit_some ((c :: b) ++ DELIMITER :: cs) (c :: b) cs) (conj eq_refl Hn)).
Qed.

Lemma decode_total p : len p <= U32_MAX -> exists o, decode p = Ret o /\
  match o with
  | None => True
  | Some res => exists ds tr, Forall2 digit_char_ci ds (snd (parts p)) /\
      expands true 72 128 0 (fst (parts p)) ds tr res /\ Forall fits tr
  end.
Proof.
  intros Hl. rewrite decode_parts. pose proof (parts_len p) as Hp.
  apply (decode_loop_sound (S (length (snd (parts p)))) (snd (parts p)) (fst (parts p)) 128 72 0); try lia.
Qed.

Lemma decode_complete p s tr : punycode digit_char_ci s p tr -> Forall fits tr -> len s <= U32_MAX ->
  decode p = Ret (Some s).
Proof.
  intros (b & ds & cs & Hb & Hex & HF & ->) Hfits Hl.
  rewrite decode_parts, (parts_of b ds cs HF). cbn [fst snd].
  apply (decode_loop_complete true 72 128 0 b ds tr s Hex eq_refl Hfits _ _ HF); try lia.
Qed.

Lemma expands_len_digits first bias n i out ds tr res : expands first bias n i out ds tr res ->
  len res <= len out + len ds.
Proof.
  induction 1 as [|? ? n i out ds delta ? rest tr res Hv len1 n' i' ? ? ? IH]; [lia|].
  rewrite insert_len in IH. rewrite len_app. destruct ds; [now apply varint_nonempty in Hv|]. rewrite len_cons. lia.
Qed.
Lemma Forall2_len {P : N -> N -> Prop} ds cs : Forall2 P ds cs -> len ds = len cs.
Proof. intros H. unfold len. induction H; cbn [length]; lia. Qed.

Lemma decode_iff p s : Forall (fun c => c < 128) p -> len p <= U32_MAX ->
  (decode p = Ret (Some s) <-> exists tr, punycode digit_char_ci s p tr /\ Forall fits tr).
Proof.
  intros Ha Hl. split.
  - intros H. destruct (decode_total p Hl) as (o & E & Ho). rewrite E in H. injection H as ->.
    destruct Ho as (ds & tr & HF & Hex & Hfits). exists tr. split; [|assumption].
    exists (fst (parts p)), ds, (snd (parts p)). split; [|split; [assumption|split; [assumption|now apply parts_join with ds]]].
    unfold parts. destruct (rsplit p) as [[[|c b] r]|] eqn:Er; cbn [fst]; try constructor;
      apply rsplit_some in Er as [-> _]; apply Forall_app in Ha as [Ha _]; now inversion Ha.
  - intros (tr & Hp & Hfits). apply (decode_complete p s tr Hp Hfits).
    destruct Hp as (b & ds & cs & Hb & Hex & HF & ->).
    pose proof (expands_len_digits _ _ _ _ _ _ _ _ Hex) as H1. rewrite (Forall2_len _ _ HF) in H1.
    destruct b as [|c b]; [rewrite len_nil in H1; lia|]. rewrite len_app, !len_cons in *. lia.
Qed.

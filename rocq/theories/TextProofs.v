(** Facts about the text primitives of [TextModel]. *)
From Coq Require Import List NArith ZArith Lia Bool ZifyBool ZifyNat ZifyN.
From Verif Require Import Base TextModel.
Import ListNotations.
Open Scope N_scope.
Ltac Zify.zify_post_hook ::= Z.div_mod_to_equations.

(** Value of a list of base-16 digits. *)
Definition value (acc : N) (ds : list N) : N := fold_left (fun a d => a * 16 + d) ds acc.

Lemma value_app acc a b : value acc (a ++ b) = value (value acc a) b.
Proof. apply fold_left_app. Qed.

Lemma value_acc ds : forall acc, value acc ds = acc * 16 ^ N.of_nat (length ds) + value 0 ds.
Proof.
  unfold value. induction ds as [|d ds IH]; intros acc.
  - cbn [fold_left length]. change (N.of_nat 0) with 0. rewrite N.pow_0_r. lia.
  - cbn [fold_left length]. rewrite IH, (IH (0 * 16 + d)).
    rewrite Nat2N.inj_succ, N.pow_succ_r'. lia.
Qed.

Lemma value_lt ds : Forall (fun d => d < 16) ds -> value 0 ds < 16 ^ N.of_nat (length ds).
Proof.
  induction 1 as [|d ds Hd _ IH].
  - cbn. lia.
  - unfold value. cbn [fold_left length]. fold (value (0 * 16 + d) ds). rewrite value_acc.
    rewrite Nat2N.inj_succ, N.pow_succ_r'. nia.
Qed.

Lemma value_ge d ds : 1 <= d -> 16 ^ N.of_nat (length ds) <= value 0 (d :: ds).
Proof.
  intros Hd. unfold value. cbn [fold_left]. fold (value (0 * 16 + d) ds). rewrite value_acc. nia.
Qed.

Lemma value_mono ds : forall acc, acc <= value acc ds.
Proof.
  induction ds as [|d ds IH]; intros acc; unfold value; cbn [fold_left]; [lia|].
  fold (value (acc * 16 + d) ds). specialize (IH (acc * 16 + d)). lia.
Qed.

(** Canonical digit lists: non-empty, no superfluous leading zero. *)
Definition canonical (ds : list N) : Prop :=
  Forall (fun d => d < 16) ds /\ (ds = [0] \/ exists d r, ds = d :: r /\ 1 <= d).

Lemma hex_loop_digits digit fuel : forall n acc, n < 16 ^ N.of_nat fuel -> (0 < fuel)%nat ->
  exists ds, hex_loop digit fuel n acc = map digit ds ++ acc /\ canonical ds /\ value 0 ds = n.
Proof.
  induction fuel as [|fuel IH]; intros n acc Hn Hf; [lia|].
  cbn [hex_loop]. destruct (N.eqb_spec (n / 16) 0) as [E|E].
  - exists [n mod 16]. split; [reflexivity|]. split; [split|].
    + constructor; [lia|constructor].
    + destruct (N.eq_dec n 0) as [->|Hz]; [left; reflexivity|]. right. exists (n mod 16), []. split; [reflexivity|lia].
    + unfold value. cbn [fold_left]. lia.
  - assert (Hf' : (0 < fuel)%nat).
    { destruct fuel; [|lia]. change (16 ^ N.of_nat 1) with 16 in Hn. lia. }
    assert (Hn' : n / 16 < 16 ^ N.of_nat fuel).
    { rewrite Nat2N.inj_succ, N.pow_succ_r' in Hn. generalize dependent (16 ^ N.of_nat fuel). intros. lia. }
    destruct (IH (n / 16) (digit (n mod 16) :: acc) Hn' Hf') as (ds & Eq & [Hds Hc] & Hv).
    exists (ds ++ [n mod 16]). repeat split.
    + rewrite Eq, map_app, <- app_assoc. reflexivity.
    + apply Forall_app. split; [exact Hds|]. constructor; [lia|constructor].
    + right. destruct Hc as [->|(d & r & -> & Hd)].
      * unfold value in Hv. cbn in Hv. lia.
      * exists d, (r ++ [n mod 16]). split; [reflexivity|exact Hd].
    + rewrite value_app, Hv. unfold value. cbn [fold_left]. lia.
Qed.

Lemma fmt_upper_digits n : n <= 0xFFFFFFFF ->
  exists ds, fmt_upper_hex n = map upper_hex_digit ds /\ canonical ds /\ value 0 ds = n.
Proof.
  intros H. destruct (hex_loop_digits upper_hex_digit 8 n []) as (ds & E & Hc & Hv).
  - change (16 ^ N.of_nat 8) with 0x100000000. lia.
  - lia.
  - exists ds. rewrite app_nil_r in E. auto.
Qed.

Lemma fmt_lower_digits n : n <= 0xFFFFFFFF ->
  exists ds, fmt_lower_hex n = map lower_hex_digit ds /\ canonical ds /\ value 0 ds = n.
Proof.
  intros H. destruct (hex_loop_digits lower_hex_digit 8 n []) as (ds & E & Hc & Hv).
  - change (16 ^ N.of_nat 8) with 0x100000000. lia.
  - lia.
  - exists ds. rewrite app_nil_r in E. auto.
Qed.

Lemma canonical_length ds : canonical ds -> value 0 ds <> 0 ->
  16 ^ N.of_nat (length ds - 1) <= value 0 ds < 16 ^ N.of_nat (length ds).
Proof.
  intros [Hf Hc] Hn. split; [|apply value_lt, Hf].
  destruct Hc as [->|(d & r & -> & Hd)].
  - unfold value in Hn. cbn in Hn. lia.
  - cbn [length]. rewrite Nat.sub_succ, Nat.sub_0_r. apply value_ge, Hd.
Qed.

Lemma canonical_nonempty ds : canonical ds -> ds <> [].
Proof. intros [_ [->|(d & r & -> & _)]]; discriminate. Qed.

Lemma to_digit16_upper d : d < 16 -> to_digit16 (upper_hex_digit d) = Some d.
Proof.
  intros H. unfold upper_hex_digit, to_digit16.
  destruct (N.ltb_spec d 10).
  - replace ((0x30 <=? 0x30 + d) && (0x30 + d <=? 0x39)) with true by lia. f_equal. lia.
  - replace ((0x30 <=? 0x37 + d) && (0x37 + d <=? 0x39)) with false by lia.
    replace ((0x61 <=? 0x37 + d) && (0x37 + d <=? 0x66)) with false by lia.
    replace ((0x41 <=? 0x37 + d) && (0x37 + d <=? 0x46)) with true by lia. f_equal. lia.
Qed.

Lemma to_digit16_lower d : d < 16 -> to_digit16 (lower_hex_digit d) = Some d.
Proof.
  intros H. unfold lower_hex_digit, to_digit16.
  destruct (N.ltb_spec d 10).
  - replace ((0x30 <=? 0x30 + d) && (0x30 + d <=? 0x39)) with true by lia. f_equal. lia.
  - replace ((0x30 <=? 0x57 + d) && (0x57 + d <=? 0x39)) with false by lia.
    replace ((0x61 <=? 0x57 + d) && (0x57 + d <=? 0x66)) with true by lia. f_equal. lia.
Qed.

Lemma radix_loop_digits max ds : Forall (fun d => d < 16) ds -> forall acc,
  value acc ds <= max -> radix_loop max acc (map upper_hex_digit ds) = Some (value acc ds).
Proof.
  induction 1 as [|d ds Hd _ IH]; intros acc Hm; [reflexivity|].
  cbn [map radix_loop]. rewrite (to_digit16_upper _ Hd).
  unfold value in Hm |- *. cbn [fold_left] in Hm |- *. fold (value (acc * 16 + d) ds) in Hm |- *.
  pose proof (value_mono ds (acc * 16 + d)).
  replace (acc * 16 + d <=? max) with true by lia. apply IH, Hm.
Qed.

Definition upper_hex_char (c : N) : bool :=
  ((0x30 <=? c) && (c <=? 0x39)) || ((0x41 <=? c) && (c <=? 0x46)).

Lemma upper_hex_digit_char d : d < 16 -> upper_hex_char (upper_hex_digit d) = true.
Proof. intros H. unfold upper_hex_digit, upper_hex_char. destruct (N.ltb_spec d 10); lia. Qed.

(** The padded form: digits with leading zeros up to the width. *)
Lemma map_repeat {A B} (f : A -> B) x k : map f (repeat x k) = repeat (f x) k.
Proof. induction k; cbn; [reflexivity|rewrite IHk; reflexivity]. Qed.

Lemma value_zeros k : value 0 (repeat 0 k) = 0.
Proof. induction k; [reflexivity|]. cbn. exact IHk. Qed.

Lemma fmt_upper_w_digits w n : n <= 0xFFFFFFFF ->
  exists ds, fmt_upper_hex_w w n = map upper_hex_digit ds /\ Forall (fun d => d < 16) ds /\
    value 0 ds = n /\ ds <> [] /\ (w <= length ds)%nat /\ ((w < length ds)%nat -> canonical ds).
Proof.
  intros H. destruct (fmt_upper_digits n H) as (ds & E & Hc & Hv).
  exists (repeat 0 (w - length ds) ++ ds). unfold fmt_upper_hex_w, pad_zero. rewrite E, map_length.
  repeat split.
  - rewrite map_app, map_repeat. reflexivity.
  - apply Forall_app. split; [|apply Hc]. apply Forall_forall. intros x Hx. apply repeat_spec in Hx. subst. lia.
  - rewrite value_app, value_zeros. exact Hv.
  - intros X. apply app_eq_nil in X. destruct X as [_ X]. exact (canonical_nonempty ds Hc X).
  - rewrite app_length, repeat_length. lia.
  - rewrite app_length, repeat_length in H0. destruct (w - length ds)%nat eqn:D; [apply Hc|lia].
  - rewrite app_length, repeat_length in H0. destruct (w - length ds)%nat eqn:D; [apply Hc|lia].
Qed.

Lemma from_str_radix16_digits max ds : Forall (fun d => d < 16) ds -> ds <> [] -> value 0 ds <= max ->
  from_str_radix16 max (map upper_hex_digit ds) = Some (value 0 ds).
Proof.
  intros Hf Hne Hm. destruct ds as [|d ds]; [contradiction|].
  assert (Hd : upper_hex_digit d <> 0x2B).
  { inversion Hf; subst. unfold upper_hex_digit. destruct (d <? 10); lia. }
  rewrite <- (radix_loop_digits max (d :: ds) Hf 0 Hm).
  cbn [map]. unfold from_str_radix16.
  generalize dependent (upper_hex_digit d). intros c Hc.
  destruct c as [|p]; [reflexivity|].
  do 6 (destruct p as [p|p|]; try reflexivity). contradiction.
Qed.

Lemma from_str_fmt max w n : n <= max -> max <= 0xFFFFFFFF ->
  from_str_radix16 max (fmt_upper_hex_w w n) = Some n.
Proof.
  intros Hn Hm. destruct (fmt_upper_w_digits w n) as (ds & E & Hf & Hv & Hne & _); [lia|].
  rewrite E, from_str_radix16_digits; [congruence|exact Hf|exact Hne|lia].
Qed.

(** * UTF-8 and UTF-16 *)
Lemma from_utf8_encode c r : scalar c -> from_utf8 (encode_utf8 c ++ r) = option_map (cons c) (from_utf8 r).
Proof.
  intros Hc. unfold encode_utf8.
  destruct (N.ltb_spec c 0x80); [|destruct (N.ltb_spec c 0x800); [|destruct (N.ltb_spec c 0x10000)]].
  - cbn [app from_utf8]. replace (c <? 0x80) with true by lia. reflexivity.
  - cbn [app from_utf8].
    replace (0xC0 + c / 0x40 <? 0x80) with false by lia.
    replace ((0xC2 <=? 0xC0 + c / 0x40) && (0xC0 + c / 0x40 <=? 0xDF)) with true by lia.
    unfold contb. replace ((0x80 <=? 0x80 + c mod 0x40) && (0x80 + c mod 0x40 <=? 0xBF)) with true by lia.
    replace ((0xC0 + c / 0x40 - 0xC0) * 0x40 + (0x80 + c mod 0x40 - 0x80)) with c by lia. reflexivity.
  - cbn [app from_utf8].
    replace (0xE0 + c / 0x1000 <? 0x80) with false by lia.
    replace ((0xC2 <=? 0xE0 + c / 0x1000) && (0xE0 + c / 0x1000 <=? 0xDF)) with false by lia.
    replace ((0xE0 <=? 0xE0 + c / 0x1000) && (0xE0 + c / 0x1000 <=? 0xEF)) with true by lia.
    replace ((0xE0 + c / 0x1000 - 0xE0) * 0x1000 + (0x80 + (c / 0x40) mod 0x40 - 0x80) * 0x40
             + (0x80 + c mod 0x40 - 0x80)) with c by lia.
    cbv zeta. unfold contb.
    replace ((0x80 <=? 0x80 + (c / 0x40) mod 0x40) && (0x80 + (c / 0x40) mod 0x40 <=? 0xBF)) with true by lia.
    replace ((0x80 <=? 0x80 + c mod 0x40) && (0x80 + c mod 0x40 <=? 0xBF)) with true by lia.
    replace (0x800 <=? c) with true by lia.
    apply scalarb_spec in Hc. rewrite Hc. reflexivity.
  - assert (c <= 0x10FFFF) by (unfold scalar in Hc; lia).
    cbn [app from_utf8].
    replace (0xF0 + c / 0x40000 <? 0x80) with false by lia.
    replace ((0xC2 <=? 0xF0 + c / 0x40000) && (0xF0 + c / 0x40000 <=? 0xDF)) with false by lia.
    replace ((0xE0 <=? 0xF0 + c / 0x40000) && (0xF0 + c / 0x40000 <=? 0xEF)) with false by lia.
    replace ((0xF0 <=? 0xF0 + c / 0x40000) && (0xF0 + c / 0x40000 <=? 0xF4)) with true by lia.
    replace ((0xF0 + c / 0x40000 - 0xF0) * 0x40000 + (0x80 + (c / 0x1000) mod 0x40 - 0x80) * 0x1000
             + (0x80 + (c / 0x40) mod 0x40 - 0x80) * 0x40 + (0x80 + c mod 0x40 - 0x80)) with c by lia.
    cbv zeta. unfold contb.
    replace ((0x80 <=? 0x80 + (c / 0x1000) mod 0x40) && (0x80 + (c / 0x1000) mod 0x40 <=? 0xBF)) with true by lia.
    replace ((0x80 <=? 0x80 + (c / 0x40) mod 0x40) && (0x80 + (c / 0x40) mod 0x40 <=? 0xBF)) with true by lia.
    replace ((0x80 <=? 0x80 + c mod 0x40) && (0x80 + c mod 0x40 <=? 0xBF)) with true by lia.
    replace (0x10000 <=? c) with true by lia.
    apply scalarb_spec in Hc. rewrite Hc. reflexivity.
Qed.

Lemma from_utf8_all s : Forall scalar s -> from_utf8 (flat_map encode_utf8 s) = Some s.
Proof.
  induction 1 as [|c s Hc _ IH]; [reflexivity|].
  cbn [flat_map]. rewrite from_utf8_encode by exact Hc. rewrite IH. reflexivity.
Qed.

Lemma encode_utf8_bytes c : scalar c -> Forall (fun b => b <= 0xFF) (encode_utf8 c) /\ encode_utf8 c <> [] /\
  N.of_nat (length (encode_utf8 c)) = utf8_len c.
Proof.
  intros Hc. assert (c <= 0x10FFFF) by (unfold scalar in Hc; lia).
  unfold encode_utf8, utf8_len. split; [|split].
  - destruct (N.ltb_spec c 0x80); [|destruct (N.ltb_spec c 0x800); [|destruct (N.ltb_spec c 0x10000)]];
      repeat constructor; lia.
  - repeat destruct (_ <? _); discriminate.
  - repeat destruct (_ <? _); reflexivity.
Qed.

Lemma from_utf16_encode c r : scalar c -> from_utf16 (encode_utf16 c ++ r) = option_map (cons c) (from_utf16 r).
Proof.
  intros Hc. assert (c <= 0x10FFFF) by (unfold scalar in Hc; lia). unfold encode_utf16.
  destruct (N.ltb_spec c 0x10000).
  - cbn [app from_utf16]. replace ((c <? 0xD800) || (0xDFFF <? c)) with true; [reflexivity|].
    unfold scalar in Hc. lia.
  - cbn [app from_utf16].
    replace ((0xD800 + (c - 0x10000) / 0x400 <? 0xD800) || (0xDFFF <? 0xD800 + (c - 0x10000) / 0x400)) with false by lia.
    replace (0xDC00 <=? 0xD800 + (c - 0x10000) / 0x400) with false by lia.
    replace ((0xDC00 <=? 0xDC00 + (c - 0x10000) mod 0x400) && (0xDC00 + (c - 0x10000) mod 0x400 <=? 0xDFFF)) with true by lia.
    replace (0x10000 + (0xD800 + (c - 0x10000) / 0x400 - 0xD800) * 0x400 + (0xDC00 + (c - 0x10000) mod 0x400 - 0xDC00)) with c by lia.
    reflexivity.
Qed.

Lemma from_utf16_all s : Forall scalar s -> from_utf16 (flat_map encode_utf16 s) = Some s.
Proof.
  induction 1 as [|c s Hc _ IH]; [reflexivity|].
  cbn [flat_map]. rewrite from_utf16_encode by exact Hc. rewrite IH. reflexivity.
Qed.

Lemma encode_utf16_units c : scalar c -> Forall (fun b => b <= 0xFFFF) (encode_utf16 c) /\ encode_utf16 c <> [].
Proof.
  intros Hc. assert (c <= 0x10FFFF) by (unfold scalar in Hc; lia).
  unfold encode_utf16. destruct (N.ltb_spec c 0x10000); split; try discriminate; repeat constructor; lia.
Qed.

(** * String order *)
Lemma str_cmp_refl s : str_cmp s s = Eq.
Proof. induction s as [|a s IH]; [reflexivity|]. cbn. rewrite N.compare_refl. exact IH. Qed.

Lemma str_cmp_eq s : forall t, str_cmp s t = Eq <-> s = t.
Proof.
  induction s as [|a s IH]; intros [|b t]; cbn [str_cmp]; try (split; [discriminate|discriminate] || tauto).
  destruct (N.compare_spec a b) as [->|H|H].
  - rewrite IH. split; [intros ->; reflexivity|]. injection 1; auto.
  - split; [discriminate|]. injection 1. intros. lia.
  - split; [discriminate|]. injection 1. intros. lia.
Qed.

Lemma str_cmp_antisym s : forall t, str_cmp t s = CompOpp (str_cmp s t).
Proof.
  induction s as [|a s IH]; intros [|b t]; cbn [str_cmp]; try reflexivity.
  rewrite (N.compare_antisym a b). destruct (a ?= b); cbn [CompOpp]; [apply IH|reflexivity|reflexivity].
Qed.

Lemma str_cmp_trans o s : forall t u, str_cmp s t = o -> str_cmp t u = o -> str_cmp s u = o.
Proof.
  induction s as [|a s IH]; intros [|b t] [|c u] H1 H2; cbn [str_cmp] in *; try congruence.
  destruct (N.compare_spec a b) as [->|H|H].
  - destruct (N.compare_spec b c) as [->|H'|H']; try congruence. eapply IH; eassumption.
  - subst o. destruct (N.compare_spec b c) as [->|H'|H']; try discriminate;
      replace (a ?= c) with Lt by (symmetry; apply N.compare_lt_iff; lia); reflexivity.
  - subst o. destruct (N.compare_spec b c) as [->|H'|H']; try discriminate;
      replace (a ?= c) with Gt by (symmetry; apply N.compare_gt_iff; lia); reflexivity.
Qed.

(** The model compares characters; Rust compares the UTF-8 bytes.  The two
    orders are the same. *)
Lemma bytes_order a b : scalar a -> scalar b -> forall s t,
  str_cmp (encode_utf8 a ++ s) (encode_utf8 b ++ t) = match a ?= b with Eq => str_cmp s t | o => o end.
Proof.
  intros Ha Hb s t.
  assert (a <= 0x10FFFF) by (unfold scalar in Ha; lia).
  assert (b <= 0x10FFFF) by (unfold scalar in Hb; lia).
  clear Ha Hb.
  unfold encode_utf8.
  destruct (N.compare_spec a b) as [->|Hlt|Hgt].
  - repeat match goal with |- context [?x <? ?y] => destruct (N.ltb_spec x y) end;
      cbn [app str_cmp]; rewrite ?N.compare_refl; reflexivity.
  - repeat match goal with |- context [?x <? ?y] => destruct (N.ltb_spec x y) end;
      cbn [app str_cmp]; try lia;
      repeat match goal with |- context [?x ?= ?y] => destruct (N.compare_spec x y) end;
      try reflexivity; exfalso; lia.
  - repeat match goal with |- context [?x <? ?y] => destruct (N.ltb_spec x y) end;
      cbn [app str_cmp]; try lia;
      repeat match goal with |- context [?x ?= ?y] => destruct (N.compare_spec x y) end;
      try reflexivity; exfalso; lia.
Qed.

Lemma str_cmp_bytes s : Forall scalar s -> forall t, Forall scalar t ->
  str_cmp (flat_map encode_utf8 s) (flat_map encode_utf8 t) = str_cmp s t.
Proof.
  induction 1 as [|a s Ha _ IH]; intros t Ht; destruct Ht as [|b t Hb Ht].
  - reflexivity.
  - destruct (encode_utf8_bytes b Hb) as (_ & Hne & _). cbn [flat_map].
    destruct (encode_utf8 b); [contradiction|reflexivity].
  - destruct (encode_utf8_bytes a Ha) as (_ & Hne & _). cbn [flat_map].
    destruct (encode_utf8 a); [contradiction|reflexivity].
  - cbn [flat_map]. rewrite bytes_order by assumption. cbn [str_cmp]. rewrite IH by exact Ht. reflexivity.
Qed.

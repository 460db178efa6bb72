(** Proofs about names, ages and basic classifications. *)
From Coq Require Import List NArith ZArith Lia Bool ZifyBool ZifyNat ZifyN String.
From Verif Require Import Base TableModel TableTypes TablesMisc UcdModel HangulModel TextModel TextProofs
  NameModel NameSpec.
Import ListNotations.
Open Scope N_scope.
Ltac Zify.zify_post_hook ::= Z.div_mod_to_equations.

(** * Jamo short names *)
Definition index_check (base : N) (names : list string) : bool :=
  forallb (fun i => match jamo_short_name (base + N.of_nat i) with
                    | Ret s => str_eqb s (text (nth i names ""%string)) | Panic => false end)
          (seq 0 (List.length names)).

Lemma str_eqb_eq s : forall t, str_eqb s t = true <-> s = t.
Proof.
  induction s as [|a s IH]; intros [|b t]; cbn [str_eqb]; try (split; discriminate || reflexivity).
  rewrite andb_true_iff, IH, N.eqb_eq. split; [intros [-> ->]; reflexivity|]. intros [= -> ->]. auto.
Qed.

Lemma index_check_sound base names i : index_check base names = true -> (i < List.length names)%nat ->
  jamo_short_name (base + N.of_nat i) = Ret (text (nth i names ""%string)).
Proof.
  unfold index_check. rewrite forallb_forall. intros H Hi.
  assert (Hin : In i (seq 0 (List.length names))) by (apply in_seq; lia).
  specialize (H i Hin). cbv beta in H.
  destruct (jamo_short_name _) as [s|]; [|discriminate].
  apply str_eqb_eq in H. rewrite H. reflexivity.
Qed.

Lemma leading_ok l : (l < 19)%nat -> jamo_short_name (0x1100 + N.of_nat l) = Ret (text (nth l leading_names ""%string)).
Proof. intros H. apply index_check_sound; [vm_compute; reflexivity|exact H]. Qed.
Lemma vowel_ok v : (v < 21)%nat -> jamo_short_name (0x1161 + N.of_nat v) = Ret (text (nth v vowel_names ""%string)).
Proof. intros H. apply index_check_sound; [vm_compute; reflexivity|exact H]. Qed.
Lemma trailing_check :
  forallb (fun i => match jamo_short_name (0x11A7 + N.of_nat i) with
                    | Ret s => str_eqb s (text (nth i trailing_names ""%string)) | Panic => false end)
          (seq 1 27) = true.
Proof. vm_compute. reflexivity. Qed.
Lemma trailing_ok t : (1 <= t < 28)%nat ->
  jamo_short_name (0x11A7 + N.of_nat t) = Ret (text (nth t trailing_names ""%string)).
Proof.
  intros H. pose proof trailing_check as C. rewrite forallb_forall in C.
  assert (Hin : In t (seq 1 27)) by (apply in_seq; lia).
  specialize (C t Hin). cbv beta in C.
  destruct (jamo_short_name _) as [s|]; [|discriminate].
  apply str_eqb_eq in C. rewrite C. reflexivity.
Qed.

Definition syl (l v t : nat) : N := 0xAC00 + (N.of_nat l * 21 + N.of_nat v) * 28 + N.of_nat t.
Definition valid (l v t : nat) : Prop := (l < 19)%nat /\ (v < 21)%nat /\ (t < 28)%nat.
Definition short (l v t : nat) : list str :=
  text (nth l leading_names ""%string) :: text (nth v vowel_names ""%string) ::
  match t with O => [] | _ => [text (nth t trailing_names ""%string)] end.

Lemma syl_range l v t : valid l v t -> within 0xAC00 0xD7A3 (syl l v t) = true.
Proof. unfold valid, within, syl. lia. Qed.

Lemma syl_onto ch : within 0xAC00 0xD7A3 ch = true -> exists l v t, valid l v t /\ ch = syl l v t.
Proof.
  intros H. unfold within in H.
  exists (N.to_nat ((ch - 0xAC00) / 588)), (N.to_nat (((ch - 0xAC00) / 28) mod 21)),
         (N.to_nat ((ch - 0xAC00) mod 28)).
  unfold valid, syl. rewrite !N2Nat.id. lia.
Qed.

Lemma syl_jamos l v t : valid l v t -> syllable_jamo_names (syl l v t) = Ret (short l v t).
Proof.
  intros (Hl & Hv & Ht). unfold syllable_jamo_names, decompose_syllable.
  assert (E0 : (syl l v t <? S_BASE) = false) by (unfold syl, S_BASE; lia).
  rewrite E0. cbv zeta.
  assert (E1 : (syl l v t - S_BASE) / N_COUNT = N.of_nat l).
  { change N_COUNT with 588. unfold syl, S_BASE. lia. }
  assert (E2 : ((syl l v t - S_BASE) mod N_COUNT) / T_COUNT = N.of_nat v).
  { change N_COUNT with 588. unfold syl, S_BASE, T_COUNT. lia. }
  assert (E3 : (syl l v t - S_BASE) mod T_COUNT = N.of_nat t).
  { unfold syl, S_BASE, T_COUNT. lia. }
  rewrite E1, E2, E3. unfold short, L_BASE, V_BASE, T_BASE. cbn [obind].
  destruct t as [|t].
  - change (0 <? N.of_nat 0) with false. cbn [jamo_names obind].
    rewrite leading_ok, vowel_ok by assumption. reflexivity.
  - replace (0 <? N.of_nat (S t)) with true by lia.
    cbn [jamo_names]. rewrite leading_ok, vowel_ok, trailing_ok by (assumption || lia). reflexivity.
Qed.

Lemma syl_fmt l v t : valid l v t -> name_fmt (NR1 (syl l v t)) = Ret (syllable_name l v t).
Proof.
  intros H. cbn [name_fmt]. rewrite (syl_jamos _ _ _ H). cbn [obind]. unfold syllable_name, short.
  f_equal. change PREFIX_HANGUL_SYLLABLE with (text "HANGUL SYLLABLE "). f_equal.
  destruct t; cbn [List.concat]; rewrite ?app_nil_r; reflexivity.
Qed.

(** * C46: lengths *)
Lemma sum_bytes_concat ss : str_bytes (List.concat ss) = sum_bytes ss.
Proof.
  induction ss as [|s ss IH]; [reflexivity|]. cbn [List.concat]. rewrite str_bytes_app, IH. reflexivity.
Qed.

Lemma str_bytes_cons c s : str_bytes (c :: s) = utf8_len c + str_bytes s.
Proof. reflexivity. Qed.

Lemma join_bytes rest : str_bytes (flat_map (fun piece => 0x20 :: piece) rest) =
  N.of_nat (List.length rest) + sum_bytes rest.
Proof.
  induction rest as [|p rest IH]; [reflexivity|].
  cbn [flat_map List.length]. rewrite str_bytes_app, IH, str_bytes_cons.
  change (utf8_len 0x20) with 1. unfold sum_bytes. cbn [fold_right]. lia.
Qed.

Lemma ascii_bytes s : Forall (fun c => c < 128) s -> str_bytes s = N.of_nat (List.length s).
Proof.
  induction 1 as [|c s Hc _ IH]; [reflexivity|]. rewrite str_bytes_cons, IH.
  unfold utf8_len. replace (c <? 0x80) with true by lia. cbn [List.length]. lia.
Qed.

Lemma digits_count n ds : n <> 0 -> canonical ds -> value 0 ds = n ->
  N.of_nat (List.length ds) = number_of_hex_digits n.
Proof.
  intros Hn Hc Hv. assert (Hb := canonical_length ds Hc). rewrite Hv in Hb. specialize (Hb Hn).
  assert (Hne : (0 < List.length ds)%nat).
  { destruct ds; [|cbn; lia]. destruct (canonical_nonempty [] Hc eq_refl). }
  unfold number_of_hex_digits.
  assert (Hs : N.size n = N.succ (N.log2 n)) by (apply N.size_log2, Hn).
  rewrite Hs. clear Hs.
  replace (N.of_nat (List.length ds - 1)) with (N.of_nat (List.length ds) - 1) in Hb by lia.
  generalize dependent (N.of_nat (List.length ds)). intros k Hb.
  assert (Hk : 0 < k \/ k = 0) by lia.
  destruct Hk as [Hk| ->].
  2:{ change (16 ^ 0) with 1 in Hb. lia. }
  destruct Hb as [H1 H2].
  replace 16 with (2 ^ 4) in H1, H2 by reflexivity.
  rewrite <- !N.pow_mul_r in H1, H2.
  assert (L1 : 4 * (k - 1) <= N.log2 n).
  { apply N.log2_le_pow2; [lia|exact H1]. }
  assert (L2 : N.log2 n < 4 * k).
  { apply N.log2_lt_pow2; [lia|exact H2]. }
  lia.
Qed.

Lemma upper_hex_digit_ascii d : d < 16 -> upper_hex_digit d < 128.
Proof. intros H. unfold upper_hex_digit. destruct (N.ltb_spec d 10); lia. Qed.

Lemma fmt_bytes n : n <> 0 -> n <= 0xFFFFFFFF -> str_bytes (fmt_upper_hex n) = number_of_hex_digits n.
Proof.
  intros Hn H. destruct (fmt_upper_digits n H) as (ds & E & Hc & Hv). rewrite E.
  rewrite ascii_bytes.
  - rewrite map_length. apply digits_count; assumption.
  - apply Forall_map. eapply Forall_impl; [|apply Hc]. cbv beta. apply upper_hex_digit_ascii.
Qed.

(** Name values a program can obtain from a character. *)
Definition derived_prefix (p : str) (ch : N) : Prop :=
  (p = PREFIX_CJK_UNIFIED_IDEOGRAPH /\
     (0x3400 <= ch <= 0x4DB5 \/ 0x4E00 <= ch <= 0x9FEA \/ 0x20000 <= ch <= 0x2A6D6 \/ 0x2A700 <= ch <= 0x2B734
      \/ 0x2B740 <= ch <= 0x2B81D \/ 0x2B820 <= ch <= 0x2CEA1 \/ 0x2CEB0 <= ch <= 0x2EBE0)) \/
  (p = PREFIX_TANGUT_IDEOGRAPH /\ 0x17000 <= ch <= 0x187EC) \/
  (p = PREFIX_NUSHU_CHARACTER /\ 0x1B170 <= ch <= 0x1B2FB) \/
  (p = PREFIX_CJK_COMPATIBILITY_IDEOGRAPH /\
     (0xF900 <= ch <= 0xFA6D \/ 0xFA70 <= ch <= 0xFAD9 \/ 0x2F800 <= ch <= 0x2FA1D)).

Lemma name_of_cases names ch n : name_of names ch = Some n ->
  (n = NR1 ch /\ within 0xAC00 0xD7A3 ch = true) \/
  (exists p, n = NR2 p ch /\ derived_prefix p ch) \/
  (exists pieces, n = NR3 pieces /\ names ch = Some pieces).
Proof.
  unfold name_of, derived_prefix. intros H.
  destruct (within 0xAC00 0xD7A3 ch) eqn:E0; [left; injection H as <-; auto|right].
  match type of H with (if ?b then _ else _) = _ => destruct b eqn:E1 end.
  { left. injection H as <-. eexists. split; [reflexivity|]. left. split; [reflexivity|].
    unfold within in E1. lia. }
  match type of H with (if ?b then _ else _) = _ => destruct b eqn:E2 end.
  { left. injection H as <-. eexists. split; [reflexivity|]. right. left. split; [reflexivity|].
    unfold within in E2. lia. }
  match type of H with (if ?b then _ else _) = _ => destruct b eqn:E3 end.
  { left. injection H as <-. eexists. split; [reflexivity|]. right. right. left. split; [reflexivity|].
    unfold within in E3. lia. }
  match type of H with (if ?b then _ else _) = _ => destruct b eqn:E4 end.
  { left. injection H as <-. eexists. split; [reflexivity|]. right. right. right. split; [reflexivity|].
    unfold within in E4. lia. }
  right. destruct (names ch) as [pieces|]; [|discriminate]. injection H as <-. exists pieces. auto.
Qed.

Lemma derived_range p ch : derived_prefix p ch -> 0x3400 <= ch <= 0x2FA1D.
Proof. unfold derived_prefix. intros [[_ H]|[[_ H]|[[_ H]|[_ H]]]]; lia. Qed.

Theorem name_len_fmt names ch n : (forall c l, names c = Some l -> l <> []) -> name_of names ch = Some n ->
  exists s, name_fmt n = Ret s /\ name_len n = Ret (str_bytes s).
Proof.
  intros Hne H. destruct (name_of_cases _ _ _ H) as [[-> Hr]|[(p & -> & Hp)|(pieces & -> & Hp)]].
  - destruct (syl_onto ch Hr) as (l & v & t & Hv & ->).
    cbn [name_fmt name_len]. rewrite (syl_jamos _ _ _ Hv). cbn [obind].
    eexists. split; [reflexivity|]. rewrite str_bytes_app, sum_bytes_concat. reflexivity.
  - cbn [name_fmt name_len]. eexists. split; [reflexivity|].
    apply derived_range in Hp. rewrite str_bytes_app, fmt_bytes by lia. reflexivity.
  - cbn [name_fmt name_len]. specialize (Hne _ _ Hp). destruct pieces as [|q rest]; [contradiction|].
    eexists. split; [reflexivity|]. rewrite str_bytes_app, join_bytes.
    f_equal. change (sum_bytes (q :: rest)) with (str_bytes q + sum_bytes rest).
    cbn [List.length]. unfold str in *. generalize (sum_bytes rest), (str_bytes q). intros. lia.
Qed.

(** * Derived names *)
Lemma upper_hex_map ds : Forall (fun d => d < 16) ds -> ds <> [] ->
  upper_hex (map upper_hex_digit ds) (value 0 ds).
Proof.
  assert (E : forall d, upper_hex_digit d = if d <? 10 then 0x30 + d else 0x41 + (d - 10)).
  { intros d. unfold upper_hex_digit. destruct (N.ltb_spec d 10); lia. }
  induction ds as [|d ds IH] using rev_ind; intros Hf Hne; [contradiction|].
  apply Forall_app in Hf. destruct Hf as [Hf Hd]. inversion Hd; subst.
  rewrite map_app, value_app. cbn [map]. unfold value at 1. cbn [fold_left]. rewrite E.
  destruct ds as [|e ds].
  - cbn [map app value fold_left]. constructor. assumption.
  - apply uh_more; [apply IH; [exact Hf|discriminate]|assumption].
Qed.

Lemma fmt_upper_shape n : 0x1000 <= n <= 0x10FFFF ->
  upper_hex (fmt_upper_hex n) n /\ (4 <= List.length (fmt_upper_hex n) <= 6)%nat.
Proof.
  intros H. destruct (fmt_upper_digits n) as (ds & E & Hc & Hv); [lia|]. rewrite E, map_length.
  split; [rewrite <- Hv; apply upper_hex_map; [apply Hc|apply canonical_nonempty, Hc]|].
  pose proof (canonical_length ds Hc) as B. rewrite Hv in B. specialize (B ltac:(lia)).
  destruct B as [B1 B2].
  assert (L1 : ~ (List.length ds <= 3)%nat).
  { intros X. assert (16 ^ N.of_nat (List.length ds) <= 16 ^ 3) by (apply N.pow_le_mono_r; lia).
    change (16 ^ 3) with 0x1000 in *. lia. }
  assert (L2 : ~ (7 <= List.length ds)%nat).
  { intros X. assert (16 ^ 6 <= 16 ^ N.of_nat (List.length ds - 1)) by (apply N.pow_le_mono_r; lia).
    change (16 ^ 6) with 0x1000000 in *. lia. }
  lia.
Qed.

Theorem hangul_names names l v t : valid l v t -> exists n,
  name_of names (0xAC00 + (N.of_nat l * 21 + N.of_nat v) * 28 + N.of_nat t) = Some n /\
  name_fmt n = Ret (syllable_name l v t).
Proof.
  intros H. fold (syl l v t). exists (NR1 (syl l v t)). split; [|apply syl_fmt, H].
  unfold name_of. rewrite (syl_range _ _ _ H). reflexivity.
Qed.

Lemma derived_is_named names p ch : derived_prefix p ch -> name_of names ch = Some (NR2 p ch).
Proof.
  unfold derived_prefix, name_of. intros [[-> H]|[[-> H]|[[-> H]|[-> H]]]].
  - replace (within 0xAC00 0xD7A3 ch) with false by (unfold within; lia).
    match goal with |- (if ?b then _ else _) = _ => replace b with true by (unfold within; lia) end. reflexivity.
  - replace (within 0xAC00 0xD7A3 ch) with false by (unfold within; lia).
    match goal with |- (if ?b then _ else _) = _ => replace b with false by (unfold within; lia) end.
    replace (within 0x17000 0x187EC ch) with true by (unfold within; lia). reflexivity.
  - replace (within 0xAC00 0xD7A3 ch) with false by (unfold within; lia).
    match goal with |- (if ?b then _ else _) = _ => replace b with false by (unfold within; lia) end.
    replace (within 0x17000 0x187EC ch) with false by (unfold within; lia).
    replace (within 0x1B170 0x1B2FB ch) with true by (unfold within; lia). reflexivity.
  - replace (within 0xAC00 0xD7A3 ch) with false by (unfold within; lia).
    match goal with |- (if ?b then _ else _) = _ => replace b with false by (unfold within; lia) end.
    replace (within 0x17000 0x187EC ch) with false by (unfold within; lia).
    replace (within 0x1B170 0x1B2FB ch) with false by (unfold within; lia).
    match goal with |- (if ?b then _ else _) = _ => replace b with true by (unfold within; lia) end. reflexivity.
Qed.

Theorem ideograph_names names p ch : derived_prefix p ch -> exists n digits,
  name_of names ch = Some n /\ name_fmt n = Ret (p ++ digits) /\ upper_hex digits ch /\
  (4 <= List.length digits <= 6)%nat.
Proof.
  intros H. exists (NR2 p ch), (fmt_upper_hex ch). split; [apply derived_is_named, H|].
  split; [reflexivity|]. apply derived_range in H. apply fmt_upper_shape. lia.
Qed.

(** Printed derived names identify the character. *)
Lemma upper_hex_fun s n : upper_hex s n -> forall m, upper_hex s m -> n = m.
Proof.
  assert (D : forall d d', d < 16 -> d' < 16 ->
     (if d <? 10 then 0x30 + d else 0x41 + (d - 10)) = (if d' <? 10 then 0x30 + d' else 0x41 + (d' - 10)) -> d = d').
  { intros d d' H H'. destruct (N.ltb_spec d 10); destruct (N.ltb_spec d' 10); lia. }
  assert (NE : forall s n, upper_hex s n -> s <> []).
  { intros s0 n0 [d Hd|s1 m d _ Hd]; [discriminate|]. intros E. apply app_eq_nil in E. destruct E. discriminate. }
  assert (SG : forall (x : N) (s' : list N) y, [x] = s' ++ [y] -> s' = [] /\ x = y).
  { intros x s' y E. destruct s' as [|a s']; [injection E; auto|].
    apply (f_equal (@List.length N)) in E. rewrite app_length in E. cbn in E. lia. }
  induction 1 as [d Hd|s n d H0 IH Hd]; intros m Hm.
  - inversion Hm as [d' Hd' E|s' n' d' H0' Hd' E].
    + subst. symmetry. apply D; assumption.
    + symmetry in E. apply SG in E. destruct E as [-> _]. destruct (NE _ _ H0' eq_refl).
  - inversion Hm as [d' Hd' E|s' n' d' H0' Hd' E].
    + apply SG in E. destruct E as [-> _]. destruct (NE _ _ H0 eq_refl).
    + apply app_inj_tail in E. destruct E as [-> E]. rewrite (IH _ H0'). f_equal. symmetry. apply D; assumption.
Qed.

Lemma fmt_upper_inj n m : 0x1000 <= n <= 0x10FFFF -> 0x1000 <= m <= 0x10FFFF ->
  fmt_upper_hex n = fmt_upper_hex m -> n = m.
Proof.
  intros Hn Hm E. apply fmt_upper_shape in Hn, Hm. destruct Hn as [Hn _], Hm as [Hm _].
  rewrite <- E in Hm. eapply upper_hex_fun; eassumption.
Qed.

(** Names of syllables parse uniquely: consonant letters, then vowel letters,
    then consonant letters. *)
Definition vowel_letter (c : N) : bool :=
  existsb (N.eqb c) (text "AEIOUWY").
Definition all_lvt : list (nat * nat * nat) :=
  list_prod (list_prod (seq 0 19) (seq 0 21)) (seq 0 28).

Fixpoint take_while (p : N -> bool) (s : str) : str :=
  match s with [] => [] | c :: r => if p c then c :: take_while p r else [] end.
Fixpoint drop_while (p : N -> bool) (s : str) : str :=
  match s with [] => [] | c :: r => if p c then drop_while p r else s end.

Lemma take_while_app p a b : forallb p a = true -> (forall c r, b = c :: r -> p c = false) ->
  take_while p (a ++ b) = a /\ drop_while p (a ++ b) = b.
Proof.
  intros Ha Hb. induction a as [|x a IH].
  - destruct b as [|c r]; [auto|]. cbn. rewrite (Hb c r eq_refl). auto.
  - cbn in Ha. apply andb_prop in Ha. destruct Ha as [Hx Ha]. cbn. rewrite Hx.
    destruct (IH Ha) as [-> ->]. auto.
Qed.

Definition consonantal (s : str) : bool := forallb (fun c => negb (vowel_letter c)) s.

Lemma leading_consonantal l : consonantal (text (nth l leading_names ""%string)) = true.
Proof. do 19 (destruct l as [|l]; [reflexivity|]). destruct l; reflexivity. Qed.
Lemma trailing_consonantal t : consonantal (text (nth t trailing_names ""%string)) = true.
Proof. do 28 (destruct t as [|t]; [reflexivity|]). destruct t; reflexivity. Qed.
Lemma vowel_vocalic v : (v < 21)%nat ->
  forallb vowel_letter (text (nth v vowel_names ""%string)) = true /\ text (nth v vowel_names ""%string) <> [].
Proof. intros H. do 21 (destruct v as [|v]; [split; [reflexivity|discriminate]|]). lia. Qed.

Lemma nodup_nth (names : list string) : 
  (fix nd (l : list str) : bool := match l with [] => true | x :: r => negb (existsb (str_eqb x) r) && nd r end)
     (map text names) = true ->
  forall i j, (i < List.length names)%nat -> (j < List.length names)%nat ->
  text (nth i names ""%string) = text (nth j names ""%string) -> i = j.
Proof.
  intros H i j Hi Hj E.
  assert (ND : NoDup (map text names)).
  { revert H. generalize (map text names). clear. intros l. induction l as [|x r IH]; intros H; [constructor|].
    apply andb_prop in H. destruct H as [H1 H2]. constructor; [|apply IH, H2].
    intros X. apply negb_true_iff in H1.
    assert (Y : existsb (str_eqb x) r = true).
    { apply existsb_exists. exists x. split; [exact X|apply str_eqb_eq; reflexivity]. }
    rewrite Y in H1. discriminate H1. }
  rewrite NoDup_nth in ND. rewrite map_length in ND. apply ND; try assumption.
  change (@nil N) with (text ""%string). instantiate (1 := text ""%string). rewrite !map_nth. exact E.
Qed.

Lemma syllable_name_inj l v t l' v' t' : valid l v t -> valid l' v' t' ->
  syllable_name l v t = syllable_name l' v' t' -> l = l' /\ v = v' /\ t = t'.
Proof.
  intros (Hl & Hv & Ht) (Hl' & Hv' & Ht') E. unfold syllable_name in E. apply app_inv_head in E.
  destruct (vowel_vocalic v Hv) as [V1 V2]. destruct (vowel_vocalic v' Hv') as [V1' V2'].
  pose proof (leading_consonantal l) as L. pose proof (leading_consonantal l') as L'.
  pose proof (trailing_consonantal t) as T. pose proof (trailing_consonantal t') as T'.
  assert (HD : forall x y, x <> [] -> forallb vowel_letter x = true ->
               forall c r, x ++ y = c :: r -> negb (vowel_letter c) = false).
  { intros x y Hx Hf c r Hxy. destruct x; [contradiction|]. injection Hxy as -> _.
    cbn [forallb] in Hf. apply andb_prop in Hf. destruct Hf as [-> _]. reflexivity. }
  assert (HT : forall y, consonantal y = true -> forall c r, y = c :: r -> vowel_letter c = false).
  { intros y Hy c r ->. unfold consonantal in Hy. cbn [forallb] in Hy. apply andb_prop in Hy. destruct Hy as [Hy _].
    apply negb_true_iff in Hy. exact Hy. }
  destruct (take_while_app _ _ (text (nth v vowel_names ""%string) ++ text (nth t trailing_names ""%string))
              L (HD _ _ V2 V1)) as [A1 A2].
  destruct (take_while_app _ _ (text (nth v' vowel_names ""%string) ++ text (nth t' trailing_names ""%string))
              L' (HD _ _ V2' V1')) as [A1' A2'].
  destruct (take_while_app _ _ _ V1 (HT _ T)) as [B1 B2].
  destruct (take_while_app _ _ _ V1' (HT _ T')) as [B1' B2'].
  rewrite <- E in A1', A2'. rewrite A1 in A1'. rewrite A2 in A2'.
  rewrite <- A2' in B1', B2'. rewrite B1 in B1'. rewrite B2 in B2'.
  split; [|split].
  - apply (nodup_nth leading_names); [vm_compute; reflexivity|exact Hl|exact Hl'|exact A1'].
  - apply (nodup_nth vowel_names); [vm_compute; reflexivity|exact Hv|exact Hv'|exact B1'].
  - apply (nodup_nth trailing_names); [vm_compute; reflexivity|exact Ht|exact Ht'|exact B2'].
Qed.

(** The five prefixes differ within their common length, so a printed name
    determines its prefix. *)
Fixpoint diverges (s t : str) : bool :=
  match s, t with a :: s', b :: t' => if a =? b then diverges s' t' else true | _, _ => false end.
Lemma diverges_app s t : diverges s t = true -> forall x y, s ++ x <> t ++ y.
Proof.
  revert t. induction s as [|a s IH]; intros [|b t] H x y; try discriminate.
  cbn in H. cbn. destruct (N.eqb_spec a b) as [->|N]; [|congruence].
  intros E. injection E as E. exact (IH t H x y E).
Qed.

Definition prefixes : list str :=
  [PREFIX_CJK_UNIFIED_IDEOGRAPH; PREFIX_TANGUT_IDEOGRAPH; PREFIX_NUSHU_CHARACTER; PREFIX_CJK_COMPATIBILITY_IDEOGRAPH].

Lemma derived_in p ch : derived_prefix p ch -> In p prefixes.
Proof. unfold prefixes. intros [[-> _]|[[-> _]|[[-> _]|[-> _]]]]; cbn [In]; tauto. Qed.

Lemma prefixes_diverge : forall p q, In p prefixes -> In q prefixes ->
  p = q \/ diverges p q = true.
Proof.
  intros p q Hp Hq. cbn [prefixes In] in Hp, Hq.
  destruct Hp as [<-|[<-|[<-|[<-|[]]]]]; destruct Hq as [<-|[<-|[<-|[<-|[]]]]];
    ((left; reflexivity) || (right; vm_compute; reflexivity)).
Qed.

Lemma hangul_diverges p : In p prefixes -> diverges PREFIX_HANGUL_SYLLABLE p = true /\ diverges p PREFIX_HANGUL_SYLLABLE = true.
Proof. intros Hp. destruct Hp as [<-|[<-|[<-|[<-|[]]]]]; split; vm_compute; reflexivity. Qed.

Definition derived_name (n : Name) : Prop := match n with NR3 _ => False | _ => True end.

Lemma Ret_inj {A} (x y : A) : Ret x = Ret y -> x = y.
Proof. intros H. injection H. auto. Qed.

Theorem derived_names_distinct names c d n m s :
  name_of names c = Some n -> name_of names d = Some m -> derived_name n -> derived_name m ->
  name_fmt n = Ret s -> name_fmt m = Ret s -> c = d.
Proof.
  intros Hc Hd Dn Dm Fn Fm.
  destruct (name_of_cases _ _ _ Hc) as [[-> Rc]|[(p & -> & Pc)|(x & -> & _)]]; [| |contradiction];
  destruct (name_of_cases _ _ _ Hd) as [[-> Rd]|[(q & -> & Pd)|(x & -> & _)]]; try contradiction.
  - destruct (syl_onto c Rc) as (l & v & t & V & ->). destruct (syl_onto d Rd) as (l' & v' & t' & V' & ->).
    rewrite (syl_fmt _ _ _ V) in Fn. rewrite (syl_fmt _ _ _ V') in Fm. apply Ret_inj in Fn, Fm. subst s. rename Fm into E.
    destruct (syllable_name_inj _ _ _ _ _ _ V V' (eq_sym E)) as (-> & -> & ->). reflexivity.
  - exfalso. destruct (syl_onto c Rc) as (l & v & t & V & ->). rewrite (syl_fmt _ _ _ V) in Fn.
    cbn [name_fmt] in Fm. apply Ret_inj in Fn, Fm. subst s. rename Fm into E. unfold syllable_name in E.
    refine (diverges_app _ _ _ _ _ E). apply (hangul_diverges q), (derived_in q d), Pd.
  - exfalso. destruct (syl_onto d Rd) as (l & v & t & V & ->). rewrite (syl_fmt _ _ _ V) in Fm.
    cbn [name_fmt] in Fn. apply Ret_inj in Fn, Fm. subst s. rename Fm into E. unfold syllable_name in E.
    refine (diverges_app _ _ _ _ _ E). apply (hangul_diverges p), (derived_in p c), Pc.
  - cbn [name_fmt] in Fn, Fm. apply Ret_inj in Fn, Fm. subst s. rename Fm into E.
    destruct (prefixes_diverge q p) as [->|D]; [apply (derived_in q d), Pd|apply (derived_in p c), Pc| |].
    + apply app_inv_head in E. apply derived_range in Pc, Pd. apply fmt_upper_inj; [lia|lia|congruence].
    + exfalso. exact (diverges_app _ _ D _ _ E).
Qed.

(** * C47: the order *)
Lemma lex_lt_cmp s : forall t, str_cmp s t = Lt <-> lex_lt s t.
Proof.
  induction s as [|a s IH]; intros [|b t]; cbn [str_cmp].
  - split; [discriminate|intros H; inversion H].
  - split; [constructor|reflexivity].
  - split; [discriminate|intros H; inversion H].
  - destruct (N.compare_spec a b) as [->|H|H].
    + rewrite IH. split; [apply lex_tail|]. intros X. inversion X; subst; [lia|assumption].
    + split; [intros _; apply lex_head, H|reflexivity].
    + split; [discriminate|]. intros X. inversion X; subst; lia.
Qed.

Lemma orders_cmp o s t : orders o s t <-> str_cmp s t = o.
Proof.
  destruct o; unfold orders.
  - split; [intros ->; apply str_cmp_refl|apply str_cmp_eq].
  - symmetry. apply lex_lt_cmp.
  - rewrite <- lex_lt_cmp, (str_cmp_antisym s t). destruct (str_cmp s t); cbn; split; congruence.
Qed.

Definition no_names (_ : N) : option (list str) := None.

Theorem name_order_refuted : exists c d n m s t o,
  name_of no_names c = Some n /\ name_of no_names d = Some m /\ name_fmt n = Ret s /\ name_fmt m = Ret t /\
  name_cmp n m = Ret o /\ ~ orders o s t.
Proof.
  exists 0x3400, 0x20000. do 5 eexists.
  split; [vm_compute; reflexivity|]. split; [vm_compute; reflexivity|].
  split; [vm_compute; reflexivity|]. split; [vm_compute; reflexivity|].
  split; [vm_compute; reflexivity|].
  intros H. apply orders_cmp in H. vm_compute in H. discriminate H.
Qed.

(** Two Hangul syllables: GAG (U+AC01) and GAE (U+AC1C). *)
Theorem hangul_order_refuted : exists n m s t,
  name_of no_names 0xAC01 = Some n /\ name_of no_names 0xAC1C = Some m /\ name_fmt n = Ret s /\ name_fmt m = Ret t /\
  name_cmp n m = Ret Lt /\ lex_lt t s.
Proof.
  do 4 eexists.
  split; [vm_compute; reflexivity|]. split; [vm_compute; reflexivity|].
  split; [vm_compute; reflexivity|]. split; [vm_compute; reflexivity|].
  split; [vm_compute; reflexivity|].
  apply lex_lt_cmp. vm_compute. reflexivity.
Qed.

(** A listed name and a derived one: "TANGUT ITERATION MARK" (U+16FE0, listed
    as three pieces in name_map.rsv:24279) against "TANGUT IDEOGRAPH-17000". *)
Theorem listed_order_refuted : exists s t,
  name_fmt (NR3 [lit "TANGUT"; lit "ITERATION"; lit "MARK"]) = Ret s /\
  name_fmt (NR2 PREFIX_TANGUT_IDEOGRAPH 0x17000) = Ret t /\
  name_cmp (NR3 [lit "TANGUT"; lit "ITERATION"; lit "MARK"]) (NR2 PREFIX_TANGUT_IDEOGRAPH 0x17000) = Ret Lt /\
  lex_lt t s.
Proof.
  do 2 eexists. split; [vm_compute; reflexivity|]. split; [vm_compute; reflexivity|].
  split; [vm_compute; reflexivity|]. apply lex_lt_cmp. vm_compute. reflexivity.
Qed.

(** What does hold. *)
Lemma str_cmp_app p s t : str_cmp (p ++ s) (p ++ t) = str_cmp s t.
Proof. induction p as [|a p IH]; [reflexivity|]. cbn. rewrite N.compare_refl. exact IH. Qed.

Lemma str_cmp_diverges s t : diverges s t = true -> forall x y, str_cmp (s ++ x) (t ++ y) = str_cmp s t.
Proof.
  revert t. induction s as [|a s IH]; intros [|b t] H x y; try discriminate.
  cbn in H. cbn. destruct (N.compare_spec a b) as [->|N|N].
  - rewrite N.eqb_refl in H. apply IH, H.
  - reflexivity.
  - reflexivity.
Qed.

Lemma value_cons d ds : value 0 (d :: ds) = d * 16 ^ N.of_nat (List.length ds) + value 0 ds.
Proof. unfold value at 1. cbn [fold_left]. fold (value (0 * 16 + d) ds). rewrite value_acc. lia. Qed.

Lemma digits_order ds : forall es, List.length ds = List.length es ->
  Forall (fun d => d < 16) ds -> Forall (fun d => d < 16) es ->
  str_cmp (map upper_hex_digit ds) (map upper_hex_digit es) = (value 0 ds ?= value 0 es).
Proof.
  induction ds as [|d ds IH]; intros [|e es] Hl Hd He; try discriminate; [reflexivity|].
  inversion Hd; inversion He; subst. injection Hl as Hl.
  cbn [map str_cmp]. rewrite IH by assumption.
  rewrite !value_cons. rewrite <- Hl.
  pose proof (value_lt ds ltac:(assumption)) as B1. pose proof (value_lt es ltac:(assumption)) as B2.
  rewrite <- Hl in B2.
  set (P := 16 ^ N.of_nat (List.length ds)) in *.
  assert (X : (upper_hex_digit d ?= upper_hex_digit e) = (d ?= e)).
  { unfold upper_hex_digit. destruct (N.ltb_spec d 10); destruct (N.ltb_spec e 10);
      destruct (N.compare_spec d e); subst; rewrite ?N.compare_refl; try reflexivity;
      try (apply N.compare_lt_iff; lia); try (apply N.compare_gt_iff; lia); lia. }
  rewrite X. destruct (N.compare_spec d e) as [->|H|H].
  - destruct (N.compare_spec (value 0 ds) (value 0 es)); symmetry;
      [apply N.compare_eq_iff|apply N.compare_lt_iff|apply N.compare_gt_iff]; lia.
  - symmetry. apply N.compare_lt_iff. nia.
  - symmetry. apply N.compare_gt_iff. nia.
Qed.

Lemma fmt_order n m : n <= 0xFFFFFFFF -> m <= 0xFFFFFFFF ->
  List.length (fmt_upper_hex n) = List.length (fmt_upper_hex m) ->
  str_cmp (fmt_upper_hex n) (fmt_upper_hex m) = (n ?= m).
Proof.
  intros Hn Hm Hl. destruct (fmt_upper_digits n Hn) as (ds & E & [Hf _] & Hv).
  destruct (fmt_upper_digits m Hm) as (es & E' & [Hf' _] & Hv').
  rewrite E, E', !map_length in Hl. rewrite E, E', digits_order by assumption. congruence.
Qed.

Theorem ideograph_order names c d p q : derived_prefix p c -> derived_prefix q d ->
  (p = q -> (c < 0x10000 <-> d < 0x10000)) ->
  exists n m s t o, name_of names c = Some n /\ name_of names d = Some m /\ name_fmt n = Ret s /\ name_fmt m = Ret t /\
    name_cmp n m = Ret o /\ orders o s t.
Proof.
  intros Hc Hd Hw. exists (NR2 p c), (NR2 q d). do 3 eexists.
  split; [apply derived_is_named, Hc|]. split; [apply derived_is_named, Hd|].
  split; [reflexivity|]. split; [reflexivity|]. split; [reflexivity|].
  apply orders_cmp.
  pose proof (derived_range _ _ Hc) as Rc. pose proof (derived_range _ _ Hd) as Rd.
  destruct (str_eqb p q) eqn:E.
  - apply str_eqb_eq in E. subst q. rewrite str_cmp_app. specialize (Hw eq_refl).
    apply fmt_order; [lia|lia|].
    assert (LEN : forall n, 0x3400 <= n <= 0x2FA1D ->
              List.length (fmt_upper_hex n) = if n <? 0x10000 then 4%nat else 5%nat).
    { intros n H. destruct (fmt_upper_digits n) as (ds & E & Hcan & Hv); [lia|].
      rewrite E, map_length. pose proof (digits_count n ds ltac:(lia) Hcan Hv) as DC.
      unfold number_of_hex_digits in DC. rewrite N.size_log2 in DC by lia.
      destruct (N.ltb_spec n 0x10000).
      - assert (N.log2 n < 16) by (apply N.log2_lt_pow2; [lia|exact H0]).
        assert (13 <= N.log2 n) by (apply N.log2_le_pow2; [lia|]; change (2^13) with 0x2000; lia). lia.
      - assert (16 <= N.log2 n) by (apply N.log2_le_pow2; [lia|]; change (2^16) with 0x10000; lia).
        assert (N.log2 n < 18) by (apply N.log2_lt_pow2; [lia|]; change (2^18) with 0x40000; lia). lia. }
    rewrite !LEN by assumption.
    destruct (N.ltb_spec c 0x10000); destruct (N.ltb_spec d 0x10000); lia.
  - destruct (prefixes_diverge p q) as [->|D]; [apply (derived_in p c), Hc|apply (derived_in q d), Hd| |].
    + exfalso. assert (str_eqb q q = true) by (apply str_eqb_eq; reflexivity). congruence.
    + apply str_cmp_diverges, D.
Qed.

(** A syllable against an ideograph. *)
Theorem hangul_ideograph_order l v t p d : valid l v t -> derived_prefix p d ->
  name_cmp (NR1 (syl l v t)) (NR2 p d) = Ret (str_cmp (syllable_name l v t) (p ++ fmt_upper_hex d)) /\
  name_cmp (NR2 p d) (NR1 (syl l v t)) = Ret (str_cmp (p ++ fmt_upper_hex d) (syllable_name l v t)).
Proof.
  intros V P. destruct (hangul_diverges p (derived_in p d P)) as [D1 D2]. cbn [name_cmp]. unfold syllable_name.
  split; f_equal; symmetry; [apply (str_cmp_diverges _ _ D1)|apply (str_cmp_diverges _ _ D2)].
Qed.

(** Listed names with pieces free of spaces and controls compare as printed. *)
Definition plain_piece (p : str) : Prop := Forall (fun c => 0x20 < c) p.

Definition space_or_end (x : str) : Prop := x = [] \/ exists r, x = 0x20 :: r.

Lemma piece_cmp p x y : space_or_end x -> space_or_end y -> plain_piece p -> forall q, plain_piece q ->
  str_cmp (p ++ x) (q ++ y) = match str_cmp p q with Eq => str_cmp x y | o => o end.
Proof.
  intros Hx Hy. induction 1 as [|a p Ha _ IH]; intros q Hq; destruct Hq as [|b q Hb Hq].
  - reflexivity.
  - destruct Hx as [->|[r ->]]; cbn [app str_cmp]; [reflexivity|].
    replace (0x20 ?= b) with Lt by (symmetry; apply N.compare_lt_iff; lia). reflexivity.
  - destruct Hy as [->|[r ->]]; cbn [app str_cmp]; [reflexivity|].
    replace (a ?= 0x20) with Gt by (symmetry; apply N.compare_gt_iff; lia). reflexivity.
  - cbn [app str_cmp]. destruct (a ?= b); [apply IH, Hq|reflexivity|reflexivity].
Qed.

Lemma join_space_or_end ps : space_or_end (flat_map (fun p => 0x20 :: p) ps).
Proof. destruct ps; [left; reflexivity|right; eexists; reflexivity]. Qed.

Lemma pieces_order ps : forall qs, Forall plain_piece ps -> Forall plain_piece qs ->
  str_cmp (flat_map (fun p => 0x20 :: p) ps) (flat_map (fun p => 0x20 :: p) qs) = slice_cmp str_cmp ps qs.
Proof.
  induction ps as [|p ps IH]; intros [|q qs] Hp Hq; try reflexivity.
  inversion Hp as [|? ? P1 P2]; inversion Hq as [|? ? Q1 Q2]; subst.
  cbn [flat_map slice_cmp app]. cbn [str_cmp]. rewrite N.compare_refl.
  rewrite piece_cmp by (apply join_space_or_end || assumption).
  rewrite (IH qs P2 Q2). reflexivity.
Qed.

Theorem listed_order ps qs : Forall plain_piece ps -> Forall plain_piece qs -> ps <> [] -> qs <> [] ->
  exists s t o, name_fmt (NR3 ps) = Ret s /\ name_fmt (NR3 qs) = Ret t /\ name_cmp (NR3 ps) (NR3 qs) = Ret o /\
    orders o s t.
Proof.
  intros Hp Hq Np Nq. pose proof (pieces_order ps qs Hp Hq) as E.
  destruct ps as [|p ps]; [contradiction|]. destruct qs as [|q qs]; [contradiction|].
  do 3 eexists. split; [reflexivity|]. split; [reflexivity|]. split; [reflexivity|].
  apply orders_cmp. rewrite <- E. cbn [flat_map app str_cmp]. rewrite N.compare_refl. reflexivity.
Qed.

(** [cmp] is a total order on obtainable names, equal only for equal names. *)
Definition obtainable (n : Name) : Prop :=
  match n with
  | NR1 ch => within 0xAC00 0xD7A3 ch = true
  | NR2 p ch => derived_prefix p ch
  | NR3 pieces => pieces <> [] /\ Forall plain_piece pieces
  end.

(** Order keys: comparing names is comparing these keys. *)
Definition jamo_key (ch : N) : list (option str) :=
  match collect_jamo_short_names ch with Ret l => l | Panic => [] end.

Lemma jamo_collect ch : within 0xAC00 0xD7A3 ch = true -> exists l v t, valid l v t /\ ch = syl l v t /\
  collect_jamo_short_names ch = Ret (map Some (short l v t) ++ repeat None (3 - List.length (short l v t))).
Proof.
  intros H. destruct (syl_onto ch H) as (l & v & t & V & ->). exists l, v, t. split; [exact V|]. split; [reflexivity|].
  unfold collect_jamo_short_names. rewrite (syl_jamos _ _ _ V). reflexivity.
Qed.

Lemma jamo_key_ok ch : within 0xAC00 0xD7A3 ch = true -> collect_jamo_short_names ch = Ret (jamo_key ch).
Proof. intros H. destruct (jamo_collect ch H) as (l & v & t & V & -> & E). unfold jamo_key. rewrite E. reflexivity. Qed.

Lemma jamo_key_inj c d : within 0xAC00 0xD7A3 c = true -> within 0xAC00 0xD7A3 d = true ->
  jamo_key c = jamo_key d -> c = d.
Proof.
  intros Hc Hd E. destruct (jamo_collect c Hc) as (l & v & t & V & -> & E1).
  destruct (jamo_collect d Hd) as (l' & v' & t' & V' & -> & E2).
  unfold jamo_key in E. rewrite E1, E2 in E.
  destruct V as (Vl & Vv & Vt). destruct V' as (Vl' & Vv' & Vt').
  unfold short in E. destruct t as [|t]; destruct t' as [|t']; cbn [map app] in E;
    injection E as EL EV; try discriminate.
  - f_equal.
    + apply (nodup_nth leading_names); [vm_compute; reflexivity|exact Vl|exact Vl'|exact EL].
    + apply (nodup_nth vowel_names); [vm_compute; reflexivity|exact Vv|exact Vv'|exact EV].
  - f_equal.
    + apply (nodup_nth leading_names); [vm_compute; reflexivity|exact Vl|exact Vl'|exact EL].
    + apply (nodup_nth vowel_names); [vm_compute; reflexivity|exact Vv|exact Vv'|exact EV].
    + apply (nodup_nth trailing_names); [vm_compute; reflexivity|exact Vt|exact Vt'|exact H].
Qed.

Section slices.
Context {A : Type} (cmp : A -> A -> comparison).
Hypothesis cmp_eq : forall a b, cmp a b = Eq <-> a = b.
Hypothesis cmp_anti : forall a b, cmp b a = CompOpp (cmp a b).
Hypothesis cmp_trans : forall o a b c, cmp a b = o -> cmp b c = o -> cmp a c = o.

Lemma slice_eq l : forall m, slice_cmp cmp l m = Eq <-> l = m.
Proof.
  induction l as [|a l IH]; intros [|b m]; cbn [slice_cmp]; try (split; discriminate || reflexivity).
  destruct (cmp a b) eqn:E.
  - apply cmp_eq in E. subst. rewrite IH. split; [intros ->; reflexivity|]. injection 1; auto.
  - split; [discriminate|]. injection 1. intros _ X. apply cmp_eq in X. congruence.
  - split; [discriminate|]. injection 1. intros _ X. apply cmp_eq in X. congruence.
Qed.

Lemma slice_anti l : forall m, slice_cmp cmp m l = CompOpp (slice_cmp cmp l m).
Proof.
  induction l as [|a l IH]; intros [|b m]; cbn [slice_cmp]; try reflexivity.
  rewrite (cmp_anti a b). destruct (cmp a b); cbn [CompOpp]; [apply IH|reflexivity|reflexivity].
Qed.

Lemma slice_trans o l : forall m k, slice_cmp cmp l m = o -> slice_cmp cmp m k = o -> slice_cmp cmp l k = o.
Proof.
  induction l as [|a l IH]; intros [|b m] [|c k] H1 H2; cbn [slice_cmp] in *; try congruence.
  destruct (cmp a b) eqn:E1; destruct (cmp b c) eqn:E2; try congruence.
  - rewrite (cmp_trans Eq a b c E1 E2). eapply IH; eassumption.
  - apply cmp_eq in E1. subst. rewrite E2. congruence.
  - apply cmp_eq in E1. subst. rewrite E2. congruence.
  - apply cmp_eq in E2. subst. rewrite E1. congruence.
  - rewrite (cmp_trans Lt a b c E1 E2). congruence.
  - apply cmp_eq in E2. subst. rewrite E1. congruence.
  - rewrite (cmp_trans Gt a b c E1 E2). congruence.
Qed.
End slices.

Lemma opt_eq a b : opt_cmp a b = Eq <-> a = b.
Proof.
  destruct a as [a|], b as [b|]; cbn; try (split; discriminate || reflexivity).
  rewrite str_cmp_eq. split; [intros ->; reflexivity|]. injection 1; auto.
Qed.
Lemma opt_anti a b : opt_cmp b a = CompOpp (opt_cmp a b).
Proof. destruct a as [a|], b as [b|]; try reflexivity. apply str_cmp_antisym. Qed.
Lemma opt_trans o a b c : opt_cmp a b = o -> opt_cmp b c = o -> opt_cmp a c = o.
Proof. destruct a as [a|], b as [b|], c as [c|]; cbn; try congruence. apply str_cmp_trans. Qed.

(** First component of the order: the first string compared. *)
Definition head_key (n : Name) : str :=
  match n with NR1 _ => PREFIX_HANGUL_SYLLABLE | NR2 p _ => p | NR3 ps => hd [] ps end.
Definition kind (n : Name) : N := match n with NR1 _ => 1 | NR2 _ _ => 2 | NR3 _ => 3 end.

Definition plain_head (n : Name) : Prop := match n with NR3 ps => plain_piece (hd [] ps) | _ => True end.

Lemma prefix_has_space n : kind n <> 3 -> obtainable n -> In 0x20 (head_key n).
Proof.
  destruct n as [c|p c|ps]; cbn [kind head_key obtainable]; intros K H; [..|lia].
  - vm_compute. tauto.
  - destruct (derived_in p c H) as [<-|[<-|[<-|[<-|[]]]]]; vm_compute; tauto.
Qed.

Lemma head_key_kind n m : obtainable n -> obtainable m -> head_key n = head_key m -> kind n = kind m.
Proof.
  intros Hn Hm E.
  assert (N3 : forall x, kind x = 3 -> obtainable x -> ~ In 0x20 (head_key x)).
  { intros [ |p c|ps] K H; try discriminate. cbn [head_key]. cbn [obtainable] in H. destruct H as [Hne Hf].
    destruct ps as [|p ps]; [contradiction|]. inversion Hf; subst. cbn [hd]. intros X.
    unfold plain_piece in *. rewrite Forall_forall in *. specialize (H1 _ X). lia. }
  destruct (N.eq_dec (kind n) 3) as [K|K]; destruct (N.eq_dec (kind m) 3) as [K'|K'].
  - congruence.
  - exfalso. apply (N3 n K Hn). rewrite E. apply prefix_has_space; assumption.
  - exfalso. apply (N3 m K' Hm). rewrite <- E. apply prefix_has_space; assumption.
  - destruct n as [c|p c|ps]; destruct m as [d|q d|qs]; try reflexivity; try (exfalso; cbn in K, K'; lia).
    + exfalso. cbn [head_key] in E. pose proof (hangul_diverges q (derived_in q d Hm)) as [D _].
      rewrite <- E in D. vm_compute in D. discriminate.
    + exfalso. cbn [head_key] in E. pose proof (hangul_diverges p (derived_in p c Hn)) as [D _].
      rewrite E in D. vm_compute in D. discriminate.
Qed.

(** One comparison function without panics. *)
Definition pure_cmp (n m : Name) : comparison :=
  match str_cmp (head_key n) (head_key m) with
  | Eq => match n, m with
          | NR1 c, NR1 d => slice_cmp opt_cmp (jamo_key c) (jamo_key d)
          | NR2 _ c, NR2 _ d => c ?= d
          | NR3 ps, NR3 qs => slice_cmp str_cmp ps qs
          | _, _ => Eq
          end
  | o => o
  end.

Lemma name_cmp_pure n m : obtainable n -> obtainable m -> name_cmp n m = Ret (pure_cmp n m).
Proof.
  intros Hn Hm. unfold pure_cmp.
  assert (X : forall o : comparison, match o with Eq => Eq | Lt => Lt | Gt => Gt end = o) by (intros []; reflexivity).
  destruct n as [c|p c|ps]; destruct m as [d|q d|qs]; cbn [name_cmp head_key]; cbn [obtainable] in Hn, Hm.
  - rewrite (jamo_key_ok c Hn), (jamo_key_ok d Hm). cbn [obind]. rewrite str_cmp_refl. reflexivity.
  - rewrite X. reflexivity.
  - destruct qs as [|q qs]; [destruct Hm; contradiction|]. cbn [first_piece obind hd]. rewrite X. reflexivity.
  - rewrite X. reflexivity.
  - destruct (str_eqb p q) eqn:E.
    + apply str_eqb_eq in E. subst. rewrite str_cmp_refl. reflexivity.
    + f_equal. destruct (str_cmp p q) eqn:E'; [|reflexivity|reflexivity].
      apply str_cmp_eq in E'. apply str_eqb_eq in E'. congruence.
  - destruct qs as [|q' qs]; [destruct Hm; contradiction|]. cbn [first_piece obind hd]. rewrite X. reflexivity.
  - destruct ps as [|q' qs]; [destruct Hn; contradiction|]. cbn [first_piece obind hd]. rewrite X. reflexivity.
  - destruct ps as [|q' qs]; [destruct Hn; contradiction|]. cbn [first_piece obind hd]. rewrite X. reflexivity.
  - destruct ps as [|p ps]; [destruct Hn; contradiction|]. destruct qs as [|q qs]; [destruct Hm; contradiction|].
    cbn [first_piece obind hd]. cbn [slice_cmp]. destruct (str_cmp p q); reflexivity.
Qed.

Lemma pure_eq n m : obtainable n -> obtainable m -> (pure_cmp n m = Eq <-> n = m).
Proof.
  intros Hn Hm. unfold pure_cmp. destruct (str_cmp (head_key n) (head_key m)) eqn:E.
  - apply str_cmp_eq in E. pose proof (head_key_kind n m Hn Hm E) as K.
    destruct n as [c|p c|ps]; destruct m as [d|q d|qs]; try discriminate K; cbn [head_key] in E.
    + rewrite (slice_eq opt_cmp opt_eq). split; [|intros [= ->]; reflexivity].
      intros J. f_equal. apply jamo_key_inj; assumption.
    + subst q. rewrite N.compare_eq_iff. split; [intros ->; reflexivity|]. intros [= ->]. reflexivity.
    + rewrite (slice_eq str_cmp str_cmp_eq). split; [intros ->; reflexivity|]. intros [= ->]. reflexivity.
  - split; [discriminate|]. intros ->. rewrite str_cmp_refl in E. discriminate.
  - split; [discriminate|]. intros ->. rewrite str_cmp_refl in E. discriminate.
Qed.

Lemma pure_anti n m : obtainable n -> obtainable m -> pure_cmp m n = CompOpp (pure_cmp n m).
Proof.
  intros Hn Hm. unfold pure_cmp. rewrite (str_cmp_antisym (head_key n) (head_key m)).
  destruct (str_cmp (head_key n) (head_key m)) eqn:E; cbn [CompOpp]; [|reflexivity|reflexivity].
  destruct n as [c|p c|ps]; destruct m as [d|q d|qs]; try reflexivity.
  - apply (slice_anti opt_cmp opt_anti).
  - apply N.compare_antisym.
  - apply (slice_anti str_cmp). intros; apply str_cmp_antisym.
Qed.

Lemma pure_trans o n m k : obtainable n -> obtainable m -> obtainable k ->
  pure_cmp n m = o -> pure_cmp m k = o -> pure_cmp n k = o.
Proof.
  intros Hn Hm Hk. unfold pure_cmp.
  destruct (str_cmp (head_key n) (head_key m)) eqn:E1; destruct (str_cmp (head_key m) (head_key k)) eqn:E2; intros H1 H2;
    try congruence.
  - rewrite (str_cmp_trans Eq _ _ _ E1 E2). apply str_cmp_eq in E1, E2.
    pose proof (head_key_kind _ _ Hn Hm E1). pose proof (head_key_kind _ _ Hm Hk E2).
    destruct n as [c|p c|ps]; destruct m as [d|q d|qs]; try discriminate; destruct k as [e|r e|rs]; try discriminate.
    + exact (slice_trans opt_cmp opt_eq opt_trans o _ _ _ H1 H2).
    + destruct o.
      * apply N.compare_eq_iff in H1, H2. apply N.compare_eq_iff. congruence.
      * apply N.compare_lt_iff in H1, H2. apply N.compare_lt_iff. exact (N.lt_trans _ _ _ H1 H2).
      * apply N.compare_gt_iff in H1, H2. apply N.compare_gt_iff. exact (N.lt_trans _ _ _ H2 H1).
    + exact (slice_trans str_cmp str_cmp_eq (fun o a => str_cmp_trans o a) o _ _ _ H1 H2).
  - apply str_cmp_eq in E1. rewrite E1, E2. congruence.
  - apply str_cmp_eq in E1. rewrite E1, E2. congruence.
  - apply str_cmp_eq in E2. rewrite <- E2, E1. congruence.
  - rewrite (str_cmp_trans Lt _ _ _ E1 E2). congruence.
  - apply str_cmp_eq in E2. rewrite <- E2, E1. congruence.
  - rewrite (str_cmp_trans Gt _ _ _ E1 E2). congruence.
Qed.

Lemma obtainable_of names ch n : (forall c l, names c = Some l -> l <> [] /\ Forall plain_piece l) ->
  name_of names ch = Some n -> obtainable n.
Proof.
  intros Hw H. destruct (name_of_cases _ _ _ H) as [[-> Hr]|[(p & -> & Hp)|(pieces & -> & Hp)]]; cbn [obtainable].
  - exact Hr.
  - exact Hp.
  - exact (Hw _ _ Hp).
Qed.

Theorem name_total_order names a b c n m k :
  (forall c l, names c = Some l -> l <> [] /\ Forall plain_piece l) ->
  name_of names a = Some n -> name_of names b = Some m -> name_of names c = Some k ->
  (exists o, name_cmp n m = Ret o /\ name_cmp m n = Ret (CompOpp o) /\ (o = Eq <-> n = m)) /\
  (forall o, name_cmp n m = Ret o -> name_cmp m k = Ret o -> name_cmp n k = Ret o).
Proof.
  intros Hw Ha Hb Hc. apply (obtainable_of _ _ _ Hw) in Ha, Hb, Hc.
  rewrite !name_cmp_pure by assumption. split.
  - exists (pure_cmp n m). split; [reflexivity|]. split; [rewrite <- pure_anti by assumption; reflexivity|].
    apply pure_eq; assumption.
  - intros o [= E1] [= E2]. f_equal. eapply pure_trans; [| | |exact E1|exact E2]; assumption.
Qed.

(** * C48: ages *)
Theorem age_partial_reversed a b : 
  (age_gt a b = true <-> version_cmp a b = Lt) /\ (age_lt a b = true <-> version_cmp a b = Gt) /\
  (age_partial_cmp a b = Some Eq <-> a = b).
Proof.
  unfold age_gt, age_lt, age_partial_cmp. destruct a as [a1 a2 a3], b as [b1 b2 b3].
  assert (E : version_cmp (mkVersion a1 a2 a3) (mkVersion b1 b2 b3) = Eq <-> mkVersion a1 a2 a3 = mkVersion b1 b2 b3).
  { unfold version_cmp. cbn [major minor micro].
    destruct (N.compare_spec a1 b1) as [->|H|H].
    - destruct (N.compare_spec a2 b2) as [->|H|H].
      + rewrite N.compare_eq_iff. split; [intros ->; reflexivity|]. intros [= ->]. reflexivity.
      + split; [discriminate|]. intros [= -> ->]. lia.
      + split; [discriminate|]. intros [= -> ->]. lia.
    - split; [discriminate|]. intros [= -> -> ->]. lia.
    - split; [discriminate|]. intros [= -> -> ->]. lia. }
  destruct (version_cmp _ _); rewrite <- E; repeat split; congruence.
Qed.

Lemma version_cmp_anti a b : version_cmp b a = CompOpp (version_cmp a b).
Proof.
  unfold version_cmp. rewrite (N.compare_antisym (major a)). destruct (major a ?= major b); cbn [CompOpp]; try reflexivity.
  rewrite (N.compare_antisym (minor a)). destruct (minor a ?= minor b); cbn [CompOpp]; try reflexivity.
  apply N.compare_antisym.
Qed.

Theorem age_orders_contradict a b : a <> b -> age_partial_cmp a b = Some (CompOpp (age_cmp a b)) /\ age_cmp a b <> Eq.
Proof.
  intros H. split.
  - unfold age_partial_cmp, age_cmp. destruct (version_cmp a b); reflexivity.
  - intros E. apply H. apply (age_partial_reversed a b). unfold age_partial_cmp. unfold age_cmp in E. rewrite E. reflexivity.
Qed.

(** * C49 *)
Theorem notation_shape c : scalar c -> exists digits,
  unicode_notation c = 0x55 :: 0x2B :: digits /\ upper_hex digits c /\ (4 <= List.length digits <= 6)%nat /\
  ((4 < List.length digits)%nat -> exists d r, digits = d :: r /\ d <> 0x30).
Proof.
  intros Hc. assert (c <= 0x10FFFF) by (unfold scalar in Hc; lia).
  destruct (fmt_upper_w_digits 4 c) as (ds & E & Hf & Hv & Hne & Hw & Hcan); [lia|].
  exists (fmt_upper_hex_w 4 c). split; [reflexivity|]. rewrite E, map_length.
  split; [rewrite <- Hv; apply upper_hex_map; assumption|].
  assert (L : (4 < List.length ds)%nat -> (exists d r, ds = d :: r /\ 1 <= d) /\ 16 ^ N.of_nat (List.length ds - 1) <= c).
  { intros L. specialize (Hcan L). destruct Hcan as [Hff [->|(d & r & -> & Hd)]]; [cbn in L; lia|].
    split; [eauto|]. rewrite <- Hv. cbn [List.length]. rewrite Nat.sub_succ, Nat.sub_0_r. apply value_ge, Hd. }
  split; [split; [exact Hw|]|].
  - destruct (Nat.le_gt_cases (List.length ds) 6) as [|G]; [assumption|exfalso].
    destruct (L ltac:(lia)) as [_ B].
    assert (16 ^ 6 <= 16 ^ N.of_nat (List.length ds - 1)) by (apply N.pow_le_mono_r; lia).
    change (16 ^ 6) with 0x1000000 in *. lia.
  - intros G. destruct (L G) as [(d & r & -> & Hd) _]. cbn [map]. do 2 eexists. split; [reflexivity|].
    inversion Hf; subst. unfold upper_hex_digit. destruct (N.ltb_spec d 10); lia.
Qed.

Theorem notation_injective c d : scalar c -> scalar d -> unicode_notation c = unicode_notation d -> c = d.
Proof.
  intros Hc Hd E. destruct (notation_shape c Hc) as (x & Ex & Hx & _).
  destruct (notation_shape d Hd) as (y & Ey & Hy & _).
  rewrite Ex, Ey in E. injection E as E. subst y. eapply upper_hex_fun; eassumption.
Qed.

(** * C50 *)
Theorem noncharacter_iff c : scalar c -> (is_noncharacter c = true <-> noncharacter c).
Proof.
  intros Hc. assert (c <= 0x10FFFF) by (unfold scalar in Hc; lia).
  unfold is_noncharacter, noncharacter, within.
  assert (c / 0x10000 <= 16) by lia.
  assert (Q : c = c / 0x10000 * 0x10000 + c mod 0x10000) by lia.
  assert (R : c mod 0x10000 < 0x10000) by lia.
  generalize dependent (c / 0x10000). generalize dependent (c mod 0x10000). intros r R q Hq ->.
  assert (X : q = 0 \/ q = 1 \/ q = 2 \/ q = 3 \/ q = 4 \/ q = 5 \/ q = 6 \/ q = 7 \/ q = 8 \/ q = 9 \/ q = 10
            \/ q = 11 \/ q = 12 \/ q = 13 \/ q = 14 \/ q = 15 \/ q = 16) by lia.
  repeat (destruct X as [->|X]; [lia|]). subst. lia.
Qed.

Theorem private_use_iff c : is_private_use c = true <-> private_use c.
Proof. unfold is_private_use, private_use, within. lia. Qed.

Theorem never_both c : scalar c -> ~ (is_noncharacter c = true /\ is_private_use c = true).
Proof.
  intros Hc [H1 H2]. apply noncharacter_iff in H1; [|exact Hc]. apply private_use_iff in H2.
  unfold noncharacter, private_use in *. lia.
Qed.

(** The noncharacters, listed. *)
Definition noncharacters : list N :=
  map (fun i => 0xFDD0 + N.of_nat i) (seq 0 32)
  ++ flat_map (fun p => [0x10000 * N.of_nat p + 0xFFFE; 0x10000 * N.of_nat p + 0xFFFF]) (seq 0 17).

Theorem noncharacters_counted : List.length noncharacters = 66%nat /\ NoDup noncharacters /\
  forall c, scalar c -> (is_noncharacter c = true <-> In c noncharacters).
Proof.
  split; [vm_compute; reflexivity|]. split.
  - assert (X : (fix nd l := match l with [] => true | x :: r => negb (existsb (N.eqb x) r) && nd r end) noncharacters = true)
      by (vm_compute; reflexivity).
    revert X. generalize noncharacters. intros l. induction l as [|x r IH]; intros H; [constructor|].
    apply andb_prop in H. destruct H as [H1 H2]. constructor; [|apply IH, H2].
    intros X. apply negb_true_iff in H1.
    assert (Y : existsb (N.eqb x) r = true).
    { apply existsb_exists. exists x. split; [exact X|apply N.eqb_refl]. }
    rewrite Y in H1. discriminate H1.
  - intros c Hc. rewrite noncharacter_iff by exact Hc. unfold noncharacter, noncharacters.
    assert (c <= 0x10FFFF) by (unfold scalar in Hc; lia).
    rewrite in_app_iff, in_map_iff, in_flat_map. split.
    + intros [H'|H'].
      * left. exists (N.to_nat (c - 0xFDD0)). rewrite in_seq. lia.
      * right. exists (N.to_nat (c / 0x10000)). rewrite in_seq. split; [lia|].
        rewrite N2Nat.id. cbn [In]. destruct H'; [left|right; left]; lia.
    + intros [(x & <- & Hx)|(x & Hx & Hin)]; rewrite in_seq in Hx.
      * left. lia.
      * right. cbn [In] in Hin. lia.
Qed.

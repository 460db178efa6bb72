(** Lists as arrays: updates, byte expansion, string slicing. *)
From Coq Require Import List NArith ZArith Lia Bool Arith Permutation ZifyBool ZifyNat ZifyN.
Import ListNotations.
From Verif Require Import Base Enums EnumFacts UcdModel BidiModel BidiSpec.
Open Scope nat_scope.

Lemma upd_length {A} (l : list A) i x : length (upd l i x) = length l.
Proof. revert i; induction l; intros [|i]; cbn; auto. Qed.

Lemma upds_length {A} is : forall (l : list A) x, length (upds l is x) = length l.
Proof.
  induction is; intros; cbn; [reflexivity|].
  change (length (upds (upd l a x) is x) = length l). now rewrite IHis, upd_length.
Qed.

Lemma nth_upd {A} (l : list A) i x d j :
  i < length l -> nth j (upd l i x) d = if j =? i then x else nth j l d.
Proof.
  revert i j; induction l; intros [|i] [|j] H; cbn in *; try lia; auto.
  apply IHl; lia.
Qed.

Lemma nth_upd_ne {A} (l : list A) i x d j : j <> i -> nth j (upd l i x) d = nth j l d.
Proof.
  revert i j; induction l; intros [|i] [|j] H; cbn in *; try lia; auto.
Qed.

Lemma nth_upds {A} is : forall (l : list A) x d j,
  (forall i, In i is -> i < length l) ->
  nth j (upds l is x) d = if in_dec Nat.eq_dec j is then x else nth j l d.
Proof.
  induction is as [|i is IH]; intros l x d j H.
  - reflexivity.
  - change (nth j (upds (upd l i x) is x) d = if in_dec Nat.eq_dec j (i :: is) then x else nth j l d).
    rewrite IH by (intros k Hk; rewrite upd_length; apply H; now right).
    rewrite nth_upd by (apply H; now left).
    destruct (in_dec Nat.eq_dec j is) as [Hi|Hi]; destruct (in_dec Nat.eq_dec j (i :: is)) as [Hj|Hj]; auto.
    + exfalso; apply Hj; now right.
    + destruct Hj as [->|Hj]; [now rewrite Nat.eqb_refl|contradiction].
    + destruct (Nat.eqb_spec j i) as [->|]; auto. exfalso; apply Hj; now left.
Qed.

Lemma upd_app_r {A} (a b : list A) i x : upd (a ++ b) (length a + i) x = a ++ upd b i x.
Proof. induction a; cbn; [reflexivity|]. now rewrite IHa. Qed.

Lemma upd_app_l {A} (a b : list A) i x : i < length a -> upd (a ++ b) i x = upd a i x ++ b.
Proof. revert i; induction a; intros [|i] H; cbn in *; try lia; auto. rewrite IHa by lia. reflexivity. Qed.

Lemma upds_app_r {A} (a : list A) is : forall b x,
  upds (a ++ b) (map (fun j => length a + j) is) x = a ++ upds b is x.
Proof.
  induction is; intros; cbn; [reflexivity|].
  change (upds (upd (a ++ b) (length a + a0) x) (map (fun j => length a + j) is) x = a ++ upds (upd b a0 x) is x).
  now rewrite upd_app_r, IHis.
Qed.

Lemma upds_cons_S {A} is : forall (a x : A) b, upds (a :: b) (map S is) x = a :: upds b is x.
Proof.
  induction is; intros; cbn; [reflexivity|].
  change (upds (a0 :: upd b a x) (map S is) x = a0 :: upds (upd b a x) is x). apply IHis.
Qed.

Lemma upds_seq0 {A} n : forall (b : list A) x, n <= length b ->
  upds b (seq 0 n) x = repeat x n ++ skipn n b.
Proof.
  induction n; intros b x H; [reflexivity|].
  destruct b as [|y b]; cbn in H; [lia|].
  change (upds (x :: b) (seq 1 n) x = x :: repeat x n ++ skipn n b).
  rewrite <- seq_shift, upds_cons_S, IHn by lia. reflexivity.
Qed.

Lemma upds_app {A} is1 : forall is2 (l : list A) x, upds l (is1 ++ is2) x = upds (upds l is1 x) is2 x.
Proof. intros. unfold upds. apply fold_left_app. Qed.

Lemma repeat_app_n {A} (x : A) n m : repeat x (n + m) = repeat x n ++ repeat x m.
Proof. induction n; cbn; [reflexivity|]. now rewrite IHn. Qed.

Lemma skipn_repeat {A} (x : A) n m : skipn n (repeat x m) = repeat x (m - n).
Proof. revert m; induction n; intros [|m]; cbn; auto. Qed.

Lemma nth_repeat_lt {A} (x d : A) n i : i < n -> nth i (repeat x n) d = x.
Proof. revert i; induction n; intros [|i] H; cbn; try lia; auto. apply IHn; lia. Qed.

(** ** Expansion *)

Lemma expand_length {A} ws : forall (l : list A), length l = length ws ->
  length (expand ws l) = list_sum ws.
Proof.
  induction ws; intros [|x l] H; cbn in *; try lia; auto.
  rewrite app_length, repeat_length, IHws by lia. reflexivity.
Qed.

Lemma expand_app {A} ws1 : forall ws2 (l1 l2 : list A), length l1 = length ws1 ->
  expand (ws1 ++ ws2) (l1 ++ l2) = expand ws1 l1 ++ expand ws2 l2.
Proof.
  induction ws1; intros ws2 [|x l1] l2 H; cbn in *; try lia; auto.
  rewrite IHws1 by lia. now rewrite app_assoc.
Qed.

Lemma expand_repeat {A} (x : A) ws : expand ws (repeat x (length ws)) = repeat x (list_sum ws).
Proof. induction ws; cbn; [reflexivity|]. rewrite IHws. symmetry; apply repeat_app_n. Qed.

Lemma expand_map {A B} (f : A -> B) ws : forall l, expand ws (map f l) = map f (expand ws l).
Proof.
  induction ws; intros [|x l]; cbn; auto. rewrite IHws, map_app. f_equal.
  clear. induction a; cbn; congruence.
Qed.

(** The k-th character starts at [list_sum (firstn k ws)]. *)
Lemma expand_nth {A} ws : forall (l : list A) d k j, length l = length ws -> k < length ws ->
  j < nth k ws 0 -> nth (list_sum (firstn k ws) + j) (expand ws l) d = nth k l d.
Proof.
  induction ws; intros [|x l] d k j Hl Hk Hj; cbn in *; try lia.
  destruct k; cbn in *.
  - rewrite app_nth1 by (rewrite repeat_length; lia). apply nth_repeat_lt; lia.
  - rewrite app_nth2 by (rewrite repeat_length; lia). rewrite repeat_length.
    fold (list_sum (firstn k ws)).
    replace (a + list_sum (firstn k ws) + j - a) with (list_sum (firstn k ws) + j) by lia.
    apply IHws; lia.
Qed.

Lemma expand_inj {A} ws : forall (l m : list A), Forall (fun w => 0 < w) ws ->
  length l = length ws -> length m = length ws -> expand ws l = expand ws m -> l = m.
Proof.
  induction ws; intros [|x l] [|y m] Hw Hl Hm H; cbn in *; try lia; auto.
  inversion Hw; subst. destruct a; [lia|]. cbn in H. inversion H; subst.
  f_equal. apply IHws; auto; try lia. eapply app_inv_head; eauto.
Qed.

(** ** Strings *)

Lemma clen_pos c : 1 <= clen c <= 4.
Proof. unfold clen. pose proof (utf8_len_pos c). lia. Qed.

Lemma slen_sum t : slen t = list_sum (map clen t).
Proof. induction t; cbn; [reflexivity|]. unfold slen in *. now rewrite IHt. Qed.

Lemma slen_app a b : slen (a ++ b) = slen a + slen b.
Proof. unfold slen. induction a; cbn; [reflexivity|]. rewrite IHa. lia. Qed.

Lemma clens_pos t : Forall (fun w => 0 < w) (map clen t).
Proof. rewrite Forall_map. apply Forall_forall. intros c _. pose proof (clen_pos c). lia. Qed.

Lemma slen_pos t : t <> [] -> 0 < slen t.
Proof. destruct t as [|c t]; [congruence|]. intros _. cbn. pose proof (clen_pos c). lia. Qed.

Lemma slen_0 t : slen t = 0 -> t = [].
Proof. destruct t as [|c t]; [reflexivity|]. cbn. pose proof (clen_pos c). lia. Qed.

Lemma split_at_app a b : split_at (a ++ b) (slen a) = Some (a, b).
Proof.
  induction a as [|c a IH].
  - destruct b; reflexivity.
  - cbn [app slen fold_right]. fold (slen a). pose proof (clen_pos c).
    destruct (clen c + slen a) as [|n] eqn:E; [lia|].
    cbn [split_at]. rewrite <- E.
    destruct (Nat.leb_spec (clen c) (clen c + slen a)); [|lia].
    replace (clen c + slen a - clen c) with (slen a) by lia. now rewrite IH.
Qed.

Lemma split_at_inv t : forall n a b, split_at t n = Some (a, b) -> t = a ++ b /\ n = slen a.
Proof.
  induction t as [|c t IH]; intros [|n] a b H; cbn [split_at] in H; try (inversion H; subst; now split).
  destruct (Nat.leb_spec (clen c) (S n)); [|discriminate].
  destruct (split_at t (S n - clen c)) as [[a' b']|] eqn:E; [|discriminate].
  inversion H; subst. destruct (IH _ _ _ E) as [-> E2]. split; [reflexivity|].
  cbn. fold (slen a'). lia.
Qed.

Lemma str_slice_spec t s e m : str_slice t s e = Ret m <->
  exists a b, t = a ++ m ++ b /\ s = slen a /\ e = slen a + slen m.
Proof.
  unfold str_slice. split.
  - destruct (Nat.leb_spec s e); [|discriminate].
    destruct (split_at t s) as [[a b]|] eqn:E1; [|discriminate].
    destruct (split_at b (e - s)) as [[m' b']|] eqn:E2; [|discriminate].
    intros H1; inversion H1; subst. apply split_at_inv in E1 as [-> ->], E2 as [-> E2].
    exists a, b'. repeat split. lia.
  - intros (a & b & -> & -> & ->).
    destruct (Nat.leb_spec (slen a) (slen a + slen m)); [|lia].
    rewrite split_at_app. replace (slen a + slen m - slen a) with (slen m) by lia.
    now rewrite split_at_app.
Qed.

Lemma str_slice_app a m b : str_slice (a ++ m ++ b) (slen a) (slen a + slen m) = Ret m.
Proof. apply str_slice_spec. exists a, b. auto. Qed.

Lemma sub_app {A} (a m b : list A) : sub (a ++ m ++ b) (length a) (length a + length m) = m.
Proof.
  unfold sub. replace (length a + length m - length a) with (length m + 0) by lia.
  rewrite skipn_app, skipn_all, Nat.sub_diag. cbn. rewrite firstn_app_2. cbn. apply app_nil_r.
Qed.

(** ** Boolean tests on classes *)

Lemma is_in_spec l c : is_in l c = true <-> In c l.
Proof.
  unfold is_in. rewrite existsb_exists. split.
  - intros (x & Hx & H). apply BC_eqb_eq in H. now subst.
  - intros H. exists c. split; [assumption|]. now apply BC_eqb_eq.
Qed.

Lemma removed_spec c : removed_by_x9 c = true <-> x9 c.
Proof. unfold x9. rewrite <- is_in_spec. destruct c; vm_compute; split; congruence. Qed.

Lemma removed_false c : removed_by_x9 c = false <-> ~ x9 c.
Proof. rewrite <- removed_spec. destruct (removed_by_x9 c); split; congruence. Qed.

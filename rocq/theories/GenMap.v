(** Maps and sets filled from ranges of characters. *)
From Coq Require Import List NArith ZArith Lia Bool PeanoNat Sorted ZifyBool ZifyNat ZifyN.
From Verif Require Import Base RangeModel TableModel TableSpec TableTree TableProofs TextModel TableGenModel TableGenSpec
  TableGenProofs GenRegex GenModel GenSpec.
Import ListNotations.
Open Scope N_scope.

Lemma in_u32_range a b c : In c (u32_range a b) <-> a <= c < b.
Proof.
  unfold u32_range. rewrite in_map_iff. split.
  - intros (k & <- & H). apply in_seq in H. lia.
  - intros H. exists (N.to_nat (c - a)). split; [lia|]. apply in_seq. lia.
Qed.

Lemma in_range_chars r c : In c (range_chars r) <-> scalar c /\ r_low r <= c <= r_high r.
Proof.
  unfold range_chars. rewrite filter_In, in_u32_range, scalarb_spec. split; intros [? ?]; split; auto; lia.
Qed.

(** * Maps *)
Lemma map_insert_keys {V} k (v : V) m x :
  In x (map fst (map_insert k v m)) <-> x = k \/ In x (map fst m).
Proof.
  induction m as [|[k' v'] m IH]; cbn; [intuition|].
  destruct (k <? k') eqn:E1; [cbn; intuition|].
  destruct (k =? k') eqn:E2; cbn.
  - assert (k = k') by lia. subst. intuition.
  - rewrite IH. intuition.
Qed.

Lemma map_insert_sorted {V} k (v : V) m :
  sorted_map m -> scalar k -> sorted_map (map_insert k v m).
Proof.
  intros [Hs Hc] Hk. split.
  - induction m as [|[k' v'] m IH]; cbn in *; [repeat constructor|].
    inversion Hs as [|? ? Hs' Hf]; subst. inversion Hc; subst.
    destruct (k <? k') eqn:E1.
    + cbn. constructor; [constructor; auto|]. constructor; [lia|].
      rewrite Forall_forall in *. intros x Hx. apply Hf in Hx. lia.
    + destruct (k =? k') eqn:E2; cbn.
      * assert (k = k') by lia. subst. constructor; auto.
      * constructor; [auto|]. rewrite Forall_forall in *. intros x Hx.
        apply map_insert_keys in Hx as [->|Hx]; [lia|auto].
  - rewrite Forall_forall in *. intros x Hx. apply map_insert_keys in Hx as [->|Hx]; auto.
Qed.

Lemma map_insert_in {V} k (v : V) m : sorted_map m -> forall c x,
  In (c, x) (map_insert k v m) <-> (c = k /\ x = v) \/ (c <> k /\ In (c, x) m).
Proof.
  intros [Hs _]. induction m as [|[k' v'] m IH]; intros c x; cbn in *.
  - split; [intros [E|[]]; injection E as <- <-; auto|intros [[-> ->]|[_ []]]; auto].
  - inversion Hs as [|? ? Hs' Hf]; subst. specialize (IH Hs').
    assert (forall y, In (c, y) m -> k' < c) as Hlt.
    { intros y Hy. rewrite Forall_forall in Hf. apply Hf. change c with (fst (c, y)). now apply in_map. }
    destruct (k <? k') eqn:E1.
    + cbn. split.
      * intros [E|[E|E]]; [injection E as <- <-; auto|injection E as <- <-; right; split; [lia|auto]|].
        specialize (Hlt _ E). right. split; [lia|auto].
      * intros [[-> ->]|[_ [E|E]]]; auto.
    + destruct (k =? k') eqn:E2; cbn.
      * assert (k = k') by lia. subst k'. split.
        -- intros [E|E]; [injection E as <- <-; auto|]. specialize (Hlt _ E). right. split; [lia|auto].
        -- intros [[-> ->]|[Hne [E|E]]]; auto. injection E as <- <-. congruence.
      * rewrite IH. split.
        -- intros [E|[[-> ->]|[Hne E]]]; [injection E as <- <-; right; split; [lia|auto]|auto|auto].
        -- intros [[-> ->]|[Hne [E|E]]]; auto.
Qed.

Lemma sorted_map_nil {V} : sorted_map (@nil (N * V)).
Proof. split; constructor. Qed.

Lemma insert_list {V} (v : V) l : Forall scalar l -> forall m, sorted_map m ->
  sorted_map (fold_left (fun m p => map_insert p v m) l m) /\
  forall c x, In (c, x) (fold_left (fun m p => map_insert p v m) l m) <->
    (In c l /\ x = v) \/ (~ In c l /\ In (c, x) m).
Proof.
  induction 1 as [|p l Hp Hl IH]; intros m Hm; cbn [fold_left].
  - split; [exact Hm|]. intros c x. cbn. intuition.
  - destruct (IH (map_insert p v m)) as [IHs IHi]; [now apply map_insert_sorted|].
    split; [exact IHs|]. intros c x. rewrite IHi, map_insert_in by assumption. cbn [In].
    destruct (N.eq_dec c p) as [->|Hne]; [|intuition congruence].
    destruct (in_dec N.eq_dec p l); intuition congruence.
Qed.

Lemma char_from_u32_filter {A} (f : A -> N -> A) l : forall a,
  fold_left (fun m p => match char_from_u32 p with Some c => f m c | None => m end) l a =
  fold_left f (filter scalarb l) a.
Proof.
  induction l as [|p l IH]; intros a; cbn [fold_left filter]; [reflexivity|].
  rewrite IH. unfold char_from_u32. destruct (scalarb p); reflexivity.
Qed.

Lemma filter_scalar l : Forall scalar (filter scalarb l).
Proof. apply Forall_forall. intros x Hx. apply filter_In in Hx as [_ Hx]. now apply scalarb_spec. Qed.

Lemma insert_points_ok {V} a b (v : V) m : sorted_map m ->
  sorted_map (insert_points a b v m) /\
  forall c x, In (c, x) (insert_points a b v m) <->
    (scalar c /\ a <= c <= b /\ x = v) \/ (~ (scalar c /\ a <= c <= b) /\ In (c, x) m).
Proof.
  intros Hm. unfold insert_points.
  rewrite (char_from_u32_filter (fun m c => map_insert c v m)).
  destruct (insert_list v (filter scalarb (u32_range a (b + 1))) (filter_scalar _) m Hm) as [H1 H2].
  split; [exact H1|]. intros c x. rewrite H2, filter_In, in_u32_range, scalarb_spec.
  assert (a <= c < b + 1 <-> a <= c <= b) as -> by lia. intuition.
Qed.

(** * Sets *)
Lemma set_insert_in k s x : In x (set_insert k s) <-> x = k \/ In x s.
Proof.
  induction s as [|k' s IH]; cbn; [intuition|].
  destruct (k <? k') eqn:E1; [cbn; intuition|].
  destruct (k =? k') eqn:E2; cbn.
  - assert (k = k') by lia. subst. intuition.
  - rewrite IH. intuition.
Qed.

Lemma set_insert_sorted k s : sorted_set s -> scalar k -> sorted_set (set_insert k s).
Proof.
  intros [Hs Hc] Hk. split.
  - induction s as [|k' s IH]; cbn in *; [repeat constructor|].
    inversion Hs as [|? ? Hs' Hf]; subst. inversion Hc; subst.
    destruct (k <? k') eqn:E1.
    + constructor; [constructor; auto|]. constructor; [lia|].
      rewrite Forall_forall in *. intros x Hx. apply Hf in Hx. lia.
    + destruct (k =? k') eqn:E2; [constructor; auto|]. constructor; [auto|].
      rewrite Forall_forall in *. intros x Hx. apply set_insert_in in Hx as [->|Hx]; [lia|auto].
  - rewrite Forall_forall in *. intros x Hx. apply set_insert_in in Hx as [->|Hx]; auto.
Qed.

Lemma sorted_set_nil : sorted_set [].
Proof. split; constructor. Qed.

Lemma set_list l : Forall scalar l -> forall s, sorted_set s ->
  sorted_set (fold_left (fun s p => set_insert p s) l s) /\
  forall c, In c (fold_left (fun s p => set_insert p s) l s) <-> In c l \/ In c s.
Proof.
  induction 1 as [|p l Hp Hl IH]; intros s Hs; cbn [fold_left].
  - split; [exact Hs|]. intros c. cbn. intuition.
  - destruct (IH (set_insert p s)) as [IHs IHi]; [now apply set_insert_sorted|].
    split; [exact IHs|]. intros c. rewrite IHi, set_insert_in. cbn [In]. intuition.
Qed.

(** * Tables *)
Section answers.
  Context {V : Type} (veqb : V -> V -> bool).
  Hypothesis veqb_spec : forall a b, veqb a b = true <-> a = b.

  Lemma range_table_answers (m : list (N * V)) (f : N -> option V) : sorted_map m ->
    (forall c v, In (c, v) m <-> scalar c /\ f c = Some v) ->
    exists l, to_range_char_table veqb m = Ret (Range l) /\ wf_table (Range l) /\
      forall c, scalar c -> find (Range l) c = Ret (f c).
  Proof.
    intros Hm Hf. destruct (to_range_ok veqb veqb_spec m Hm) as (l & E & Hw & _ & Hl).
    exists l. split; [exact E|]. split; [exact Hw|]. intros c Hc.
    specialize (Hl c). rewrite find_scan in * by assumption. f_equal.
    destruct (scan (entries (Range l)) c) as [w|] eqn:Ew.
    - specialize (Hl w). rewrite Hf in Hl. symmetry. now apply Hl.
    - destruct (f c) as [w|] eqn:Ef; [|reflexivity].
      assert (In (c, w) m) as Hin by (apply Hf; auto). apply Hl in Hin. discriminate.
  Qed.

  Lemma direct_table_answers (m : list (N * V)) (f : N -> option V) : sorted_map m ->
    (forall c v, In (c, v) m <-> scalar c /\ f c = Some v) ->
    wf_table (to_direct_char_table m) /\
    forall c, scalar c -> find (to_direct_char_table m) c = Ret (f c).
  Proof.
    intros Hm Hf. destruct (to_direct_ok m Hm) as [Hw Hl].
    split; [exact Hw|]. intros c Hc.
    specialize (Hl c). rewrite find_scan in * by assumption. f_equal.
    destruct (scan (entries (to_direct_char_table m)) c) as [w|] eqn:Ew.
    - specialize (Hl w). rewrite Hf in Hl. symmetry. now apply Hl.
    - destruct (f c) as [w|] eqn:Ef; [|reflexivity].
      assert (In (c, w) m) as Hin by (apply Hf; auto). apply Hl in Hin. discriminate.
  Qed.
End answers.

Lemma str_eqb_spec a : forall b, str_eqb a b = true <-> a = b.
Proof.
  induction a as [|x a IH]; intros [|y b]; cbn; try (split; congruence).
  rewrite andb_true_iff, IH. split; [intros [E ->]; f_equal; lia|intros [= -> ->]; split; [lia|reflexivity]].
Qed.

Lemma age_eqb_spec a b : age_eqb a b = true <-> a = b.
Proof.
  destruct a as [[x y] z], b as [[x' y'] z']. cbn. split; [intros H; repeat f_equal; lia|intros [= -> -> ->]; lia].
Qed.

(** * Rows *)
Lemma row_covers_iff r c : row_covers r c = true <-> low r <= c <= high r.
Proof. unfold row_covers. lia. Qed.

Definition pick {V} (val : row -> V) (rs : list row) (c : N) : option V :=
  option_map val (List.find (fun r => row_covers r c) (rev rs)).

Lemma rows_map_ok {V} (val : row -> V) rs :
  let m := fold_left (fun m r => insert_points (low r) (high r) (val r) m) rs [] in
  sorted_map m /\ forall c v, In (c, v) m <-> scalar c /\ pick val rs c = Some v.
Proof.
  cbn. induction rs as [|r rs IH] using rev_ind.
  - split; [apply sorted_map_nil|]. intros c v. cbn. intuition discriminate.
  - rewrite fold_left_app. cbn [fold_left].
    destruct IH as [IHs IHi]. destruct (insert_points_ok (low r) (high r) (val r) _ IHs) as [H1 H2].
    split; [exact H1|]. intros c v. rewrite H2, IHi. unfold pick. rewrite rev_app_distr. cbn [rev app List.find].
    destruct (row_covers r c) eqn:E.
    + apply row_covers_iff in E. cbn. split.
      * intros [(? & _ & ->)|[K [? _]]]; [auto|]. exfalso. apply K. auto.
      * intros [? [= <-]]. auto.
    + assert (~ low r <= c <= high r) by (rewrite <- row_covers_iff; congruence). tauto.
Qed.

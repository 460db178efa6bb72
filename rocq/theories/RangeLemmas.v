(** Final lemmas behind the range property theorems. *)
From Coq Require Import List NArith ZArith Lia Bool Sorted ZifyBool ZifyNat ZifyN.
From Verif Require Import Base RangeModel RangeSpec RangeProofs.
Import ListNotations.
Open Scope N_scope.

Lemma bound_total start stop : exists r, bound start stop = Ret r.
Proof. destruct start, stop; eexists; reflexivity. Qed.

Lemma enumerates_fun_exists (P : N -> Prop) (Pb : N -> bool) :
  (forall c, Pb c = true <-> P c) -> exists l, enumerates P l.
Proof.
  intros HP. destruct (enumerates_exists 0 MAX_CHAR) as [l [Hs Hin]].
  exists (filter Pb l). split.
  - clear Hin. induction Hs as [|a l Hs IH Hf]; cbn; [constructor|].
    destruct (Pb a); [|assumption]. constructor; [assumption|].
    apply Forall_forall. intros x Hx. apply filter_In in Hx as [Hx _].
    rewrite Forall_forall in Hf. auto.
  - intros c. rewrite filter_In, Hin, HP. unfold between, MAX_CHAR, scalar. split.
    + intros [[Hc _] Hp]. split; assumption.
    + intros [Hc Hp]. repeat split; try assumption; lia.
Qed.

Definition insideb (start stop : Bound) (c : N) : bool :=
  match start with Included a => a <=? c | Excluded a => a <? c | Unbounded => true end &&
  match stop with Included b => c <=? b | Excluded b => c <? b | Unbounded => true end.

Lemma insideb_spec s t c : insideb s t c = true <-> inside s t c.
Proof.
  unfold insideb, inside. rewrite andb_true_iff.
  destruct s, t; rewrite ?N.leb_le, ?N.ltb_lt; intuition.
Qed.

Lemma bound_denotes start stop r : bound_ok start -> bound_ok stop -> bound start stop = Ret r ->
  exists l, denotes (iter_of r) l /\ enumerates (inside start stop) l.
Proof.
  intros H1 H2 Hb.
  destruct (enumerates_fun_exists (inside start stop) (insideb start stop) (insideb_spec _ _)) as [l Hl].
  exists l. split; [|assumption].
  assert (scalar 0) by (unfold scalar; lia).
  assert (scalar MAX_CHAR) by (unfold scalar, MAX_CHAR; lia).
  destruct start as [a|a|], stop as [b|b|]; cbv [bound] in Hb; cbn [bound_ok] in H1, H2;
    match type of Hb with Ret ?x = Ret _ => assert (r = x) as -> by congruence end; clear Hb;
    match goal with
    | |- denotes (iter_of (closed _ _)) _ => apply closed_denotes
    | |- denotes (iter_of (open _ _)) _ => apply open_denotes
    | |- denotes (iter_of (open_left _ _)) _ => apply open_left_denotes
    | |- denotes (iter_of (open_right _ _)) _ => apply open_right_denotes
    end; try assumption; (eapply enumerates_ext; [|exact Hl]); unfold inside, MAX_CHAR, scalar; intros; lia.
Qed.

Lemma range_iteration_exact start stop r :
  bound_ok start -> bound_ok stop -> bound start stop = Ret r ->
  exists l, collects (iter_of r) l /\ collects_back (iter_of r) (rev l) /\ enumerates (inside start stop) l.
Proof.
  intros H1 H2 Hb. destruct (bound_denotes _ _ _ H1 H2 Hb) as (l & Hd & He).
  exists l. split; [now apply denotes_collects|]. split; [now apply denotes_collects_back|exact He].
Qed.

Lemma constructors_exact :
  forall a b : N, scalar a -> scalar b ->
    (exists l, collects (iter_of (closed a b)) l /\ enumerates (fun c => a <= c /\ c <= b) l) /\
    (exists l, collects (iter_of (open_right a b)) l /\ enumerates (fun c => a <= c /\ c < b) l) /\
    (exists l, collects (iter_of (open_left a b)) l /\ enumerates (fun c => a < c /\ c <= b) l) /\
    (exists l, collects (iter_of (open a b)) l /\ enumerates (fun c => a < c /\ c < b) l) /\
    (exists l, collects (iter_of all) l /\ enumerates (fun c => True) l) /\
    (exists l, collects (iter_of assigned_normal_planes) l /\ enumerates (fun c => c <= 0x2FFFF) l).
Proof.
  intros a b Ha Hb.
  assert (scalar 0) as H0 by (unfold scalar; lia).
  assert (scalar MAX_CHAR) as Hm by (unfold scalar, MAX_CHAR; lia).
  assert (scalar 0x2FFFF) as Hp by (unfold scalar; lia).
  pose proof (fun s t H1 H2 r E => bound_denotes s t r H1 H2 E) as B.
  repeat split.
  - destruct (B (Included a) (Included b) Ha Hb _ eq_refl) as (l & Hd & He).
    exists l. split; [now apply denotes_collects|exact He].
  - destruct (B (Included a) (Excluded b) Ha Hb _ eq_refl) as (l & Hd & He).
    exists l. split; [now apply denotes_collects|exact He].
  - destruct (B (Excluded a) (Included b) Ha Hb _ eq_refl) as (l & Hd & He).
    exists l. split; [now apply denotes_collects|exact He].
  - destruct (B (Excluded a) (Excluded b) Ha Hb _ eq_refl) as (l & Hd & He).
    exists l. split; [now apply denotes_collects|exact He].
  - destruct (B (Included 0) (Included MAX_CHAR) H0 Hm _ eq_refl) as (l & Hd & He).
    exists l. split; [now apply denotes_collects|]. eapply enumerates_ext; [|exact He].
    unfold inside, scalar, MAX_CHAR; intros; lia.
  - destruct (B (Included 0) (Included 0x2FFFF) H0 Hp _ eq_refl) as (l & Hd & He).
    exists l. split; [now apply denotes_collects|]. eapply enumerates_ext; [|exact He].
    unfold inside, scalar, MAX_CHAR; intros; lia.
Qed.

Lemma double_ended r l sched :
  scalar (r_low r) -> scalar (r_high r) ->
  enumerates (fun c => r_low r <= c /\ c <= r_high r) l ->
  fst (iter_run (iter_of r) sched) = fst (deque_run l sched).
Proof. intros. apply denotes_run. split; [split|]; assumption. Qed.

Lemma constructed_ranges_ok start stop r :
  bound_ok start -> bound_ok stop -> bound start stop = Ret r ->
    scalar (r_low r) /\ scalar (r_high r) /\
    exists l, enumerates (fun c => r_low r <= c /\ c <= r_high r) l.
Proof.
  intros H1 H2 Hb. destruct (bound_denotes _ _ _ H1 H2 Hb) as (l & [[Hl Hh] He] & _).
  repeat split; try assumption. exists l. exact He.
Qed.

Lemma exact_size r l sched :
    scalar (r_low r) -> scalar (r_high r) ->
    enumerates (fun c => r_low r <= c /\ c <= r_high r) l ->
    let i := snd (iter_run (iter_of r) sched) in
    let rest := snd (deque_run l sched) in
    iter_len i = N.of_nat (length rest) /\
    size_hint i = (N.of_nat (length rest), Some (N.of_nat (length rest))) /\
    collects i rest /\ iter_min i = hd_error rest /\ iter_max i = hd_error (rev rest) /\
    len r = N.of_nat (length l) /\ (is_empty r = true <-> l = []).
Proof.
  intros Hlo Hhi He i rest.
  assert (denotes (iter_of r) l) as Hd by (split; [split|]; assumption).
  assert (denotes i rest) as Hd' by (apply denotes_run; assumption).
  pose proof (denotes_len _ _ Hd') as Hlen. unfold size_hint, len. rewrite Hlen.
  repeat split.
  - now apply denotes_collects.
  - unfold iter_min. pose proof (denotes_next _ _ Hd') as Hn. destruct rest; cbn.
    + now rewrite Hn.
    + destruct Hn as (? & -> & _). reflexivity.
  - unfold iter_max, iter_last. unfold next_back in *.
    destruct (denotes_next_back _ _ Hd') as [[E Hn]|(c & l' & i' & E & Hn & _)];
      rewrite E, ?rev_app_distr; cbn [rev app hd_error]; unfold next_back in Hn;
      destruct (is_finished i); congruence.
  - now apply denotes_len.
  - intros Hem. apply (denotes_finished _ _ Hd). exact Hem.
  - intros ->. pose proof (denotes_next _ _ Hd) as Hn. cbn in Hn. unfold next in Hn.
    change (is_empty r) with (is_finished (iter_of r)). destruct (is_finished _); [reflexivity|discriminate].
Qed.

Lemma collects_denotes r l : scalar (r_low r) -> scalar (r_high r) ->
  collects (iter_of r) l -> denotes (iter_of r) l.
Proof.
  intros H1 H2 Hc. destruct (denotes_of _ _ H1 H2) as [l' Hd].
  replace l with l'; [assumption|]. eapply collects_det; [apply denotes_collects; exact Hd|exact Hc].
Qed.

Lemma contains_iff_iterated r l c : scalar (r_low r) -> scalar (r_high r) -> scalar c ->
    collects (iter_of r) l -> (contains r c = true <-> In c l).
Proof.
  intros H1 H2 Hc Hl. apply collects_denotes in Hl; try assumption. destruct Hl as [_ [_ Hin]].
  rewrite Hin. unfold contains, between, iter_of. cbn [i_low i_high]. unfold scalar in *. lia.
Qed.

Lemma cmp_char_spec r l c : scalar (r_low r) -> scalar (r_high r) -> scalar c ->
    collects (iter_of r) l ->
    match cmp_char r c with
    | Panic => l = []
    | Ret Eq => In c l
    | Ret Lt => l <> [] /\ forall x, In x l -> x < c
    | Ret Gt => l <> [] /\ forall x, In x l -> c < x
    end.
Proof.
  intros H1 H2 Hc Hl. apply collects_denotes in Hl; try assumption.
  pose proof (denotes_finished _ _ Hl) as Hf. destruct Hl as [_ [_ Hin]].
  unfold cmp_char, is_empty. unfold is_finished, between, iter_of in *. cbn [i_low i_high] in *.
  destruct (r_high r <? r_low r) eqn:E0; [now apply Hf|].
  assert (l <> []) as Hne.
  { intros ->. apply (proj2 (Hin (r_low r))). split; [assumption|lia]. }
  destruct (r_high r <? c) eqn:E1; [|destruct (c <? r_low r) eqn:E2].
  - split; [assumption|]. intros x Hx. apply Hin in Hx. lia.
  - split; [assumption|]. intros x Hx. apply Hin in Hx. lia.
  - apply Hin. split; [assumption|lia].
Qed.

Lemma range_eq_spec a b la lb : scalar (r_low a) -> scalar (r_high a) -> scalar (r_low b) -> scalar (r_high b) ->
    collects (iter_of a) la -> collects (iter_of b) lb ->
    (range_eq a b = true <-> la = lb).
Proof.
  intros H1 H2 H3 H4 Ha Hb.
  apply collects_denotes in Ha; try assumption. apply collects_denotes in Hb; try assumption.
  unfold range_eq, is_empty.
  change (r_high a <? r_low a) with (is_finished (iter_of a)).
  change (r_high b <? r_low b) with (is_finished (iter_of b)).
  destruct (is_finished (iter_of a)) eqn:Ea, (is_finished (iter_of b)) eqn:Eb; cbn [andb orb].
  - split; [|reflexivity]. intros _. rewrite (denotes_finished _ _ Ha Ea), (denotes_finished _ _ Hb Eb). reflexivity.
  - rewrite (denotes_finished _ _ Ha Ea). unfold is_finished, iter_of in *. cbn [i_low i_high] in *.
    destruct Hb as [_ [_ Hin]]. unfold between in Hin. cbn in Hin.
    split; [lia|]. intros <-. exfalso. apply (proj2 (Hin (r_low b))). split; [assumption|lia].
  - rewrite (denotes_finished _ _ Hb Eb). unfold is_finished, iter_of in *. cbn [i_low i_high] in *.
    destruct Ha as [_ [_ Hin]]. unfold between in Hin. cbn in Hin.
    split; [lia|]. intros ->. exfalso. apply (proj2 (Hin (r_low a))). split; [assumption|lia].
  - unfold is_finished, iter_of in *. cbn [i_low i_high] in *. split.
    + intros E. assert (r_low a = r_low b /\ r_high a = r_high b) as [E1 E2] by lia.
      eapply denotes_unique; [exact Ha|]. unfold iter_of. rewrite E1, E2. exact Hb.
    + intros <-. destruct Ha as [_ [_ HA]], Hb as [_ [_ HB]]. unfold between in *. cbn [i_low i_high] in *.
      assert (In (r_low a) la) as A1 by (apply HA; split; [assumption|lia]).
      assert (In (r_high a) la) as A2 by (apply HA; split; [assumption|lia]).
      assert (In (r_low b) la) as A3 by (apply HB; split; [assumption|lia]).
      assert (In (r_high b) la) as A4 by (apply HB; split; [assumption|lia]).
      apply HB in A1, A2. apply HA in A3, A4. lia.
Qed.

Lemma par_iter_exact r l : scalar (r_low r) -> scalar (r_high r) -> collects (iter_of r) l ->
    (par_items r = l <-> (is_empty r = true \/ r_low r < 0xE000)).
Proof.
  intros H1 H2 Hc. apply collects_denotes in Hc; try assumption. destruct Hc as [_ He].
  pose proof (par_items_enumerates r H1 H2) as Hp. unfold iter_of in He. cbn [i_low i_high] in He.
  split.
  - intros E. rewrite E in Hp. destruct (is_empty r) eqn:Hem; [now left|right].
    unfold is_empty in Hem. destruct (N.ltb_spec (r_low r) 0xE000) as [|Hge]; [assumption|exfalso].
    replace (0xE000 <=? r_low r) with true in Hp by lia.
    destruct He as [_ He], Hp as [_ Hp].
    assert (In (r_low r) l) as Hl by (apply He; unfold between; split; [assumption|lia]).
    apply Hp in Hl. unfold between in Hl. lia.
  - intros Hor. eapply enumerates_unique; [exact Hp|]. eapply enumerates_ext; [|exact He].
    intros c Hc. unfold between, is_empty in *. destruct (0xE000 <=? r_low r) eqn:E; lia.
Qed.

Lemma par_iter_refuted :
  exists r l, scalar (r_low r) /\ scalar (r_high r) /\ collects (iter_of r) l /\ par_items r <> l.
Proof.
  exists (closed 0xE000 0xE001).
  assert (scalar 0xE000) by (unfold scalar; lia). assert (scalar 0xE001) by (unfold scalar; lia).
  destruct (denotes_of 0xE000 0xE001) as [l Hd]; try assumption.
  exists l. repeat split; try assumption; [now apply denotes_collects|].
  rewrite (par_iter_exact (closed 0xE000 0xE001) l); try assumption; [|now apply denotes_collects].
  unfold is_empty, closed; cbn [r_low r_high]. lia.
Qed.

(** Arithmetic of embedding levels, and when reordering may be skipped. *)
From Coq Require Import List NArith ZArith Lia Bool Permutation ZifyBool ZifyNat ZifyN.
From Verif Require Import Base Enums UcdModel BidiModel BidiSpec BidiLemmas BidiInit BidiWeak BidiPara BidiLtr BidiOrder BidiLine BidiRefute BidiSkipSpec.
Import ListNotations.
Open Scope nat_scope.

Lemma rtl_odd l : level_is_rtl l = N.odd l.
Proof. apply level_is_rtl_odd. Qed.
Lemma ltr_even l : level_is_ltr l = N.even l.
Proof. unfold level_is_ltr. rewrite <- N.negb_odd, <- rtl_odd. unfold level_is_rtl.
  pose proof (N.mod_upper_bound l 2 ltac:(discriminate)). destruct (N.eqb_spec (l mod 2) 0), (N.eqb_spec (l mod 2) 1); cbn; lia.
Qed.

(** * Skipping *)
Definition evens (l : list N) : Prop := Forall (fun x => N.even x = true) l.

Lemma evens_at lv i : evens lv -> N.even (level_at lv i) = true.
Proof.
  intros H. unfold level_at. destruct (nth_in_or_default i lv 0%N) as [X|X]; [|now rewrite X].
  unfold evens in H. rewrite Forall_forall in H. now apply H.
Qed.
Lemma upd_evens lv i p : N.even p = true -> evens lv -> evens (upd lv i p).
Proof. intros Hp Z. revert i. induction Z as [|x lv Hx Z' IH]; intros [|i]; cbn [upd]; constructor; auto. apply IH. Qed.
Lemma upds_evens p is : N.even p = true -> forall lv, evens lv -> evens (upds lv is p).
Proof.
  intros Hp. induction is as [|i is IH]; intros lv Z; [exact Z|]. change (evens (upds (upd lv i p) is p)).
  apply IH. now apply upd_evens.
Qed.
Lemma l1_evens p oc ws : N.even p = true -> forall i lv rf, evens lv -> evens (l1_loop p oc ws i lv rf).
Proof.
  intros Hp. induction ws as [|w ws IH]; intros i lv rf Z; cbn [l1_loop].
  - destruct rf; [now apply upds_evens|assumption].
  - destruct (l1_step p (class_at oc i) lv rf i w) as [lv' rf'] eqn:E. apply IH.
    unfold l1_step in E. destruct (class_at oc i); inversion E; subst; auto; now apply upds_evens.
Qed.

Lemma has_rtl_iff b : bidi_has_rtl b = true <-> exists i, i < length (b_levels b) /\ N.odd (level_at (b_levels b) i) = true.
Proof.
  unfold bidi_has_rtl, levels_has_rtl. rewrite existsb_exists. split.
  - intros (x & Hx & Hr). destruct (In_nth _ _ 0%N Hx) as (i & Hi & E). exists i. split; [exact Hi|].
    unfold level_at. now rewrite E, <- rtl_odd.
  - intros (i & Hi & Ho). exists (level_at (b_levels b) i). split; [now apply nth_In|]. now rewrite rtl_odd.
Qed.

Lemma has_rtl_text t default b : bidi_new t default = Ret b ->
  (bidi_has_rtl b = true <-> exists i, i < slen t /\ N.odd (level_at (b_levels b) i) = true).
Proof.
  intros B. rewrite has_rtl_iff. destruct (bidi_arrays t default b B) as (cc & lc & _ & L & _ & ->).
  now rewrite expand_length, slen_sum by (now rewrite map_length).
Qed.

Lemma no_rtl_evens b : bidi_has_rtl b = false -> evens (b_levels b).
Proof.
  intros H. apply Forall_forall. intros x Hx. destruct (N.even x) eqn:E; [reflexivity|exfalso].
  unfold bidi_has_rtl, levels_has_rtl in H. assert (X : existsb level_is_rtl (b_levels b) = true).
  { apply existsb_exists. exists x. split; [exact Hx|]. now rewrite rtl_odd, <- N.negb_even, E. }
  congruence.
Qed.

Lemma skip_sound b pl ls le out : bidi_has_rtl b = false -> N.even pl = true ->
  reorder_line b pl ls le = Ret out -> str_slice (b_text b) ls le = Ret out.
Proof.
  intros H Hp. apply no_rtl_evens in H. unfold reorder_line, visual_runs.
  destruct (_ && _); [|discriminate]. destruct (str_slice (b_text b) ls le) as [line|] eqn:S1; [|discriminate].
  cbn [obind]. destruct (_ <? _); [|discriminate].
  destruct (vruns_loop _ _ _ _ _ _ _ _) as [[runs mn] mx]. destruct (level_lowest_ge_rtl mn); [|discriminate].
  cbn [obind].
  match goal with |- (if ?b then _ else _) = _ -> _ => replace b with true end; [auto|].
  symmetry. apply forallb_forall. intros r _. rewrite ltr_even. apply evens_at. now apply l1_evens.
Qed.

Lemma skip_first_line t default b line z pl : default_ok default 123 -> bidi_new t default = Ret b ->
  bidi_has_rtl b = false -> N.even pl = true -> (pl <= 125)%N -> t = line ++ z -> line <> [] ->
  reorder_line b pl 0 (slen line) = Ret line.
Proof.
  intros D B H Hp Hl E Ne. destruct (first_line t default b line z pl D B E Ne Hl) as (lv & runs & out & _ & _ & _ & R & _).
  rewrite R. pose proof (skip_sound b pl _ _ _ H Hp R) as X.
  assert (T : b_text b = t). { destruct (bidi_shape t default b B) as (? & ? & ? & _ & _ & _ & _ & _ & ->). reflexivity. }
  rewrite T, E in X. pose proof (str_slice_app [] line z) as Y. cbn [app] in Y. change (slen []) with 0 in Y. cbn [Nat.add] in Y.
  rewrite X in Y. exact Y.
Qed.

(** "ab", space, ideographic space, "c" in a right-to-left paragraph *)
Lemma skip_refuted : exists t b p line,
  bidi_new t (Some 1%N) = Ret b /\ b_paras b = [p] /\ bidi_has_rtl b = false /\ p_level p = 1%N /\
  str_slice t 0 (slen line) = Ret line /\ exists out, reorder_line b (p_level p) 0 (slen line) = Ret out /\ out <> line.
Proof.
  exists [0x61; 0x62; 0x20; 0x3000; 0x63]%N. do 2 eexists. exists [0x61; 0x62; 0x20; 0x3000]%N.
  split; [vm_compute; reflexivity|]. split; [reflexivity|]. split; [vm_compute; reflexivity|].
  split; [reflexivity|]. split; [vm_compute; reflexivity|]. eexists. split; [vm_compute; reflexivity|]. discriminate.
Qed.

(** * Level arithmetic *)
Lemma level_new_iff n l : level_new n = Some l <-> l = n /\ (n <= 126)%N.
Proof.
  unfold level_new, MAX_IMPLICIT_DEPTH. destruct (N.leb_spec n 126); (split; [intros [= <-]|intros [-> ?]]); auto; try lia; discriminate.
Qed.
Lemma level_new_explicit_iff n l : level_new_explicit n = Some l <-> l = n /\ (n <= 125)%N.
Proof.
  unfold level_new_explicit, MAX_EXPLICIT_DEPTH. destruct (N.leb_spec n 125); (split; [intros [= <-]|intros [-> ?]]); auto; try lia; discriminate.
Qed.
Lemma level_raise_iff l a m : level_raise l a = Some m <-> m = (l + a)%N /\ (m <= 126)%N.
Proof.
  unfold level_raise, MAX_IMPLICIT_DEPTH. destruct (N.leb_spec (l + a) 255), (N.leb_spec (l + a) 126);
    (split; [first [intros [= <-]|discriminate]|intros [-> ?]]); auto; try lia.
Qed.
Lemma level_raise_explicit_iff l a m : level_raise_explicit l a = Some m <-> m = (l + a)%N /\ (m <= 125)%N.
Proof.
  unfold level_raise_explicit, MAX_EXPLICIT_DEPTH. destruct (N.leb_spec (l + a) 255), (N.leb_spec (l + a) 125);
    (split; [first [intros [= <-]|discriminate]|intros [-> ?]]); auto; try lia.
Qed.
Lemma level_lower_iff l a m : level_lower l a = Some m <-> (m + a = l)%N.
Proof. unfold level_lower. destruct (N.leb_spec a l); (split; [first [intros [= <-]|discriminate]|intros <-]); try lia. f_equal. lia. Qed.

Lemma below_127 (P : N -> Prop) : (forall n, n < 127 -> P (N.of_nat n)) -> forall l, (l <= 126)%N -> P l.
Proof. intros H l Hl. rewrite <- (N2Nat.id l). apply H. lia. Qed.

Lemma land_254 l : (l <= 126)%N -> N.land (l + 2) 254 = (2 * (l / 2) + 2)%N.
Proof.
  revert l. apply below_127. intros n Hn.
  assert (X : forallb (fun n => N.eqb (N.land (N.of_nat n + 2) 254) (2 * (N.of_nat n / 2) + 2)) (seq 0 127) = true) by (vm_compute; reflexivity).
  rewrite forallb_forall in X. apply N.eqb_eq, X, in_seq. lia.
Qed.
Lemma lor_one l : N.lor l 1 = (2 * (l / 2) + 1)%N.
Proof.
  destruct (lor_1 l) as (A & B & C). destruct (N.odd l) eqn:E.
  - rewrite C by reflexivity. rewrite (N.div_mod l 2) at 1 by discriminate. rewrite <- N.bit0_mod, N.bit0_odd, E. reflexivity.
  - assert (l mod 2 = 0)%N by (rewrite <- N.bit0_mod, N.bit0_odd, E; reflexivity).
    assert (l = 2 * (l / 2))%N by (rewrite (N.div_mod l 2) at 1 by discriminate; lia).
    rewrite H0 in A, B |- *. revert A B. generalize (N.lor (2 * (l / 2)) 1). intros x A B.
    rewrite <- H0 in B. assert (x = l \/ x = l + 1)%N as [->| ->] by lia; [congruence|]. rewrite <- H0. lia.
Qed.

Lemma even_mod k : N.even k = true <-> (k mod 2 = 0)%N.
Proof. rewrite <- ltr_even. unfold level_is_ltr. apply N.eqb_eq. Qed.
Lemma odd_mod k : N.odd k = true <-> (k mod 2 = 1)%N.
Proof. rewrite <- rtl_odd. unfold level_is_rtl. apply N.eqb_eq. Qed.

Ltac Zify.zify_post_hook ::= Z.div_mod_to_equations.

Lemma least_unique P m m' : least P m -> least P m' -> m = m'.
Proof. intros [A B] [C D]. specialize (B _ C). specialize (D _ A). lia. Qed.

Lemma next_ltr_iff l m : (l <= 126)%N ->
  level_next_ltr l = Some m <-> least (fun k => N.even k = true /\ (l < k)%N) m /\ (m <= 125)%N.
Proof.
  intros Hl. unfold level_next_ltr. rewrite level_new_explicit_iff, land_254 by exact Hl.
  assert (L : least (fun k => N.even k = true /\ (l < k)%N) (2 * (l / 2) + 2)).
  { split; [rewrite even_mod; lia|]. intros k. rewrite even_mod. lia. }
  split; [intros [-> ?]; auto|]. intros [L' ?]. rewrite (least_unique _ _ _ L' L) in *. auto.
Qed.
Lemma next_rtl_iff l m : (l <= 126)%N ->
  level_next_rtl l = Some m <-> least (fun k => N.odd k = true /\ (l < k)%N) m /\ (m <= 125)%N.
Proof.
  intros Hl. unfold level_next_rtl. rewrite level_new_explicit_iff, lor_one.
  assert (L : least (fun k => N.odd k = true /\ (l < k)%N) (2 * ((l + 1) / 2) + 1)).
  { split; [rewrite odd_mod; lia|]. intros k. rewrite odd_mod. lia. }
  split; [intros [-> ?]; auto|]. intros [L' ?]. rewrite (least_unique _ _ _ L' L) in *. auto.
Qed.
Lemma lowest_ge_rtl_iff l m : (l <= 126)%N ->
  level_lowest_ge_rtl l = Some m <-> least (fun k => N.odd k = true /\ (l <= k)%N) m /\ (m <= 126)%N.
Proof.
  intros Hl. unfold level_lowest_ge_rtl. rewrite level_new_iff, lor_one.
  assert (L : least (fun k => N.odd k = true /\ (l <= k)%N) (2 * (l / 2) + 1)).
  { split; [rewrite odd_mod; lia|]. intros k. rewrite odd_mod. lia. }
  split; [intros [-> ?]; auto|]. intros [L' ?]. rewrite (least_unique _ _ _ L' L) in *. auto.
Qed.

Lemma level_direction l : (level_is_rtl l = true <-> N.odd l = true) /\ level_is_ltr l = negb (level_is_rtl l) /\
  (level_class l = cR <-> N.odd l = true) /\ (level_class l = cL <-> N.even l = true).
Proof.
  unfold level_class. rewrite rtl_odd, ltr_even, <- N.negb_odd. destruct (N.odd l); cbn; repeat split; congruence.
Qed.

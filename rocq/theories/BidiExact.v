(** What the neutral pass does for every sequence. *)
From Coq Require Import List NArith ZArith Lia Bool Arith ZifyBool ZifyNat ZifyN.
Import ListNotations.
From Verif Require Import Base Enums EnumFacts UcdModel BidiModel BidiSpec BidiLemmas BidiWeak BidiSeqs BidiExplicit BidiChars BidiRules BidiPara BidiExactSpec.
Open Scope nat_scope.

Lemma snoc_cases {A} (q : list A) : q = [] \/ exists q' z, q = q' ++ [z].
Proof. induction q as [|z q _] using rev_ind; [now left|right; exists q, z; reflexivity]. Qed.
Lemma snoc_inv {A} (a b : list A) x y : a ++ [x] = b ++ [y] -> a = b /\ x = y.
Proof. apply app_inj_tail. Qed.

Lemma cut_off_snoc pre z : cut_off (pre ++ [z]) <->
  (kept z = false /\ border pre) \/ (cut_off pre /\ (neutral z = true \/ kept z = false)).
Proof.
  split.
  - intros (p & x & q & E & B & K & F). destruct (snoc_cases q) as [->|(q' & y & ->)].
    + apply snoc_inv in E as [-> ->]. left. now split.
    + change (p ++ x :: q' ++ [y]) with (p ++ (x :: q') ++ [y]) in E. rewrite app_assoc in E. apply snoc_inv in E as [-> ->].
      apply Forall_app in F as [F1 F2]. inversion F2; subst. right. split; [|assumption]. exists p, x, q'. auto.
  - intros [[K B]|[(p & x & q & -> & B & K & F) N]].
    + exists pre, z, []. repeat split; auto.
    + exists p, x, (q ++ [z]). rewrite <- app_assoc. repeat split; auto. apply Forall_app. split; [assumption|]. constructor; [exact N|constructor].
Qed.
Lemma border_snoc pre z : border (pre ++ [z]) <-> kept z = true /\ neutral z = false.
Proof.
  split.
  - intros [E|(p & y & E & K)]; [now destruct pre|]. apply snoc_inv in E as [_ ->]. exact K.
  - intros K. right. exists pre, z. auto.
Qed.
Lemma cut_off_nil : ~ cut_off [].
Proof. intros (p & x & q & E & _). now destruct p. Qed.

Definition reach (sos : BidiClass) (pre : list BidiClass) (prev : BidiClass) (b : bool) : Prop :=
  (cut_off pre /\ direction prev = None /\ ~ border pre) \/
  (~ cut_off pre /\ prev = nearest sos (rev (filter kept pre)) /\ (b = false <-> border pre)).
Lemma removed_no_direction c : kept c = false -> direction c = None.
Proof. destruct c; cbn; congruence. Qed.
Lemma n_class_none e a b : direction a = None -> n_class e a b = e.
Proof. unfold n_class. now intros ->. Qed.
Lemma nearest_neutral sos z pre : neutral z = true -> nearest sos (rev (filter kept (pre ++ [z]))) = nearest sos (rev (filter kept pre)).
Proof. intros N. rewrite filter_app. cbn [filter]. rewrite (neutral_kept z N), rev_app_distr. unfold nearest. cbn [rev app filter]. now rewrite N. Qed.
Lemma nearest_removed sos z pre : kept z = false -> nearest sos (rev (filter kept (pre ++ [z]))) = nearest sos (rev (filter kept pre)).
Proof. intros N. rewrite filter_app. cbn [filter]. now rewrite N, app_nil_r. Qed.

Definition resolved (sos eos e : BidiClass) (pre : list BidiClass) (c : BidiClass) (post : list BidiClass) (d : BidiClass) : Prop :=
  (neutral c = false -> d = c) /\
  (neutral c = true -> cut_off pre -> d = e) /\
  (neutral c = true -> ~ cut_off pre -> d = n_class e (nearest sos (rev (filter kept pre))) (nearest eos (filter kept post))).

Lemma nl_exact sos eos e : forall cs pre prev b, reach sos pre prev b ->
  forall l c post, cs = l ++ c :: post -> exists d, nth_error (nl e eos cs prev b) (length l) = Some d /\ resolved sos eos e (pre ++ l) c post d.
Proof.
  induction cs as [|y r IH]; intros pre prev b R l c post E; [now destruct l|]. cbn [nl]. rewrite <- neutral_NI.
  assert (Step : forall prev' b' x, reach sos (pre ++ [y]) prev' b' -> resolved sos eos e pre y r x ->
    exists d, nth_error (x :: nl e eos r prev' b') (length l) = Some d /\ resolved sos eos e (pre ++ l) c post d).
  { intros prev' b' x R' X. destruct l as [|y' l].
    - exists x. cbn [app] in E. injection E as <- <-. rewrite app_nil_r. split; [reflexivity|exact X].
    - cbn [app] in E. injection E as <- E. destruct (IH (pre ++ [y]) prev' b' R' l c post E) as (d & D1 & D2).
      exists d. rewrite <- app_assoc in D2. split; [exact D1|exact D2]. }
  destruct (neutral y) eqn:N.
  - apply Step.
    + pose proof (border_snoc pre y) as BS. pose proof (cut_off_snoc pre y) as CS. rewrite (neutral_kept y N), N in *.
      destruct R as [(C & Dn & B)|(C & P & B)]; [left|right].
      * split; [apply CS; right; auto|]. split; [exact Dn|]. intros X. apply BS in X as [_ X]. discriminate.
      * split; [intros X; apply CS in X as [[X _]|[X _]]; [discriminate|contradiction]|]. split; [now rewrite nearest_neutral|].
        split; [discriminate|]. intros X. apply BS in X as [_ X]. discriminate.
    + rewrite <- n_class_spec, next_non_neutral_spec. unfold resolved. rewrite N. split; [discriminate|]. split.
      * intros _ C. destruct R as [(_ & Dn & _)|(C' & _)]; [now apply n_class_none|contradiction].
      * intros _ C. destruct R as [(C' & _)|(_ & P & _)]; [contradiction|]. now rewrite P.
  - rewrite kept_removed. assert (X : resolved sos eos e pre y r y). { unfold resolved. rewrite N. repeat split; discriminate. }
    pose proof (border_snoc pre y) as BS. pose proof (cut_off_snoc pre y) as CS.
    destruct (kept y) eqn:K; cbn [negb]; rewrite ?andb_false_r, ?andb_true_r.
    + apply Step; [|exact X]. right. split; [|split].
      * intros Y. apply CS in Y as [[Y _]|[_ [Y|Y]]]; congruence.
      * rewrite filter_app. cbn [filter]. rewrite K, rev_app_distr. unfold nearest. cbn [rev app filter]. now rewrite N.
      * split; [intros _; apply BS; auto|reflexivity].
    + assert (NB : ~ border (pre ++ [y])) by (intros Y; apply BS in Y as [Y _]; discriminate).
      destruct R as [(C & Dn & B)|(C & P & B)].
      * assert (cut_off (pre ++ [y])) as C' by (apply CS; right; auto).
        destruct b; (apply Step; [|exact X]); left; (split; [exact C'|]); (split; [|exact NB]); [exact Dn|exact (removed_no_direction y K)].
      * destruct b; apply Step; try exact X.
        -- right. split; [|split; [now rewrite nearest_removed|split; [discriminate|contradiction]]].
           intros Y. apply CS in Y as [[_ Y]|[Y _]]; [apply B in Y; discriminate|contradiction].
        -- left. split; [apply CS; left; split; [reflexivity|now apply B]|]. split; [now apply removed_no_direction|exact NB].
Qed.

Lemma neutral_exact s levels pc : NoDup (seq_indices (s_runs s)) -> in_range pc (seq_indices (s_runs s)) ->
  let e := if N.odd (level_at levels (seq_start (s_runs s))) then cR else cL in
  forall pre c post, reads pc (seq_indices (s_runs s)) = pre ++ c :: post ->
  exists d, nth_error (reads (resolve_neutral s levels pc) (seq_indices (s_runs s))) (length pre) = Some d /\
    (neutral c = false -> d = c) /\
    (neutral c = true -> cut_off pre -> d = e) /\
    (neutral c = true -> ~ cut_off pre -> d = n_class e (nearest (s_sos s) (rev (filter kept pre))) (nearest (s_eos s) (filter kept post))).
Proof.
  intros ND RI e pre c post E. destruct (resolve_neutral_out s levels pc ND RI) as (_ & R & _). rewrite R. cbv beta.
  unfold level_class. rewrite level_is_rtl_odd. fold e.
  apply (nl_exact (s_sos s) (s_eos s) e _ [] (s_sos s) false); [|exact E]. right. split; [exact cut_off_nil|]. split; [reflexivity|]. split; [now left|reflexivity].
Qed.

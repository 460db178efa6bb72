(** Expressions with captures and without anchors: all their matches. *)
From Coq Require Import List NArith ZArith Lia Bool PeanoNat ZifyBool ZifyNat ZifyN.
From Verif Require Import Base GenRegex GenSpec GenLemmas.
Import ListNotations.
Open Scope N_scope.

(** The texts an expression matches, with what it captures, latest first. *)
Inductive glang : re -> str -> list (nat * str) -> Prop :=
| G_cls p c : p c = true -> glang (Cls p) [c] []
| G_seq a b v w g h : glang a v g -> glang b w h -> glang (Seq a b) (v ++ w) (h ++ g)
| G_alt_l a b w g : glang a w g -> glang (Alt a b) w g
| G_alt_r a b w g : glang b w g -> glang (Alt a b) w g
| G_opt_no a : glang (Opt a) [] []
| G_opt a w g : glang a w g -> glang (Opt a) w g
| G_star_nil a : glang (Star a) [] []
| G_star a v w g h : v <> [] -> glang a v g -> glang (Star a) w h -> glang (Star a) (v ++ w) (h ++ g)
| G_cap n a w g : glang a w g -> glang (Cap n a) w ((n, w) :: g).

Fixpoint free (r : re) : bool :=
  match r with
  | Cls _ => true
  | Seq a b | Alt a b => free a && free b
  | Opt a | Star a | Cap _ a => free a
  | Bol | Eol => false
  end.

Definition end_of (b : bool) (w u : str) (g' g : list (nat * str)) : place := mkPlace (after b w) u (g' ++ g).

Lemma run_glang r : free r = true -> forall b s g e, In e (run r (mkPlace b s g)) ->
  exists w u g', s = w ++ u /\ glang r w g' /\ e = end_of b w u g' g.
Proof.
  induction r; cbn [free]; intros Hf b s g e H; cbn [run] in H; try discriminate.
  - cbn [ahead groups] in H. destruct s as [|c t]; [now destruct H|]. destruct (p c) eqn:Ep; [|now destruct H].
    destruct H as [<-|[]]. exists [c], t, []. split; [reflexivity|]. split; [now constructor|reflexivity].
  - apply andb_true_iff in Hf as [F1 F2]. apply in_flat_map in H as (m & H1 & H2).
    apply IHr1 in H1 as (v & u & g1 & -> & L1 & ->); [|exact F1].
    apply IHr2 in H2 as (w & u' & g2 & -> & L2 & ->); [|exact F2].
    exists (v ++ w), u', (g2 ++ g1). split; [now rewrite app_assoc|]. split; [now constructor|].
    unfold end_of. now rewrite after_app, app_assoc.
  - apply andb_true_iff in Hf as [F1 F2]. apply in_app_iff in H as [H|H]; [apply IHr1 in H|apply IHr2 in H]; auto;
      destruct H as (w & u & g1 & -> & L & ->); exists w, u, g1; auto using glang.
  - apply in_app_iff in H as [H|[<-|[]]].
    + apply IHr in H as (w & u & g1 & -> & L & ->); [|exact Hf]. exists w, u, g1. auto using glang.
    + exists [], s, []. auto using glang.
  - revert H. cbn [ahead]. generalize (S (length s)) as n. intros n. revert b s g.
    induction n as [|n IHn]; intros b s g H; cbn [star] in H.
    + destruct H as [<-|[]]. exists [], s, []. auto using glang.
    + apply in_app_iff in H as [H|[<-|[]]].
      * apply in_flat_map in H as (m & H1 & H2). apply filter_In in H1 as [H1 Hl].
        apply IHr in H1 as (v & u & g1 & -> & L1 & ->); [|exact Hf].
        apply IHn in H2 as (w & u' & g2 & -> & L2 & ->).
        exists (v ++ w), u', (g2 ++ g1). split; [now rewrite app_assoc|]. split.
        { constructor; auto. intros ->. apply Nat.ltb_lt in Hl. cbn in Hl. lia. }
        unfold end_of. now rewrite after_app, app_assoc.
      * exists [], s, []. auto using glang.
  - apply in_map_iff in H as (m & <- & H). apply IHr in H as (w & u & g1 & -> & L & ->); [|exact Hf].
    exists w, u, ((n, w) :: g1). split; [reflexivity|]. split; [now constructor|].
    unfold end_of. cbn. rewrite app_length, Nat.add_sub, firstn_app, Nat.sub_diag, firstn_all, app_nil_r. reflexivity.
Qed.

Lemma glang_run r w g' : glang r w g' -> forall b u g, In (end_of b w u g' g) (run r (mkPlace b (w ++ u) g)).
Proof.
  intros H. induction H; intros bb u gg; cbn [run].
  - cbn. rewrite H. now left.
  - apply in_flat_map. rewrite <- app_assoc. eexists. split; [apply IHglang1|]. unfold end_of.
    rewrite after_app, <- app_assoc. apply IHglang2.
  - apply in_app_iff. left. apply IHglang.
  - apply in_app_iff. right. apply IHglang.
  - apply in_app_iff. right. now left.
  - apply in_app_iff. left. apply IHglang.
  - cbn [app ahead star]. apply in_app_iff. right. now left.
  - cbn [ahead star]. apply in_app_iff. left. apply in_flat_map. exists (end_of bb v (w ++ u) g gg). split.
    + apply filter_In. rewrite <- app_assoc. split; [apply IHglang1|]. apply Nat.ltb_lt. cbn [end_of ahead].
      rewrite (app_length v). destruct v; [congruence|]. cbn [length]. lia.
    + specialize (IHglang2 (after bb v) u (g ++ gg)). cbn [run ahead] in IHglang2.
      unfold end_of in *. rewrite after_app, <- app_assoc.
      erewrite star_fuel; [exact IHglang2| |]; cbn [ahead]; [|lia].
      rewrite <- app_assoc, (app_length v). destruct v; [congruence|]. cbn [length]. lia.
  - apply in_map_iff. exists (end_of bb w u g gg). split; [|apply IHglang]. unfold end_of. cbn.
    rewrite app_length, Nat.add_sub, firstn_app, Nat.sub_diag, firstn_all, app_nil_r. reflexivity.
Qed.

(** If there is only one way to match then it is the preferred one. *)
Lemma eats_unique r w u g : free r = true -> glang r w g ->
  (forall w' u' g', glang r w' g' -> w ++ u = w' ++ u' -> w' = w /\ g' = g) -> eats r w u g.
Proof.
  intros Hf Hg Hu b h. destruct (run r (mkPlace b (w ++ u) h)) as [|e l] eqn:E.
  - exfalso. pose proof (glang_run r w g Hg b u h) as H. rewrite E in H. exact H.
  - cbn [hd_error]. f_equal. destruct (run_glang r Hf b (w ++ u) h e) as (w' & u' & g' & Ew & Lw & ->).
    { rewrite E. now left. }
    destruct (Hu _ _ _ Lw Ew) as [-> ->]. apply app_inv_head in Ew as <-. reflexivity.
Qed.

(** If all ways to match the first part are one, the second part goes on from there. *)
Lemma eats_seq_unique a b w v u g h : free a = true -> glang a w g ->
  (forall w' u' g', glang a w' g' -> w ++ v ++ u = w' ++ u' -> w' = w /\ g' = g) ->
  eats b v u h -> eats (Seq a b) (w ++ v) u (h ++ g).
Proof. intros. apply eats_seq; [apply eats_unique; auto|auto]. Qed.

Lemma fails_glang r u : free r = true -> (forall w g v, glang r w g -> u = w ++ v -> False) -> fails r u.
Proof.
  intros Hf H b g. destruct (run r (mkPlace b u g)) as [|e l] eqn:E; [reflexivity|].
  destruct (run_glang r Hf b u g e) as (w & v & g' & -> & L & _); [rewrite E; now left|]. exfalso. eapply H; eauto.
Qed.

Lemma glang_cls_inv p w g : glang (Cls p) w g -> exists c, w = [c] /\ p c = true /\ g = [].
Proof. intros H. inversion H; subst. eauto. Qed.
Lemma glang_lit_inv c w g : glang (lit c) w g -> w = [c] /\ g = [].
Proof. intros H. apply glang_cls_inv in H as (d & -> & E & ->). split; [f_equal; lia|reflexivity]. Qed.
Lemma glang_seq_inv a b w g : glang (Seq a b) w g -> exists u v h k, w = u ++ v /\ g = k ++ h /\ glang a u h /\ glang b v k.
Proof. intros H. inversion H; subst. eauto 9. Qed.
Lemma glang_cap_inv n a w g : glang (Cap n a) w g -> exists h, g = (n, w) :: h /\ glang a w h.
Proof. intros H. inversion H; subst. eauto. Qed.
Lemma glang_star_inv p w g : glang (Star (Cls p)) w g -> Forall (fun c => p c = true) w /\ g = [].
Proof.
  intros H. remember (Star (Cls p)) as r eqn:E. induction H; inversion E; subst.
  - split; [constructor|reflexivity].
  - destruct (IHglang2 eq_refl) as [Hf ->]. apply glang_cls_inv in H0 as (c & -> & Ec & ->). split; [constructor; auto|reflexivity].
Qed.
Lemma glang_plus_inv p w g : glang (plus (Cls p)) w g -> w <> [] /\ Forall (fun c => p c = true) w /\ g = [].
Proof.
  intros H. apply glang_seq_inv in H as (u & v & h & k & -> & -> & H1 & H2).
  apply glang_cls_inv in H1 as (c & -> & Ec & ->). apply glang_star_inv in H2 as [Hf ->].
  split; [discriminate|]. split; [constructor; auto|reflexivity].
Qed.
Lemma glang_lits_inv s : forall c w g, glang (lits c s) w g -> w = c :: s /\ g = [].
Proof.
  unfold lits. induction s as [|d s IH] using rev_ind; intros c w g H.
  - now apply glang_lit_inv in H.
  - rewrite fold_left_app in H. cbn in H. apply glang_seq_inv in H as (u & v & h & k & -> & -> & Hu & Hv).
    apply IH in Hu as [-> ->]. apply glang_lit_inv in Hv as [-> ->]. split; reflexivity.
Qed.

Lemma glang_lit c : glang (lit c) [c] [].
Proof. constructor. apply N.eqb_refl. Qed.
Lemma glang_seq a b v w g : glang a v [] -> glang b w g -> glang (Seq a b) (v ++ w) g.
Proof. intros H1 H2. rewrite <- (app_nil_r g). now constructor. Qed.
Lemma glang_star p w : Forall (fun c => p c = true) w -> glang (Star (Cls p)) w [].
Proof.
  induction 1 as [|c w Hc Hw IH]; [constructor|]. change (c :: w) with ([c] ++ w).
  change (@nil (nat * str)) with (@nil (nat * str) ++ []). constructor; [discriminate|now constructor|exact IH].
Qed.
Lemma glang_plus p w : w <> [] -> Forall (fun c => p c = true) w -> glang (plus (Cls p)) w [].
Proof.
  intros Hne Hw. destruct w as [|c w]; [congruence|]. inversion Hw; subst. change (c :: w) with ([c] ++ w).
  apply glang_seq; [now constructor|now apply glang_star].
Qed.
Lemma glang_lits s : forall c, glang (lits c s) (c :: s) [].
Proof.
  unfold lits. induction s as [|d s IH] using rev_ind; intros c; [apply glang_lit|].
  rewrite fold_left_app. cbn [fold_left]. change (c :: s ++ [d]) with ((c :: s) ++ [d]). apply glang_seq; [apply IH|apply glang_lit].
Qed.
Lemma lits_free s : forall c, free (lits c s) = true.
Proof. unfold lits. induction s as [|d s IH] using rev_ind; intros c; [reflexivity|]. rewrite fold_left_app. cbn. now rewrite IH. Qed.

(** Where a run of characters of a class ends is determined. *)
Lemma span_unique (p : N -> bool) : forall a a' c c' u u',
  Forall (fun x => p x = true) a -> Forall (fun x => p x = true) a' -> p c = false -> p c' = false ->
  a ++ c :: u = a' ++ c' :: u' -> a = a' /\ c = c' /\ u = u'.
Proof.
  induction a as [|x a IH]; intros [|x' a'] c c' u u' Ha Ha' Hc Hc' E; cbn in E.
  - now injection E.
  - injection E as -> _. inversion Ha'; congruence.
  - injection E as <- _. inversion Ha; congruence.
  - injection E as -> E. inversion Ha; inversion Ha'; subst.
    apply IH in E as (-> & -> & ->); auto.
Qed.

(** The same from the end. *)
Lemma span_unique_r (p : N -> bool) a a' c c' u u' :
  Forall (fun x => p x = true) a -> Forall (fun x => p x = true) a' -> p c = false -> p c' = false ->
  u ++ c :: a = u' ++ c' :: a' -> u = u' /\ c = c' /\ a = a'.
Proof.
  intros Ha Ha' Hc Hc' E. apply (f_equal (@rev N)) in E. rewrite !rev_app_distr in E. cbn [rev] in E.
  rewrite <- !app_assoc in E. cbn [app] in E.
  apply (span_unique p) in E as (E1 & E2 & E3); auto; [|now apply Forall_rev|now apply Forall_rev].
  rewrite <- (rev_involutive a), E1, rev_involutive, <- (rev_involutive u), E3, rev_involutive. auto.
Qed.

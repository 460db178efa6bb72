(** The grapheme cursor against the rules of UAX #29. *)
From Coq Require Import List NArith Lia Bool Arith.
Import ListNotations.
From Verif Require Import Base Enums TableTypes UcdModel BidiModel BidiLemmas GraphModel GraphSpec SegLemmas.
Open Scope nat_scope.

Definition classes_before (pre : str) := rev (map gcb pre).
Definition classes_after (post : str) := map gcb post.

Lemma GCB_eqb_eq x y : GCB_eqb x y = true <-> x = y.
Proof. split; [destruct x, y; try reflexivity; discriminate|intros ->; destruct y; reflexivity]. Qed.

(** ** Pairs *)
Lemma pair_rule ext b B a A : gb_boundary ext (b :: B) (a :: A) =
  match check_pair b a with
  | PNotBreak => false
  | PBreak => true
  | PExtended => negb ext
  | PRegional => Nat.even (ri_run (b :: B))
  | PEmoji => negb (emoji_base_extend B)
  end.
Proof.
  unfold gb_boundary, gb_rules. rewrite <- !Nat.negb_even.
  destruct b, a; try (destruct ext; reflexivity); cbn -[Nat.even];
    rewrite ?andb_false_r, ?andb_true_r; unfold first_rule; cbn -[Nat.even];
    try (destruct ext; reflexivity); destruct ext;
    solve [destruct (emoji_base_extend B); reflexivity | destruct (Nat.even (S (ri_run B))); reflexivity].
Qed.

Lemma boundary_start ext t : grapheme_boundary ext [] t = true.
Proof. reflexivity. Qed.
Lemma boundary_end ext t : grapheme_boundary ext t [] = true.
Proof. unfold grapheme_boundary, gb_boundary, gb_rules. cbn. destruct (rev _); reflexivity. Qed.

Lemma boundary_pair ext p x y q : grapheme_boundary ext (p ++ [x]) (y :: q) =
  gb_boundary ext (gcb x :: classes_before p) (gcb y :: classes_after q).
Proof. unfold grapheme_boundary, classes_before, classes_after. rewrite map_app, rev_app_distr. reflexivity. Qed.

(** ** The lookback loops *)
Definition all_class (g : GCB) (l : str) : Prop := Forall (fun ch => gcb ch = g) l.

Lemma any1 g h : any_of [g] h = GCB_eqb h g.
Proof. unfold any_of. cbn. rewrite orb_false_r. reflexivity. Qed.

Lemma ri_run_app r : forall X, ~ all_class GCB_RegionalIndicator r ->
  ri_run (map gcb r ++ X) = ri_run (map gcb r).
Proof.
  induction r as [|x r IH]; intros X H; [exfalso; apply H; constructor|].
  cbn [map app ri_run]. rewrite any1. destruct (GCB_eqb (gcb x) GCB_RegionalIndicator) eqn:E; [|reflexivity].
  f_equal. apply IH. intros A. apply H. constructor; [apply GCB_eqb_eq; exact E|exact A].
Qed.

Lemma ri_run_all r : forall X, all_class GCB_RegionalIndicator r ->
  ri_run (map gcb r ++ X) = length r + ri_run X.
Proof.
  induction r as [|x r IH]; intros X H; [reflexivity|]. inversion H; subst.
  cbn [map app ri_run length]. rewrite any1, H2. cbn. rewrite IH; auto.
Qed.

Lemma all_class_dec g l : {all_class g l} + {~ all_class g l}.
Proof.
  apply Forall_dec. intros x. destruct (GCB_eqb (gcb x) g) eqn:E.
  - left. apply GCB_eqb_eq. exact E.
  - right. intros H. apply GCB_eqb_eq in H. congruence.
Qed.

Lemma regional_loop_stop r : forall c cs n, ~ all_class GCB_RegionalIndicator r ->
  let k := n + ri_run (map gcb r) in
  handle_regional_loop c r cs n = decide (with_ris c (Some k)) (Nat.even k).
Proof.
  induction r as [|x r IH]; intros c cs n H; [exfalso; apply H; constructor|].
  cbn [handle_regional_loop map ri_run]. rewrite any1. destruct (GCB_eqb (gcb x) GCB_RegionalIndicator) eqn:E.
  - cbv zeta. rewrite IH.
    + cbv zeta. replace (S n + ri_run (map gcb r)) with (n + S (ri_run (map gcb r))) by lia. reflexivity.
    + intros A. apply H. constructor; [apply GCB_eqb_eq; exact E|exact A].
  - cbv zeta. replace (n + 0) with n by lia. reflexivity.
Qed.

Lemma regional_loop_all r : forall c cs n, all_class GCB_RegionalIndicator r ->
  let k := n + length r in
  handle_regional_loop c r cs n =
  if cs =? 0 then decide (with_ris c (Some k)) (Nat.even k) else with_pre (with_ris c (Some k)) (Some cs).
Proof.
  induction r as [|x r IH]; intros c cs n H; cbv zeta.
  - cbn. replace (n + 0) with n by lia. destruct (cs =? 0); reflexivity.
  - inversion H; subst. cbn [handle_regional_loop length]. rewrite H2. cbn [GCB_eqb GCB_index N.eqb Pos.eqb].
    rewrite IH by auto. cbv zeta. replace (S n + length r) with (n + S (length r)) by lia. reflexivity.
Qed.

Lemma emoji_app r : forall X, ~ all_class GCB_Extend r ->
  emoji_base_extend (map gcb r ++ X) = emoji_base_extend (map gcb r).
Proof.
  induction r as [|x r IH]; intros X H; [exfalso; apply H; constructor|].
  cbn [map app emoji_base_extend]. rewrite any1. destruct (GCB_eqb (gcb x) GCB_Extend) eqn:E.
  - rewrite IH; auto. intros A. apply H. constructor; [apply GCB_eqb_eq; exact E|exact A].
  - reflexivity.
Qed.

Lemma emoji_all r : forall X, all_class GCB_Extend r ->
  emoji_base_extend (map gcb r ++ X) = emoji_base_extend X.
Proof.
  induction r as [|x r IH]; intros X H; [reflexivity|]. inversion H; subst.
  cbn [map app emoji_base_extend]. rewrite H2, IH by auto. reflexivity.
Qed.

Lemma emoji_loop_stop r : forall c cs, ~ all_class GCB_Extend r ->
  handle_emoji_loop c r cs = decide c (negb (emoji_base_extend (map gcb r))).
Proof.
  induction r as [|x r IH]; intros c cs H; [exfalso; apply H; constructor|].
  cbn [handle_emoji_loop map emoji_base_extend]. rewrite any1.
  destruct (GCB_eqb (gcb x) GCB_Extend) eqn:E.
  - apply GCB_eqb_eq in E. rewrite E. cbn. rewrite IH; [reflexivity|].
    intros A. apply H. constructor; auto.
  - destruct (gcb x); try reflexivity. discriminate.
Qed.

Lemma emoji_loop_all r : forall c cs, all_class GCB_Extend r ->
  handle_emoji_loop c r cs = if cs =? 0 then decide c true else with_pre c (Some cs).
Proof.
  induction r as [|x r IH]; intros c cs H; [reflexivity|]. inversion H; subst.
  cbn [handle_emoji_loop]. rewrite H2. apply IH. auto.
Qed.

(** ** A cursor that knows its position *)
Definition before_ok (pre : str) (b : option GCB) : Prop := b = None \/ b = hd_error (classes_before pre).
Definition after_ok (post : str) (a : option GCB) : Prop := a = None \/ a = hd_error (classes_after post).
Definition ris_ok (pre : str) (r : option nat) : Prop := r = None \/ r = Some (ri_run (classes_before pre)).
Definition state_ok (ext : bool) (pre post : str) (s : gstate) : Prop :=
  match s with
  | GBreak => grapheme_boundary ext pre post = true
  | GNotBreak => grapheme_boundary ext pre post = false
  | GUnknown => pre <> [] /\ post <> []
  | _ => False
  end.

Record cursor_at (ext : bool) (pre post : str) (c : cursor) : Prop := At {
  at_off : c_off c = slen pre;
  at_len : c_len c = slen (pre ++ post);
  at_ext : c_ext c = ext;
  at_pre : c_pre c = None;
  at_before : before_ok pre (c_before c);
  at_after : after_ok post (c_after c);
  at_ris : ris_ok pre (c_ris c);
  at_state : state_ok ext pre post (c_state c)
}.

Lemma cursor_at_new ext pre post : cursor_at ext pre post (cursor_new ext (slen pre) (slen (pre ++ post))).
Proof.
  split; cbn; auto; try (left; reflexivity).
  unfold initial_state. rewrite slen_app.
  destruct (slen pre =? 0) eqn:E1; cbn.
  - apply Nat.eqb_eq in E1. apply slen_0 in E1. subst. reflexivity.
  - destruct (slen pre =? slen pre + slen post) eqn:E2; cbn.
    + apply Nat.eqb_eq in E2. rewrite (slen_0 post) by lia. apply boundary_end.
    + apply Nat.eqb_neq in E1, E2. split; intros ->; cbn in *; lia.
Qed.

(** chunk with position: the text is [T0 ++ m1 ++ m2 ++ T1], the chunk is [m1
    ++ m2], and the position is between [m1] and [m2].  The decision does not
    need the text before the chunk. *)
Definition settled (T0 m1 : str) (a : GCB) : Prop :=
  T0 = [] \/ (~ (a = GCB_RegionalIndicator /\ all_class GCB_RegionalIndicator m1) /\
              ~ (a = GCB_EModifier /\ all_class GCB_Extend m1)).

Lemma all_class_rev g l : all_class g (rev l) <-> all_class g l.
Proof.
  unfold all_class. rewrite !Forall_forall. split; intros H x I; apply H; apply in_rev; [rewrite rev_involutive|]; exact I.
Qed.

Lemma cb_app a b : classes_before (a ++ b) = map gcb (rev b) ++ classes_before a.
Proof. unfold classes_before. rewrite map_app, rev_app_distr, map_rev. reflexivity. Qed.

Lemma hd_snoc p x : hd_error (classes_before (p ++ [x])) = Some (gcb x).
Proof. rewrite cb_app. reflexivity. Qed.

Lemma resolve_at ext T0 m1 p x y q c :
  c_ext c = ext -> T0 ++ m1 = p ++ [x] -> c_pre c = None ->
  (m1 = [] -> gcb y <> GCB_RegionalIndicator /\ gcb y <> GCB_EModifier) ->
  ris_ok (p ++ [x]) (c_ris c) -> settled T0 m1 (gcb y) ->
  exists s r, state_ok ext (p ++ [x]) (y :: q) s /\ ris_ok (p ++ [x]) r /\
    resolve_pair c (gcb x) (gcb y) m1 (slen T0) =
    Ret (with_state (with_ris c r) s, GOk (grapheme_boundary ext (p ++ [x]) (y :: q))).
Proof.
  intros Hext HE Hpre Hm1 Hris Hset. subst ext.
  set (bb := grapheme_boundary (c_ext c) (p ++ [x]) (y :: q)).
  assert (HP : bb = gb_boundary (c_ext c) (gcb x :: classes_before p) (gcb y :: classes_after q)) by apply boundary_pair.
  rewrite pair_rule in HP.
  assert (Dec : forall d v, v = bb -> decide d v = with_state d (if bb then GBreak else GNotBreak)) by (intros; subst; reflexivity).
  assert (SO : state_ok (c_ext c) (p ++ [x]) (y :: q) (if bb then GBreak else GNotBreak)).
  { unfold state_ok. fold bb. destruct bb; reflexivity. }
  assert (Same : with_ris c (c_ris c) = c) by (destruct c; reflexivity).
  unfold resolve_pair. destruct (check_pair (gcb x) (gcb y)) eqn:CP.
  - exists (if bb then GBreak else GNotBreak), (c_ris c). split; [auto|]. split; [auto|].
    rewrite Same. unfold decision. rewrite (Dec c false) by auto. rewrite <- HP. reflexivity.
  - exists (if bb then GBreak else GNotBreak), (c_ris c). split; [auto|]. split; [auto|].
    rewrite Same. unfold decision. rewrite (Dec c true) by auto. rewrite <- HP. reflexivity.
  - exists (if bb then GBreak else GNotBreak), (c_ris c). split; [auto|]. split; [auto|].
    rewrite Same. unfold decision. rewrite (Dec c (negb (c_ext c))) by auto. rewrite <- HP. reflexivity.
  - assert (HX : gcb x = GCB_RegionalIndicator /\ gcb y = GCB_RegionalIndicator).
    { clear - CP. destruct (gcb x), (gcb y); try discriminate; auto. }
    destruct HX as [HX HY].
    assert (CB : gcb x :: classes_before p = classes_before (p ++ [x])) by (rewrite cb_app; reflexivity).
    rewrite CB in HP.
    destruct Hris as [Hris|Hris]; rewrite Hris.
    + assert (CB2 : classes_before (p ++ [x]) = map gcb (rev m1) ++ classes_before T0) by (rewrite <- HE; apply cb_app).
      unfold handle_regional. rewrite Hris.
      destruct (all_class_dec GCB_RegionalIndicator (rev m1)) as [AC|AC].
      * destruct Hset as [->|[Hset _]]; [|exfalso; apply Hset; split; [auto|apply all_class_rev; auto]].
        rewrite (regional_loop_all (rev m1) c _ 0 AC). cbv zeta. cbn [slen fold_right Nat.eqb].
        assert (K : 0 + length (rev m1) = ri_run (classes_before (p ++ [x]))).
        { rewrite CB2, ri_run_all by auto. cbn. lia. }
        rewrite K. exists (if bb then GBreak else GNotBreak), (Some (ri_run (classes_before (p ++ [x])))).
        split; [auto|]. split; [right; auto|]. rewrite (Dec _ _ (eq_sym HP)). unfold is_boundary_result.
        destruct bb; reflexivity.
      * rewrite (regional_loop_stop (rev m1) c _ 0 AC). cbv zeta.
        assert (K : 0 + ri_run (map gcb (rev m1)) = ri_run (classes_before (p ++ [x]))).
        { rewrite CB2, ri_run_app by auto. reflexivity. }
        rewrite K. exists (if bb then GBreak else GNotBreak), (Some (ri_run (classes_before (p ++ [x])))).
        split; [auto|]. split; [right; auto|]. rewrite (Dec _ _ (eq_sym HP)). unfold is_boundary_result.
        destruct bb; reflexivity.
    + exists (if bb then GBreak else GNotBreak), (c_ris c). split; [auto|]. split; [right; auto|].
      rewrite Same. unfold decision. rewrite (Dec _ _ (eq_sym HP)). rewrite HP. reflexivity.
  - assert (HX : gcb x = GCB_Extend /\ gcb y = GCB_EModifier).
    { clear - CP. destruct (gcb x), (gcb y); try discriminate; auto. }
    destruct HX as [HX HY].
    assert (CB2 : gcb x :: classes_before p = map gcb (rev m1) ++ classes_before T0).
    { rewrite <- cb_app, HE, cb_app. reflexivity. }
    assert (HP' : bb = negb (emoji_base_extend (map gcb (rev m1) ++ classes_before T0))).
    { rewrite <- CB2. cbn [emoji_base_extend]. rewrite HX. cbn. exact HP. }
    unfold handle_emoji. destruct (all_class_dec GCB_Extend (rev m1)) as [AC|AC].
    + destruct Hset as [->|[_ Hset]]; [|exfalso; apply Hset; split; [auto|apply all_class_rev; auto]].
      rewrite emoji_loop_all by auto. cbn [slen fold_right Nat.eqb].
      rewrite emoji_all in HP' by auto. cbn in HP'.
      exists (if bb then GBreak else GNotBreak), (c_ris c). split; [auto|]. split; [auto|]. rewrite Same.
      rewrite (Dec _ _ (eq_sym HP')). unfold is_boundary_result. destruct bb; reflexivity.
    + rewrite emoji_loop_stop by auto. rewrite emoji_app in HP' by auto.
      exists (if bb then GBreak else GNotBreak), (c_ris c). split; [auto|]. split; [auto|]. rewrite Same.
      rewrite (Dec _ _ (eq_sym HP')). unfold is_boundary_result. destruct bb; reflexivity.
Qed.

Definition first_class (post : str) : option GCB := hd_error (classes_after post).

(** [is_boundary] in a chunk of a text *)
Lemma is_boundary_at ext T0 m1 m2 T1 c :
  cursor_at ext (T0 ++ m1) (m2 ++ T1) c ->
  (m2 = [] -> c_after c <> None) ->
  (m1 = [] -> c_before c <> None) ->
  (forall a, first_class (m2 ++ T1) = Some a -> settled T0 m1 a) ->
  exists c', is_boundary c (m1 ++ m2) (slen T0) = Ret (c', GOk (grapheme_boundary ext (T0 ++ m1) (m2 ++ T1))) /\
    cursor_at ext (T0 ++ m1) (m2 ++ T1) c' /\ c_res c' = c_res c.
Proof.
  intros A Hm2 Hm1 Hset.
  destruct (c_state c) eqn:ST.
  2: { exists c. unfold is_boundary. rewrite ST. pose proof (at_state _ _ _ _ A) as S0. rewrite ST in S0. cbn in S0. rewrite S0. auto. }
  2: { exists c. unfold is_boundary. rewrite ST. pose proof (at_state _ _ _ _ A) as S0. rewrite ST in S0. cbn in S0. rewrite S0. auto. }
  2: { pose proof (at_state _ _ _ _ A) as S0. rewrite ST in S0. easy. }
  2: { pose proof (at_state _ _ _ _ A) as S0. rewrite ST in S0. easy. }
  pose proof (at_state _ _ _ _ A) as S0. rewrite ST in S0. cbn in S0. destruct S0 as [NP NQ].
  destruct (m2 ++ T1) as [|y q] eqn:EQ; [easy|]. clear NQ.
  destruct (snoc_inv _ NP) as (p & x & EP).
  pose proof (at_off _ _ _ _ A) as HO. rewrite slen_app in HO.
  unfold is_boundary. rewrite ST.
  assert (G : ((c_off c <? slen T0) || (slen T0 + slen (m1 ++ m2) <=? c_off c))
     && ((slen T0 + slen (m1 ++ m2) <? c_off c) || match c_after c with None => true | Some _ => false end) = false).
  { rewrite slen_app, HO. destruct m2 as [|y' m2].
    - destruct (c_after c); [|exfalso; apply Hm2; auto]. rewrite orb_false_r.
      apply andb_false_intro2. apply Nat.ltb_ge. cbn. lia.
    - apply andb_false_intro1. apply orb_false_intro; [apply Nat.ltb_ge; lia|apply Nat.leb_gt].
      assert (0 < slen (y' :: m2)) by (apply slen_pos; discriminate). lia. }
  rewrite G. rewrite (at_pre _ _ _ _ A).
  assert (G2 : c_off c <? slen T0 = false) by (apply Nat.ltb_ge; lia). rewrite G2.
  replace (c_off c - slen T0) with (slen m1) by lia. rewrite split_at_app.
  assert (Hc : exists c1, c1 = with_after c (Some (gcb y)) /\
    match c_after c with
    | Some a => is_boundary_known c a m1 (slen T0)
    | None => match m2 with
              | [] => Panic
              | ch :: _ => is_boundary_known (with_after c (Some (gcb ch))) (gcb ch) m1 (slen T0)
              end
    end = is_boundary_known c1 (gcb y) m1 (slen T0)).
  { eexists. split; [reflexivity|]. destruct (at_after _ _ _ _ A) as [HA|HA].
    - rewrite HA. destruct m2 as [|y' m2]; [exfalso; apply Hm2; auto|]. cbn in EQ. injection EQ as -> _. reflexivity.
    - rewrite HA. cbn. f_equal. destruct c; cbn in HA |- *. subst. reflexivity. }
  destruct Hc as (c1 & -> & ->).
  assert (A1 : cursor_at ext (T0 ++ m1) (y :: q) (with_after c (Some (gcb y)))).
  { destruct A. split; cbn; auto. right. reflexivity. }
  set (c1 := with_after c (Some (gcb y))) in *.
  assert (ST1 : c_state c1 = GUnknown) by exact ST.
  assert (R1 : c_res c1 = c_res c) by reflexivity. rewrite <- R1.
  assert (B1 : c_before c1 = c_before c) by reflexivity. rewrite <- B1 in Hm1.
  clearbody c1. clear A ST R1 B1 Hm2 HO G G2 c.
  assert (HS : settled T0 m1 (gcb y)) by (apply Hset; reflexivity). clear Hset.
  assert (Known : is_boundary_known c1 (gcb y) m1 (slen T0) = is_boundary_pair c1 (gcb y) m1 (slen T0) /\
    (m1 = [] -> gcb y <> GCB_RegionalIndicator /\ gcb y <> GCB_EModifier)).
  { unfold is_boundary_known. destruct m1 as [|z m1].
    - pose proof (at_off _ _ _ _ A1) as HO. rewrite app_nil_r in *. rewrite HO, Nat.eqb_refl.
      assert (NE : gcb y <> GCB_RegionalIndicator /\ gcb y <> GCB_EModifier).
      { destruct HS as [->|[H1 H2]]; [easy|]. split; intros E; [apply H1|apply H2]; split; auto; constructor. }
      split; [|auto]. destruct (c_before c1) as [b|] eqn:EB; [|exfalso; apply Hm1; auto].
      destruct NE as [N1 N2]. destruct (gcb y); try reflexivity; congruence.
    - split; [|discriminate]. pose proof (at_off _ _ _ _ A1) as HO. rewrite slen_app in HO.
      assert (L : 0 < slen (z :: m1)) by (apply slen_pos; discriminate).
      assert (NE : c_off c1 =? slen T0 = false) by (apply Nat.eqb_neq; lia). rewrite NE. reflexivity. }
  destruct Known as [-> Hy]. rewrite EP in *.
  assert (Hc : is_boundary_pair c1 (gcb y) m1 (slen T0) =
    resolve_pair (with_before c1 (Some (gcb x))) (gcb x) (gcb y) m1 (slen T0)).
  { unfold is_boundary_pair. destruct (at_before _ _ _ _ A1) as [HB|HB].
    - rewrite HB. destruct (rev m1) as [|x' r] eqn:ER.
      + apply (f_equal (@rev _)) in ER. rewrite rev_involutive in ER. cbn in ER. exfalso. apply Hm1; auto.
      + assert (x' = x).
        { apply (f_equal (@rev _)) in ER. rewrite rev_involutive in ER. cbn in ER. rewrite ER, app_assoc in EP.
          apply app_inj_tail in EP. apply EP. }
        subst. reflexivity.
    - rewrite HB, hd_snoc. f_equal. destruct c1; cbn in *. subst. rewrite hd_snoc. reflexivity. }
  rewrite Hc. clear Hc.
  destruct (resolve_at ext T0 m1 p x y q (with_before c1 (Some (gcb x)))) as (s & r & H1 & H2 & H3); auto.
  - cbn. apply (at_ext _ _ _ _ A1).
  - cbn. apply (at_pre _ _ _ _ A1).
  - cbn. apply (at_ris _ _ _ _ A1).
  - rewrite H3. eexists. split; [reflexivity|]. split; [|reflexivity].
    destruct A1. split; cbn; auto. right. rewrite hd_snoc. reflexivity.
Qed.

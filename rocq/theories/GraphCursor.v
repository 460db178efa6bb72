(** [next_boundary] and [prev_boundary] find the neighbouring boundaries. *)
From Coq Require Import List NArith Lia Bool Arith.
Import ListNotations.
From Verif Require Import Base Enums TableTypes UcdModel BidiModel BidiLemmas GraphModel GraphSpec SegLemmas GraphProofs.
Open Scope nat_scope.
Local Arguments gcb : simpl never.
Local Arguments grapheme_boundary : simpl never.
Local Opaque gcb.

Lemma ri_snoc pre ch : ri_run (classes_before (pre ++ [ch])) =
  if GCB_eqb (gcb ch) GCB_RegionalIndicator then S (ri_run (classes_before pre)) else 0.
Proof. rewrite cb_app. cbn [rev map app ri_run]. cbn [app map]. cbn [ri_run]. rewrite any1. reflexivity. Qed.

Lemma cat_or_after post ch o : after_ok (ch :: post) o -> cat_or o ch = gcb ch.
Proof. intros [->| ->]; reflexivity. Qed.

Lemma step_next_ris pre ch post c : after_ok (ch :: post) (c_after c) -> ris_ok pre (c_ris c) ->
  ris_ok (pre ++ [ch]) (c_ris (step_next c ch)).
Proof.
  intros A R. unfold step_next. cbn. rewrite (cat_or_after _ _ _ A).
  unfold ris_ok. rewrite ri_snoc. destruct (GCB_eqb (gcb ch) GCB_RegionalIndicator); [|right; reflexivity].
  destruct R as [->| ->]; [left|right]; reflexivity.
Qed.

Lemma step_next_at ext pre ch post c s a : cursor_at ext pre (ch :: post) c ->
  state_ok ext (pre ++ [ch]) post s -> after_ok post a ->
  forall r, cursor_at ext (pre ++ [ch]) post (with_res (with_after (with_state (step_next c ch) s) a) r).
Proof.
  intros A S0 AO r. pose proof (step_next_ris pre ch post c (at_after _ _ _ _ A) (at_ris _ _ _ _ A)) as HR.
  pose proof (cat_or_after _ _ _ (at_after _ _ _ _ A)) as HC.
  destruct A. split; cbn; auto.
  - rewrite slen_app. cbn. lia.
  - rewrite <- app_assoc. exact at_len.
  - right. rewrite hd_snoc, HC. reflexivity.
Qed.

(** the chunk [m] after [T0] needs no context at positions inside it *)
Definition clean_inside (T0 m : str) : Prop :=
  forall m1 x m2, m = m1 ++ x :: m2 -> m1 <> [] -> settled T0 m1 (gcb x).

Definition no_bound_within (ext : bool) (pre m T1 : str) : Prop :=
  forall m1 m2, m = m1 ++ m2 -> m1 <> [] -> m2 <> [] -> grapheme_boundary ext (pre ++ m1) (m2 ++ T1) = false.

Lemma next_loop_at ext T0 T1 iter : forall m1 ch c,
  cursor_at ext (T0 ++ m1) (ch :: iter ++ T1) c ->
  clean_inside T0 (m1 ++ ch :: iter) ->
  (exists mid rest c', ch :: iter = mid ++ rest /\
     next_loop (m1 ++ ch :: iter) (slen T0) iter ch c = Ret (c', GOk (Some (slen (T0 ++ m1 ++ mid)))) /\
     next_bound (grapheme_boundary ext) (T0 ++ m1) (ch :: iter ++ T1) mid (rest ++ T1) /\
     cursor_at ext (T0 ++ m1 ++ mid) (rest ++ T1) c' /\ c_res c' = false /\ (rest <> [] \/ T1 = [])) \/
  (T1 <> [] /\ exists c',
     next_loop (m1 ++ ch :: iter) (slen T0) iter ch c = Ret (c', GErr NextChunk) /\
     no_bound_within ext (T0 ++ m1) (ch :: iter) T1 /\
     cursor_at ext (T0 ++ m1 ++ ch :: iter) T1 c' /\ c_res c' = true /\ c_before c' <> None /\ c_after c' = None /\
     c_state c' = GUnknown).
Proof.
  induction iter as [|y iter IH]; intros m1 ch c A CL; cbn [next_loop app].
  - pose proof (at_off _ _ _ _ A) as HO. pose proof (at_len _ _ _ _ A) as HL.
    assert (EO : c_off (step_next c ch) = slen (T0 ++ m1 ++ [ch])).
    { cbn. rewrite HO, !slen_app. cbn. lia. }
    assert (EL : c_len (step_next c ch) = slen (T0 ++ m1 ++ [ch]) + slen T1).
    { change (ch :: [] ++ T1) with ([ch] ++ T1) in HL. cbn [step_next c_len]. rewrite HL, !slen_app. lia. }
    destruct T1 as [|t T1].
    + left. exists [ch], [].
      assert (E : c_off (step_next c ch) =? c_len (step_next c ch) = true) by (apply Nat.eqb_eq; rewrite EO, EL; cbn; lia).
      rewrite E. rewrite EO. eexists. split; [reflexivity|]. split; [reflexivity|].
      cbn [app] in *. split; [|split].
      * split; [reflexivity|]. split; [discriminate|]. split; [apply boundary_end|].
        intros a b H Na Nb. destruct a as [|a0 a]; [easy|]. destruct a; [|discriminate]. cbn in H. injection H as _ H. congruence.
      * pose proof (step_next_at ext (T0 ++ m1) ch [] c GBreak None A (boundary_end _ _) (or_introl eq_refl) false) as H.
        rewrite <- app_assoc in H. destruct H; split; cbn in *; auto.
      * split; [reflexivity|]. right. reflexivity.
    + right. split; [discriminate|].
      assert (E : c_off (step_next c ch) =? c_len (step_next c ch) = false).
      { apply Nat.eqb_neq. rewrite EO, EL. assert (0 < slen (t :: T1)) by (apply slen_pos; discriminate). lia. }
      rewrite E. eexists. split; [reflexivity|]. split; [|split; [|repeat split; discriminate || reflexivity]].
      * intros a b H Na Nb. destruct a as [|a0 a]; [easy|]. destruct a; [|discriminate]. cbn in H. injection H as _ H. congruence.
      * assert (S0 : state_ok ext ((T0 ++ m1) ++ [ch]) (t :: T1) GUnknown).
        { split; [|discriminate]. intros H. apply app_eq_nil in H. destruct H; discriminate. }
        pose proof (step_next_at ext (T0 ++ m1) ch (t :: T1) c GUnknown None A S0 (or_introl eq_refl) true) as H.
        rewrite <- app_assoc in H. destruct H; split; cbn in *; auto.
  - assert (S0 : state_ok ext ((T0 ++ m1) ++ [ch]) (y :: iter ++ T1) GUnknown).
    { split; [|discriminate]. intros H. apply app_eq_nil in H. destruct H; discriminate. }
    pose proof (step_next_at ext (T0 ++ m1) ch (y :: iter ++ T1) c GUnknown (Some (gcb y)) A S0 (or_intror eq_refl) true) as A1.
    set (c1 := with_res (with_after (step_next c ch) (Some (gcb y))) true) in *.
    assert (A2 : cursor_at ext (T0 ++ (m1 ++ [ch])) ((y :: iter) ++ T1) c1).
    { rewrite app_assoc. destruct A1; split; cbn in *; auto. }
    destruct (is_boundary_at ext T0 (m1 ++ [ch]) (y :: iter) T1 c1 A2) as (c' & HI & A3 & R3).
    { discriminate. }
    { intros H. apply app_eq_nil in H. destruct H; discriminate. }
    { intros a Ha. cbn in Ha. injection Ha as <-. apply (CL (m1 ++ [ch]) y iter).
      - rewrite <- app_assoc. reflexivity.
      - intros H. apply app_eq_nil in H. destruct H; discriminate. }
    rewrite <- (app_assoc m1 [ch] (y :: iter)) in HI. cbn [app] in HI. rewrite HI.
    cbn [app] in *. destruct (grapheme_boundary ext (T0 ++ m1 ++ [ch]) (y :: iter ++ T1)) eqn:GB.
    + left. exists [ch], (y :: iter). rewrite (at_off _ _ _ _ A3). eexists. split; [reflexivity|]. split; [reflexivity|].
      split; [|split].
      * split; [reflexivity|]. split; [discriminate|]. split; [rewrite <- app_assoc; exact GB|].
        intros a b H Na Nb. destruct a as [|a0 a]; [easy|]. destruct a; [|discriminate]. cbn in H. injection H as _ H. congruence.
      * destruct A3; split; cbn in *; auto.
      * split; [reflexivity|]. left. discriminate.
    + assert (A4 : cursor_at ext (T0 ++ (m1 ++ [ch])) (y :: iter ++ T1) (with_res c' false)).
      { destruct A3; split; cbn in *; auto. }
      specialize (IH (m1 ++ [ch]) y (with_res c' false) A4).
      rewrite <- (app_assoc m1 [ch] (y :: iter)) in IH. cbn [app] in IH.
      destruct (IH CL) as [(mid & rest & c2 & H1 & H2 & H3 & H4 & H5)|(NT & c2 & H1 & H2 & H3 & H4)].
      * left. exists (ch :: mid), rest, c2. split; [rewrite H1; reflexivity|].
        rewrite H2. split; [rewrite <- (app_assoc m1 [ch] mid); reflexivity|].
        split; [|split; [|exact H5]].
        -- destruct H3 as (E & N & B & F). split; [cbn; congruence|]. split; [discriminate|].
           split; [rewrite <- !app_assoc in B; rewrite <- app_assoc; exact B|].
           intros a b H Na Nb. destruct a as [|a0 a]; [easy|]. cbn in H. injection H as <- H.
           destruct a as [|a1 a].
           ++ cbn in H. subst b. rewrite <- E, <- app_assoc. exact GB.
           ++ specialize (F (a1 :: a) b H ltac:(discriminate) Nb). rewrite <- !app_assoc in F. rewrite <- app_assoc. exact F.
        -- rewrite <- app_assoc in H4. exact H4.
      * right. split; [exact NT|]. exists c2. split; [exact H1|]. split; [|split; [exact H3|exact H4]].
        intros a b H Na Nb. destruct a as [|a0 a]; [easy|]. cbn in H. injection H as <- H.
        destruct a as [|a1 a].
        -- cbn in H. subst b. rewrite <- app_assoc. exact GB.
        -- specialize (H2 (a1 :: a) b H ltac:(discriminate) Nb). rewrite <- !app_assoc in H2. rewrite <- app_assoc. exact H2.
Qed.

Lemma clean_whole m : clean_inside [] m.
Proof. intros m1 x m2 _ _. left. reflexivity. Qed.

(** on the whole text *)
Lemma next_boundary_whole ext pre post c : cursor_at ext pre post c -> c_res c = false -> post <> [] ->
  exists mid rest c', next_bound (grapheme_boundary ext) pre post mid rest /\
    next_boundary c (pre ++ post) 0 = Ret (c', GOk (Some (slen (pre ++ mid)))) /\
    cursor_at ext (pre ++ mid) rest c' /\ c_res c' = false.
Proof.
  intros A R N. destruct post as [|ch iter]; [easy|].
  pose proof (at_off _ _ _ _ A) as HO. pose proof (at_len _ _ _ _ A) as HL.
  unfold next_boundary.
  assert (E : c_off c =? c_len c = false).
  { apply Nat.eqb_neq. rewrite HO, HL, slen_app. assert (0 < slen (ch :: iter)) by (apply slen_pos; discriminate). lia. }
  rewrite E. cbn [Nat.ltb Nat.leb]. rewrite Nat.sub_0_r, HO, split_at_app, R.
  destruct (next_loop_at ext [] [] iter pre ch c) as [(mid & rest & c' & H1 & H2 & H3 & H4 & H5 & _)|[H _]].
  - rewrite app_nil_r. exact A.
  - apply clean_whole.
  - rewrite !app_nil_r in *. exists mid, rest, c'. repeat split; try apply H3; try apply H4; auto.
  - easy.
Qed.

Lemma next_boundary_end ext pre c chunk cs : cursor_at ext pre [] c -> next_boundary c chunk cs = Ret (c, GOk None).
Proof.
  intros A. unfold next_boundary. rewrite (at_off _ _ _ _ A), (at_len _ _ _ _ A), app_nil_r, Nat.eqb_refl. reflexivity.
Qed.

(** ** Backwards *)
Lemma step_prev_at ext pre ch post c s b : cursor_at ext (pre ++ [ch]) post c ->
  state_ok ext pre (ch :: post) s -> before_ok pre b ->
  forall r, cursor_at ext pre (ch :: post) (with_res (with_before (with_state (step_prev c ch) s) b) r).
Proof.
  intros A S0 BO r. destruct A. split; cbn; auto.
  - rewrite at_off, slen_app. cbn. lia.
  - rewrite at_len, <- app_assoc. reflexivity.
  - destruct at_before as [->| ->]; [left|right; rewrite hd_snoc]; reflexivity.
  - destruct at_ris as [->| ->]; [left; reflexivity|]. rewrite ri_snoc.
    destruct (GCB_eqb (gcb ch) GCB_RegionalIndicator); [right|left]; reflexivity.
Qed.

Lemma handle_regional_before c l cs : c_before (handle_regional c l cs) = c_before c.
Proof.
  unfold handle_regional. generalize (match c_ris c with Some n => n | None => 0 end).
  induction (rev l) as [|z r IH]; intros n; cbn; [destruct (cs =? 0); reflexivity|].
  destruct (GCB_eqb _ _); [apply IH|reflexivity].
Qed.
Lemma handle_emoji_before c l cs : c_before (handle_emoji c l cs) = c_before c.
Proof.
  unfold handle_emoji.
  induction (rev l) as [|z r IH]; cbn; [destruct (cs =? 0); reflexivity|].
  destruct (gcb z); try reflexivity. apply IH.
Qed.
Lemma boundary_result_same c c' r : is_boundary_result c = Ret (c', r) -> c' = c.
Proof. unfold is_boundary_result. destruct (c_state c); try congruence; destruct (c_pre c); congruence. Qed.

(** a known class before the cursor is not forgotten *)
Lemma is_boundary_keeps c chunk cs c' r : is_boundary c chunk cs = Ret (c', r) -> c_before c <> None -> c_before c' <> None.
Proof.
  intros H B.
  assert (G1 : forall c2 b a bf, c_before c2 <> None -> resolve_pair c2 b a bf cs = Ret (c', r) -> c_before c' <> None).
  { intros c2 b a bf Hb K. unfold resolve_pair, decision in K. destruct (check_pair b a).
    - injection K as <- _. exact Hb.
    - injection K as <- _. exact Hb.
    - injection K as <- _. exact Hb.
    - destruct (c_ris c2); [injection K as <- _; exact Hb|].
      apply boundary_result_same in K. subst. rewrite handle_regional_before. exact Hb.
    - apply boundary_result_same in K. subst. rewrite handle_emoji_before. exact Hb. }
  assert (G2 : forall c2 a bf, c_before c2 <> None -> is_boundary_known c2 a bf cs = Ret (c', r) -> c_before c' <> None).
  { intros c2 a bf Hb K. unfold is_boundary_known in K.
    assert (P : forall c3, c_before c3 <> None -> is_boundary_pair c3 a bf cs = Ret (c', r) -> c_before c' <> None).
    { clear K. intros c3 Hb3 K. unfold is_boundary_pair in K. destruct (c_before c3) eqn:EB; [|easy].
      eapply G1; [|exact K]. congruence. }
    destruct (c_off c2 =? cs); [|eauto].
    destruct a; try (injection K as <- _; exact Hb); destruct (c_before c2) eqn:EB; try easy; eapply P; try exact K; congruence. }
  unfold is_boundary in H. destruct (c_state c); try (injection H as <- _; exact B);
  (destruct (_ && _) in H; [injection H as <- _; exact B|]; destruct (c_pre c); [injection H as <- _; exact B|];
   destruct (_ <? _) in H; [discriminate|]; destruct (split_at _ _) as [[bf af]|]; [|discriminate];
   destruct (c_after c); [eapply G2; [|exact H]; exact B|]; destruct af; [discriminate|]; eapply G2; [|exact H]; exact B).
Qed.

Lemma prev_loop_at ext T0 T1 iter : forall ch m2 c,
  cursor_at ext (T0 ++ rev iter ++ [ch]) (m2 ++ T1) c ->
  clean_inside T0 (rev iter ++ ch :: m2) ->
  (exists s mid c', rev iter ++ [ch] = s ++ mid /\
     prev_loop (rev iter ++ ch :: m2) (slen T0) iter ch c = Ret (c', GOk (Some (slen (T0 ++ s)))) /\
     prev_bound (grapheme_boundary ext) (T0 ++ rev iter ++ [ch]) (m2 ++ T1) (T0 ++ s) mid /\
     cursor_at ext (T0 ++ s) (mid ++ m2 ++ T1) c' /\ c_res c' = false /\ (T0 ++ s <> [] -> c_before c' <> None) /\ (s <> [] \/ T0 = [])) \/
  (T0 <> [] /\ exists c',
     prev_loop (rev iter ++ ch :: m2) (slen T0) iter ch c = Ret (c', GErr PrevChunk) /\
     no_bound_within ext T0 (rev iter ++ [ch]) (m2 ++ T1) /\
     cursor_at ext T0 (rev iter ++ ch :: m2 ++ T1) c' /\ c_res c' = true /\ c_before c' = None /\
     (iter <> [] \/ c_before c <> None -> c_after c' <> None) /\ c_state c' = GUnknown).
Proof.
  induction iter as [|y iter IH]; intros ch m2 c A CL; cbn [prev_loop app rev].
  - cbn [rev app] in A. pose proof (at_off _ _ _ _ A) as HO. rewrite slen_app in HO. cbn in HO.
    assert (EO : c_off (step_prev c ch) = slen T0) by (cbn; lia).
    destruct T0 as [|t T0].
    + left. exists [], [ch]. rewrite EO. cbn [slen fold_right Nat.eqb app].
      eexists. split; [reflexivity|]. split; [reflexivity|]. split; [|split].
      * split; [reflexivity|]. split; [discriminate|]. split; [reflexivity|].
        intros a b H Na Nb. destruct a as [|a0 a]; [easy|]. destruct a; [|discriminate]. cbn in H. injection H as _ H. congruence.
      * pose proof (step_prev_at ext [] ch (m2 ++ T1) c GBreak None A eq_refl (or_introl eq_refl) false) as H.
        destruct H; split; cbn in *; auto.
      * split; [reflexivity|]. split; [easy|]. right. reflexivity.
    + right. split; [discriminate|].
      assert (E : c_off (step_prev c ch) =? 0 = false).
      { apply Nat.eqb_neq. rewrite EO. assert (0 < slen (t :: T0)) by (apply slen_pos; discriminate). lia. }
      rewrite E. eexists. split; [reflexivity|].
      split; [|split; [|split; [reflexivity|split; [reflexivity|split; [|reflexivity]]]]].
      * intros a b H Na Nb. destruct a as [|a0 a]; [easy|]. destruct a; [|discriminate]. cbn in H. injection H as _ H. congruence.
      * assert (S0 : state_ok ext (t :: T0) (ch :: m2 ++ T1) GUnknown) by (split; discriminate).
        pose proof (step_prev_at ext (t :: T0) ch (m2 ++ T1) c GUnknown None A S0 (or_introl eq_refl) true) as H.
        destruct H; split; cbn in *; auto.
      * intros [H|H]; [easy|exact H].
  - cbn [rev] in A. assert (NE : T0 ++ rev iter ++ [y] <> []).
    { intros H. apply app_eq_nil in H. destruct H as [_ H]. apply app_eq_nil in H. destruct H; discriminate. }
    assert (S0 : state_ok ext (T0 ++ rev iter ++ [y]) (ch :: m2 ++ T1) GUnknown) by (split; [exact NE|discriminate]).
    assert (BO : before_ok (T0 ++ rev iter ++ [y]) (Some (gcb y))) by (right; rewrite app_assoc, hd_snoc; reflexivity).
    assert (A0 : cursor_at ext ((T0 ++ rev iter ++ [y]) ++ [ch]) (m2 ++ T1) c) by (rewrite <- app_assoc; exact A).
    pose proof (step_prev_at ext (T0 ++ rev iter ++ [y]) ch (m2 ++ T1) c GUnknown (Some (gcb y)) A0 S0 BO true) as A1.
    set (c1 := with_res (with_before (step_prev c ch) (Some (gcb y))) true) in *.
    assert (A2 : cursor_at ext (T0 ++ (rev iter ++ [y])) ((ch :: m2) ++ T1) c1).
    { destruct A1; split; cbn in *; auto. }
    destruct (is_boundary_at ext T0 (rev iter ++ [y]) (ch :: m2) T1 c1 A2) as (c' & HI & A3 & R3).
    { discriminate. }
    { intros H. apply app_eq_nil in H. destruct H; discriminate. }
    { intros a Ha. cbn in Ha. injection Ha as <-. apply (CL (rev iter ++ [y]) ch m2).
      - cbn [rev]. rewrite <- !app_assoc. reflexivity.
      - intros H. apply app_eq_nil in H. destruct H; discriminate. }
    rewrite HI. cbn [app] in *.
    destruct (grapheme_boundary ext (T0 ++ rev iter ++ [y]) (ch :: m2 ++ T1)) eqn:GB.
    + left. exists (rev iter ++ [y]), [ch]. rewrite (at_off _ _ _ _ A3). eexists. split; [reflexivity|]. split; [reflexivity|].
      split; [|split].
      * split; [rewrite <- !app_assoc; reflexivity|]. split; [discriminate|]. split; [exact GB|].
        intros a b H Na Nb. destruct a as [|a0 a]; [easy|]. destruct a; [|discriminate]. cbn in H. injection H as _ H. congruence.
      * destruct A3; split; cbn in *; auto.
      * split; [reflexivity|]. split; [intros _; cbn; eapply is_boundary_keeps; [exact HI|]; discriminate|].
        left. intros H. apply app_eq_nil in H. destruct H; discriminate.
    + assert (A4 : cursor_at ext (T0 ++ rev iter ++ [y]) ((ch :: m2) ++ T1) (with_res c' false)).
      { destruct A3; split; cbn in *; auto. }
      assert (BS : c_before (with_res c' false) <> None).
      { cbn. eapply is_boundary_keeps; [exact HI|]. discriminate. }
      specialize (IH y (ch :: m2) (with_res c' false) A4).
      assert (CL' : clean_inside T0 (rev iter ++ y :: ch :: m2)).
      { cbn [rev] in CL. rewrite <- app_assoc in CL. exact CL. }
      assert (EC : (rev iter ++ [y]) ++ ch :: m2 = rev iter ++ y :: ch :: m2) by (rewrite <- app_assoc; reflexivity).
      rewrite EC.
      destruct (IH CL') as [(s & mid & c2 & H1 & H2 & H3 & H4 & H5)|(NT & c2 & H1 & H2 & H3 & H4 & H5 & H6 & H7)].
      * left. exists s, (mid ++ [ch]), c2. split; [rewrite H1, <- app_assoc; reflexivity|].
        split; [exact H2|]. split; [|split; [|exact H5]].
        -- destruct H3 as (E & N & B & F). split; [rewrite H1, <- !app_assoc; reflexivity|].
           split; [intros H; apply app_eq_nil in H; destruct H; discriminate|].
           split; [rewrite <- app_assoc; exact B|].
           intros a b H Na Nb. destruct (snoc_inv b Nb) as (b' & z & ->). rewrite app_assoc in H.
           apply app_inj_tail in H. destruct H as [H <-]. destruct b' as [|b0 b'].
           ++ rewrite app_nil_r in H. subst a. cbn [app]. rewrite <- app_assoc, <- H1. exact GB.
           ++ specialize (F a (b0 :: b') H Na ltac:(discriminate)).
              rewrite <- !app_assoc in *. cbn [app] in *. exact F.
        -- rewrite <- app_assoc. exact H4.
      * right. split; [exact NT|]. exists c2. split; [exact H1|]. split; [|split; [|split; [|split; [|split; [|exact H7]]]]].
        -- intros a b H Na Nb. destruct (snoc_inv b Nb) as (b' & z & ->). rewrite app_assoc in H.
           apply app_inj_tail in H. destruct H as [H <-]. destruct b' as [|b0 b'].
           ++ rewrite app_nil_r in H. subst a. exact GB.
           ++ specialize (H2 a (b0 :: b') H Na ltac:(discriminate)).
              rewrite <- !app_assoc in *. cbn [app] in *. exact H2.
        -- rewrite <- app_assoc. exact H3.
        -- exact H4.
        -- exact H5.
        -- intros _. apply H6. right. exact BS.
Qed.

Lemma prev_boundary_whole ext pre post c : cursor_at ext pre post c -> c_res c = false -> pre <> [] ->
  exists s mid c', prev_bound (grapheme_boundary ext) pre post s mid /\
    prev_boundary c (pre ++ post) 0 = Ret (c', GOk (Some (slen s))) /\
    cursor_at ext s (mid ++ post) c' /\ c_res c' = false.
Proof.
  intros A R N. destruct (snoc_inv pre N) as (p & ch & ->).
  pose proof (at_off _ _ _ _ A) as HO.
  unfold prev_boundary.
  assert (E : c_off c =? 0 = false).
  { apply Nat.eqb_neq. rewrite HO. assert (0 < slen (p ++ [ch])) by (apply slen_pos; exact N). lia. }
  rewrite E. cbn [Nat.ltb Nat.leb]. rewrite Nat.sub_0_r, HO, split_at_app, R, rev_app_distr. cbn [rev app].
  destruct (prev_loop_at ext [] [] (rev p) ch post c) as [(s & mid & c' & H1 & H2 & H3 & H4 & H5 & _)|[H _]].
  - rewrite rev_involutive, app_nil_r. exact A.
  - apply clean_whole.
  - rewrite rev_involutive, !app_nil_r in *. cbn [app] in *. rewrite <- app_assoc. cbn [app]. change (slen []) with 0 in H2. exists s, mid, c'.
    repeat split; try apply H3; try apply H4; auto.
  - easy.
Qed.

Lemma prev_boundary_start ext post c chunk cs : cursor_at ext [] post c -> prev_boundary c chunk cs = Ret (c, GOk None).
Proof. intros A. unfold prev_boundary. rewrite (at_off _ _ _ _ A). reflexivity. Qed.

Lemma is_boundary_whole ext pre post c : cursor_at ext pre post c ->
  exists c', is_boundary c (pre ++ post) 0 = Ret (c', GOk (grapheme_boundary ext pre post)) /\
    cursor_at ext pre post c' /\ c_res c' = c_res c.
Proof.
  intros A. destruct pre as [|p0 pre].
  { pose proof (at_state _ _ _ _ A) as S0. exists c. unfold is_boundary. destruct (c_state c); cbn in S0; try easy. }
  destruct post as [|q0 post].
  { pose proof (at_state _ _ _ _ A) as S0. exists c. unfold is_boundary. rewrite boundary_end in *. destruct (c_state c); cbn in S0; try easy;
    rewrite ?boundary_end in *; try easy. }
  destruct (is_boundary_at ext [] (p0 :: pre) (q0 :: post) [] c) as (c' & H1 & H2 & H3); cbn [app] in *; rewrite ?app_nil_r in *; auto; try discriminate.
  - intros a _. left. reflexivity.
  - exists c'. auto.
Qed.

Lemma set_cursor_at ext pre post p q c : cursor_at ext pre post c -> pre ++ post = p ++ q ->
  cursor_at ext p q (set_cursor c (slen p)) /\ c_res (set_cursor c (slen p)) = c_res c.
Proof.
  intros A E. unfold set_cursor. destruct (slen p =? c_off c) eqn:EO.
  - apply Nat.eqb_eq in EO. rewrite (at_off _ _ _ _ A) in EO. destruct (slen_len_inj _ _ _ _ E) as [-> ->]; auto.
  - split; [|reflexivity]. pose proof (cursor_at_new ext p q) as H. destruct A. destruct H. cbn in *.
    split; cbn; auto. rewrite at_len, E. reflexivity. rewrite at_len, E. auto.
Qed.

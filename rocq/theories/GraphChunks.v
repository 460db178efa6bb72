(** A cursor that is given the text in chunks. *)
From Coq Require Import List NArith Lia Bool Arith.
Import ListNotations.
From Verif Require Import Base Enums TableTypes UcdModel BidiModel BidiLemmas GraphModel GraphSpec SegLemmas GraphProofs GraphCursor GraphIter.
Open Scope nat_scope.
Local Opaque gcb grapheme_boundary.

Definition nonempty (s : str) : Prop := s <> [].

Lemma settled_spec T0 m x : T0 <> [] -> (settled T0 m (gcb x) <-> ~ looks_before_chunk m x).
Proof.
  intros N. unfold settled, looks_before_chunk, all_class. change grapheme_cluster_break with gcb. tauto.
Qed.

Lemma self_contained_clean T0 m : self_contained m -> clean_inside T0 m.
Proof.
  intros [_ H] m1 x m2 E _. destruct T0 as [|t T0]; [left; reflexivity|].
  apply settled_spec; [discriminate|]. eapply H. exact E.
Qed.

(** ** Asking at one position *)
Lemma ask_settled ext before m1 x m2 T1 : m1 <> [] -> (before = [] \/ ~ looks_before_chunk m1 x) ->
  let T0 := concat (rev before) in
  let pre := T0 ++ m1 in let post := x :: m2 ++ T1 in
  exists c, ask_boundary before (cursor_new ext (slen pre) (slen (pre ++ post))) (m1 ++ x :: m2) (slen T0)
            = Ret (c, GOk (grapheme_boundary ext pre post)).
Proof.
  intros N H T0 pre post.
  destruct (is_boundary_at ext T0 m1 (x :: m2) T1 _ (cursor_at_new ext pre post)) as (c & H1 & _).
  - discriminate.
  - easy.
  - intros a Ha. cbn in Ha. injection Ha as <-. destruct H as [->|H]; [left; reflexivity|].
    destruct (list_eq_dec N.eq_dec T0 []) as [->|NT]; [left; reflexivity|]. apply settled_spec; auto.
  - exists c. destruct before; cbn [ask_boundary]; unfold pre, post in *; cbn [app] in *; rewrite H1; reflexivity.
Qed.

Lemma concat_rev_cons (p : str) l : concat (rev (p :: l)) = concat (rev l) ++ p.
Proof. cbn. rewrite concat_app. cbn. rewrite app_nil_r. reflexivity. Qed.

(** feeding context in the states [GRegional] and [GEmoji] *)
Definition waiting (c : cursor) (chunk : str) (cs : nat) (T : str) : Prop :=
  c_off c = cs /\ 0 < slen chunk /\ c_pre c = Some (slen T).

Lemma waiting_ask c chunk cs T : waiting c chunk cs T -> c_state c = GRegional \/ c_state c = GEmoji ->
  is_boundary c chunk cs = Ret (c, GErr (PreContext (slen T))).
Proof.
  intros (H1 & H2 & H3) [S0|S0]; unfold is_boundary; rewrite S0, H1, H3;
  (assert (E1 : cs <? cs = false) by (apply Nat.ltb_ge; lia));
  (assert (E2 : cs + slen chunk <=? cs = false) by (apply Nat.leb_gt; lia));
  rewrite E1, E2; reflexivity.
Qed.

Lemma decided_ask before c chunk cs (b : bool) : c_state c = (if b then GBreak else GNotBreak) ->
  ask_boundary before c chunk cs = Ret (c, GOk b).
Proof. intros H. destruct before; cbn [ask_boundary]; unfold is_boundary; rewrite H; destruct b; reflexivity. Qed.

Definition ris_or_0 (c : cursor) : nat := match c_ris c with Some n => n | None => 0 end.

Lemma regional_provide c p T0 : 
  let c' := handle_regional c p (slen T0) in
  let k := ris_or_0 c + ri_run (classes_before (T0 ++ p)) in
  (T0 = [] \/ ~ all_class GCB_RegionalIndicator p -> c_state c' = if Nat.even k then GBreak else GNotBreak) /\
  (T0 <> [] -> all_class GCB_RegionalIndicator p -> c' = with_pre (with_ris c (Some (ris_or_0 c + length p))) (Some (slen T0))).
Proof.
  cbv zeta. unfold handle_regional. fold (ris_or_0 c). split.
  - intros H. destruct (all_class_dec GCB_RegionalIndicator (rev p)) as [AC|AC].
    + destruct H as [->|H]; [|exfalso; apply H; apply all_class_rev; exact AC].
      rewrite regional_loop_all by auto. cbn [slen fold_right Nat.eqb app].
      rewrite <- (app_nil_l p), cb_app, ri_run_all by auto. cbn [app classes_before rev map ri_run].
      rewrite Nat.add_0_r. reflexivity.
    + rewrite regional_loop_stop by auto. cbv zeta. rewrite cb_app, ri_run_app by auto. reflexivity.
  - intros N AC. rewrite regional_loop_all by (apply all_class_rev; exact AC). cbv zeta.
    pose proof (slen_pos T0 N) as L. destruct (slen T0 =? 0) eqn:E; [apply Nat.eqb_eq in E; lia|].
    rewrite rev_length. reflexivity.
Qed.

Lemma emoji_provide c p T0 :
  let c' := handle_emoji c p (slen T0) in
  (T0 = [] \/ ~ all_class GCB_Extend p ->
     c_state c' = if negb (emoji_base_extend (classes_before (T0 ++ p))) then GBreak else GNotBreak) /\
  (T0 <> [] -> all_class GCB_Extend p -> c' = with_pre c (Some (slen T0))).
Proof.
  cbv zeta. unfold handle_emoji. split.
  - intros H. destruct (all_class_dec GCB_Extend (rev p)) as [AC|AC].
    + destruct H as [->|H]; [|exfalso; apply H; apply all_class_rev; exact AC].
      rewrite emoji_loop_all by auto. cbn [slen fold_right Nat.eqb app].
      rewrite <- (app_nil_l p), cb_app, emoji_all by auto. reflexivity.
    + rewrite emoji_loop_stop by auto. rewrite cb_app, emoji_app by auto. reflexivity.
  - intros N AC. rewrite emoji_loop_all by (apply all_class_rev; exact AC).
    pose proof (slen_pos T0 N) as L. destruct (slen T0 =? 0) eqn:E; [apply Nat.eqb_eq in E; lia|]. reflexivity.
Qed.

Lemma concat_rev_nil (before : list str) : Forall nonempty before -> concat (rev before) = [] -> before = [].
Proof.
  intros F E. destruct before as [|p b]; [reflexivity|]. inversion F; subst. rewrite concat_rev_cons in E.
  apply app_eq_nil in E. destruct E. subst. easy.
Qed.

Lemma regional_feed before : forall c chunk cs, Forall nonempty before -> before <> [] ->
  waiting c chunk cs (concat (rev before)) -> c_state c = GRegional -> slen (concat (rev before)) < cs ->
  exists c', ask_boundary before c chunk cs =
    Ret (c', GOk (Nat.even (ris_or_0 c + ri_run (classes_before (concat (rev before)))))).
Proof.
  induction before as [|p before IH]; intros c chunk cs F N W S0 L; [easy|].
  inversion F; subst. cbn [ask_boundary]. rewrite (waiting_ask _ _ _ _ W (or_introl S0)).
  destruct W as (W1 & W2 & W3). rewrite concat_rev_cons in *. set (T0 := concat (rev before)) in *.
  rewrite slen_app in *. replace (slen T0 + slen p - slen p) with (slen T0) by lia.
  unfold provide_context. rewrite W3, Nat.eqb_refl. cbn [with_pre c_state c_ext c_off]. rewrite S0.
  assert (E : c_ext c && (slen T0 + slen p =? c_off c) = false).
  { apply andb_false_intro2. apply Nat.eqb_neq. lia. }
  rewrite E. destruct (regional_provide (with_pre c None) p T0) as [R1 R2].
  destruct (all_class_dec GCB_RegionalIndicator p) as [AC|AC].
  - destruct (list_eq_dec N.eq_dec T0 []) as [ET|NT].
    + eexists. apply decided_ask. apply R1. left. exact ET.
    + rewrite (R2 NT AC).
      destruct (IH (with_pre (with_ris (with_pre c None) (Some (ris_or_0 (with_pre c None) + length p))) (Some (slen T0))) chunk cs) as (c' & HI); auto.
      * intros ->. apply NT. reflexivity.
      * repeat split; auto.
      * lia.
      * exists c'. rewrite HI. do 3 f_equal. rewrite cb_app, ri_run_all by (apply all_class_rev; exact AC).
        rewrite rev_length. cbn. f_equal. unfold ris_or_0. cbn. lia.
  - eexists. apply decided_ask. apply R1. right. exact AC.
Qed.

Lemma emoji_feed before : forall c chunk cs, Forall nonempty before -> before <> [] ->
  waiting c chunk cs (concat (rev before)) -> c_state c = GEmoji -> slen (concat (rev before)) < cs ->
  exists c', ask_boundary before c chunk cs =
    Ret (c', GOk (negb (emoji_base_extend (classes_before (concat (rev before)))))).
Proof.
  induction before as [|p before IH]; intros c chunk cs F N W S0 L; [easy|].
  inversion F; subst. cbn [ask_boundary]. rewrite (waiting_ask _ _ _ _ W (or_intror S0)).
  destruct W as (W1 & W2 & W3). rewrite concat_rev_cons in *. set (T0 := concat (rev before)) in *.
  rewrite slen_app in *. replace (slen T0 + slen p - slen p) with (slen T0) by lia.
  unfold provide_context. rewrite W3, Nat.eqb_refl. cbn [with_pre c_state c_ext c_off]. rewrite S0.
  assert (E : c_ext c && (slen T0 + slen p =? c_off c) = false).
  { apply andb_false_intro2. apply Nat.eqb_neq. lia. }
  rewrite E. destruct (emoji_provide (with_pre c None) p T0) as [R1 R2].
  destruct (all_class_dec GCB_Extend p) as [AC|AC].
  - destruct (list_eq_dec N.eq_dec T0 []) as [ET|NT].
    + eexists. apply decided_ask. apply R1. left. exact ET.
    + rewrite (R2 NT AC).
      destruct (IH (with_pre (with_pre c None) (Some (slen T0))) chunk cs) as (c' & HI); auto.
      * intros ->. apply NT. reflexivity.
      * repeat split; auto.
      * lia.
      * exists c'. rewrite HI. do 3 f_equal. rewrite cb_app, emoji_all by (apply all_class_rev; exact AC). reflexivity.
  - eexists. apply decided_ask. apply R1. right. exact AC.
Qed.

(** the first question at the start of a chunk *)
Lemma ask_start ext before x m2 T1 : Forall nonempty before -> before <> [] ->
  let T0 := concat (rev before) in let post := x :: m2 ++ T1 in
  let c := cursor_new ext (slen T0) (slen (T0 ++ post)) in
  is_boundary c (x :: m2) (slen T0) =
  Ret (with_pre (with_state (with_after c (Some (gcb x)))
         (match gcb x with GCB_RegionalIndicator => GRegional | GCB_EModifier => GEmoji | _ => GUnknown end)) (Some (slen T0)),
       GErr (PreContext (slen T0))).
Proof.
  intros F N T0 post c.
  assert (NT : T0 <> []) by (intros E; apply N; apply concat_rev_nil; auto).
  pose proof (slen_pos T0 NT) as L0. assert (L1 : 0 < slen (x :: m2)) by (apply slen_pos; discriminate).
  assert (L2 : 0 < slen post) by (apply slen_pos; discriminate).
  unfold is_boundary, c. cbn [c_state cursor_new c_off c_after c_pre].
  assert (IS : initial_state (slen T0) (slen (T0 ++ post)) = GUnknown).
  { unfold initial_state. rewrite slen_app. destruct (slen T0 =? 0) eqn:E1; [apply Nat.eqb_eq in E1; lia|].
    destruct (slen T0 =? slen T0 + slen post) eqn:E2; [apply Nat.eqb_eq in E2; lia|]. reflexivity. }
  unfold cursor_new. rewrite IS.
  assert (E1 : slen T0 <? slen T0 = false) by (apply Nat.ltb_ge; lia).
  assert (E2 : slen T0 + slen (x :: m2) <=? slen T0 = false) by (apply Nat.leb_gt; lia).
  rewrite E1, E2. cbn [orb andb]. rewrite Nat.sub_diag. cbn [split_at].
  unfold is_boundary_known. cbn [c_off with_after]. rewrite Nat.eqb_refl. cbn [c_before].
  destruct (gcb x); reflexivity.
Qed.

Lemma snoc_ext p (l : str) x : p = l ++ [x] -> p <> [].
Proof. intros -> H. apply app_eq_nil in H. destruct H; discriminate. Qed.

Lemma ask_start_context ext before x m2 T1 : Forall nonempty before -> before <> [] ->
  gcb x = GCB_RegionalIndicator \/ gcb x = GCB_EModifier ->
  let T0 := concat (rev before) in let post := x :: m2 ++ T1 in
  exists c, ask_boundary before (cursor_new ext (slen T0) (slen (T0 ++ post))) (x :: m2) (slen T0)
            = Ret (c, GOk (grapheme_boundary ext T0 post)).
Proof.
  intros F N HX T0 post. destruct before as [|p before]; [easy|].
  cbn [ask_boundary]. unfold T0, post. rewrite (ask_start ext (p :: before) x m2 T1 F N).
  fold T0. fold post. assert (ETT : T0 = concat (rev before) ++ p) by apply concat_rev_cons. clearbody T0. assert (H1 : nonempty p) by (inversion F; assumption). assert (H2 : Forall nonempty before) by (inversion F; assumption). clear F N. set (U := concat (rev before)) in *.
  assert (ET : slen T0 - slen p = slen U) by (rewrite ETT; rewrite slen_app; lia). rewrite ET.
  destruct (snoc_inv p H1) as (p0 & z & Ep).
  assert (GB : grapheme_boundary ext T0 post = gb_boundary ext (gcb z :: classes_before (U ++ p0)) (gcb x :: classes_after (m2 ++ T1))).
  { rewrite ETT. unfold post. rewrite Ep, app_assoc. apply boundary_pair. }
  rewrite pair_rule in GB. unfold provide_context. cbn [c_pre with_pre with_state with_after cursor_new c_state c_ext c_off].
  assert (ES : slen U + slen p = slen T0) by (rewrite ETT; rewrite slen_app; reflexivity).
  rewrite ES, Nat.eqb_refl, andb_true_r.
  assert (EP0 : rev p = z :: rev p0) by (rewrite Ep, rev_app_distr; reflexivity). rewrite EP0.
  match goal with |- context[handle_regional ?k p _] => set (c1 := k) end.
  assert (CB : classes_before T0 = gcb z :: classes_before (U ++ p0)).
  { rewrite ETT. rewrite Ep, app_assoc, cb_app. reflexivity. }
  assert (Main : exists c, match
      match (match gcb x with GCB_RegionalIndicator => GRegional | GCB_EModifier => GEmoji | _ => GUnknown end) with
      | GRegional => Ret (handle_regional c1 p (slen U))
      | GEmoji => Ret (handle_emoji c1 p (slen U))
      | _ => Panic
      end with
      | Ret c0 => ask_boundary before c0 (x :: m2) (slen T0)
      | Panic => Panic
      end = Ret (c, GOk (if GCB_eqb (gcb x) GCB_RegionalIndicator then Nat.even (ri_run (classes_before T0))
                         else negb (emoji_base_extend (classes_before T0))))).
  { destruct HX as [HX|HX]; rewrite HX; cbn [GCB_eqb GCB_index N.eqb Pos.eqb].
    - destruct (regional_provide c1 p U) as [R1 R2]. change (ris_or_0 c1) with 0 in R1, R2. cbn [Nat.add] in R1, R2. rewrite <- ETT in R1.
      destruct (all_class_dec GCB_RegionalIndicator p) as [AC|AC].
      + destruct (list_eq_dec N.eq_dec U []) as [EU|NU].
        * eexists. apply decided_ask. apply R1. left. exact EU.
        * rewrite (R2 NU AC). destruct (regional_feed before (with_pre (with_ris c1 (Some (length p))) (Some (slen U))) (x :: m2) (slen T0)) as (c' & HI); auto.
          -- intros ->. apply NU. reflexivity.
          -- repeat split. apply slen_pos. discriminate.
          -- unfold c1. cbn. rewrite HX. reflexivity.
          -- fold U. rewrite <- ES. pose proof (slen_pos p H1). lia.
          -- exists c'. rewrite HI. fold U. do 3 f_equal. rewrite ETT. rewrite cb_app, ri_run_all by (apply all_class_rev; exact AC).
             rewrite rev_length. reflexivity.
      + eexists. apply decided_ask. apply R1. right. exact AC.
    - destruct (emoji_provide c1 p U) as [R1 R2]. rewrite <- ETT in R1.
      destruct (all_class_dec GCB_Extend p) as [AC|AC].
      + destruct (list_eq_dec N.eq_dec U []) as [EU|NU].
        * eexists. apply decided_ask. apply R1. left. exact EU.
        * rewrite (R2 NU AC). destruct (emoji_feed before (with_pre c1 (Some (slen U))) (x :: m2) (slen T0)) as (c' & HI); auto.
          -- intros ->. apply NU. reflexivity.
          -- repeat split. apply slen_pos. discriminate.
          -- unfold c1. cbn. rewrite HX. reflexivity.
          -- fold U. rewrite <- ES. pose proof (slen_pos p H1). lia.
          -- exists c'. rewrite HI. fold U. do 3 f_equal. rewrite ETT. rewrite cb_app, emoji_all by (apply all_class_rev; exact AC).
             reflexivity.
      + eexists. apply decided_ask. apply R1. right. exact AC. }
  assert (Rule : (ext = false \/ gcb z <> GCB_Prepend) ->
    (if GCB_eqb (gcb x) GCB_RegionalIndicator then Nat.even (ri_run (classes_before T0))
     else negb (emoji_base_extend (classes_before T0))) = grapheme_boundary ext T0 post).
  { intros HE. rewrite GB, CB. cbn [ri_run emoji_base_extend]. destruct HX as [HX|HX]; rewrite HX; cbn [GCB_eqb GCB_index N.eqb Pos.eqb].
    - destruct (gcb z) eqn:EZ; try reflexivity. destruct HE as [-> |HE]; [reflexivity|congruence].
    - destruct (gcb z) eqn:EZ; try reflexivity. destruct HE as [-> |HE]; [reflexivity|congruence]. }
  destruct ext.
  - destruct (GCB_eqb (gcb z) GCB_Prepend) eqn:EZ.
    + eexists. rewrite (decided_ask before (decide c1 false) (x :: m2) (slen T0) false eq_refl). do 3 f_equal.
      apply GCB_eqb_eq in EZ. rewrite GB, EZ. destruct HX as [HX|HX]; rewrite HX; reflexivity.
    + destruct Main as (c & Main). exists c. rewrite Main, Rule; [reflexivity|]. right. intros E. apply GCB_eqb_eq in E. congruence.
  - destruct Main as (c & Main). exists c. rewrite Main, Rule; [reflexivity|]. left. reflexivity.
Qed.

(** the other characters at the start of a chunk *)
Lemma ask_start_other ext before p0 z x m2 T1 : Forall nonempty before ->
  gcb x <> GCB_RegionalIndicator -> gcb x <> GCB_EModifier ->
  let T0 := concat (rev before) ++ p0 ++ [z] in let post := x :: m2 ++ T1 in
  match ask_boundary ((p0 ++ [z]) :: before) (cursor_new ext (slen T0) (slen (T0 ++ post))) (x :: m2) (slen T0) with
  | Ret (c, r) => ext = true /\ gcb z = GCB_Prepend /\ r = GOk false
  | Panic => ext = false \/ gcb z <> GCB_Prepend
  end.
Proof.
  intros F N1 N2 T0 post.
  assert (NE : nonempty (p0 ++ [z])) by (intros E; apply app_eq_nil in E; destruct E; discriminate).
  assert (ET : T0 = concat (rev ((p0 ++ [z]) :: before))) by (rewrite concat_rev_cons; reflexivity).
  pose proof (ask_start ext ((p0 ++ [z]) :: before) x m2 T1 (Forall_cons _ NE F) ltac:(discriminate)) as AS.
  cbv zeta in AS. unfold str in *. rewrite <- ET in AS. fold post in AS. cbn [ask_boundary]. rewrite AS.
  assert (S0 : match gcb x with GCB_RegionalIndicator => GRegional | GCB_EModifier => GEmoji | _ => GUnknown end = GUnknown).
  { destruct (gcb x); try reflexivity; easy. }
  rewrite S0. set (U := concat (rev before)) in *.
  assert (ES : slen U + slen (p0 ++ [z]) = slen T0) by (unfold T0; rewrite (slen_app U); reflexivity).
  replace (slen T0 - slen (p0 ++ [z])) with (slen U) by lia.
  unfold provide_context. cbn [c_pre with_pre with_state with_after cursor_new c_state c_ext c_off].
  rewrite ES, Nat.eqb_refl, andb_true_r, rev_app_distr. cbn [rev app].
  destruct ext; [|left; reflexivity].
  destruct (GCB_eqb (gcb z) GCB_Prepend) eqn:EZ.
  - match goal with |- context[decide ?k false] => rewrite (decided_ask before (decide k false) (x :: m2) (slen T0) false eq_refl) end.
    apply GCB_eqb_eq in EZ. auto.
  - right. intros E. apply GCB_eqb_eq in E. congruence.
Qed.

(** a decision inside a chunk that needs context ends in a panic *)
Lemma ask_unsettled ext before m1 x m2 T1 : Forall nonempty before -> before <> [] -> m1 <> [] ->
  looks_before_chunk m1 x ->
  let T0 := concat (rev before) in let post := x :: m2 ++ T1 in
  ask_boundary before (cursor_new ext (slen (T0 ++ m1)) (slen ((T0 ++ m1) ++ post))) (m1 ++ x :: m2) (slen T0) = Panic.
Proof.
  intros F N N1 LB T0 post.
  assert (NT : T0 <> []) by (intros E; apply N; apply concat_rev_nil; auto).
  pose proof (slen_pos T0 NT) as L0. pose proof (slen_pos m1 N1) as L3.
  assert (L1 : 0 < slen (x :: m2)) by (apply slen_pos; discriminate).
  assert (L2 : 0 < slen post) by (apply slen_pos; discriminate).
  assert (IS : initial_state (slen (T0 ++ m1)) (slen ((T0 ++ m1) ++ post)) = GUnknown).
  { unfold initial_state. rewrite !slen_app. destruct (slen T0 + slen m1 =? 0) eqn:E1; [apply Nat.eqb_eq in E1; lia|].
    match goal with |- context[?a =? ?b] => destruct (a =? b) eqn:E2; [apply Nat.eqb_eq in E2; lia|] end. reflexivity. }
  unfold cursor_new. rewrite IS.
  assert (Ask : exists c, is_boundary (Cur (slen (T0 ++ m1)) (slen ((T0 ++ m1) ++ post)) ext GUnknown None None None None false) (m1 ++ x :: m2) (slen T0)
     = Ret (c, GErr (PreContext (slen T0))) /\ c_pre c = Some (slen T0) /\ c_state c = GUnknown /\ c_off c = slen (T0 ++ m1)).
  { unfold is_boundary. cbn [c_state c_off c_after c_pre].
    assert (E1 : slen (T0 ++ m1) <? slen T0 = false) by (apply Nat.ltb_ge; rewrite slen_app; lia).
    assert (E2 : slen T0 + slen (m1 ++ x :: m2) <=? slen (T0 ++ m1) = false) by (apply Nat.leb_gt; rewrite !slen_app; lia).
    rewrite E1, E2. cbn [orb andb]. replace (slen (T0 ++ m1) - slen T0) with (slen m1) by (rewrite slen_app; lia).
    rewrite split_at_app. unfold is_boundary_known. cbn [c_off with_after].
    assert (E3 : slen (T0 ++ m1) =? slen T0 = false) by (apply Nat.eqb_neq; rewrite slen_app; lia). rewrite E3.
    unfold is_boundary_pair. cbn [c_before with_after]. destruct (snoc_inv m1 N1) as (p & z & Ez).
    assert (ER : rev m1 = z :: rev p) by (rewrite Ez, rev_app_distr; reflexivity). rewrite ER.
    unfold looks_before_chunk in LB. change grapheme_cluster_break with gcb in LB.
    destruct LB as [[LX LA]|[LX LA]].
    - assert (EZ : gcb z = GCB_RegionalIndicator).
      { rewrite Forall_forall in LA. apply LA. rewrite Ez. apply in_or_app. right. left. reflexivity. }
      unfold resolve_pair. rewrite EZ, LX. cbn [check_pair c_ris with_before].
      match goal with |- context[handle_regional ?k m1 _] => destruct (regional_provide k m1 T0) as [_ R2]; rewrite (R2 NT LA) end.
      cbn. eexists. split; [reflexivity|]. auto.
    - assert (EZ : gcb z = GCB_Extend).
      { rewrite Forall_forall in LA. apply LA. rewrite Ez. apply in_or_app. right. left. reflexivity. }
      unfold resolve_pair. rewrite EZ, LX. cbn [check_pair c_ris with_before].
      match goal with |- context[handle_emoji ?k m1 _] => destruct (emoji_provide k m1 T0) as [_ R2]; rewrite (R2 NT LA) end.
      cbn. eexists. split; [reflexivity|]. auto. }
  destruct Ask as (c & HA & HP & HS & HO). destruct before as [|p before]; [easy|].
  cbn [ask_boundary]. rewrite HA. unfold provide_context. rewrite HP.
  assert (EL : slen T0 = slen (concat (rev before)) + slen p) by (unfold T0; rewrite concat_rev_cons, slen_app; reflexivity).
  replace (slen T0 - slen p + slen p =? slen T0) with true by (symmetry; apply Nat.eqb_eq; lia).
  cbn [with_pre c_state c_off c_ext]. rewrite HS, HO.
  assert (E : slen T0 - slen p + slen p =? slen (T0 ++ m1) = false) by (apply Nat.eqb_neq; rewrite (slen_app T0); lia).
  rewrite E, andb_false_r. reflexivity.
Qed.

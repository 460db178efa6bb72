(** Paragraphs are analysed independently of each other. *)
From Coq Require Import List NArith ZArith Lia Bool Arith ZifyBool ZifyNat ZifyN.
Import ListNotations.
From Verif Require Import Base Enums EnumFacts UcdModel BidiModel BidiSpec BidiLemmas BidiInit.
Open Scope nat_scope.

(** a text after which a paragraph starts *)
Definition closed_text (a : str) : Prop := a = [] \/ exists u c, a = u ++ [c] /\ bidi_class c = cB.

Definition para_shift (n : nat) (p : para) : para := mkpara (n + p_start p) (n + p_end p) (p_level p).

(** the analysis of [a] followed by that of [b] *)
Definition join_info (x y : bidi_info) : bidi_info :=
  mkbidi (b_text x ++ b_text y) (b_classes x ++ b_classes y) (b_levels x ++ b_levels y)
    (b_paras x ++ map (para_shift (slen (b_text x))) (b_paras y)).

(** ** Initial information *)

Definition lift (oc : list BidiClass) (ps : list para) (off : nat) (st : init_state) : init_state :=
  mkinit (oc ++ i_classes st) (map (fun j => off + j) (i_stack st)) (ps ++ map (para_shift off) (i_paras st))
    (off + i_start st) (i_level st).

Lemma class_at_lift oc l k : class_at (oc ++ l) (length oc + k) = class_at l k.
Proof. unfold class_at. rewrite app_nth2 by lia. f_equal. lia. Qed.

Lemma upds_lift (oc l : list BidiClass) k n x :
  upds (oc ++ l) (map (fun j => length oc + k + j) (seq 0 n)) x = oc ++ upds l (map (fun j => k + j) (seq 0 n)) x.
Proof.
  rewrite <- upds_app_r. f_equal. rewrite map_map. apply map_ext. intros. lia.
Qed.

Lemma init_step_lift d oc ps st i w c :
  init_step d (lift oc ps (length oc) st) (length oc + i) w c = lift oc ps (length oc) (init_step d st i w c).
Proof.
  destruct st as [cl stk pp s lv]. unfold lift. cbn [i_classes i_stack i_paras i_start i_level].
  unfold init_step. cbn [i_classes i_stack i_paras i_start i_level].
  destruct c; cbn [i_classes i_stack i_paras i_start i_level map]; rewrite <- ?app_assoc;
    try reflexivity.
  all: try (destruct stk as [|k stk]; cbn [map tl]; [destruct lv; reflexivity|];
    rewrite class_at_lift; destruct (class_at _ k); cbn [i_classes i_stack i_paras i_start i_level map];
    rewrite ?upds_lift; reflexivity).
  all: try (rewrite map_app; cbn [map para_shift p_start p_end p_level]; rewrite Nat.add_assoc; reflexivity).
  all: try (destruct stk; reflexivity).
  rewrite map_app. unfold para_shift at 3. cbn [map p_start p_end p_level]. rewrite !Nat.add_assoc. reflexivity.
Qed.

Lemma init_loop_cons d c t i st :
  init_loop d (c :: t) i st = init_loop d t (i + clen c) (init_step d st i (clen c) (bidi_class c)).
Proof. unfold init_loop. reflexivity. Qed.

Lemma init_loop_lift d oc ps t : forall i st,
  init_loop d t (length oc + i) (lift oc ps (length oc) st) = lift oc ps (length oc) (init_loop d t i st).
Proof.
  induction t as [|c t IH]; intros i st; [reflexivity|]. rewrite !init_loop_cons.
  rewrite init_step_lift, <- Nat.add_assoc. exact (IH _ _).
Qed.

Lemma init_loop_app d a : forall b i st,
  init_loop d (a ++ b) i st = init_loop d b (i + slen a) (init_loop d a i st).
Proof.
  induction a as [|c a IH]; intros b i st.
  - cbn [app init_loop slen fold_right]. rewrite Nat.add_0_r. reflexivity.
  - rewrite <- app_comm_cons, !init_loop_cons, IH. cbn [slen fold_right]. fold (slen a).
    rewrite Nat.add_assoc. reflexivity.
Qed.

Lemma init_loop_closed d a : closed_text a ->
  let st := init_loop d a 0 (mkinit [] [] [] 0 d) in
  i_stack st = [] /\ i_start st = slen a /\ i_level st = d.
Proof.
  intros [->|(u & c & -> & Hc)]; [cbn; auto|].
  cbn zeta. rewrite init_loop_app. cbn [init_loop]. rewrite Hc. unfold init_step.
  cbn [i_stack i_start i_level]. rewrite slen_app. cbn [slen fold_right]. repeat split. lia.
Qed.

Lemma init_step_sizes d st i w c :
  length (i_classes st) = i -> Forall (fun p => p_end p <= i) (i_paras st) ->
  length (i_classes (init_step d st i w c)) = i + w /\
  Forall (fun p => p_end p <= i + w) (i_paras (init_step d st i w c)).
Proof.
  intros HL HF.
  assert (F' : Forall (fun p => p_end p <= i + w) (i_paras st)) by (eapply Forall_impl; [|exact HF]; cbn; lia).
  assert (HL' : length (i_classes st ++ repeat c w) = i + w) by (rewrite app_length, repeat_length; lia).
  unfold init_step. cbv zeta.
  assert (P : length (i_classes st ++ repeat c w) = i + w /\
    Forall (fun p => p_end p <= i + w) (i_paras st ++ [mkpara (i_start st) (i + w) (unwrap_level (i_level st))])).
  { split; [exact HL'|]. apply Forall_app. split; [assumption|]. constructor; [cbn; lia|constructor]. }
  clear HL HF. destruct c; try exact P; try exact (conj HL' F');
  (destruct (i_stack st) as [|k stk]; [destruct (i_level st); exact (conj HL' F')|];
   destruct (class_at (i_classes st ++ _) k); cbn [i_classes i_paras]; rewrite ?upds_length; exact (conj HL' F')).
Qed.

Lemma init_loop_sizes d t : forall i st,
  length (i_classes st) = i -> Forall (fun p => p_end p <= i) (i_paras st) ->
  length (i_classes (init_loop d t i st)) = i + slen t /\
  Forall (fun p => p_end p <= i + slen t) (i_paras (init_loop d t i st)).
Proof.
  induction t as [|c t IH]; intros i st H1 H2.
  - cbn [init_loop slen fold_right]. rewrite Nat.add_0_r. auto.
  - rewrite init_loop_cons. cbn [slen fold_right]. fold (slen t). rewrite Nat.add_assoc.
    destruct (init_step_sizes d st i (clen c) (bidi_class c) H1 H2) as [S1 S2]. exact (IH _ _ S1 S2).
Qed.

Lemma initial_info_sizes t d : length (fst (initial_info t d)) = slen t /\
  Forall (fun p => p_end p <= slen t) (snd (initial_info t d)).
Proof.
  destruct (init_loop_sizes d t 0 (mkinit [] [] [] 0 d) eq_refl (Forall_nil _)) as [H1 H2].
  cbn [Nat.add] in H1, H2. unfold initial_info. cbv zeta. cbn [fst snd]. split; [exact H1|].
  destruct (_ <? _); [apply Forall_app; split; [assumption|]; constructor; [cbn; lia|constructor]|assumption].
Qed.

Lemma initial_info_app a b d : closed_text a ->
  initial_info (a ++ b) d =
  (fst (initial_info a d) ++ fst (initial_info b d),
   snd (initial_info a d) ++ map (para_shift (slen a)) (snd (initial_info b d))).
Proof.
  intros HA. destruct (init_loop_closed d a HA) as (E1 & E2 & E3).
  destruct (init_loop_sizes d a 0 (mkinit [] [] [] 0 d) eq_refl (Forall_nil _)) as [H1 _].
  cbn [Nat.add] in H1. unfold initial_info. cbv zeta. cbn [fst snd].
  set (st := init_loop d a 0 (mkinit [] [] [] 0 d)) in *.
  rewrite init_loop_app. fold st. cbn [Nat.add].
  assert (EL : st = lift (i_classes st) (i_paras st) (length (i_classes st)) (mkinit [] [] [] 0 d)).
  { unfold lift. cbn [i_classes i_stack i_paras i_start i_level map]. rewrite !app_nil_r, Nat.add_0_r, H1.
    destruct st; cbn in *; subst; reflexivity. }
  assert (EI : init_loop d b (slen a) (lift (i_classes st) (i_paras st) (length (i_classes st)) (mkinit [] [] [] 0 d))
     = lift (i_classes st) (i_paras st) (length (i_classes st)) (init_loop d b 0 (mkinit [] [] [] 0 d)))
    by (rewrite <- init_loop_lift; f_equal; lia).
  rewrite E2, Nat.ltb_irrefl.
  assert (G : forall x, x = lift (i_classes st) (i_paras st) (slen a) (init_loop d b 0 (mkinit [] [] [] 0 d)) ->
    (i_classes x, if i_start x <? slen (a ++ b)
      then i_paras x ++ [mkpara (i_start x) (slen (a ++ b)) (unwrap_level (i_level x))] else i_paras x) =
    (i_classes st ++ i_classes (init_loop d b 0 (mkinit [] [] [] 0 d)),
     i_paras st ++ map (para_shift (slen a))
       (if i_start (init_loop d b 0 (mkinit [] [] [] 0 d)) <? slen b
        then i_paras (init_loop d b 0 (mkinit [] [] [] 0 d)) ++
          [mkpara (i_start (init_loop d b 0 (mkinit [] [] [] 0 d))) (slen b)
             (unwrap_level (i_level (init_loop d b 0 (mkinit [] [] [] 0 d))))]
        else i_paras (init_loop d b 0 (mkinit [] [] [] 0 d))))).
  { intros x ->. set (y := init_loop d b 0 (mkinit [] [] [] 0 d)). unfold lift.
    cbn [i_classes i_stack i_paras i_start i_level]. f_equal. rewrite slen_app.
    destruct (i_start y <? slen b) eqn:E.
    - replace (slen a + i_start y <? slen a + slen b) with true by lia.
      rewrite map_app, app_assoc. reflexivity.
    - replace (slen a + i_start y <? slen a + slen b) with false by lia. reflexivity. }
  apply G. rewrite <- EL in EI. rewrite EI, H1. reflexivity.
Qed.

(** ** Slices *)

Lemma split_at_before a b : forall n, n <= slen a ->
  split_at (a ++ b) n = match split_at a n with Some (x, y) => Some (x, y ++ b) | None => None end.
Proof.
  induction a as [|c a IH]; intros n H.
  - cbn in H. replace n with 0 by lia. destruct b; reflexivity.
  - cbn [slen fold_right] in H. fold (slen a) in H. destruct n as [|n]; [reflexivity|].
    cbn [app split_at]. destruct (clen c <=? S n) eqn:E; [|reflexivity].
    rewrite IH by lia. destruct (split_at a _) as [[x y]|]; reflexivity.
Qed.

Lemma split_at_after a b n : split_at (a ++ b) (slen a + n) =
  match split_at b n with Some (x, y) => Some (a ++ x, y) | None => None end.
Proof.
  induction a as [|c a IH]; [cbn [app slen fold_right Nat.add]; destruct (split_at b n) as [[x y]|]; reflexivity|].
  cbn [slen fold_right]. fold (slen a). pose proof (clen_pos c).
  destruct (clen c + slen a + n) as [|m] eqn:E; [lia|]. cbn [app split_at].
  replace (clen c <=? S m) with true by lia. replace (S m - clen c) with (slen a + n) by lia.
  rewrite IH. destruct (split_at b n) as [[x y]|]; reflexivity.
Qed.

Lemma str_slice_before a b s e : e <= slen a -> str_slice (a ++ b) s e = str_slice a s e.
Proof.
  intros H. unfold str_slice. destruct (s <=? e) eqn:E; [|reflexivity].
  rewrite split_at_before by lia. destruct (split_at a s) as [[x y]|] eqn:ES; [|reflexivity].
  apply split_at_inv in ES as [-> ->]. rewrite slen_app in H.
  rewrite split_at_before by lia. destruct (split_at y _) as [[u v]|]; reflexivity.
Qed.

Lemma str_slice_after a b s e : str_slice (a ++ b) (slen a + s) (slen a + e) = str_slice b s e.
Proof.
  unfold str_slice. replace (slen a + s <=? slen a + e) with (s <=? e) by lia.
  destruct (s <=? e) eqn:E; [|reflexivity]. rewrite split_at_after.
  destruct (split_at b s) as [[x y]|]; [|reflexivity].
  replace (slen a + e - (slen a + s)) with (e - s) by lia. reflexivity.
Qed.

Lemma sub_before {A} (l m : list A) s e : e <= length l -> sub (l ++ m) s e = sub l s e.
Proof.
  intros H. unfold sub. destruct (Nat.le_gt_cases s e).
  - rewrite skipn_app, firstn_app, skipn_length.
    replace (e - s - (length l - s)) with 0 by lia. cbn [firstn]. apply app_nil_r.
  - replace (e - s) with 0 by lia. reflexivity.
Qed.

Lemma sub_after {A} (l m : list A) s e : sub (l ++ m) (length l + s) (length l + e) = sub m s e.
Proof.
  unfold sub. rewrite skipn_app, skipn_all2 by lia. cbn [app].
  replace (length l + s - length l) with s by lia. f_equal. lia.
Qed.

(** ** The levels *)

Lemma all_para_levels_app t oc ps qs : all_para_levels t oc (ps ++ qs) =
  obind (all_para_levels t oc ps) (fun x => obind (all_para_levels t oc qs) (fun y => Ret (x ++ y))).
Proof.
  induction ps as [|p ps IH]; cbn [app all_para_levels obind].
  - destruct (all_para_levels t oc qs); reflexivity.
  - rewrite IH. destruct (str_slice _ _ _) as [pt|]; [|reflexivity]. cbn [obind].
    destruct (para_levels _ _ _) as [ls|]; [|reflexivity]. cbn [obind].
    destruct (all_para_levels t oc ps) as [x|]; [|reflexivity]. cbn [obind].
    destruct (all_para_levels t oc qs) as [y|]; [|reflexivity]. cbn [obind]. rewrite app_assoc. reflexivity.
Qed.

Lemma all_para_levels_before a b oa ob ps : length oa = slen a ->
  Forall (fun p => p_end p <= slen a) ps ->
  all_para_levels (a ++ b) (oa ++ ob) ps = all_para_levels a oa ps.
Proof.
  intros HL. induction 1 as [|p ps Hp Hps IH]; [reflexivity|]. cbn [all_para_levels].
  rewrite str_slice_before by assumption. rewrite sub_before by lia. rewrite IH. reflexivity.
Qed.

Lemma all_para_levels_after a b oa ob ps : length oa = slen a ->
  all_para_levels (a ++ b) (oa ++ ob) (map (para_shift (slen a)) ps) = all_para_levels b ob ps.
Proof.
  intros HL. induction ps as [|p ps IH]; [reflexivity|]. cbn [map all_para_levels para_shift p_start p_end p_level].
  rewrite str_slice_after. rewrite IH.
  replace (sub (oa ++ ob) (slen a + p_start p) (slen a + p_end p)) with (sub ob (p_start p) (p_end p))
    by (rewrite <- HL; symmetry; apply sub_after).
  reflexivity.
Qed.

Theorem bidi_app a b d : closed_text a ->
  bidi_new (a ++ b) d = obind (bidi_new a d) (fun x => obind (bidi_new b d) (fun y => Ret (join_info x y))).
Proof.
  intros HA. unfold bidi_new. rewrite (initial_info_app a b d HA).
  destruct (initial_info_sizes a d) as [HL HF].
  destruct (initial_info a d) as [oa pa]. destruct (initial_info b d) as [ob pb]. cbn [fst snd] in *.
  rewrite all_para_levels_app, all_para_levels_before, all_para_levels_after by assumption.
  destruct (all_para_levels a oa pa); [|reflexivity]. cbn [obind].
  destruct (all_para_levels b ob pb); reflexivity.
Qed.


Lemma bidi_lengths t d b : bidi_new t d = Ret b -> b_text b = t /\ length (b_classes b) = slen t.
Proof.
  unfold bidi_new. destruct (initial_info_sizes t d) as [HL _]. destruct (initial_info t d) as [oc ps].
  cbn [fst] in HL. destruct (all_para_levels t oc ps); [|discriminate]. cbn [obind].
  intros E. injection E as <-. auto.
Qed.

(** ** All paragraphs of a text *)

Definition closed_but_last (pieces : list str) : Prop :=
  forall front p rest, pieces = front ++ p :: rest -> rest <> [] -> closed_text p.

Lemma bidi_new_nil d : bidi_new [] d = Ret (mkbidi [] [] [] []).
Proof. reflexivity. Qed.

Lemma bidi_concat d pieces : closed_but_last pieces ->
  (bidi_new (concat pieces) d = Panic <-> exists p, In p pieces /\ bidi_new p d = Panic) /\
  forall b, bidi_new (concat pieces) d = Ret b -> exists xs,
    Forall2 (fun p x => bidi_new p d = Ret x) pieces xs /\
    b_classes b = concat (map b_classes xs) /\ b_levels b = concat (map b_levels xs) /\
    map p_level (b_paras b) = concat (map (fun x => map p_level (b_paras x)) xs).
Proof.
  induction pieces as [|p rest IH]; intros HC.
  - cbn [concat]. rewrite bidi_new_nil. split.
    + split; [discriminate|]. intros (p & [] & _).
    + intros b E. injection E as <-. exists []. cbn. repeat split. constructor.
  - destruct rest as [|q rest].
    + cbn [concat]. rewrite app_nil_r. split.
      * split; [intros H; exists p; split; [left; reflexivity|assumption]|]. intros (p' & [<-|[]] & H). exact H.
      * intros b E. exists [b]. cbn [map concat]. rewrite !app_nil_r. repeat split.
        constructor; [assumption|constructor].
    + assert (HP : closed_text p) by (apply (HC [] p (q :: rest)); [reflexivity|discriminate]).
      destruct IH as [I1 I2].
      { intros f x r E. apply (HC (p :: f)). cbn. f_equal. exact E. }
      change (concat (p :: q :: rest)) with (p ++ concat (q :: rest)). rewrite (bidi_app _ _ _ HP).
      set (r := concat (q :: rest)) in *. split.
      * split.
        -- destruct (bidi_new p d) as [x|] eqn:E; [|intros _; exists p; split; [left; reflexivity|assumption]].
           cbn [obind]. destruct (bidi_new r d) as [y|] eqn:E2; [discriminate|]. intros _.
           destruct (proj1 I1 eq_refl) as (p' & Hi & Hp). exists p'. split; [right; assumption|assumption].
        -- intros (p' & [<-|Hi] & Hp); [rewrite Hp; reflexivity|].
           rewrite (proj2 I1 (ex_intro _ p' (conj Hi Hp))). destruct (bidi_new p d); reflexivity.
      * intros b H. destruct (bidi_new p d) as [x|] eqn:E; [|discriminate]. cbn [obind] in H.
        destruct (bidi_new r d) as [y|] eqn:E2; [|discriminate]. cbn [obind] in H. injection H as <-.
        destruct (I2 y eq_refl) as (xs & F & C1 & C2 & C3). exists (x :: xs).
        split; [constructor; assumption|]. cbn [map concat join_info b_classes b_levels b_paras].
        rewrite C1, C2, map_app, map_map, <- C3. repeat split. 
Qed.

Theorem bidi_paragraphs_alone t d pieces : paragraphs_of t pieces ->
  (bidi_new t d = Panic <-> exists p, In p pieces /\ bidi_new p d = Panic) /\
  forall b, bidi_new t d = Ret b -> exists xs,
    Forall2 (fun p x => bidi_new p d = Ret x) pieces xs /\
    b_classes b = concat (map b_classes xs) /\ b_levels b = concat (map b_levels xs) /\
    map p_level (b_paras b) = concat (map (fun x => map p_level (b_paras x)) xs).
Proof.
  intros (<- & _ & _ & HC). apply bidi_concat. intros f p r E R.
  right. destruct (HC f p r E R) as (a & c & H). exists a, c. exact H.
Qed.

Lemma bidi_append a b d : closed_text a -> forall x y, bidi_new a d = Ret x -> bidi_new b d = Ret y ->
  bidi_new (a ++ b) d = Ret (join_info x y).
Proof. intros H x y Hx Hy. rewrite (bidi_app a b d H), Hx, Hy. reflexivity. Qed.

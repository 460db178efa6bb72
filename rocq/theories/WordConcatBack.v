(** The word iterator from the back on a text from which pieces are cut off. *)
From Coq Require Import List NArith Lia Bool Arith.
Import ListNotations.
From Verif Require Import Base Enums TableTypes UcdModel BidiModel BidiLemmas GraphSpec SegLemmas SegConcat GraphIter
  WordModel WordSpec WordTables WordRules WordForward WordBackward WordLocal WordIter.
Open Scope nat_scope.
Local Opaque word_break wb.

(** ** The loop with strings in place of offsets

    An offset is given by what follows it: [m] has been passed, [save] follows
    the saved offset. *)
Definition rcr (l : str) : nat := take_while_ri (filter (fun c => negb (extend_format_zwj c)) (map wb l)).
Definition rewinds (st : wstate) : bool := match st with WFormatExtend AcceptAny => false | WFormatExtend _ => true | _ => false end.
Definition pcat_of (rest : str) : option WB := match rest with [] => None | n :: _ => Some (wb n) end.

Fixpoint bscan (rest m : str) (st sv : wstate) (save : str) : str :=
  match rest with
  | [] => if rewinds st then save else m
  | y :: rest' =>
      let turn s prev :=
        match bwd_match s (wb y) (pcat_of rest') (Ret (rcr (y :: rest'))) with
        | BNext s' => bscan rest' (y :: m) s' sv save
        | BSavePrev s' => bscan rest' (y :: m) s' sv prev
        | BSaveIdx s' => bscan rest' (y :: m) s' sv (y :: m)
        | BBreak _ tc => if rewinds s then save else if tc then y :: m else prev
        | BPanic => []
        end in
      if folds (wb y) st then
        match st with
        | WFormatExtend t => bscan rest' (y :: m) st sv save
        | s => bscan rest' (y :: m) (WFormatExtend AcceptNone) s m
        end
      else match st with
      | WFormatExtend AcceptNone => turn sv save
      | s => turn s m
      end
  end.
Definition bturn (y : N) (rest' m : str) (sv : wstate) (save : str) (s : wstate) (prev : str) : str :=
  match bwd_match s (wb y) (pcat_of rest') (Ret (rcr (y :: rest'))) with
  | BNext s' => bscan rest' (y :: m) s' sv save
  | BSavePrev s' => bscan rest' (y :: m) s' sv prev
  | BSaveIdx s' => bscan rest' (y :: m) s' sv (y :: m)
  | BBreak _ tc => if rewinds s then save else if tc then y :: m else prev
  | BPanic => []
  end.
Lemma bscan_cons y rest' m st sv save : bscan (y :: rest') m st sv save =
  if folds (wb y) st then
    match st with
    | WFormatExtend t => bscan rest' (y :: m) st sv save
    | s => bscan rest' (y :: m) (WFormatExtend AcceptNone) s m
    end
  else match st with
  | WFormatExtend AcceptNone => bturn y rest' m sv save sv save
  | s => bturn y rest' m sv save s m
  end.
Proof. reflexivity. Qed.

Definition efz (c : N) : Prop := extend_format_zwj (wb c) = true.
Lemma rcr_efz e l : Forall efz e -> rcr (e ++ l) = rcr l.
Proof.
  intros H. induction H as [|x e H _ IH]; [reflexivity|]. unfold rcr in *. cbn [app map filter]. unfold efz in H. rewrite H. exact IH.
Qed.
Lemma regional_rcr A B : regional_count (A ++ B) (slen A) = Ret (rcr (rev A)).
Proof. unfold regional_count. rewrite split_at_app. reflexivity. Qed.

(** the state is one that the loop can be in after the first character *)
Definition bvalid (st sv : wstate) (m save : str) : Prop :=
  match st with
  | WStart => False
  | WFormatExtend AcceptAny => True
  | WFormatExtend AcceptNone => plain sv = true /\ exists e, m = e ++ save /\ Forall efz e
  | WFormatExtend _ => exists e, m = e ++ save
  | _ => True
  end.
Lemma plain_valid st sv m save : plain st = true -> bvalid st sv m save.
Proof. destruct st as [| | | | | |[]|[]| |]; try discriminate; intros _; exact I. Qed.
Lemma folds_efz y st : folds (wb y) st = true -> efz y.
Proof. unfold efz. destruct (wb y); try discriminate; reflexivity. Qed.
Lemma plain_rewinds st : plain st = true -> rewinds st = false.
Proof. destruct st; try reflexivity. discriminate. Qed.
Lemma req_rewinds st : is_req st = true -> rewinds st = true.
Proof. destruct st as [| | | | | |[]|[]| |]; try discriminate; reflexivity. Qed.
Lemma req_valid st sv m save : is_req st = true -> (exists e, m = e ++ save) -> bvalid st sv m save.
Proof. destruct st as [| | | | | |[]|[]| |]; try discriminate; auto. Qed.

Definition bends (S : str) (r : outcome bvars) (p : str) : Prop :=
  exists v D, r = Ret v /\ S = D ++ p /\ fst (bwd_end v) = slen D.

Lemma bends_at S st D p v : S = D ++ p -> b_state v = st -> (if rewinds st then b_save v else if b_take_curr v then b_idx v else b_prev v) = slen D ->
  bends S (Ret v) p.
Proof.
  intros ES E H. exists v, D. split; [reflexivity|]. split; [exact ES|]. unfold bwd_end, bwd_rewind. rewrite E.
  destruct st as [| | | | | |[]|[]| |]; cbn [rewinds] in H; destruct (b_take_curr v); exact H.
Qed.

Lemma bwd_bscan S : forall rest A m v save, rest = rev A -> S = A ++ m -> b_idx v = slen A -> b_take_curr v = true ->
  cacheb_ok A (b_self v) -> bvalid (b_state v) (b_savestate v) m save ->
  (rewinds (b_state v) = true -> exists e, m = e ++ save /\ b_save v = slen (A ++ e)) ->
  bends S (bwd_loop S rest (slen A) v) (bscan rest m (b_state v) (b_savestate v) save).
Proof.
  induction rest as [|y rest IH]; intros A m v save ER ES EI ET EC B HR.
  { symmetry in ER. apply (f_equal (@rev _)) in ER. rewrite rev_involutive in ER. cbn in ER. subst A. cbn [app] in *. subst m. cbn [bwd_loop bscan].
    destruct (rewinds (b_state v)) eqn:RW.
    - destruct (HR eq_refl) as (e & E1 & E2). apply (bends_at _ _ e _ _ E1 eq_refl). rewrite RW. exact E2.
    - apply (bends_at _ _ [] _ _ eq_refl eq_refl). rewrite RW, ET. exact EI. }
  assert (EA : exists A', A = A' ++ [y] /\ rest = rev A').
  { exists (rev rest). split; [|symmetry; apply rev_involutive]. rewrite <- (rev_involutive A), <- ER. reflexivity. }
  destruct EA as (A' & -> & ER'). clear ER.
  rewrite bwd_loop_cons, bscan_cons. cbv zeta.
  assert (EG : match b_self v with None => wb y | Some c => c end = wb y).
  { unfold cacheb_ok, cache_ok in EC. rewrite rev_app_distr in EC. cbn [rev app] in EC. destruct (b_self v); [exact EC|reflexivity]. }
  rewrite EG, EI. clear EG EC.
  assert (EX : slen (A' ++ [y]) - clen y = slen A') by (rewrite slen_app; cbn; lia). rewrite EX.
  assert (ES2 : S = A' ++ y :: m) by (rewrite ES, <- app_assoc; reflexivity).
  change (match rest with [] => None | n :: _ => Some (wb n) end) with (pcat_of rest). 
  assert (IHn : forall prev sav s sv tk save', bvalid s sv (y :: m) save' ->
    (rewinds s = true -> exists e, y :: m = e ++ save' /\ sav = slen (A' ++ e)) ->
    bends S (bwd_loop S rest (slen A') (BV (slen A') prev sav s sv (wb y) true tk None)) (bscan rest (y :: m) s sv save')).
  { intros prev sav s sv tk save' H1 H2. apply (IH A' (y :: m) (BV (slen A') prev sav s sv (wb y) true tk None) save'); auto. exact I. }
  assert (TURN : forall st sv prev sav tk prev' save', bvalid st sv m save' -> st <> WStart -> st <> WFormatExtend AcceptNone ->
    (rewinds st = true -> exists e, m = e ++ save' /\ sav = slen ((A' ++ [y]) ++ e)) ->
    (exists e, m = e ++ prev' /\ Forall efz e /\ prev = slen ((A' ++ [y]) ++ e)) ->
    bends S (turn S rest (slen A') (wb y) (pcat_of rest) st sv prev sav tk) (bturn y rest m sv save' st prev')).
  { intros st sv prev sav tk prev' save' HV NS NN HRW (e & E1 & E2 & E3). unfold turn, bturn.
    assert (RC : regional_count S prev = Ret (rcr (y :: rest))).
    { rewrite E3, ES, E1, app_assoc, regional_rcr. rewrite !rev_app_distr. cbn [rev app]. rewrite ER'. f_equal. apply rcr_efz. apply Forall_rev. exact E2. }
    rewrite RC.
    assert (BRK : forall dec tc, dec = 0 -> bends S (Ret (BV (slen A' - dec) prev sav st sv (wb y) tc tk None)) (if rewinds st then save' else if tc then y :: m else prev')).
    { intros dec tc ->. rewrite Nat.sub_0_r. destruct (rewinds st) eqn:RW.
      - destruct (HRW eq_refl) as (e' & F1 & F2). apply (bends_at _ st ((A' ++ [y]) ++ e') save').
        + rewrite ES, F1, <- !app_assoc. reflexivity.
        + reflexivity.
        + rewrite RW. exact F2.
      - destruct tc.
        + apply (bends_at _ st A' (y :: m)); [exact ES2|reflexivity|]. rewrite RW. reflexivity.
        + apply (bends_at _ st ((A' ++ [y]) ++ e) prev'); [rewrite ES, E1, <- !app_assoc; reflexivity|reflexivity|]. rewrite RW. exact E3. }
    destruct (plain st) eqn:PL.
    - pose proof (bwd_match_plain st (wb y) (pcat_of rest) (rcr (y :: rest)) PL) as SH.
      destruct (bwd_match st (wb y) (pcat_of rest) (Ret (rcr (y :: rest)))) as [s|s|s|[|dec] []|]; try contradiction.
      + apply IHn; [destruct SH as [SH| ->]; [apply plain_valid; exact SH|exact I]|].
        intros RW. exfalso. destruct SH as [SH| ->]; [rewrite (plain_rewinds _ SH) in RW|]; discriminate RW.
      + assert (EE : y :: m = (y :: e) ++ prev') by (rewrite E1; reflexivity).
        apply IHn; [apply req_valid; eauto|]. intros _. exists (y :: e). split; [exact EE|]. rewrite E3, <- app_assoc. reflexivity.
      + apply BRK. reflexivity.
    - destruct st as [| | | | | |[]|t| |]; try discriminate PL; [contradiction|].
      destruct (match t with AcceptAny => true | _ => false end) eqn:TA.
      + destruct t; try discriminate TA. pose proof (bwd_match_any (wb y) (pcat_of rest) (Ret (rcr (y :: rest)))) as SH.
        destruct (bwd_match (WFormatExtend AcceptAny) (wb y) (pcat_of rest) (Ret (rcr (y :: rest)))) as [s|s|s|[|dec] tc|]; try contradiction.
        * apply IHn; [destruct SH as [SH| ->]; [apply plain_valid; exact SH|exact I]|].
          intros RW. exfalso. destruct SH as [SH| ->]; [rewrite (plain_rewinds _ SH) in RW|]; discriminate RW.
        * rewrite SH. apply IHn; [exists []; reflexivity|]. intros _. exists []. rewrite app_nil_r. auto.
        * apply BRK. reflexivity.
      + assert (N1 : t <> AcceptAny) by (intros ->; discriminate TA). assert (N2 : t <> AcceptNone) by (intros ->; apply NN; reflexivity).
        pose proof (bwd_match_fe t (wb y) (pcat_of rest) (Ret (rcr (y :: rest))) N1 N2) as SH.
        destruct (bwd_match (WFormatExtend t) (wb y) (pcat_of rest) (Ret (rcr (y :: rest)))) as [s|s|s|[|dec] []|]; try contradiction.
        * apply IHn; [apply plain_valid; exact SH|]. intros RW. rewrite (plain_rewinds _ SH) in RW. discriminate RW.
        * apply BRK. reflexivity. }
  destruct (folds (wb y) (b_state v)) eqn:FO.
  - pose proof (folds_efz _ _ FO) as FE.
    assert (PC : forall s, plain s = true -> bends S (bwd_loop S rest (slen A') (BV (slen A') (slen (A' ++ [y])) (slen (A' ++ [y])) (WFormatExtend AcceptNone) s (wb y) true true None))
      (bscan rest (y :: m) (WFormatExtend AcceptNone) s m)).
    { intros s PL. apply IHn; [split; [exact PL|]; exists [y]; split; [reflexivity|constructor; [exact FE|constructor]]|].
      intros _. exists [y]. auto. }
    destruct (b_state v) as [| | | | | |[]|t| |] eqn:ST; try contradiction; try (apply PC; reflexivity).
    apply IHn.
    + cbn [bvalid] in B |- *. destruct t; auto; try (destruct B as [e B]; exists (y :: e); rewrite B; reflexivity).
      destruct B as [PL (e & E1 & E2)]. split; [exact PL|]. exists (y :: e). split; [rewrite E1; reflexivity|constructor; assumption].
    + intros RW. destruct (HR RW) as (e & E1 & E2). exists (y :: e). split; [rewrite E1; reflexivity|]. rewrite E2, <- app_assoc. reflexivity.
  - assert (HERE : exists e, m = e ++ m /\ Forall efz e /\ slen (A' ++ [y]) = slen ((A' ++ [y]) ++ e)).
    { exists []. rewrite app_nil_r. split; [reflexivity|]. split; [constructor|reflexivity]. }
    destruct (b_state v) as [| | | | | |[]|t| |] eqn:ST; try contradiction;
      try (apply TURN; [exact I|discriminate|discriminate|discriminate|exact HERE]).
    destruct t; try (apply TURN; [exact B|discriminate|discriminate|exact HR|exact HERE]).
    destruct B as [PL (e & E1 & E2)]. destruct (HR eq_refl) as (e' & F1 & F2).
    assert (e' = e) by (apply (app_inv_tail save); congruence). subst e'.
    apply TURN; [apply plain_valid; exact PL|intros E; rewrite E in PL; discriminate PL|intros E; rewrite E in PL; discriminate PL| |exists e; auto].
    intros RW. rewrite (plain_rewinds _ PL) in RW. discriminate RW.
Qed.

(** ** Where a piece can start *)
Lemma rcr_ri y l : wb y = WB_RegionalIndicator -> rcr (y :: l) = Datatypes.S (rcr l).
Proof. intros H. unfold rcr. cbn [map filter]. rewrite H. reflexivity. Qed.
Lemma rcr_stop y l : ~ efz y -> wb y <> WB_RegionalIndicator -> rcr (y :: l) = 0.
Proof. intros H1 H2. unfold rcr, efz in *. cbn [map filter]. destruct (wb y); try reflexivity; contradiction (H1 eq_refl) || contradiction (H2 eq_refl). Qed.
Lemma rcr_one y l : efz y -> rcr (y :: l) = rcr l.
Proof. intros H. apply (rcr_efz [y]). constructor; [exact H|constructor]. Qed.
Lemma efz_dec y : {efz y} + {~ efz y}.
Proof. unfold efz. apply bool_dec. Qed.
Lemma ri_efz y : wb y = WB_RegionalIndicator -> ~ efz y.
Proof. unfold efz. intros ->. discriminate. Qed.

(** before a piece [p], the characters [d], the last first: nothing that could
    join, and an even number of regional indicators *)
Definition good_cut (d p : str) : Prop :=
  forall h t, p = h :: t -> (efz h -> rcr d = 0) /\ (wb h = WB_RegionalIndicator -> Nat.even (rcr d) = true).

Definition pinv (st : wstate) (rest m : str) : Prop :=
  exists h t, m = h :: t /\ ~ efz h /\
  match st with
  | WRegional RUnknown => wb h = WB_RegionalIndicator
  | WRegional RFull => wb h = WB_RegionalIndicator /\ Nat.even (rcr rest) = true
  | WRegional RHalf => False
  | _ => wb h <> WB_RegionalIndicator
  end.
Definition binv (st sv : wstate) (rest m save : str) : Prop :=
  match st with
  | WStart => False
  | WFormatExtend AcceptAny => exists h t, m = h :: t /\ efz h
  | WFormatExtend AcceptNone => plain sv = true /\ (exists e, m = e ++ save /\ Forall efz e) /\ pinv sv rest save
  | WFormatExtend _ => (exists e, m = e ++ save) /\ exists h t, save = h :: t /\ ~ efz h /\ wb h <> WB_RegionalIndicator
  | s => pinv s rest m
  end.
Lemma plain_binv st sv rest m save : plain st = true -> pinv st rest m -> binv st sv rest m save.
Proof. destruct st; try discriminate; auto. Qed.
Lemma binv_plain st sv rest m save : plain st = true -> binv st sv rest m save -> pinv st rest m.
Proof. destruct st; try discriminate; auto. Qed.

Lemma plain_next s y pc rest s' sv m save prev : plain s = true -> pinv s (y :: rest) prev -> (efz y -> s = WZwj /\ wb y = WB_ZWJ) ->
  bwd_match s (wb y) pc (Ret (rcr (y :: rest))) = BNext s' -> binv s' sv rest (y :: m) save.
Proof.
  intros PL (h0 & t0 & _ & _ & PI) EF H. destruct (efz_dec y) as [E|E].
  - destruct (EF E) as [-> W]. rewrite W in H. injection H as <-. exists y, m. auto.
  - assert (OTH : forall st, plain st = true -> wb y <> WB_RegionalIndicator -> match st with WRegional _ => False | _ => True end -> binv st sv rest (y :: m) save).
    { intros st P1 P2 P3. apply plain_binv; [exact P1|]. exists y, m. split; [reflexivity|]. split; [exact E|]. destruct st; try exact P2. contradiction. }
    destruct s as [| | | | | |[]|[]| |]; try discriminate PL; destruct (wb y) eqn:WY; try discriminate H; cbn [bwd_match] in H; try (injection H as <-; apply OTH; [reflexivity|congruence|exact I]);
      try (exfalso; apply E; unfold efz; rewrite WY; reflexivity).
    + contradiction.
    + destruct (Nat.even (rcr (y :: rest))) eqn:EV; [discriminate H|]. injection H as <-. exists y, m. split; [reflexivity|]. split; [exact E|]. split; [exact WY|].
      rewrite (rcr_ri _ _ WY), Nat.even_succ, <- Nat.negb_even in EV. apply negb_false_iff in EV. exact EV.
Qed.

Lemma cut_is (d rest : str) (p m : str) : rev rest ++ m = rev d ++ p -> p = m -> d = rest.
Proof. intros H ->. apply app_inv_tail in H. rewrite <- (rev_involutive d), <- H. apply rev_involutive. Qed.

Lemma good_at d rest e save p m : rev rest ++ m = rev d ++ p -> m = e ++ save -> Forall efz e -> p = save -> good_cut rest p -> good_cut d p.
Proof.
  intros H -> E -> G. rewrite app_assoc in H. apply app_inv_tail in H.
  assert (ED : d = rev e ++ rest) by (rewrite <- (rev_involutive d), <- H, rev_app_distr, rev_involutive; reflexivity).
  intros h t EP. rewrite ED, (rcr_efz _ _ (Forall_rev E)). apply (G h t EP).
Qed.
Lemma good_trivial d h t : ~ efz h -> wb h <> WB_RegionalIndicator -> good_cut d (h :: t).
Proof. intros H1 H2 h' t' E. injection E as <- <-. split; intros; contradiction. Qed.

(** where a plain state stops before [y] *)
Lemma plain_stop s y pc rest prev : plain s = true -> pinv s (y :: rest) prev -> (efz y -> s = WZwj /\ wb y = WB_ZWJ) ->
  bwd_match s (wb y) pc (Ret (rcr (y :: rest))) = BBreak 0 false -> good_cut (y :: rest) prev.
Proof.
  intros PL (h & t & -> & NE & PI) EF H h' t' E. injection E as <- <-. split; [intros; contradiction|]. intros WR.
  destruct s as [| | | | | |[]|[]| |]; try discriminate PL; try contradiction.
  - apply PI.
  - destruct (efz_dec y) as [E|E]; [destruct (EF E) as [X _]; discriminate X|].
    destruct (wb y) eqn:WY; try (rewrite rcr_stop; [reflexivity|exact E|congruence]).
    cbn [bwd_match] in H. destruct (Nat.even (rcr (y :: rest))); [reflexivity|discriminate H].
Qed.

Lemma bscan_good : forall rest m st sv save, binv st sv rest m save -> forall d, rev rest ++ m = rev d ++ bscan rest m st sv save ->
  good_cut d (bscan rest m st sv save).
Proof.
  induction rest as [|y rest IH]; intros m st sv save B d ED.
  { cbn [bscan] in *. destruct (rewinds st) eqn:RW.
    - destruct st as [| | | | | |[]|t| |]; try discriminate RW. destruct t; try discriminate RW; cbn [binv] in B;
        try (destruct B as (_ & h & t & -> & NE & NR); apply good_trivial; assumption).
      destruct B as (_ & (e & E1 & E2) & _). apply (good_at d [] e save save m ED E1 E2 eq_refl). intros h t _. split; intros _; reflexivity.
    - rewrite (cut_is d [] m m ED eq_refl). intros h t _. split; intros _; reflexivity. }
  rewrite bscan_cons in *.
  assert (EY : rev (y :: rest) ++ m = rev rest ++ y :: m) by (cbn [rev]; rewrite <- app_assoc; reflexivity).
  assert (TURN : forall s prev, plain s = true -> pinv s (y :: rest) prev -> (exists e, m = e ++ prev /\ Forall efz e) -> (efz y -> s = WZwj /\ wb y = WB_ZWJ) ->
    rev (y :: rest) ++ m = rev d ++ bturn y rest m sv save s prev -> good_cut d (bturn y rest m sv save s prev)).
  { intros s prev PL PI (e & E1 & E2) EF. unfold bturn.
    pose proof (bwd_match_plain s (wb y) (pcat_of rest) (rcr (y :: rest)) PL) as SH.
    destruct (bwd_match s (wb y) (pcat_of rest) (Ret (rcr (y :: rest)))) as [s'|s'|s'|[|dec] []|] eqn:BM; try contradiction; rewrite EY; intros H.
    - apply IH; [|exact H]. exact (plain_next _ _ _ _ _ _ _ _ _ PL PI EF BM).
    - apply IH; [|exact H]. assert (X : (exists e, y :: m = e ++ prev) /\ exists h t, prev = h :: t /\ ~ efz h /\ wb h <> WB_RegionalIndicator).
      { split; [exists (y :: e); rewrite E1; reflexivity|]. destruct PI as (h & t & Q1 & Q2 & Q3). exists h, t. split; [exact Q1|]. split; [exact Q2|].
        destruct s as [| | | | | |[]|[]| |]; try exact Q3; try discriminate PL; destruct (wb y); cbn [bwd_match] in BM; try discriminate BM.
        destruct (Nat.even (rcr (y :: rest))); discriminate BM. }
      destruct s' as [| | | | | |[]|[]| |]; try discriminate SH; exact X.
    - rewrite (plain_rewinds _ PL) in *. rewrite <- EY in H.
      exact (good_at _ _ _ _ _ _ H E1 E2 eq_refl (plain_stop _ _ _ _ _ PL PI EF BM)). }
  destruct (folds (wb y) st) eqn:FO.
  - pose proof (folds_efz _ _ FO) as FE. rewrite EY in ED.
    assert (PC : forall s, plain s = true -> pinv s (y :: rest) m -> rev rest ++ y :: m = rev d ++ bscan rest (y :: m) (WFormatExtend AcceptNone) s m ->
      good_cut d (bscan rest (y :: m) (WFormatExtend AcceptNone) s m)).
    { intros s PL PI H. apply IH; [|exact H]. split; [exact PL|]. split; [exists [y]; split; [reflexivity|constructor; [exact FE|constructor]]|].
      destruct PI as (h & t & Q1 & Q2 & Q3). exists h, t. split; [exact Q1|]. split; [exact Q2|].
      destruct s as [| | | | | |[]|[]| |]; try exact Q3. rewrite (rcr_one _ _ FE) in Q3. exact Q3. }
    destruct st as [| | | | | |[]|t| |]; cbn [binv] in B; try contradiction; try (apply PC; [reflexivity|exact B|exact ED]).
    apply IH; [|exact ED]. cbn [binv]. destruct t; try (destruct B as ((e & Q1) & Q2); split; [exists (y :: e); rewrite Q1; reflexivity|exact Q2]).
    + exists y, m. auto.
    + destruct B as (PL & (e & E1 & E2) & (h & t & Q1 & Q2 & Q3)). split; [exact PL|].
      split; [exists (y :: e); split; [rewrite E1; reflexivity|constructor; assumption]|].
      exists h, t. split; [exact Q1|]. split; [exact Q2|]. destruct sv as [| | | | | |[]|[]| |]; try exact Q3. rewrite (rcr_one _ _ FE) in Q3. exact Q3.
  - assert (HERE : exists e, m = e ++ m /\ Forall efz e) by (exists []; split; [reflexivity|constructor]).
    assert (NF : forall s, folds (wb y) s = false -> efz y -> s = WZwj /\ wb y = WB_ZWJ).
    { intros s F E. unfold efz in E. destruct (wb y); try discriminate E; cbn [folds] in F; try discriminate F. destruct s; try discriminate F. auto. }
    destruct st as [| | | | | |[]|t| |] eqn:ST; cbn [binv] in B; try contradiction; try (apply TURN; [reflexivity|exact B|exact HERE|apply NF; exact FO|exact ED]).
    destruct t.
    + (* AcceptAny *)
      assert (NE : ~ efz y) by (intros E; destruct (NF _ FO E) as [X _]; discriminate X).
      unfold bturn in *. pose proof (bwd_match_any (wb y) (pcat_of rest) (Ret (rcr (y :: rest)))) as SH.
      destruct (bwd_match (WFormatExtend AcceptAny) (wb y) (pcat_of rest) (Ret (rcr (y :: rest)))) as [s'|s'|s'|[|dec] tc|] eqn:BM; try contradiction.
      * rewrite EY in ED. apply IH; [|exact ED].
        destruct (wb y) eqn:WY; cbn [bwd_match is_start] in BM; try discriminate BM; injection BM as <-;
          try (apply plain_binv; [reflexivity|]; exists y, m; split; [reflexivity|]; split; [exact NE|]; (exact WY || congruence));
          exfalso; apply NE; unfold efz; rewrite WY; reflexivity.
      * rewrite EY in ED. apply IH; [|exact ED]. rewrite SH. split; [exists []; reflexivity|]. exists y, m. split; [reflexivity|]. split; [exact NE|].
        intros E. rewrite E in BM. discriminate BM.
      * cbn [rewinds] in *. destruct tc.
        -- apply good_trivial; [exact NE|]. intros E. rewrite E in BM. discriminate BM.
        -- rewrite (cut_is _ _ _ _ ED eq_refl). intros h t Em. destruct B as (h' & t' & Em' & EH). rewrite Em in Em'. injection Em' as <- <-.
           assert (rcr (y :: rest) = 0) as ->; [|split; reflexivity].
           apply rcr_stop; [exact NE|]. intros E. rewrite E in BM. discriminate BM.
    + (* AcceptNone *)
      destruct B as (PL & (e & E1 & E2) & PI). apply TURN; [exact PL|exact PI|exists e; auto| |exact ED].
      intros E. destruct (NF _ FO E) as [X _]. discriminate X.
    + destruct B as ((e & Q1) & h & t & Q2 & Q3 & Q4). unfold bturn in *.
      pose proof (bwd_match_fe RequireLetter (wb y) (pcat_of rest) (Ret (rcr (y :: rest))) ltac:(discriminate) ltac:(discriminate)) as SH.
      assert (NE : ~ efz y) by (intros E; destruct (NF _ FO E) as [X _]; discriminate X).
      destruct (bwd_match (WFormatExtend RequireLetter) (wb y) (pcat_of rest) (Ret (rcr (y :: rest)))) as [s'|s'|s'|[|dec] []|] eqn:BM; try contradiction.
      * rewrite EY in ED. apply IH; [|exact ED]. apply plain_binv; [exact SH|]. exists y, m. split; [reflexivity|]. split; [exact NE|].
        destruct (wb y) eqn:WY; try discriminate BM; injection BM as <-; congruence.
      * cbn [rewinds]. rewrite Q2. apply good_trivial; assumption.
    + destruct B as ((e & Q1) & h & t & Q2 & Q3 & Q4). unfold bturn in *.
      pose proof (bwd_match_fe RequireHLetter (wb y) (pcat_of rest) (Ret (rcr (y :: rest))) ltac:(discriminate) ltac:(discriminate)) as SH.
      assert (NE : ~ efz y) by (intros E; destruct (NF _ FO E) as [X _]; discriminate X).
      destruct (bwd_match (WFormatExtend RequireHLetter) (wb y) (pcat_of rest) (Ret (rcr (y :: rest)))) as [s'|s'|s'|[|dec] []|] eqn:BM; try contradiction.
      * rewrite EY in ED. apply IH; [|exact ED]. apply plain_binv; [exact SH|]. exists y, m. split; [reflexivity|]. split; [exact NE|].
        destruct (wb y) eqn:WY; try discriminate BM; injection BM as <-; congruence.
      * cbn [rewinds]. rewrite Q2. apply good_trivial; assumption.
    + destruct B as ((e & Q1) & h & t & Q2 & Q3 & Q4). unfold bturn in *.
      pose proof (bwd_match_fe AcceptQLetter (wb y) (pcat_of rest) (Ret (rcr (y :: rest))) ltac:(discriminate) ltac:(discriminate)) as SH.
      assert (NE : ~ efz y) by (intros E; destruct (NF _ FO E) as [X _]; discriminate X).
      destruct (bwd_match (WFormatExtend AcceptQLetter) (wb y) (pcat_of rest) (Ret (rcr (y :: rest)))) as [s'|s'|s'|[|dec] []|] eqn:BM; try contradiction.
      * rewrite EY in ED. apply IH; [|exact ED]. apply plain_binv; [exact SH|]. exists y, m. split; [reflexivity|]. split; [exact NE|].
        destruct (wb y) eqn:WY; try discriminate BM; injection BM as <-; congruence.
      * cbn [rewinds]. rewrite Q2. apply good_trivial; assumption.
    + destruct B as ((e & Q1) & h & t & Q2 & Q3 & Q4). unfold bturn in *.
      pose proof (bwd_match_fe RequireNumeric (wb y) (pcat_of rest) (Ret (rcr (y :: rest))) ltac:(discriminate) ltac:(discriminate)) as SH.
      assert (NE : ~ efz y) by (intros E; destruct (NF _ FO E) as [X _]; discriminate X).
      destruct (bwd_match (WFormatExtend RequireNumeric) (wb y) (pcat_of rest) (Ret (rcr (y :: rest)))) as [s'|s'|s'|[|dec] []|] eqn:BM; try contradiction.
      * rewrite EY in ED. apply IH; [|exact ED]. apply plain_binv; [exact SH|]. exists y, m. split; [reflexivity|]. split; [exact NE|].
        destruct (wb y) eqn:WY; try discriminate BM; injection BM as <-; congruence.
      * cbn [rewinds]. rewrite Q2. apply good_trivial; assumption.
Qed.

(** ** What is before the piece does not matter *)
Definition bok (st sv : wstate) : Prop := match st with WStart => False | WFormatExtend AcceptNone => plain sv = true | _ => True end.
Lemma plain_bok st sv : plain st = true -> bok st sv.
Proof. destruct st; try discriminate; intros _; exact I. Qed.
Lemma req_bok st sv : is_req st = true -> bok st sv.
Proof. destruct st as [| | | | | |[]|[]| |]; try discriminate; intros _; exact I. Qed.

(** what a turn can do, from a state other than the start *)
Inductive turns (s : wstate) : bstep -> Prop :=
| t_next s' : bok s' WStart -> rewinds s' = false -> turns s (BNext s')
| t_save s' : bok s' WStart -> rewinds s' = true -> rewinds s = false -> turns s (BSavePrev s')
| t_idx s' : bok s' WStart -> rewinds s' = true -> turns s (BSaveIdx s')
| t_break tc : turns s (BBreak 0 tc).
Lemma turns_match s c pc n : s <> WStart -> s <> WFormatExtend AcceptNone -> turns s (bwd_match s c pc (Ret n)).
Proof.
  intros N1 N2. destruct s as [| | | | | |[]|[]| |]; try contradiction; destruct c; cbn [bwd_match is_start];
    try (constructor; (exact I || reflexivity)); try (apply t_break). 
  destruct (Nat.even n); constructor; (exact I || reflexivity).
Qed.
Lemma bok_any s sv : bok s WStart -> bok s sv.
Proof. destruct s as [| | | | | |[]|[]| |]; try contradiction; try (intros; exact I). discriminate. Qed.

Lemma bscan_least : forall rest m st sv save, bok st sv ->
  bscan rest m st sv save = (if rewinds st then save else m) \/ length m < length (bscan rest m st sv save).
Proof.
  induction rest as [|y rest IH]; intros m st sv save B; [left; reflexivity|].
  rewrite bscan_cons.
  assert (TURN : forall s prev, s <> WStart -> s <> WFormatExtend AcceptNone ->
    let p := bturn y rest m sv save s prev in p = (if rewinds s then save else prev) \/ length m < length p).
  { intros s prev N1 N2. unfold bturn. cbv zeta. destruct (turns_match s (wb y) (pcat_of rest) (rcr (y :: rest)) N1 N2) as [s' B1 R1|s' B1 R1 R2|s' B1 R1|tc].
    - destruct (IH (y :: m) s' sv save (bok_any _ _ B1)) as [E|L]; [rewrite R1 in E; rewrite E|]; right; cbn [length] in *; lia.
    - destruct (IH (y :: m) s' sv prev (bok_any _ _ B1)) as [E|L]; [rewrite R1 in E; rewrite E, R2; left; reflexivity|]. right. cbn [length] in *; lia.
    - destruct (IH (y :: m) s' sv (y :: m) (bok_any _ _ B1)) as [E|L]; [rewrite R1 in E; rewrite E|]; right; cbn [length] in *; lia.
    - destruct (rewinds s); [left; reflexivity|]. destruct tc; [right; cbn [length]; lia|left; reflexivity]. }
  destruct (folds (wb y) st).
  - assert (PC : forall s, plain s = true -> let p := bscan rest (y :: m) (WFormatExtend AcceptNone) s m in p = m \/ length m < length p).
    { intros s PL. cbv zeta. destruct (IH (y :: m) (WFormatExtend AcceptNone) s m PL) as [E|L]; [left; exact E|right; cbn [length] in L; lia]. }
    destruct st as [| | | | | |[]|t| |]; try contradiction; try (apply PC; reflexivity).
    destruct (IH (y :: m) (WFormatExtend t) sv save) as [E|L]; [exact B| |right; cbn [length] in L; lia].
    rewrite E. destruct (rewinds (WFormatExtend t)); [left; reflexivity|right; cbn [length]; lia].
  - destruct st as [| | | | | |[]|t| |]; try contradiction; try (apply (TURN _ m); discriminate).
    destruct t; try (apply (TURN _ m); discriminate).
    cbn [bok] in B. pose proof (TURN sv save) as T. cbv zeta in T. rewrite (plain_rewinds _ B) in T. apply T; intros E; rewrite E in B; discriminate B.
Qed.

Lemma rcr_app l dr : rcr (l ++ dr) = rcr l \/ (rcr (l ++ dr) = rcr l + rcr dr /\ Forall (fun c => efz c \/ wb c = WB_RegionalIndicator) l).
Proof.
  induction l as [|y l IH]; [right; split; [reflexivity|constructor]|]. cbn [app].
  destruct (efz_dec y) as [E|E].
  - rewrite !rcr_one by exact E. destruct IH as [H|[H F]]; [left; exact H|right; split; [exact H|constructor; auto]].
  - destruct (WB_eqb (wb y) WB_RegionalIndicator) eqn:R.
    + apply WB_eqb_true in R. rewrite !(rcr_ri _ _ R). destruct IH as [H|[H F]]; [left; congruence|right; split; [rewrite H; reflexivity|constructor; auto]].
    + left. rewrite !rcr_stop; auto; intros X; rewrite X in R; discriminate R.
Qed.
Lemma rcr_even l dr m : good_cut dr (rev l ++ m) -> l <> [] -> Nat.even (rcr (l ++ dr)) = Nat.even (rcr l).
Proof.
  intros G N. destruct (rcr_app l dr) as [-> |[-> F]]; [reflexivity|]. rewrite Nat.even_add.
  destruct (rev l) as [|h t] eqn:ER; [exfalso; apply N; rewrite <- (rev_involutive l), ER; reflexivity|].
  destruct (G h (t ++ m) eq_refl) as [G1 G2].
  assert (H : efz h \/ wb h = WB_RegionalIndicator) by (apply Forall_rev in F; rewrite ER in F; inversion F; assumption).
  assert (EV : Nat.even (rcr dr) = true) by (destruct H as [H|H]; [rewrite (G1 H); reflexivity|exact (G2 H)]).
  rewrite EV. destruct (Nat.even (rcr l)); reflexivity.
Qed.
Lemma match_even s c pc n n' : Nat.even n = Nat.even n' -> bwd_match s c pc (Ret n) = bwd_match s c pc (Ret n').
Proof. intros H. unfold bwd_match. rewrite H. reflexivity. Qed.
Lemma match_pcat s c pc pc' n : s <> WStart -> bwd_match s c pc n = bwd_match s c pc' n.
Proof. intros N. destruct s as [| | | | | |[]|[]| |]; try contradiction; try reflexivity. Qed.

Lemma bscan_truncate dr : forall rest m st sv save, bok st sv -> good_cut dr (rev rest ++ m) ->
  length (bscan (rest ++ dr) m st sv save) <= length rest + length m -> bscan rest m st sv save = bscan (rest ++ dr) m st sv save.
Proof.
  induction rest as [|y rest IH]; intros m st sv save B G L.
  - cbn [app bscan length] in *. destruct (bscan_least dr m st sv save B) as [E|X]; [symmetry; exact E|lia].
  - cbn [app] in *. rewrite !bscan_cons in *.
    assert (G2 : good_cut dr (rev rest ++ y :: m)) by (cbn [rev] in G; rewrite <- app_assoc in G; exact G).
    assert (IHn : forall st sv save, bok st sv -> length (bscan (rest ++ dr) (y :: m) st sv save) <= length (y :: rest) + length m ->
      bscan rest (y :: m) st sv save = bscan (rest ++ dr) (y :: m) st sv save).
    { intros st' sv' save' B' L'. apply IH; [exact B'|exact G2|]. cbn [length] in *. lia. }
    assert (TURN : forall s prev, s <> WStart -> s <> WFormatExtend AcceptNone -> length (bturn y (rest ++ dr) m sv save s prev) <= length (y :: rest) + length m ->
      bturn y rest m sv save s prev = bturn y (rest ++ dr) m sv save s prev).
    { intros s prev N1 N2. unfold bturn.
      assert (ME : bwd_match s (wb y) (pcat_of rest) (Ret (rcr (y :: rest))) = bwd_match s (wb y) (pcat_of (rest ++ dr)) (Ret (rcr (y :: rest ++ dr)))).
      { rewrite (match_pcat s (wb y) (pcat_of rest) (pcat_of (rest ++ dr)) _ N1). apply match_even. symmetry. apply (rcr_even (y :: rest) dr m G). discriminate. }
      rewrite ME. destruct (turns_match s (wb y) (pcat_of (rest ++ dr)) (rcr (y :: rest ++ dr)) N1 N2) as [s' B1 R1|s' B1 R1 R2|s' B1 R1|tc];
        try (intros X; apply IHn; [apply bok_any; exact B1|exact X]). intros _. reflexivity. }
    destruct (folds (wb y) st).
    + destruct st as [| | | | | |[]|t| |]; try contradiction; apply IHn; try reflexivity; try exact L. exact B.
    + destruct st as [| | | | | |[]|t| |]; try contradiction; try (apply TURN; [discriminate|discriminate|exact L]).
      destruct t; try (apply TURN; [discriminate|discriminate|exact L]).
      cbn [bok] in B. apply TURN; [intros E; rewrite E in B; discriminate B|intros E; rewrite E in B; discriminate B|exact L].
Qed.

(** ** One call: the piece at the end of a text *)
Definition bstart (r : str) : str :=
  match r with
  | [] => []
  | y :: rest =>
      match bwd_match WStart (wb y) (pcat_of rest) (Ret 0) with
      | BNext s => bscan rest [y] s WStart [y]
      | BSaveIdx s => bscan rest [y] s WStart [y]
      | BBreak 1 _ => match rest with z :: _ => [z; y] | [] => [y] end
      | _ => [y]
      end
  end.

Lemma bends_start S : S <> [] ->
  let len := slen S in let idx := len - clen (last S 0%N) in
  forall cat, cacheb_ok S cat -> bends S (bwd_loop S (rev S) len (BV idx idx idx WStart WStart WB_Other true true cat)) (bstart (rev S)).
Proof.
  intros N. destruct (snoc_inv S N) as (A & y & ->). cbv zeta. rewrite rev_app_distr. cbn [rev app]. rewrite last_last. intros cat EC.
  rewrite bwd_loop_cons. cbv zeta. cbn [b_self b_state b_savestate b_save b_idx].
  assert (EG : match cat with None => wb y | Some c => c end = wb y).
  { unfold cacheb_ok, cache_ok in EC. rewrite rev_app_distr in EC. cbn [rev app] in EC. destruct cat; [exact EC|reflexivity]. }
  rewrite EG. clear EG EC.
  assert (EX : slen (A ++ [y]) - clen y = slen A) by (rewrite slen_app; cbn; lia). rewrite EX.
  assert (FX : forall (b : outcome bvars) (c : bool), (if c then b else b) = b) by (intros b []; reflexivity).
  rewrite FX. clear FX. change (match rev A with [] => None | n :: _ => Some (wb n) end) with (pcat_of (rev A)).
  assert (IHn : forall prev s tk, bvalid s WStart [y] [y] -> bends (A ++ [y]) (bwd_loop (A ++ [y]) (rev A) (slen A) (BV (slen A) prev (slen A) s WStart (wb y) true tk None)) (bscan (rev A) [y] s WStart [y])).
  { intros prev s tk H. apply (bwd_bscan (A ++ [y]) (rev A) A [y] (BV (slen A) prev (slen A) s WStart (wb y) true tk None) [y]); auto; [exact I|].
    intros _. exists []. rewrite app_nil_r. auto. }
  assert (ONE : bends (A ++ [y]) (Ret (BV (slen A - 0) (slen A) (slen A) WStart WStart (wb y) true true None)) [y]).
  { rewrite Nat.sub_0_r. apply (bends_at _ WStart A [y]); reflexivity. }
  unfold turn, bstart.
  destruct (wb y) eqn:WY; cbn [bwd_match is_start]; try exact ONE; try (apply IHn; exact I).
  - destruct (rev A) as [|z A'] eqn:ER; cbn [pcat_of]; [exact ONE|].
    destruct (wb z) eqn:WZ; try exact ONE.
    assert (EA : A = rev A' ++ [z]) by (rewrite <- (rev_involutive A), ER; reflexivity).
    apply (bends_at _ WStart (rev A') [z; y]); [rewrite EA, <- app_assoc; reflexivity|reflexivity|].
    cbn [rewinds b_take_curr b_idx]. rewrite EA, slen_app. cbn. rewrite (cr_clen z WZ). lia.
  - apply IHn. exists []. reflexivity.
Qed.

Lemma start_good r : forall d, r = rev (bstart r) ++ d -> good_cut d (bstart r).
Proof.
  destruct r as [|y rest]; [intros d _ h t E; discriminate E|]. intros d ED.
  assert (E2 : rev rest ++ [y] = rev d ++ bstart (y :: rest)).
  { apply (f_equal (@rev _)) in ED. rewrite rev_app_distr, rev_involutive in ED. exact ED. }
  clear ED. unfold bstart in *.
  assert (PB : forall s, plain s = true -> ~ efz y -> match s with WRegional RUnknown => wb y = WB_RegionalIndicator | WRegional _ => False | _ => wb y <> WB_RegionalIndicator end ->
    rev rest ++ [y] = rev d ++ bscan rest [y] s WStart [y] -> good_cut d (bscan rest [y] s WStart [y])).
  { intros s PL NE H X. apply bscan_good; [|exact X]. apply plain_binv; [exact PL|]. exists y, []. split; [reflexivity|]. split; [exact NE|].
    destruct s as [| | | | | |[]|[]| |]; try exact H; contradiction. }
  assert (TR : ~ efz y -> wb y <> WB_RegionalIndicator -> good_cut d [y]) by (intros; apply good_trivial; assumption).
  destruct (wb y) eqn:WY; cbn [bwd_match is_start] in *;
    try (apply TR; [unfold efz; rewrite WY; discriminate|congruence]);
    try (apply PB; [reflexivity|unfold efz; rewrite WY; discriminate|cbn; congruence|exact E2]);
    try (apply bscan_good; [|exact E2]; exists y, []; split; [reflexivity|unfold efz; rewrite WY; reflexivity]).
  - (* LF *)
    destruct rest as [|z rest]; cbn [pcat_of] in *; [apply TR; [unfold efz; rewrite WY; discriminate|congruence]|].
    destruct (wb z) eqn:WZ; try (apply TR; [unfold efz; rewrite WY; discriminate|congruence]).
    apply good_trivial; [unfold efz; rewrite WZ; discriminate|congruence].
  - (* ' *)
    apply bscan_good; [|exact E2]. split; [exists []; reflexivity|]. exists y, []. split; [reflexivity|]. split; [unfold efz; rewrite WY; discriminate|congruence].
Qed.

Lemma start_truncate dr r : r <> [] -> good_cut dr (rev r) -> length (bstart (r ++ dr)) <= length r -> bstart r = bstart (r ++ dr).
Proof.
  destruct r as [|y rest]; intros N G L; [contradiction|]. cbn [app bstart rev] in *.
  assert (SC : forall s, bok s WStart -> length (bscan (rest ++ dr) [y] s WStart [y]) <= length (y :: rest) -> bscan rest [y] s WStart [y] = bscan (rest ++ dr) [y] s WStart [y]).
  { intros s B X. apply bscan_truncate; [exact B|exact G|]. cbn [length] in *. lia. }
  destruct (wb y); cbn [bwd_match is_start] in *; try reflexivity; try (apply SC; [exact I|exact L]).
  destruct rest as [|z rest]; [|cbn [app pcat_of]; destruct (wb z); reflexivity]. cbn [app pcat_of length] in *.
  destruct dr as [|x dr]; [reflexivity|]. cbn [pcat_of] in *. destruct (wb x); try reflexivity. cbn [length] in L. lia.
Qed.

Definition last_piece (S p : str) : Prop := S <> [] /\ p = bstart (rev S).
Lemma last_splits S : S <> [] -> exists D, S = D ++ bstart (rev S).
Proof. intros N. destruct (bends_start S N None I) as (v & D & _ & E & _). exists D. exact E. Qed.

Lemma words_back_last w D p : w_string w = D ++ p -> last_piece (D ++ p) p -> wok w ->
  exists cache, words_next_back w = Ret (WBs (w_off w) D (w_cat w) cache, Some (w_off w + slen D, p)) /\ wok (WBs (w_off w) D (w_cat w) cache).
Proof.
  intros E [N P] W. rewrite <- E in N, P. destruct (words_next_back_cuts w N W) as (D' & q & cache & H1 & H2 & H3 & H4).
  assert (Q : q = p /\ D' = D).
  { destruct (bends_start (w_string w) N _ (proj2 W)) as (v & D2 & B1 & B2 & B3). rewrite <- P in B2.
    assert (D2 = D) by (apply (app_inv_tail p); congruence). subst D2.
    unfold words_next_back in H1. destruct (snoc_inv _ N) as (A & y & EA). rewrite EA in *. rewrite rev_app_distr in *. cbn [rev app] in *. cbv zeta in H1.
    rewrite last_last in B1. rewrite B1 in H1. cbn [obind] in H1. rewrite B3, B2, split_at_app in H1. injection H1 as H1 _ _ H5. auto. }
  destruct Q as [-> ->]. exists cache. auto.
Qed.

Inductive bpieces : str -> list str -> Prop :=
| bp_nil : bpieces [] []
| bp_snoc D p ps : last_piece (D ++ p) p -> bpieces D ps -> bpieces (D ++ p) (ps ++ [p]).

Lemma start_ne r : r <> [] -> bstart r <> [].
Proof.
  intros N E. destruct (bwd_start_cuts (rev r) None) as (v & D & p & c & H1 & H2 & H3 & H4 & _).
  - intros X. apply N. rewrite <- (rev_involutive r), X. reflexivity.
  - exact I.
  - destruct (bends_start (rev r)) with (cat := @None WB) as (v' & D' & B1 & B2 & B3).
    + intros X. apply N. rewrite <- (rev_involutive r), X. reflexivity.
    + exact I.
    + rewrite rev_involutive, E, app_nil_r in B2. rewrite H1 in B1. injection B1 as <-. rewrite H2 in B3. cbn [fst] in B3.
      rewrite <- B2, H3, slen_app in B3. pose proof (slen_pos p H4). lia.
Qed.

Lemma collect_bpieces fuel : forall w ps, bpieces (w_string w) ps -> wok w -> length (w_string w) <= fuel ->
  collect_words fuel words_next_back w = Ret (Some (rev (indexed (w_off w) ps))).
Proof.
  induction fuel; intros w ps F W L; inversion F as [E1 E2|D p qs F1 F2 E1 E2].
  - cbn [collect_words]. rewrite (proj2 (words_none w (eq_sym E1))). reflexivity.
  - exfalso. destruct F1 as [N _]. rewrite E1 in N. destruct (w_string w); [contradiction|cbn in L; lia].
  - cbn [collect_words]. rewrite (proj2 (words_none w (eq_sym E1))). reflexivity.
  - destruct (words_back_last w D p (eq_sym E1) F1 W) as (cache & H1 & H2). cbn [collect_words]. rewrite H1.
    rewrite (IHfuel (WBs (w_off w) D (w_cat w) cache) qs F2 H2).
    + rewrite indexed_app, rev_app_distr. cbn [indexed rev app w_off]. do 4 f_equal.
      assert (C : concat qs = D). { clear - F2. induction F2; [reflexivity|]. rewrite concat_app, IHF2. cbn. rewrite app_nil_r. reflexivity. }
      rewrite C. reflexivity.
    + cbn [w_string]. rewrite <- E1, app_length in L. destruct F1 as [N P]. assert (NP : p <> []).
      { rewrite P. apply start_ne. intros X. apply N. rewrite <- (rev_involutive (D ++ p)), X. reflexivity. }
      destruct p; [contradiction|]. cbn in L. lia.
Qed.
Lemma bpieces_concat s ps : bpieces s ps -> concat ps = s.
Proof. induction 1 as [|D p ps _ _ IH]; [reflexivity|]. rewrite concat_app, IH. cbn. rewrite app_nil_r. reflexivity. Qed.
Lemma bpieces_exist n : forall s, length s <= n -> exists ps, bpieces s ps.
Proof.
  induction n; intros s L.
  - destruct s; [|cbn in L; lia]. exists []. constructor.
  - destruct s as [|y s]; [exists []; constructor|]. assert (N : y :: s <> []) by discriminate.
    destruct (last_splits _ N) as [D E]. assert (NP : bstart (rev (y :: s)) <> []).
    { apply start_ne. intros X. apply N. rewrite <- (rev_involutive (y :: s)), X. reflexivity. }
    assert (LP : last_piece (y :: s) (bstart (rev (y :: s)))) by (split; [exact N|reflexivity]).
    remember (bstart (rev (y :: s))) as p eqn:EP. clear EP. rewrite E in *.
    destruct (IHn D) as [ps P].
    { rewrite app_length in L. destruct p; [contradiction|]. cbn in L. lia. }
    exists (ps ++ [p]). constructor; assumption.
Qed.
Lemma words_rev_iff s ps : word_bound_indices_rev s = Ret (Some (rev (indexed 0 ps))) <-> bpieces s ps.
Proof.
  destruct (bpieces_exist (length s) s (Nat.le_refl _)) as [qs Q].
  pose proof (collect_bpieces (length s) (word_bounds_new s) qs Q (wok_new s) (Nat.le_refl _)) as H.
  fold (word_bound_indices_rev s) in H. cbn [w_off word_bounds_new] in H. split.
  - intros E. rewrite H in E. injection E as E. apply (f_equal (@rev _)) in E. rewrite !rev_involutive in E. apply indexed_inj in E. subst. exact Q.
  - intros P. exact (collect_bpieces (length s) (word_bounds_new s) ps P (wok_new s) (Nat.le_refl _)).
Qed.

Lemma bpieces_ne s ps : bpieces s ps -> Forall (fun p => p <> []) ps.
Proof.
  induction 1 as [|D p ps [N P] _ IH]; [constructor|]. apply Forall_app. split; [exact IH|]. constructor; [|constructor].
  rewrite P. apply start_ne. intros X. apply N. rewrite <- (rev_involutive (D ++ p)), X. reflexivity.
Qed.

(** what is before any piece is good for what follows *)
Lemma bpieces_good s ps qs : bpieces s (ps ++ qs) -> qs <> [] -> good_cut (rev (concat ps)) (concat qs).
Proof.
  intros F. remember (ps ++ qs) as xs eqn:EX. revert ps qs EX. induction F as [|D p xs [N P] F IH]; intros ps qs EX NQ.
  - symmetry in EX. apply app_eq_nil in EX. destruct EX. contradiction.
  - destruct (snoc_inv qs NQ) as (qs' & q & ->). rewrite app_assoc in EX. apply app_inj_tail in EX. destruct EX as [EX <-].
    destruct qs' as [|z qs'].
    + rewrite app_nil_r in EX. subst xs. cbn [app concat]. rewrite app_nil_r, (bpieces_concat _ _ F). rewrite P at 1. apply start_good.
      rewrite <- P, rev_app_distr. reflexivity.
    + intros h t E. assert (X : exists t', concat (z :: qs') = h :: t').
      { pose proof (bpieces_ne _ _ F) as NE. rewrite EX in NE. apply Forall_app in NE. destruct NE as [_ NE]. inversion NE as [|? ? NZ _]; subst.
        destruct z as [|z0 z]; [contradiction|]. cbn in E |- *. injection E as <- _. eauto. }
      destruct X as [t' X]. exact (IH ps (z :: qs') EX ltac:(discriminate) h t' X).
Qed.

Lemma bpieces_cut qs : forall s ps, bpieces s (ps ++ qs) -> bpieces (concat ps) ps /\ bpieces (concat qs) qs.
Proof.
  induction qs as [|q qs IH] using rev_ind; intros s ps F.
  - rewrite app_nil_r in F. rewrite (bpieces_concat _ _ F). split; [exact F|constructor].
  - pose proof (bpieces_good _ _ _ F ltac:(destruct qs; discriminate)) as G.
    rewrite app_assoc in F. inversion F as [E1 E2|D p xs [N P] F2 E1 E2]; [destruct (ps ++ qs); discriminate E2|].
    apply app_inj_tail in E2. destruct E2 as [-> ->]. destruct (IH _ _ F2) as [H1 H2]. split; [exact H1|].
    rewrite concat_app. cbn [concat]. rewrite app_nil_r. constructor; [|exact H2].
    pose proof (bpieces_concat _ _ F2) as C. rewrite concat_app in C. rewrite concat_app in G. cbn [concat] in G. rewrite app_nil_r in G.
    rewrite <- C in P. rewrite <- app_assoc, rev_app_distr in P.
    assert (NQ : q <> []).
    { pose proof (bpieces_ne _ _ F) as NE. apply Forall_app in NE. destruct NE as [_ NE]. inversion NE; assumption. }
    assert (NS : rev (concat qs ++ q) <> []).
    { intros X. apply (f_equal (@rev _)) in X. rewrite rev_involutive in X. destruct (concat qs); [cbn in X; contradiction|discriminate X]. }
    split; [intros X; apply NS; rewrite X; reflexivity|]. rewrite P at 1. symmetry. apply start_truncate.
    + exact NS.
    + rewrite rev_involutive. exact G.
    + rewrite <- P, rev_length, app_length. lia.
Qed.

Lemma words_rev_cut s ps qs : word_bound_indices_rev s = Ret (Some (rev (indexed 0 (ps ++ qs)))) ->
  word_bound_indices_rev (concat ps) = Ret (Some (rev (indexed 0 ps))) /\ word_bound_indices_rev (concat qs) = Ret (Some (rev (indexed 0 qs))).
Proof. rewrite !words_rev_iff. apply bpieces_cut. Qed.
Lemma words_rev_single s ps : word_bound_indices_rev s = Ret (Some (rev (indexed 0 ps))) -> Forall (fun p => word_bound_indices_rev p = Ret (Some [(0, p)])) ps.
Proof.
  intros H. apply Forall_forall. intros p IN. apply in_split in IN. destruct IN as (a & b & ->).
  destruct (words_rev_cut _ _ _ H) as [_ H2]. change (p :: b) with ([p] ++ b) in H2. destruct (words_rev_cut _ _ _ H2) as [H3 _].
  cbn [concat] in H3. rewrite app_nil_r in H3. exact H3.
Qed.

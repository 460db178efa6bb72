(** The forward word iterator cuts only where the rules do, also on texts where it
    does not cut everywhere where they do. *)
From Coq Require Import List NArith Lia Bool Arith.
Import ListNotations.
From Verif Require Import Base Enums TableTypes UcdModel BidiModel BidiLemmas GraphSpec SegLemmas SegConcat GraphIter
  WordModel WordSpec WordTables WordRules WordForward WordConcat NestSpec.
Open Scope nat_scope.
Local Opaque word_break wb.

(** ** One step *)
Definition fair (st : wstate) (K R : list WB) : Prop :=
  (hd_error K = Some WB_GlueAfterZwj /\ st <> WStart /\ (forall r, st <> WRegional r) /\
     (st = WFormatExtend AcceptNone \/ st = WFormatExtend AcceptQLetter \/ forall t, st <> WFormatExtend t)) \/
  match st with
  | WLetter => hd_error K = Some WB_ALetter
  | WHLetter => hd_error K = Some WB_HebrewLetter
  | WNumeric => hd_error K = Some WB_Numeric
  | WKatakana => hd_error K = Some WB_Katakana
  | WExtendNumLet => hd_error K = Some WB_ExtendNumLet
  | WRegional RHalf => hd_error K = Some WB_RegionalIndicator /\ Nat.odd (ri_count K) = true
  | WRegional RFull => hd_error K = Some WB_RegionalIndicator /\ Nat.odd (ri_count K) = false
  | WEmoji => any [WB_EBase; WB_EBaseGAZ; WB_EModifier] (hd_error K) = true
  | WZwj => hd_error K = Some WB_ZWJ
  | WFormatExtend AcceptNone => K <> [] /\ free K R = true
  | WFormatExtend AcceptQLetter => hd_error K = Some WB_SingleQuote /\ hd_error (tl K) <> Some WB_Numeric
  | _ => False
  end.
Lemma good_fair st K R : good st K R -> (forall r, st <> WRegional r) \/ hd_error K <> Some WB_GlueAfterZwj -> fair st K R.
Proof.
  intros [(H1 & _ & H3 & _ & H5)|H] HR.
  - left. destruct HR as [HR|HR]; [auto|contradiction].
  - right. destruct st as [| | | | | |[]|[]| |]; try exact H. destruct H as [t ->]. split; [reflexivity|discriminate].
Qed.
(** looking for a letter or digit after [q] *)
Definition requires (st : wstate) : bool :=
  match st with WFormatExtend RequireLetter | WFormatExtend RequireHLetter | WFormatExtend RequireNumeric => true | _ => false end.
Definition seeks (st : wstate) (q : WB) (K : list WB) : Prop :=
  seeking st q K \/ requires st = true /\ is_in MidClasses q = true /\ hd_error K = Some WB_GlueAfterZwj.

Lemma seeks_mid st q K : seeks st q K -> is_in MidClasses q = true /\ is_in [WB_GlueAfterZwj; WB_EBaseGAZ] q = false.
Proof. intros [H|(_ & H & _)]; [exact (seeking_mid _ _ _ H)|]. split; [exact H|]. destruct q; try discriminate H; reflexivity. Qed.
Lemma seeks_requires st q K : seeks st q K -> requires st = true.
Proof. intros [H|(H & _)]; [|exact H]. destruct st as [| | | | | |[]|[]| |]; cbn [seeking] in H; try contradiction; reflexivity. Qed.
Lemma seeks_end st q K : seeks st q K -> free K [q] = true.
Proof.
  intros [H|(_ & _ & H)]; [exact (seeking_end _ _ _ H)|]. destruct K as [|k K]; [discriminate H|]. injection H as ->. apply free_left. reflexivity.
Qed.
Lemma seeks_break st q K g R ncat : seeks st q K -> ig g = false ->
  match fwd_match st g ncat with
  | FNext s => nl g = false /\ forall k, fair s (g :: k) R
  | FBreak 0 _ _ => free K (q :: g :: R) = true
  | _ => False
  end.
Proof.
  intros SK I. pose proof (seeks_requires _ _ _ SK) as RQ.
  assert (F : forall i b c, fwd_match st g ncat = FBreak i b c -> i = 0 /\ free K (q :: g :: R) = true).
  { intros i b c E. split; [destruct st as [| | | | | |[]|[]| |]; try discriminate RQ; destruct g; cbn [fwd_match] in E; try discriminate E; congruence|].
    destruct SK as [SK|(_ & _ & H)].
    - pose proof (seeking_step st q K g R ncat SK I) as ST. rewrite E in ST. destruct i; [exact ST|contradiction].
    - destruct K as [|k K]; [discriminate H|]. injection H as ->. apply free_left. reflexivity. }
  destruct (fwd_match st g ncat) as [s|s|c|i b c|] eqn:FM.
  - destruct st as [| | | | | |[]|[]| |]; try discriminate RQ; destruct g; cbn [fwd_match] in FM; try discriminate FM; injection FM as <-;
      (split; [reflexivity|]); intros k; right; reflexivity.
  - destruct st as [| | | | | |[]|[]| |]; try discriminate RQ; destruct g; discriminate FM.
  - destruct st as [| | | | | |[]|[]| |]; try discriminate RQ; destruct g; discriminate FM.
  - destruct (F i b c eq_refl) as [-> F']. exact F'.
  - destruct st as [| | | | | |[]|[]| |]; try discriminate RQ; destruct g; discriminate FM.
Qed.

Lemma fair_shape st K R : fair st K R -> st <> WStart /\ requires st = false.
Proof.
  intros [(_ & H1 & _ & H2)|H].
  - split; [exact H1|]. destruct H2 as [->|[->|H2]]; try reflexivity. destruct st as [| | | | | |[]|[]| |]; try reflexivity; exfalso; eapply H2; reflexivity.
  - destruct st as [| | | | | |[]|[]| |]; try contradiction; split; try discriminate; reflexivity.
Qed.
Lemma fair_form st K R : fair st K R -> st = WFormatExtend AcceptNone \/ st = WFormatExtend AcceptQLetter \/ forall t, st <> WFormatExtend t.
Proof.
  intros [(_ & _ & _ & H)|H]; [exact H|]. destruct st as [| | | | | |[]|[]| |]; try contradiction; auto; right; right; discriminate.
Qed.
Lemma fair_no_rewind v K R : fair (f_state v) K R -> fwd_rewind v = v.
Proof. intros H. apply fair_shape in H as [_ H]. unfold fwd_rewind. destruct (f_state v) as [| | | | | |[]|[]| |]; try reflexivity; discriminate H. Qed.

Lemma fair_step st K g R ncat : fair st K (g :: R) -> ig g = false ->
  match fwd_match st g ncat with
  | FNext s => nl g = false /\ fair s (g :: K) R
  | FSave s => nl g = false /\ seeks s g K
  | FBreak 0 false _ => nl g = true \/ free K (g :: R) = true
  | _ => False
  end.
Proof.
  intros [(H1 & H2 & H3 & H4)|H] I.
  - destruct K as [|k K]; [discriminate|]. injection H1 as ->.
    assert (F : forall R, free (WB_GlueAfterZwj :: K) (g :: R) = true) by (intros; apply free_left; reflexivity).
    destruct st as [| | | | | |r|[]| |]; try (exfalso; apply H2; reflexivity); try (exfalso; eapply H3; reflexivity);
      try (exfalso; destruct H4 as [H4|[H4|H4]]; try discriminate H4; eapply H4; reflexivity);
      destruct g; try discriminate I; cbn [fwd_match]; try (right; exact (F _)); (split; [reflexivity|]);
      try (right; reflexivity); try (right; split; [reflexivity|discriminate]); right; repeat split; reflexivity.
  - destruct (match g with WB_EModifier => true | _ => false end) eqn:EG.
    { destruct g; try discriminate EG. clear EG I.
      destruct st as [| | | | | |[]|[]| |]; try contradiction; cbn [fwd_match]; try (split; [reflexivity|right; reflexivity]); right.
      1-5: destruct K as [|k K]; [discriminate H|]; injection H as ->; dec_free.
      - destruct H as [H _]. destruct K as [|k K]; [discriminate H|]. injection H as ->. dec_free.
      - destruct H as [H _]. destruct K as [|k K]; [discriminate H|]. injection H as ->. dec_free.
      - apply H.
      - destruct H as [H _]. destruct K as [|k K]; [discriminate H|]. injection H as ->. dec_free.
      - destruct K as [|k K]; [discriminate H|]; injection H as ->; dec_free. }
    assert (X : good st K (g :: R) ->
      match fwd_match st g ncat with
      | FNext s => nl g = false /\ fair s (g :: K) R
      | FSave s => nl g = false /\ seeks s g K
      | FBreak 0 false _ => nl g = true \/ free K (g :: R) = true
      | _ => False
      end).
    { intros GD. pose proof (good_step _ _ _ _ ncat GD I ltac:(intros ->; discriminate EG)) as ST.
      destruct (good_shape _ _ _ GD) as (NS & _).
      destruct (fwd_match st g ncat) as [s|s|c|[|i] [] b|] eqn:FM; try contradiction; try exact ST.
      - destruct ST as (N & _ & G). split; [exact N|]. apply good_fair; [exact G|]. right. cbn [hd_error]. intros E. injection E as ->.
        destruct st as [| | | | | |[]|[]| |]; try discriminate FM. contradiction (NS eq_refl).
      - destruct ST as [N SK]. split; [exact N|left; exact SK]. }
    destruct st as [| | | | | |r|[]| |]; try contradiction; try (apply X; right; exact H).
    (* after a quote *) destruct H as [H1 H2]. destruct K as [|k K]; [discriminate H1|]. injection H1 as ->. cbn [tl] in H2. clear X.
    destruct g; try discriminate EG; try discriminate I; cbn [fwd_match]; try (left; reflexivity); try (split; [reflexivity|]; right; reflexivity); right;
      try (dec_free; fail). unfold free, free_dec. cbn [hd_error tl ri_count]. destruct K as [|k K]; [reflexivity|]. cbn [hd_error] in H2.
    destruct k; try contradiction (H2 eq_refl); reflexivity.
Qed.

(** ** The loop *)
Definition next_cut (P S : str) (r : outcome fvars) : Prop :=
  exists v' piece rst cache, r = Ret v' /\ S = piece ++ rst /\ fwd_end S v' = Ret (slen piece, cache) /\ word_boundary (P ++ piece) rst = true.

Lemma fwd_loop_fair text : no_glued_flag text -> forall rest P m m' z v,
  text = P ++ m ++ rest -> m = m' ++ [z] -> f_cat v = wb z -> f_idx v = slen m' -> f_take_curr v = true ->
  cache_ok rest (f_self v) -> fresh (cls (P ++ m)) = false ->
  (fair (f_state v) (kl (cls (P ++ m))) (kr (cls rest)) \/
   (exists m0 q tl, m = m0 ++ q :: tl /\ m0 <> [] /\ f_saveidx v = slen m0 /\
      nl (wb q) = false /\ ig (wb q) = false /\ fresh (cls (P ++ m0)) = false /\
      seeks (f_state v) (wb q) (kl (cls (P ++ m0))) /\
      (Forall ign tl \/ word_boundary (P ++ m0) (q :: tl ++ rest) = true))) ->
  next_cut P (m ++ rest) (fwd_loop rest (slen m) v).
Proof.
  intros T. induction rest as [|y rest IH]; intros P m m' z v ET EM HC HI HT HS FR HP.
  { rewrite app_nil_r in *. destruct HP as [GD|(m0 & q & tl & E1 & N0 & E2 & NQ & IQ & F0 & SK & TI)].
    - exists v, m, [], None. split; [reflexivity|]. split; [rewrite app_nil_r; reflexivity|]. split; [|apply wbd_end].
      unfold fwd_end. rewrite (fair_no_rewind _ _ _ GD), HT, HI, EM, split_at_app, slen_app. cbn. rewrite Nat.add_0_r. reflexivity.
    - exists v, m0, (q :: tl), (if f_take_cat v then Some (f_savecat v) else None).
      split; [reflexivity|]. split; [exact E1|]. split.
      + pose proof (seeks_requires _ _ _ SK) as RQ. unfold fwd_end, fwd_rewind. destruct (f_state v) as [| | | | | |[]|[]| |]; try discriminate RQ; cbn; rewrite E2; reflexivity.
      + destruct TI as [TI|TI]; [|rewrite app_nil_r in TI; exact TI].
        rewrite wbd. cbn [cls map]. rewrite bnd_eq by exact F0. rewrite NQ, IQ, (proj2 (seeks_mid _ _ _ SK)), andb_false_r. fold (cls tl).
        pose proof (kr_igs (cls tl) [] (igs_cls _ TI)) as KK. rewrite app_nil_r in KK. rewrite KK. apply (seeks_end _ _ _ SK). }
  assert (SNE : is_start (f_state v) = false).
  { destruct HP as [GD|(? & ? & ? & _ & _ & _ & _ & _ & _ & SK & _)].
    - destruct (fair_shape _ _ _ GD) as (H & _). destruct (f_state v); try reflexivity. exfalso. apply H. reflexivity.
    - pose proof (seeks_requires _ _ _ SK) as RQ. destruct (f_state v); try reflexivity. discriminate RQ. }
  cbn [fwd_loop]. rewrite HC.
  assert (EC : match f_self v with Some c => c | None => wb y end = wb y) by (destruct (f_self v); [exact HS|reflexivity]).
  rewrite EC, SNE. cbn [negb andb]. clear EC.
  assert (EMY : slen m + clen y = slen (m ++ [y])) by (rewrite slen_app; cbn; lia). rewrite EMY.
  assert (ES : m ++ y :: rest = (m ++ [y]) ++ rest) by (rewrite <- app_assoc; reflexivity). rewrite ES.
  assert (ET2 : text = P ++ (m ++ [y]) ++ rest) by (rewrite ET, ES; reflexivity).
  assert (LZ : lastc (cls (P ++ m)) = Some (wb z)) by (rewrite EM, app_assoc, cls_app; apply lastc_snoc).
  assert (CP : cls (P ++ m ++ [y]) = cls (P ++ m) ++ [wb y]) by (rewrite app_assoc, cls_app; reflexivity).
  (* the place kept for going back to stays what it is *)
  assert (KEEP : forall m0 q tl, m = m0 ++ q :: tl -> m ++ [y] = m0 ++ q :: (tl ++ [y])) by (intros m0 q tl ->; rewrite <- app_assoc; reflexivity).
  assert (KEEPB : forall m0 q tl, word_boundary (P ++ m0) (q :: tl ++ y :: rest) = true -> word_boundary (P ++ m0) (q :: (tl ++ [y]) ++ rest) = true)
    by (intros m0 q tl H; rewrite <- app_assoc; exact H).
  (* where it goes back to, if it does *)
  assert (BACK : forall m0 q tl, Forall ign tl -> nl (wb q) = false -> ig (wb q) = false -> fresh (cls (P ++ m0)) = false ->
    seeks (f_state v) (wb q) (kl (cls (P ++ m0))) -> ig (wb y) = false ->
    free (kl (cls (P ++ m0))) (wb q :: wb y :: wb4 (Some (wb y)) (cls rest)) = true -> word_boundary (P ++ m0) (q :: tl ++ y :: rest) = true).
  { intros m0 q tl TI NQ IQ F0 SK IY F. rewrite wbd. cbn [cls map]. rewrite bnd_eq by exact F0.
    rewrite NQ, IQ, (proj2 (seeks_mid _ _ _ SK)), andb_false_r. fold (cls (tl ++ y :: rest)). rewrite (cls_app tl), kr_igs by (apply igs_cls; exact TI).
    unfold kr. cbn [cls map]. rewrite wb4_cons by exact IY. exact F. }
  rewrite <- ig_spec.
  destruct (ig (wb y)) eqn:IY.
  { (* WB4 *)
    assert (FR2 : fresh (cls (P ++ m ++ [y])) = false) by (rewrite CP, fresh_snoc; apply ig_nl; exact IY).
    apply (IH P (m ++ [y]) m y); auto; [exact I|].
    destruct HP as [GD|(m0 & q & tl & E1 & N0 & E2 & NQ & IQ & F0 & SK & TI)].
    - left. cbn [f_state]. rewrite CP, kl_ig by auto. cbn [cls map] in GD. rewrite kr_ig in GD by exact IY. exact GD.
    - right. exists m0, q, (tl ++ [y]). cbn [f_saveidx f_state]. repeat (split; [solve [auto]|]).
      destruct TI as [TI|TI]; [left; apply Forall_app; split; [exact TI|constructor; [exact IY|constructor]]|right; auto]. }
  assert (KY : kl (cls (P ++ m ++ [y])) = wb y :: kl (cls (P ++ m))) by (rewrite CP; apply kl_cons_snoc; exact IY).
  destruct (WB_eqb (wb z) WB_ZWJ && WB_eqb (wb y) WB_GlueAfterZwj) eqn:Z1.
  { apply andb_true_iff in Z1. destruct Z1 as [Z1 Z2]. apply WB_eqb_true in Z1, Z2.
    apply (IH P (m ++ [y]) m y); auto.
    - exact I.
    - rewrite CP, fresh_snoc, Z2. reflexivity.
    - destruct HP as [GD|(m0 & q & tl & E1 & N0 & E2 & NQ & IQ & F0 & SK & TI)].
      + left. rewrite KY, Z2. cbn [f_state]. left. split; [reflexivity|]. pose proof GD as GD2.
        apply fair_shape in GD2 as [S1 S2]. split; [exact S1|]. split.
        * intros r E. destruct GD as [(_ & _ & H & _)|GD]; [exact (H r E)|]. rewrite E in GD.
          apply (T (P ++ m') z y rest); [rewrite ET, EM, <- !app_assoc; reflexivity|exact Z1|exact Z2|]. rewrite <- app_assoc, <- EM.
          change (firstn 1 (kl (cls (P ++ m))) = [WB_RegionalIndicator]).
          destruct (kl (cls (P ++ m))) as [|k K]; [destruct r; try contradiction; destruct GD as [GD _]; discriminate GD|].
          destruct r; try contradiction; destruct GD as [GD _]; injection GD as ->; reflexivity.
        * exact (fair_form _ _ _ GD).
      + right. exists m0, q, (tl ++ [y]). cbn [f_saveidx f_state]. repeat (split; [solve [auto]|]). right. apply KEEPB.
        destruct TI as [TI|TI]; [|exact TI]. apply BACK; auto. pose proof (seeks_break _ _ _ (wb y) (wb4 (Some (wb y)) (cls rest)) None SK IY) as ST.
        pose proof (seeks_requires _ _ _ SK) as RQ. rewrite Z2 in ST |- *.
        destruct (f_state v) as [| | | | | |[]|[]| |]; try discriminate RQ; exact ST. }
  destruct (WB_eqb (wb z) WB_ZWJ && WB_eqb (wb y) WB_EBaseGAZ) eqn:Z3.
  { apply andb_true_iff in Z3. destruct Z3 as [Z3 Z2]. apply WB_eqb_true in Z3, Z2.
    apply (IH P (m ++ [y]) m y); auto.
    - exact I.
    - rewrite CP, fresh_snoc, Z2. reflexivity.
    - left. rewrite KY, Z2. right. reflexivity. }
  (* the position before y is decided by the later rules *)
  assert (BE : word_boundary (P ++ m) (y :: rest) = if nl (wb y) then true else free (kl (cls (P ++ m))) (wb y :: kr (cls rest))).
  { rewrite wbd. cbn [cls map]. rewrite bnd_eq by exact FR. rewrite LZ, IY. cbn [any is_in existsb].
    destruct (nl (wb y)); [reflexivity|]. rewrite !orb_false_r.
    destruct (WB_eqb (wb z) WB_ZWJ); [|reflexivity]. cbn [andb] in *. rewrite Z1, Z3. reflexivity. }
  destruct HP as [GD|(m0 & q & tl & E1 & N0 & E2 & NQ & IQ & F0 & SK & TI)].
  - assert (GD' : fair (f_state v) (kl (cls (P ++ m))) (wb y :: wb4 (Some (wb y)) (cls rest))).
    { cbn [cls map] in GD. unfold kr in GD. rewrite wb4_cons in GD by exact IY. exact GD. }
    match goal with |- context [fwd_match (f_state v) (wb y) ?n] => pose proof (fair_step _ _ _ _ n GD' IY) as ST; destruct (fwd_match (f_state v) (wb y) n) as [s|s|c|[|inc] [] tk|] eqn:FM end; try contradiction.
    + destruct ST as (N & G). rewrite wb4_kr in G by exact N.
      apply (IH P (m ++ [y]) m y); auto; [exact I|rewrite CP, fresh_snoc; exact N|]. left. rewrite KY. exact G.
    + destruct ST as (N & SK).
      apply (IH P (m ++ [y]) m y); auto; [exact I|rewrite CP, fresh_snoc; exact N|].
      right. exists m, y, []. cbn [app f_state f_saveidx]. repeat (split; [solve [auto]|]). split; [rewrite EM; apply app_ne|]. repeat (split; [solve [auto]|]). left. constructor.
    + eexists. exists m, (y :: rest), (if tk then Some (wb y) else None). split; [reflexivity|].
      split; [symmetry; exact ES|]. split.
      * unfold fwd_end. erewrite fair_no_rewind by exact GD. cbn. rewrite Nat.add_0_r. reflexivity.
      * rewrite BE. destruct (nl (wb y)) eqn:N; [reflexivity|]. rewrite wb4_kr in ST by exact N. destruct ST as [ST|ST]; [discriminate|exact ST].
  - match goal with |- context [fwd_match (f_state v) (wb y) ?n] => pose proof (seeks_break _ _ _ _ (wb4 (Some (wb y)) (cls rest)) n SK IY) as ST; destruct (fwd_match (f_state v) (wb y) n) as [s|s|c|[|inc] b tk|] eqn:FM end; try contradiction.
    + destruct ST as (N & G). rewrite wb4_kr in G by exact N.
      apply (IH P (m ++ [y]) m y); auto; [exact I|rewrite CP, fresh_snoc; exact N|]. left. rewrite KY. apply G.
    + eexists. exists m0, (q :: tl ++ y :: rest), (if tk then Some (f_savecat v) else None). split; [reflexivity|].
      assert (E7 : m ++ y :: rest = m0 ++ q :: tl ++ y :: rest) by (rewrite E1, <- app_assoc; reflexivity).
      rewrite <- ES, E7.
      split; [reflexivity|]. split.
      * pose proof (seeks_requires _ _ _ SK) as RQ. unfold fwd_end, fwd_rewind. cbn [f_state f_saveidx f_savecat f_take_cat f_self].
        destruct (f_state v) as [| | | | | |[]|[]| |]; try discriminate RQ; cbn; rewrite E2; reflexivity.
      * destruct TI as [TI|TI]; [|exact TI]. apply BACK; auto.
Qed.

(** ** One call *)
Lemma fwd_start_fair P S : S <> [] -> word_boundary P S = true -> no_glued_flag (P ++ S) ->
  next_cut P S (fwd_loop S 0 start_vars).
Proof.
  intros N B T. destruct S as [|y rest]; [contradiction|]. unfold start_vars.
  cbn [fwd_loop f_cat f_self f_state is_start negb andb f_saveidx f_savecat].
  change (WB_eqb WB_Other WB_ZWJ) with false. cbn [andb].
  rewrite wbd in B. cbn [cls map] in B.
  assert (CP : cls (P ++ [y]) = cls P ++ [wb y]) by (rewrite cls_app; reflexivity).
  assert (KY : kl (cls (P ++ [y])) = wb y :: kl (cls P)) by (rewrite CP; apply (start_kept _ _ _ B)).
  set (ncat := match rest with [] => None | n :: _ => Some (wb n) end).
  assert (EN : ncat = hd_error (cls rest)) by (destruct rest; reflexivity). clearbody ncat.
  pose proof (start_step _ _ _ ncat B EN) as ST. cbv zeta in ST. fold (cls rest) in ST.
  assert (EY : clen y = slen [y]) by (cbn; lia).
  destruct (fwd_match WStart (wb y) ncat) as [s|s|c|[|[|inc]] [] []|] eqn:FM; try contradiction.
  - destruct ST as [NY GD]. rewrite wb4_kr in GD by exact NY. cbn [Nat.add]. rewrite EY.
    apply (fwd_loop_fair (P ++ y :: rest) T rest P [y] [] y); auto.
    + exact I.
    + rewrite CP, fresh_snoc. exact NY.
    + left. rewrite KY. apply good_fair; [exact GD|]. right. cbn [hd_error]. intros E. injection E as E. rewrite E in FM. cbn [fwd_match] in FM.
      destruct ncat as [n|]; [destruct (extend_format_zwj n)|]; discriminate FM.
  - destruct ST as (NY & E & _ & F). rewrite wb4_kr in F by exact NY. cbn [Nat.add]. rewrite EY.
    apply (fwd_loop_fair (P ++ y :: rest) T rest P [y] [] y); auto.
    + cbn [f_self cache_ok]. destruct rest as [|n rest]; [exact I|]. rewrite EN in E. cbn in E. injection E as <-. reflexivity.
    + rewrite CP, fresh_snoc. exact NY.
    + left. rewrite KY. right. cbn [f_state]. split; [discriminate|exact F].
  - eexists. exists [y], rest, None. split; [reflexivity|]. split; [reflexivity|]. split.
    + unfold fwd_end, fwd_rewind. cbn [f_state f_take_curr f_idx Nat.add split_at]. rewrite EY. reflexivity.
    + rewrite wbd, CP. destruct ST as [[NY C]|(NY & F & NZ & IG)].
      * apply bnd_after_nl; [exact NY|]. rewrite <- EN. exact C.
      * destruct rest as [|n rest]; [apply bnd_end|]. cbn [cls map]. fold (cls rest).
        rewrite bnd_eq by (rewrite fresh_snoc; exact NY). specialize (IG (wb n) EN). rewrite IG.
        rewrite lastc_snoc. cbn [any is_in existsb]. destruct (nl (wb n)) eqn:NN; [reflexivity|].
        replace (WB_eqb (wb y) WB_ZWJ) with false.
        2: { destruct (WB_eqb (wb y) WB_ZWJ) eqn:E; [|reflexivity]. apply WB_eqb_true in E. contradiction. }
        cbn [orb andb]. rewrite <- CP, KY.
        rewrite wb4_kr in F by exact NY. unfold kr in F. cbn [cls map] in F. rewrite wb4_cons in F by exact IG.
        rewrite wb4_kr in F by exact NN. exact F.
  - destruct ST as [EY1 EN1]. rewrite EN1 in EN. destruct rest as [|n rest]; [discriminate EN|]. cbn in EN. injection EN as EN.
    eexists. exists [y; n], rest, None. split; [reflexivity|]. split; [reflexivity|]. split.
    + unfold fwd_end, fwd_rewind. cbn [f_state f_take_curr f_idx Nat.add].
      replace 1 with (slen [y]) at 1 by (cbn; rewrite (cr_clen y EY1); reflexivity).
      change (y :: n :: rest) with ([y] ++ n :: rest). rewrite split_at_app. f_equal. f_equal. cbn. rewrite (cr_clen y EY1). lia.
    + rewrite wbd. change [y; n] with ([y] ++ [n]). rewrite app_assoc, cls_app. cbn [cls map]. rewrite <- EN.
      apply bnd_after_nl; [reflexivity|discriminate].
Qed.

Lemma first_piece_boundary P p r : first_piece (p ++ r) p -> word_boundary P (p ++ r) = true -> no_glued_flag (P ++ p ++ r) ->
  word_boundary (P ++ p) r = true.
Proof.
  intros F B T. assert (NE : p ++ r <> []) by (destruct F as (_ & _ & _ & _ & N & _); destruct p; [contradiction|discriminate]).
  destruct (fwd_start_fair P (p ++ r) NE B T) as (v' & piece & rst & k & E1 & E2 & E3 & E4).
  assert (F2 : first_piece (p ++ r) piece -> word_boundary (P ++ p) r = true).
  { intros F2. pose proof (first_unique _ _ _ F F2) as E. subst piece. apply app_inv_head in E2. subst rst. exact E4. }
  apply F2. exists rst, v', k. split; [exact E2|]. split; [|auto].
  intros ->. destruct F as (r0 & v & k0 & _ & N & H1 & H2). rewrite H1 in E1. injection E1 as <-. rewrite H2 in E3. injection E3 as E3 _.
  cbn in E3. pose proof (slen_pos p N). lia.
Qed.
Lemma fpieces_boundary ps : forall P s qs, fpieces s (ps ++ qs) -> word_boundary P s = true -> no_glued_flag (P ++ s) ->
  word_boundary (P ++ concat ps) (concat qs) = true.
Proof.
  induction ps as [|p ps IH]; intros P s qs F B T.
  - cbn [concat app] in *. rewrite app_nil_r. rewrite (fpieces_concat _ _ F). exact B.
  - cbn [app] in F. inversion F as [|? r ? F1 F2]; subst. cbn [concat]. rewrite app_assoc. apply IH with (s := r).
    + exact F2.
    + apply first_piece_boundary; assumption.
    + rewrite <- app_assoc. exact T.
Qed.
Lemma word_cuts s ps qs : no_glued_flag s -> word_bound_indices s = Ret (Some (indexed 0 (ps ++ qs))) -> word_boundary (concat ps) (concat qs) = true.
Proof. intros T H. apply words_iff in H. exact (fpieces_boundary ps [] s qs H eq_refl T). Qed.

(** The forward word iterator against the rules. *)
From Coq Require Import List NArith Lia Bool Arith.
Import ListNotations.
From Verif Require Import Base Enums TableTypes UcdModel BidiModel BidiLemmas GraphSpec SegLemmas WordModel WordSpec WordTables WordRules.
Open Scope nat_scope.
Local Opaque word_break wb.

Definition cls (t : str) : list WB := map wb t.

(** ** One step of the state machine *)

(** the state describes what is before the position *)
Definition good (st : wstate) (K R : list WB) : Prop :=
  (hd_error K = Some WB_GlueAfterZwj /\ any JoinClasses (hd_error R) = false /\ st <> WStart /\ st <> WRegional RUnknown /\
     (st = WFormatExtend AcceptNone \/ st = WFormatExtend AcceptQLetter \/ forall t, st <> WFormatExtend t)) \/
  match st with
  | WLetter => hd_error K = Some WB_ALetter
  | WHLetter => hd_error K = Some WB_HebrewLetter
  | WNumeric => hd_error K = Some WB_Numeric
  | WKatakana => hd_error K = Some WB_Katakana
  | WExtendNumLet => hd_error K = Some WB_ExtendNumLet
  | WRegional RHalf => hd_error K = Some WB_RegionalIndicator /\ Nat.odd (ri_count K) = true
  | WRegional RFull => hd_error K = Some WB_RegionalIndicator /\ Nat.odd (ri_count K) = false
  | WEmoji => any [WB_EBase; WB_EBaseGAZ; WB_EModifier] (hd_error K) = true
  | WZwj => hd_error K = Some WB_ZWJ
  | WFormatExtend AcceptNone => K <> [] /\ free K R = true
  | WFormatExtend AcceptQLetter => exists t, K = WB_SingleQuote :: WB_HebrewLetter :: t
  | _ => False
  end.

(** looking for a letter or digit after [q] *)
Definition seeking (st : wstate) (q : WB) (K : list WB) : Prop :=
  match st with
  | WFormatExtend RequireLetter => any AHLetter (hd_error K) = true /\ is_in (WB_MidLetter :: MidNumLetQ) q = true /\
      (q = WB_SingleQuote -> hd_error K <> Some WB_HebrewLetter)
  | WFormatExtend RequireHLetter => hd_error K = Some WB_HebrewLetter /\ q = WB_DoubleQuote
  | WFormatExtend RequireNumeric => hd_error K = Some WB_Numeric /\ is_in (WB_MidNum :: MidNumLetQ) q = true
  | _ => False
  end.

Ltac dec_free := unfold free, free_dec; cbn; rewrite ?andb_false_r, ?orb_true_r; cbn; try reflexivity.

Lemma good_step st K g R ncat : good st K (g :: R) -> ig g = false ->
  (g = WB_EModifier -> hd_error K <> Some WB_EModifier) ->
  match fwd_match st g ncat with
  | FNext s => nl g = false /\ free K (g :: R) = false /\ good s (g :: K) R
  | FSave s => nl g = false /\ seeking s g K
  | FBreak 0 false _ => nl g = true \/ free K (g :: R) = true
  | _ => False
  end.
Proof.
  intros [(H1 & H2 & H3 & H4 & H5)|H] I EMD.
  - destruct K as [|k K]; [discriminate|]. cbn in H1. injection H1 as ->.
    assert (F : free (WB_GlueAfterZwj :: K) (g :: R) = true) by (apply free_left; reflexivity).
    assert (E : exists tk, fwd_match st g ncat = FBreak 0 false tk).
    { cbn [hd_error any] in H2. destruct st as [| | | | | |[]|[]| |]; try easy; destruct g; try discriminate;
        try (eexists; reflexivity); exfalso; destruct H5 as [H5|[H5|H5]]; try discriminate; eapply H5; reflexivity. }
    destruct E as [tk ->]. cbv iota. right. exact F.
  - destruct st as [| | | | | |[]|[]| |]; cbn [good] in H; try easy.
    + destruct K as [|k K]; [discriminate|]. cbn in H. injection H as ->.
      destruct g; try discriminate; cbn [fwd_match]; unfold good, seeking;
        repeat split; try (right; reflexivity); try discriminate; try (right; dec_free; fail); try (dec_free; fail); left; reflexivity.
    + destruct K as [|k K]; [discriminate|]. cbn in H. injection H as ->.
      destruct g; try discriminate; cbn [fwd_match]; unfold good, seeking;
        repeat split; try (right; reflexivity); try discriminate; try (right; dec_free; fail); try (dec_free; fail); try (left; reflexivity).
      right. eexists. reflexivity.
    + destruct K as [|k K]; [discriminate|]. cbn in H. injection H as ->.
      destruct g; try discriminate; cbn [fwd_match]; unfold good, seeking;
        repeat split; try (right; reflexivity); try discriminate; try (right; dec_free; fail); try (dec_free; fail); left; reflexivity.
    + destruct K as [|k K]; [discriminate|]. cbn in H. injection H as ->.
      destruct g; try discriminate; cbn [fwd_match]; unfold good, seeking;
        repeat split; try (right; reflexivity); try discriminate; try (right; dec_free; fail); try (dec_free; fail); left; reflexivity.
    + destruct K as [|k K]; [discriminate|]. cbn in H. injection H as ->.
      destruct g; try discriminate; cbn [fwd_match]; unfold good, seeking;
        repeat split; try (right; reflexivity); try discriminate; try (right; dec_free; fail); try (dec_free; fail); left; reflexivity.
    + destruct H as [H O]. destruct K as [|k K]; [discriminate|]. cbn [hd_error] in H. injection H as ->.
      assert (FR : forall r, free (WB_RegionalIndicator :: K) (WB_RegionalIndicator :: r) = false).
      { intros r. unfold free, free_dec. rewrite O. cbn. rewrite ?andb_false_r. reflexivity. }
      assert (FO : forall r, g <> WB_RegionalIndicator -> free (WB_RegionalIndicator :: K) (g :: r) = true).
      { intros r N. unfold free, free_dec. rewrite O. destruct g; try easy; cbn; rewrite ?andb_false_r; reflexivity. }
      destruct g; try discriminate; cbn [fwd_match]; try (left; reflexivity); try (right; apply FO; discriminate).
      split; [reflexivity|]. split; [apply FR|]. right. split; [reflexivity|].
      change (ri_count (WB_RegionalIndicator :: WB_RegionalIndicator :: K)) with (S (ri_count (WB_RegionalIndicator :: K))).
      rewrite Nat.odd_succ, <- Nat.negb_odd, O. reflexivity.
    + destruct H as [H O]. destruct K as [|k K]; [discriminate|]. cbn [hd_error] in H. injection H as ->.
      cbn [fwd_match]. right. unfold free, free_dec. rewrite O. cbn [andb]. destruct g; try discriminate; cbn; rewrite ?andb_false_r; reflexivity.
    + right. apply H.
    + destruct H as [t ->].
      destruct g; try discriminate; cbn [fwd_match]; unfold good, seeking;
        repeat split; try (right; reflexivity); try discriminate; try (right; dec_free; fail); try (dec_free; fail); left; reflexivity.
    + destruct K as [|k K]; [discriminate|]. cbn in H. injection H as ->.
      cbn [fwd_match]. right. apply free_left. reflexivity.
    + destruct K as [|k K]; [discriminate|]. cbn [hd_error any] in H, EMD. destruct k; try discriminate;
      destruct g; try discriminate; cbn [fwd_match]; unfold good, seeking;
        repeat split; try (right; reflexivity); try discriminate; try (right; dec_free; fail); try (dec_free; fail); try (left; reflexivity).
      all: exfalso; apply EMD; reflexivity.
Qed.

Lemma seeking_step st q K g R ncat : seeking st q K -> ig g = false ->
  match fwd_match st g ncat with
  | FNext s => nl g = false /\ free (q :: K) (g :: R) = false /\ free K (q :: g :: R) = false /\ good s (g :: q :: K) R
  | FBreak 0 _ _ => free K (q :: g :: R) = true
  | _ => False
  end.
Proof.
  intros H I. destruct st as [| | | | | |[]|[]| |]; try easy; cbn [seeking] in H.
  - destruct H as (H1 & H2 & H3). destruct K as [|k K]; [discriminate|]. cbn [hd_error any] in *.
    destruct k; try discriminate; destruct q; try discriminate; try (exfalso; apply H3; reflexivity);
    destruct g; try discriminate; cbn [fwd_match]; unfold good;
        repeat split; try (right; reflexivity); try discriminate; dec_free.
  - destruct H as (H1 & ->). destruct K as [|k K]; [discriminate|]. injection H1 as ->.
    destruct g; try discriminate; cbn [fwd_match]; unfold good;
        repeat split; try (right; reflexivity); try discriminate; dec_free.
  - destruct H as (H1 & H2). destruct K as [|k K]; [discriminate|]. injection H1 as ->.
    destruct q; try discriminate;
    destruct g; try discriminate; cbn [fwd_match]; unfold good;
        repeat split; try (right; reflexivity); try discriminate; dec_free.
Qed.
Lemma seeking_end st q K : seeking st q K -> free K [q] = true.
Proof.
  intros H. destruct st as [| | | | | |[]|[]| |]; try easy; cbn [seeking] in H.
  - destruct H as (H1 & H2 & H3). destruct K as [|k K]; [discriminate|]. cbn [hd_error any] in *.
    destruct k; try discriminate; destruct q; try discriminate; try (exfalso; apply H3; reflexivity); dec_free.
  - destruct H as (H1 & ->). destruct K as [|k K]; [discriminate|]. injection H1 as ->. dec_free.
  - destruct H as (H1 & H2). destruct K as [|k K]; [discriminate|]. injection H1 as ->.
    destruct q; try discriminate; dec_free.
Qed.

Lemma good_shape st K R : good st K R -> st <> WStart /\ st <> WRegional RUnknown /\
  (st = WFormatExtend AcceptNone \/ st = WFormatExtend AcceptQLetter \/ forall t, st <> WFormatExtend t).
Proof.
  intros [(_ & _ & H)|H]; [exact H|].
  destruct st as [| | | | | |[]|[]| |]; try easy; repeat split; try discriminate; try (left; reflexivity); try (right; left; reflexivity);
    right; right; discriminate.
Qed.
Lemma good_stale st K R R' : good st K R -> any JoinClasses (hd_error R') = false -> good st (WB_GlueAfterZwj :: K) R'.
Proof. intros H J. left. split; [reflexivity|]. split; [exact J|]. apply (good_shape _ _ _ H). Qed.
Lemma good_no_rewind v K R : good (f_state v) K R -> fwd_rewind v = v.
Proof.
  intros H. destruct (good_shape _ _ _ H) as (_ & _ & H3). unfold fwd_rewind.
  destruct (f_state v) as [| | | | | |[]|[]| |]; try reflexivity;
    destruct H3 as [H3|[H3|H3]]; try discriminate; exfalso; eapply H3; reflexivity.
Qed.

Lemma inert g t R : is_in [WB_Other; WB_Extend; WB_Format; WB_EModifier; WB_GlueAfterZwj; WB_SingleQuote; WB_DoubleQuote;
                           WB_MidLetter; WB_MidNumLet; WB_MidNum] g = true ->
  free t (g :: R) = true -> free (g :: t) R = true.
Proof.
  intros H F. destruct R as [|r R]; [unfold free, free_dec; cbn [hd_error any]; rewrite ?andb_false_r; reflexivity|].
  destruct (left_joins g) eqn:LJ; [|apply free_left; exact LJ].
  unfold free, free_dec in *. cbn [hd_error tl] in *.
  destruct t as [|x t]; cbn [hd_error tl any] in *.
  - destruct g; try discriminate; cbn; rewrite ?andb_false_r; reflexivity.
  - destruct g; try discriminate; clear LJ H; destruct x; cbn in F |- *; rewrite ?andb_false_r in *; try reflexivity;
      destruct r; cbn in F |- *; rewrite ?andb_false_r, ?orb_true_r in F; cbn in F; try reflexivity; discriminate.
Qed.

Lemma start_step P g rest ncat : bnd P (g :: rest) = true -> ncat = hd_error rest ->
  let t := kl P in let R := wb4 (Some g) rest in
  match fwd_match WStart g ncat with
  | FNext s => nl g = false /\ good s (g :: t) R
  | FSkip c => nl g = false /\ ncat = Some c /\ ig c = true /\ free (g :: t) R = true
  | FBreak 1 true true => g = WB_CR /\ ncat = Some WB_LF
  | FBreak 0 true true =>
      (nl g = true /\ (g = WB_CR -> ncat <> Some WB_LF)) \/
      (nl g = false /\ free (g :: t) R = true /\ g <> WB_ZWJ /\ (forall c, ncat = Some c -> ig c = false))
  | _ => False
  end.
Proof.
  intros B EN t R. pose proof (start_free _ _ _ B) as F. fold t in F. fold R in F.
  assert (X : is_in [WB_Other; WB_Extend; WB_Format; WB_EModifier; WB_GlueAfterZwj; WB_SingleQuote; WB_DoubleQuote;
                           WB_MidLetter; WB_MidNumLet; WB_MidNum] g = true ->
    match (match ncat with Some n => if extend_format_zwj n then FSkip n else FBreak 0 true true | None => FBreak 0 true true end) with
    | FSkip c => nl g = false /\ ncat = Some c /\ ig c = true /\ free (g :: t) R = true
    | FBreak 0 true true => (nl g = false /\ free (g :: t) R = true /\ g <> WB_ZWJ /\ (forall c, ncat = Some c -> ig c = false))
    | _ => False end).
  { intros H. pose proof (inert _ _ _ H F) as F2.
    assert (N : nl g = false) by (destruct g; try reflexivity; discriminate).
    assert (Z : g <> WB_ZWJ) by (destruct g; try discriminate).
    destruct ncat as [n|].
    - destruct (extend_format_zwj n) eqn:E.
      + rewrite <- ig_spec in E. auto.
      + repeat split; auto. intros c Hc. injection Hc as <-. rewrite ig_spec. exact E.
    - repeat split; auto. discriminate. }
  destruct g; cbn [fwd_match];
    try (specialize (X eq_refl); destruct ncat as [n|]; [destruct (extend_format_zwj n)|]; cbv iota in X |- *; [exact X|right; exact X|right; exact X]);
    clear X; try (split; [reflexivity|]; right; reflexivity).
  - destruct ncat as [[]|]; try (left; split; [reflexivity|]; intros _; discriminate). split; reflexivity.
  - left. split; [reflexivity|]. discriminate.
  - left. split; [reflexivity|]. discriminate.
  - split; [reflexivity|]. right. split; [reflexivity|].
    change (ri_count (WB_RegionalIndicator :: t)) with (S (ri_count t)). rewrite Nat.odd_succ, <- Nat.negb_odd.
    destruct (Nat.odd (ri_count t)) eqn:O; [|reflexivity]. exfalso.
    unfold free, free_dec in F. rewrite O in F. cbn in F. rewrite ?orb_true_r in F. discriminate.
Qed.

Lemma seeking_mid st q K : seeking st q K -> is_in MidClasses q = true /\ is_in [WB_GlueAfterZwj; WB_EBaseGAZ] q = false.
Proof.
  intros H. destruct st as [| | | | | |[]|[]| |]; cbn [seeking] in H; try contradiction;
    [destruct H as (_ & H & _)|destruct H as (_ & ->); split; reflexivity|destruct H as (_ & H)]; destruct q; try discriminate H; split; reflexivity.
Qed.

Lemma WB_eqb_true a b : WB_eqb a b = true -> a = b.
Proof. destruct a, b; intros H; try discriminate H; reflexivity. Qed.
Lemma glue_nl g : is_in [WB_GlueAfterZwj; WB_EBaseGAZ] g = true -> nl g = false.
Proof. destruct g; intros H; try discriminate H; reflexivity. Qed.
Lemma app_ne {A} (l : list A) x : l ++ [x] <> [].
Proof. destruct l; discriminate. Qed.

(** ** The loop *)
(** the class kept for the next call is that of the next character *)
Definition cache_ok (rst : str) (cache : option WB) : Prop :=
  match cache, rst with Some g, c :: _ => g = wb c | _, _ => True end.
Definition inside (P m rest : str) : Prop :=
  forall a b, m = a ++ b -> a <> [] -> b <> [] -> word_boundary (P ++ a) (b ++ rest) = false.
Definition ign (c : N) : Prop := ig (wb c) = true.

Lemma cls_app a b : cls (a ++ b) = cls a ++ cls b.
Proof. apply map_app. Qed.
Lemma wbd pre post : word_boundary pre post = bnd (cls pre) (cls post).
Proof. reflexivity. Qed.
Lemma wbd_end pre : word_boundary pre [] = true.
Proof. rewrite wbd. apply bnd_end. Qed.

Lemma inside_snoc P m y rest : inside P m (y :: rest) -> (m <> [] -> word_boundary (P ++ m) (y :: rest) = false) -> inside P (m ++ [y]) rest.
Proof.
  intros H B a b E Na Nb. destruct (snoc_inv b Nb) as (b' & x & ->). rewrite app_assoc in E.
  apply app_inj_tail in E. destruct E as [E <-]. rewrite <- app_assoc. cbn [app].
  destruct b' as [|b0 b']; [rewrite app_nil_r in E; subst a; apply B; exact Na|].
  apply H; [exact E|exact Na|discriminate].
Qed.

Lemma igs_cls t : Forall ign t -> Forall (fun g => ig g = true) (cls t).
Proof. intros H. induction H; constructor; auto. Qed.

Definition next_piece (P S : str) (r : outcome fvars) : Prop :=
  exists v' piece rst cache, r = Ret v' /\ S = piece ++ rst /\ fwd_end S v' = Ret (slen piece, cache) /\
    cache_ok rst cache /\ next_bound word_boundary P S piece rst.

Lemma fwd_loop_at text : no_double_modifier text -> glue_alone text -> forall rest P m m' z v,
  text = P ++ m ++ rest -> m = m' ++ [z] -> f_cat v = wb z -> f_idx v = slen m' -> f_take_curr v = true ->
  cache_ok rest (f_self v) -> fresh (cls (P ++ m)) = false ->
  ((inside P m rest /\ good (f_state v) (kl (cls (P ++ m))) (kr (cls rest))) \/
   (exists m0 q tl, m = m0 ++ q :: tl /\ m0 <> [] /\ f_saveidx v = slen m0 /\ f_savecat v = wb q /\ Forall ign tl /\
      nl (wb q) = false /\ ig (wb q) = false /\ fresh (cls (P ++ m0)) = false /\ inside P m0 (q :: tl ++ rest) /\
      seeking (f_state v) (wb q) (kl (cls (P ++ m0))))) ->
  next_piece P (m ++ rest) (fwd_loop rest (slen m) v).
Proof.
  intros T1 T2. induction rest as [|y rest IH]; intros P m m' z v ET EM HC HI HT HS FR HP.
  { rewrite app_nil_r in *. destruct HP as [[IN GD]|(m0 & q & tl & E1 & N0 & E2 & E3 & TI & NQ & IQ & F0 & IN & SK)].
    - exists v, m, [], None. split; [reflexivity|]. split; [rewrite app_nil_r; reflexivity|]. split; [|split; [exact I|]].
      + unfold fwd_end. rewrite (good_no_rewind _ _ _ GD), HT, HI, EM, split_at_app, slen_app. cbn. rewrite Nat.add_0_r. reflexivity.
      + split; [rewrite app_nil_r; reflexivity|]. split; [rewrite EM; apply app_ne|].
        split; [apply wbd_end|]. exact IN.
    - exists v, m0, (q :: tl), (if f_take_cat v then Some (wb q) else None).
      split; [reflexivity|]. split; [exact E1|]. split; [|split; [destruct (f_take_cat v); reflexivity || exact I|]].
      + unfold fwd_end, fwd_rewind. destruct (f_state v) as [| | | | | |[]|[]| |]; cbn [seeking] in SK; try contradiction; cbn; rewrite E2, E3; reflexivity.
      + split; [exact E1|]. split; [exact N0|]. split.
        * rewrite wbd. cbn [cls map]. rewrite bnd_eq by exact F0. rewrite NQ, IQ.
          replace (is_in [WB_GlueAfterZwj; WB_EBaseGAZ] (wb q)) with false.
          2: symmetry; apply (seeking_mid _ _ _ SK).
          rewrite andb_false_r. fold (cls tl).
          pose proof (kr_igs (cls tl) [] (igs_cls _ TI)) as KK. rewrite app_nil_r in KK. rewrite KK. apply (seeking_end _ _ _ SK).
        * intros a b H Na Nb. specialize (IN a b H Na Nb). rewrite app_nil_r in IN. exact IN. }
  assert (SNE : is_start (f_state v) = false).
  { destruct HP as [[_ GD]|(? & ? & ? & _ & _ & _ & _ & _ & _ & _ & _ & _ & SK)].
    - destruct (good_shape _ _ _ GD) as (H & _). destruct (f_state v); try reflexivity. exfalso. apply H. reflexivity.
    - destruct (f_state v); try reflexivity. exfalso. exact SK. }
  cbn [fwd_loop]. rewrite HC.
  assert (EC : match f_self v with Some c => c | None => wb y end = wb y).
  { destruct (f_self v); [exact HS|reflexivity]. }
  rewrite EC, SNE. cbn [negb andb]. clear EC.
  assert (EMY : slen m + clen y = slen (m ++ [y])) by (rewrite slen_app; cbn; lia). rewrite EMY.
  assert (ES : m ++ y :: rest = (m ++ [y]) ++ rest) by (rewrite <- app_assoc; reflexivity). rewrite ES.
  assert (ET2 : text = P ++ (m ++ [y]) ++ rest) by (rewrite ET, ES; reflexivity).
  assert (LZ : lastc (cls (P ++ m)) = Some (wb z)).
  { rewrite EM, app_assoc, cls_app. apply lastc_snoc. }
  assert (CP : cls (P ++ m ++ [y]) = cls (P ++ m) ++ [wb y]) by (rewrite app_assoc, cls_app; reflexivity).
  rewrite <- ig_spec.
  destruct (ig (wb y)) eqn:IY.
  { (* WB4 *)
    assert (FB : forall r, word_boundary (P ++ m) (y :: r) = false).
    { intros r. rewrite wbd. cbn [cls map]. rewrite bnd_eq by exact FR. rewrite (ig_nl _ IY), IY. destruct (_ && _); reflexivity. }
    assert (FR2 : fresh (cls (P ++ m ++ [y])) = false) by (rewrite CP, fresh_snoc; apply ig_nl; exact IY).
    apply (IH P (m ++ [y]) m y); auto; [exact I|].
    destruct HP as [[IN GD]|(m0 & q & tl & E1 & N0 & E2 & E3 & TI & NQ & IQ & F0 & IN & SK)].
    - left. split; [apply inside_snoc; auto|]. cbn [f_state]. rewrite CP, kl_ig by auto.
      cbn [cls map] in GD. rewrite kr_ig in GD by exact IY. exact GD.
    - right. exists m0, q, (tl ++ [y]). cbn [f_saveidx f_savecat f_state].
      split; [rewrite E1, <- app_assoc; reflexivity|]. split; [exact N0|]. split; [exact E2|]. split; [exact E3|].
      split; [apply Forall_app; split; [exact TI|constructor; [exact IY|constructor]]|].
      split; [exact NQ|]. split; [exact IQ|]. split; [exact F0|]. split; [rewrite <- app_assoc; exact IN|exact SK]. }
  assert (KY : kl (cls (P ++ m ++ [y])) = wb y :: kl (cls (P ++ m))) by (rewrite CP; apply kl_cons_snoc; exact IY).
  (* what the conditions on the text say here *)
  assert (C1 : wb y = WB_EModifier -> hd_error (kl (cls (P ++ m))) <> Some WB_EModifier).
  { intros H E. apply (T1 (P ++ m) y rest); [rewrite ET, <- app_assoc; reflexivity|exact H|].
    change (firstn 1 (kl (cls (P ++ m))) = [WB_EModifier]). destruct (kl (cls (P ++ m))); [discriminate|]. cbn [hd_error] in E. injection E as ->. reflexivity. }
  assert (C2 : wb z = WB_ZWJ -> is_in [WB_GlueAfterZwj; WB_EBaseGAZ] (wb y) = true ->
     any MidClasses (hd_error (kl (cls (P ++ m)))) = false /\
     (wb y = WB_GlueAfterZwj -> any JoinClasses (hd_error (kr (cls rest))) = false)).
  { intros Hz Hy. destruct (T2 (P ++ m') z y rest) as [H1 H2]; auto.
    { rewrite ET, EM, <- !app_assoc. reflexivity. }
    split.
    - rewrite <- app_assoc, <- EM in H1. change (first_in MidClasses (firstn 1 (kl (cls (P ++ m)))) = false) in H1.
      destruct (kl (cls (P ++ m))); [reflexivity|]. exact H1.
    - intros E. specialize (H2 E). change (first_in JoinClasses (firstn 1 (wb4 (Some (wb y)) (cls rest))) = false) in H2. rewrite E in H2.
      rewrite wb4_kr in H2 by reflexivity. destruct (kr (cls rest)); [reflexivity|]. exact H2. }
  assert (NM : wb z = WB_ZWJ -> is_in [WB_GlueAfterZwj; WB_EBaseGAZ] (wb y) = true ->
     inside P m (y :: rest) /\ good (f_state v) (kl (cls (P ++ m))) (kr (cls (y :: rest)))).
  { intros Hz Hy. destruct HP as [HP|(m0 & q & tl & E1 & N0 & E2 & E3 & TI & NQ & IQ & F0 & IN & SK)]; [exact HP|]. exfalso.
    destruct (C2 Hz Hy) as [H _].
    assert (EK : kl (cls (P ++ m)) = wb q :: kl (cls (P ++ m0))).
    { assert (E5 : P ++ m = ((P ++ m0) ++ [q]) ++ tl) by (rewrite E1, <- !app_assoc; reflexivity).
      rewrite E5, cls_app. destruct (kl_igs (cls tl) (cls ((P ++ m0) ++ [q])) (igs_cls _ TI)) as [K1 _].
      - rewrite cls_app. cbn [cls map]. rewrite fresh_snoc. exact NQ.
      - rewrite K1, cls_app. cbn [cls map]. apply kl_cons_snoc. exact IQ. }
    rewrite EK in H. cbn [hd_error any] in H.
    rewrite (proj1 (seeking_mid _ _ _ SK)) in H. discriminate H. }
  assert (FBZ : wb z = WB_ZWJ -> is_in [WB_GlueAfterZwj; WB_EBaseGAZ] (wb y) = true -> word_boundary (P ++ m) (y :: rest) = false).
  { intros Hz Hy. rewrite wbd. cbn [cls map]. rewrite bnd_eq by exact FR. rewrite LZ, Hz, Hy.
    rewrite (glue_nl _ Hy). reflexivity. }
  destruct (WB_eqb (wb z) WB_ZWJ && WB_eqb (wb y) WB_GlueAfterZwj) eqn:Z1.
  { apply andb_true_iff in Z1. destruct Z1 as [Z1 Z2]. apply WB_eqb_true in Z1, Z2.
    assert (IY2 : is_in [WB_GlueAfterZwj; WB_EBaseGAZ] (wb y) = true) by (rewrite Z2; reflexivity).
    destruct (NM Z1 IY2) as [IN GD]. destruct (C2 Z1 IY2) as [_ J].
    apply (IH P (m ++ [y]) m y); auto.
    - exact I.
    - rewrite CP, fresh_snoc, Z2. reflexivity.
    - left. split; [apply inside_snoc; auto|]. rewrite KY, Z2. eapply good_stale; [exact GD|apply J; exact Z2]. }
  destruct (WB_eqb (wb z) WB_ZWJ && WB_eqb (wb y) WB_EBaseGAZ) eqn:Z3.
  { apply andb_true_iff in Z3. destruct Z3 as [Z3 Z2]. apply WB_eqb_true in Z3, Z2.
    assert (IY2 : is_in [WB_GlueAfterZwj; WB_EBaseGAZ] (wb y) = true) by (rewrite Z2; reflexivity).
    destruct (NM Z3 IY2) as [IN GD].
    apply (IH P (m ++ [y]) m y); auto.
    - exact I.
    - rewrite CP, fresh_snoc, Z2. reflexivity.
    - left. split; [apply inside_snoc; auto|]. rewrite KY, Z2. right. reflexivity. }
  clear C2 NM FBZ.
  (* the position before y is decided by the later rules *)
  assert (BE : word_boundary (P ++ m) (y :: rest) = if nl (wb y) then true else free (kl (cls (P ++ m))) (wb y :: kr (cls rest))).
  { rewrite wbd. cbn [cls map]. rewrite bnd_eq by exact FR. rewrite LZ, IY. cbn [any is_in existsb].
    destruct (nl (wb y)); [reflexivity|]. rewrite !orb_false_r.
    destruct (WB_eqb (wb z) WB_ZWJ); [|reflexivity]. cbn [andb] in *. rewrite Z1, Z3. reflexivity. }
  destruct HP as [[IN GD]|(m0 & q & tl & E1 & N0 & E2 & E3 & TI & NQ & IQ & F0 & IN & SK)].
  - assert (GD' : good (f_state v) (kl (cls (P ++ m))) (wb y :: wb4 (Some (wb y)) (cls rest))).
    { cbn [cls map] in GD. unfold kr in GD. rewrite wb4_cons in GD by exact IY. exact GD. }
    match goal with |- context [fwd_match (f_state v) (wb y) ?n] => pose proof (good_step _ _ _ _ n GD' IY C1) as ST; destruct (fwd_match (f_state v) (wb y) n) as [s|s|c|[|inc] [] tk|] eqn:FM end; try contradiction.
    + destruct ST as (N & F & G). rewrite wb4_kr in F, G by exact N. rewrite N in BE. rewrite F in BE.
      apply (IH P (m ++ [y]) m y); auto; [exact I|rewrite CP, fresh_snoc; exact N|].
      left. split; [apply inside_snoc; auto|]. rewrite KY. exact G.
    + destruct ST as (N & SK).
      apply (IH P (m ++ [y]) m y); auto; [exact I|rewrite CP, fresh_snoc; exact N|].
      right. exists m, y, []. cbn [app f_state f_saveidx f_savecat]. repeat split; auto. rewrite EM. apply app_ne.
    + eexists. exists m, (y :: rest), (if tk then Some (wb y) else None). split; [reflexivity|].
      split; [symmetry; exact ES|]. split; [|split; [destruct tk; reflexivity || exact I|]].
      * unfold fwd_end. erewrite good_no_rewind by exact GD. cbn. rewrite Nat.add_0_r. reflexivity.
      * rewrite <- ES. split; [reflexivity|]. split; [rewrite EM; apply app_ne|]. split; [|exact IN].
        rewrite BE. destruct (nl (wb y)) eqn:N; [reflexivity|]. rewrite wb4_kr in ST by exact N. destruct ST as [ST|ST]; [discriminate|exact ST].
  - assert (EKR : kr (cls (tl ++ y :: rest)) = wb y :: wb4 (Some (wb y)) (cls rest)).
    { rewrite cls_app, kr_igs by (apply igs_cls; exact TI). unfold kr. cbn [cls map]. apply wb4_cons. exact IY. }
    assert (GQ : is_in [WB_GlueAfterZwj; WB_EBaseGAZ] (wb q) = false) by apply (seeking_mid _ _ _ SK).
    assert (BQ : word_boundary (P ++ m0) (q :: tl ++ y :: rest) = free (kl (cls (P ++ m0))) (wb q :: wb y :: wb4 (Some (wb y)) (cls rest))).
    { rewrite wbd. cbn [cls map]. rewrite bnd_eq by exact F0. rewrite NQ, IQ, GQ, andb_false_r.
      fold (cls (tl ++ y :: rest)). rewrite EKR. reflexivity. }
    assert (E5 : P ++ m = ((P ++ m0) ++ [q]) ++ tl) by (rewrite E1, <- !app_assoc; reflexivity).
    assert (EK : kl (cls (P ++ m)) = wb q :: kl (cls (P ++ m0))).
    { rewrite E5, cls_app. destruct (kl_igs (cls tl) (cls ((P ++ m0) ++ [q])) (igs_cls _ TI)) as [K1 _].
      - rewrite cls_app. cbn [cls map]. rewrite fresh_snoc. exact NQ.
      - rewrite K1, cls_app. cbn [cls map]. apply kl_cons_snoc. exact IQ. }
    match goal with |- context [fwd_match (f_state v) (wb y) ?n] => pose proof (seeking_step _ _ _ _ (wb4 (Some (wb y)) (cls rest)) n SK IY) as ST; destruct (fwd_match (f_state v) (wb y) n) as [s|s|c|[|inc] b tk|] eqn:FM end; try contradiction.
    + destruct ST as (N & F & F2 & G). rewrite wb4_kr in F, F2, G, BQ by exact N. rewrite N, EK in BE. rewrite F in BE. rewrite F2 in BQ.
      apply (IH P (m ++ [y]) m y); auto; [exact I|rewrite CP, fresh_snoc; exact N|].
      left. split; [|rewrite KY, EK; exact G].
      apply inside_snoc; [|intros _; exact BE].
      intros a b H Na Nb. rewrite E1 in H. destruct (app_split _ _ _ _ H) as [(x & -> & E6)|(x & E6 & ->)].
      * destruct x as [|x0 x].
        { rewrite app_nil_r. cbn [app] in E6. subst b. exact BQ. }
        cbn in E6. injection E6 as <- E6. subst tl. apply Forall_app in TI. destruct TI as [TI1 TI2].
        destruct b as [|b0 b]; [easy|]. inversion TI2 as [|? ? TI3 TI4]; subst.
        rewrite wbd. cbn [cls map app].
        assert (FX : fresh (cls (P ++ m0 ++ q :: x)) = false).
        { destruct (kl_igs (cls x) (cls ((P ++ m0) ++ [q])) (igs_cls _ TI1)) as [_ K2].
          - rewrite cls_app. cbn [cls map]. rewrite fresh_snoc. exact NQ.
          - rewrite <- cls_app in K2. rewrite <- !app_assoc in K2. exact K2. }
        fold (cls (P ++ m0 ++ q :: x)). rewrite bnd_eq by exact FX. unfold ign in TI3. rewrite (ig_nl _ TI3), TI3. match goal with |- (if ?c then _ else _) = _ => destruct c; reflexivity end.
      * destruct x as [|x0 x].
        { cbn [app]. rewrite app_nil_r in E6. subst a. exact BQ. }
        rewrite <- app_assoc. apply IN; [exact E6|exact Na|discriminate].
    + eexists. exists m0, (q :: tl ++ y :: rest), (if tk then Some (wb q) else None). split; [reflexivity|].
      assert (E7 : m ++ y :: rest = m0 ++ q :: tl ++ y :: rest) by (rewrite E1, <- app_assoc; reflexivity).
      rewrite <- ES, E7.
      split; [reflexivity|]. split; [|split; [destruct tk; reflexivity || exact I|]].
      * unfold fwd_end, fwd_rewind. cbn [f_state f_saveidx f_savecat f_take_cat f_self].
        destruct (f_state v) as [| | | | | |[]|[]| |]; cbn [seeking] in SK; try contradiction; cbn; rewrite E2, E3; reflexivity.
      * split; [reflexivity|]. split; [exact N0|]. split; [rewrite BQ; exact ST|exact IN].
Qed.

(** ** One call *)
Lemma fwd_start P S cat : S <> [] -> word_boundary P S = true -> cache_ok S cat ->
  no_double_modifier (P ++ S) -> glue_alone (P ++ S) ->
  next_piece P S (fwd_loop S 0 (FV 0 0 WStart WB_Other WB_Other true true cat)).
Proof.
  intros N B HS T1 T2. destruct S as [|y rest]; [contradiction|].
  cbn [fwd_loop f_cat f_self f_state is_start negb andb f_saveidx f_savecat].
  change (WB_eqb WB_Other WB_ZWJ) with false. cbn [andb].
  assert (EC : match cat with Some c => c | None => wb y end = wb y) by (destruct cat; [exact HS|reflexivity]).
  rewrite EC. rewrite wbd in B. cbn [cls map] in B.
  assert (CP : cls (P ++ [y]) = cls P ++ [wb y]) by (rewrite cls_app; reflexivity).
  assert (KY : kl (cls (P ++ [y])) = wb y :: kl (cls P)) by (rewrite CP; apply (start_kept _ _ _ B)).
  set (ncat := match rest with [] => None | n :: _ => Some (wb n) end).
  assert (EN : ncat = hd_error (cls rest)) by (destruct rest; reflexivity). clearbody ncat.
  pose proof (start_step _ _ _ ncat B EN) as ST. cbv zeta in ST. fold (cls rest) in ST.
  assert (IN1 : forall r, inside P [y] r).
  { intros r a b H Na Nb. destruct a as [|a0 a]; [contradiction|]. destruct a; [|discriminate H].
    cbn in H. injection H as _ <-. contradiction. }
  assert (EY : clen y = slen [y]) by (cbn; lia).
  destruct (fwd_match WStart (wb y) ncat) as [s|s|c|[|[|inc]] [] []|] eqn:FM; try contradiction.
  - destruct ST as [NY GD]. rewrite wb4_kr in GD by exact NY. cbn [Nat.add]. rewrite EY.
    apply (fwd_loop_at (P ++ y :: rest) T1 T2 rest P [y] [] y); auto.
    + exact I.
    + rewrite CP, fresh_snoc. exact NY.
    + left. split; [apply IN1|]. rewrite KY. exact GD.
  - destruct ST as (NY & E & _ & F). rewrite wb4_kr in F by exact NY. cbn [Nat.add]. rewrite EY.
    apply (fwd_loop_at (P ++ y :: rest) T1 T2 rest P [y] [] y); auto.
    + cbn [f_self cache_ok]. destruct rest as [|n rest]; [exact I|]. rewrite EN in E. cbn in E. injection E as <-. reflexivity.
    + rewrite CP, fresh_snoc. exact NY.
    + left. split; [apply IN1|]. rewrite KY. right. cbn [f_state]. split; [discriminate|exact F].
  - eexists. exists [y], rest, None. split; [reflexivity|]. split; [reflexivity|]. split; [|split; [exact I|]].
    + unfold fwd_end, fwd_rewind. cbn [f_state f_take_curr f_idx Nat.add split_at]. rewrite EY. reflexivity.
    + split; [reflexivity|]. split; [discriminate|]. split; [|apply IN1]. rewrite wbd, CP. destruct ST as [[NY C]|(NY & F & NZ & IG)].
      * apply bnd_after_nl; [exact NY|]. rewrite <- EN. exact C.
      * destruct rest as [|n rest]; [apply bnd_end|]. cbn [cls map]. fold (cls rest).
        rewrite bnd_eq by (rewrite fresh_snoc; exact NY). specialize (IG (wb n) EN). rewrite IG.
        rewrite lastc_snoc. cbn [any is_in existsb]. destruct (nl (wb n)) eqn:NN; [reflexivity|].
        replace (WB_eqb (wb y) WB_ZWJ) with false.
        2: { destruct (WB_eqb (wb y) WB_ZWJ) eqn:E; [|reflexivity]. apply WB_eqb_true in E. contradiction. }
        cbn [orb andb]. rewrite <- CP, KY.
        rewrite wb4_kr in F by exact NY. unfold kr in F. cbn [cls map] in F. rewrite wb4_cons in F by exact IG.
        rewrite wb4_kr in F by exact NN. exact F.
  - destruct ST as [EY1 EN1]. rewrite EN1 in EN. destruct rest as [|n rest]; [discriminate EN|]. cbn in EN. injection EN as EN.
    eexists. exists [y; n], rest, None. split; [reflexivity|]. split; [reflexivity|]. split; [|split; [exact I|]].
    + unfold fwd_end, fwd_rewind. cbn [f_state f_take_curr f_idx Nat.add].
      replace 1 with (slen [y]) at 1 by (cbn; rewrite (cr_clen y EY1); reflexivity).
      change (y :: n :: rest) with ([y] ++ n :: rest). rewrite split_at_app. f_equal. f_equal. cbn. rewrite (cr_clen y EY1). lia.
    + split; [reflexivity|]. split; [discriminate|]. split.
      * rewrite wbd. change [y; n] with ([y] ++ [n]). rewrite app_assoc, cls_app. cbn [cls map]. rewrite <- EN.
        apply bnd_after_nl; [reflexivity|discriminate].
      * intros a b H Na Nb. destruct a as [|a0 a]; [contradiction|]. cbn in H. injection H as <- H.
        destruct a as [|a1 a].
        -- cbn in H. subst b. rewrite wbd, CP, EY1. cbn [cls map app]. rewrite <- EN. apply bnd_crlf.
        -- cbn in H. injection H as <- H. symmetry in H. apply app_eq_nil in H. destruct H as [_ ->]. contradiction.
Qed.

Lemma words_next_bound P w : w_string w <> [] -> word_boundary P (w_string w) = true -> cache_ok (w_string w) (w_cat w) ->
  no_double_modifier (P ++ w_string w) -> glue_alone (P ++ w_string w) ->
  exists piece rst cache, words_next w = Ret (WBs (w_off w + slen piece) rst cache (w_catb w), Some (w_off w, piece)) /\ cache_ok rst cache /\ next_bound word_boundary P (w_string w) piece rst.
Proof.
  intros N B C T1 T2. destruct (fwd_start P _ _ N B C T1 T2) as (v & piece & rst & cache & H1 & H2 & H3 & H4 & H5).
  exists piece, rst, cache. split; [|split; assumption]. unfold words_next. destruct (w_string w) as [|y rest] eqn:E; [contradiction|].
  rewrite H1. cbn [obind]. rewrite H3. cbn [obind fst snd]. rewrite H2, split_at_app. reflexivity.
Qed.

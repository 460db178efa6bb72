(** The word iterators on any string: what every call cuts off, and collecting. *)
From Coq Require Import List NArith Lia Bool Arith.
Import ListNotations.
From Verif Require Import Base Enums TableTypes UcdModel BidiModel BidiLemmas GraphSpec SegLemmas GraphIter
  WordModel WordSpec WordTables WordRules WordForward WordBackward WordLocal.
Open Scope nat_scope.
Local Opaque word_break wb.

(** ** A call cuts off a non-empty piece, on any string *)
Definition is_req (s : wstate) : bool :=
  match s with WFormatExtend RequireLetter | WFormatExtend RequireHLetter | WFormatExtend RequireNumeric => true | _ => false end.
Definition settled (s : wstate) : bool := match s with WStart | WRegional RUnknown | WFormatExtend AcceptAny => false | _ => true end.

Lemma fwd_match_shape st c n : settled st = true ->
  match fwd_match st c n with
  | FNext s => settled s = true /\ is_req s = false
  | FSave s => settled s = true /\ is_req s = true
  | FBreak 0 tc _ => tc = false \/ is_req st = true
  | _ => False
  end.
Proof.
  intros H. destruct st as [| | | | | |[]|[]| |]; try discriminate H; destruct c; cbn [fwd_match]; try (split; reflexivity); try (left; reflexivity); right; reflexivity.
Qed.

Definition cuts (S : str) (r : outcome fvars) : Prop :=
  exists v' piece rst cache, r = Ret v' /\ S = piece ++ rst /\ piece <> [] /\ fwd_end S v' = Ret (slen piece, cache) /\ cache_ok rst cache.

Lemma rewind_not v : is_req (f_state v) = false -> fwd_rewind v = v.
Proof. intros H. unfold fwd_rewind. destruct (f_state v) as [| | | | | |[]|[]| |]; try discriminate H; reflexivity. Qed.
Lemma rewind_req v : is_req (f_state v) = true -> forall S, fwd_end S v = Ret (f_saveidx v, if f_take_cat v then Some (f_savecat v) else None).
Proof. intros H S. unfold fwd_end, fwd_rewind. destruct (f_state v) as [| | | | | |[]|[]| |]; try discriminate H; reflexivity. Qed.

Lemma fwd_loop_cuts : forall rest m m' z v, m = m' ++ [z] -> f_idx v = slen m' -> f_take_curr v = true -> cache_ok rest (f_self v) ->
  settled (f_state v) = true ->
  (is_req (f_state v) = true -> exists m0 q x, m = m0 ++ q :: x /\ m0 <> [] /\ f_saveidx v = slen m0 /\ f_savecat v = wb q) ->
  cuts (m ++ rest) (fwd_loop rest (slen m) v).
Proof.
  induction rest as [|y rest IH]; intros m m' z v EM HI HT HC HS HR.
  - rewrite app_nil_r. cbn [fwd_loop]. destruct (is_req (f_state v)) eqn:RQ.
    + destruct (HR eq_refl) as (m0 & q & x & E1 & E2 & E3 & E4).
      exists v, m0, (q :: x), (if f_take_cat v then Some (wb q) else None).
      split; [reflexivity|]. split; [exact E1|]. split; [exact E2|]. split; [rewrite rewind_req, E3, E4 by exact RQ; reflexivity|].
      destruct (f_take_cat v); [reflexivity|exact I].
    + exists v, m, [], None. split; [reflexivity|]. split; [rewrite app_nil_r; reflexivity|]. split; [rewrite EM; apply app_ne|]. split; [|exact I].
      unfold fwd_end. rewrite rewind_not, HT, HI, EM, split_at_app, slen_app by exact RQ. cbn. rewrite Nat.add_0_r. reflexivity.
  - cbn [fwd_loop].
    assert (EC : match f_self v with Some c => c | None => wb y end = wb y) by (destruct (f_self v); [exact HC|reflexivity]).
    rewrite EC. clear EC HC.
    assert (EMY : slen m + clen y = slen (m ++ [y])) by (rewrite slen_app; cbn; lia). rewrite EMY.
    assert (ES : m ++ y :: rest = (m ++ [y]) ++ rest) by (rewrite <- app_assoc; reflexivity).
    assert (NM : m <> []) by (rewrite EM; apply app_ne).
    assert (HR2 : is_req (f_state v) = true -> exists m0 q x, m ++ [y] = m0 ++ q :: x /\ m0 <> [] /\ f_saveidx v = slen m0 /\ f_savecat v = wb q).
    { intros RQ. destruct (HR RQ) as (m0 & q & x & E1 & E2 & E3 & E4). exists m0, q, (x ++ [y]). rewrite E1, <- app_assoc. repeat split; auto. }
    match goal with |- context [fwd_match _ _ ?n] => set (ncat := n) end. clearbody ncat.
    pose proof (fwd_match_shape (f_state v) (wb y) ncat HS) as SH.
    destruct (negb (is_start (f_state v)) && extend_format_zwj (wb y)).
    { rewrite ES. apply (IH (m ++ [y]) m y); auto. exact I. }
    destruct (WB_eqb (f_cat v) WB_ZWJ && WB_eqb (wb y) WB_GlueAfterZwj).
    { rewrite ES. apply (IH (m ++ [y]) m y); auto. exact I. }
    destruct (WB_eqb (f_cat v) WB_ZWJ && WB_eqb (wb y) WB_EBaseGAZ).
    { rewrite ES. apply (IH (m ++ [y]) m y); auto; [exact I|discriminate]. }
    destruct (fwd_match (f_state v) (wb y) ncat) as [s|s|c|[|inc] tc tk|] eqn:FM; try contradiction.
    + destruct SH as [H1 H2]. rewrite ES. apply (IH (m ++ [y]) m y); auto; [exact I|]. cbn [f_state]. rewrite H2. discriminate.
    + destruct SH as [H1 H2]. rewrite ES. apply (IH (m ++ [y]) m y); auto; [exact I|]. intros _. exists m, y, []. auto.
    + destruct (is_req (f_state v)) eqn:RQ.
      * destruct (HR eq_refl) as (m0 & q & x & E1 & E2 & E3 & E4).
        eexists. exists m0, (q :: x ++ y :: rest), (if tk then Some (wb q) else None).
        split; [reflexivity|]. split; [rewrite E1, <- app_assoc; reflexivity|]. split; [exact E2|].
        split; [rewrite rewind_req by exact RQ; cbn [f_saveidx f_take_cat f_savecat]; rewrite E3, E4; reflexivity|]. destruct tk; [reflexivity|exact I].
      * destruct SH as [-> |SH]; [|discriminate SH].
        eexists. exists m, (y :: rest), (if tk then Some (wb y) else None).
        split; [reflexivity|]. split; [reflexivity|]. split; [exact NM|]. split; [|destruct tk; [reflexivity|exact I]].
        unfold fwd_end. rewrite rewind_not by exact RQ. cbn. rewrite Nat.add_0_r. reflexivity.
Qed.

Lemma fwd_start_cuts S cat : S <> [] -> cache_ok S cat -> cuts S (fwd_loop S 0 (FV 0 0 WStart WB_Other WB_Other true true cat)).
Proof.
  intros N HS. destruct S as [|y rest]; [contradiction|].
  cbn [fwd_loop f_cat f_self f_state is_start negb andb f_saveidx f_savecat].
  change (WB_eqb WB_Other WB_ZWJ) with false. cbn [andb].
  assert (EC : match cat with Some c => c | None => wb y end = wb y) by (destruct cat; [exact HS|reflexivity]).
  rewrite EC. set (ncat := match rest with [] => None | n :: _ => Some (wb n) end).
  assert (EY : clen y = slen [y]) by (cbn; lia). cbn [Nat.add]. rewrite EY.
  assert (ONE : forall i, i = 0 -> cuts (y :: rest) (Ret (FV i 0 WStart (wb y) WB_Other true true None))).
  { intros i ->. eexists. exists [y], rest, None. split; [reflexivity|]. split; [reflexivity|]. split; [discriminate|]. split; [|exact I].
    unfold fwd_end, fwd_rewind. cbn [f_state f_take_curr f_idx Nat.add split_at]. rewrite EY. reflexivity. }
  assert (NX : forall s self, settled s = true -> is_req s = false -> cache_ok rest self -> cuts (y :: rest) (fwd_loop rest (slen [y]) (FV 0 0 s (wb y) WB_Other true true self))).
  { intros s self H1 H2 H3. apply (fwd_loop_cuts rest [y] [] y); auto. cbn [f_state]. rewrite H2. discriminate. }
  assert (SK : forall n, ncat = Some n -> cache_ok rest (Some n)).
  { intros n E. unfold ncat in E. destruct rest; [exact I|]. injection E as <-. reflexivity. }
  destruct (wb y) eqn:EY1; cbn [fwd_match]; try (apply NX; [reflexivity|reflexivity|exact I]); try (apply ONE; reflexivity);
    try (destruct ncat as [n|]; [destruct (extend_format_zwj n); [apply NX; [reflexivity|reflexivity|apply SK; reflexivity]|]|]; apply ONE; reflexivity).
  destruct ncat as [n|] eqn:EN; [|apply ONE; reflexivity].
  destruct n; try (apply ONE; reflexivity).
  unfold ncat in EN. destruct rest as [|n rest]; [discriminate EN|].
  eexists. exists [y; n], rest, None. split; [reflexivity|]. split; [reflexivity|]. split; [discriminate|]. split; [|exact I].
  unfold fwd_end, fwd_rewind. cbn [f_state f_take_curr f_idx Nat.add].
  replace 1 with (slen [y]) at 1 by (cbn; rewrite (cr_clen y EY1); reflexivity).
  change (y :: n :: rest) with ([y] ++ n :: rest). rewrite split_at_app. f_equal. f_equal. cbn. rewrite (cr_clen y EY1). lia.
Qed.

(** backwards *)
Definition plain (s : wstate) : bool := match s with WStart | WFormatExtend _ => false | _ => true end.
Lemma bwd_match_plain st c p n : plain st = true ->
  match bwd_match st c p (Ret n) with
  | BNext s => plain s = true \/ s = WFormatExtend AcceptAny
  | BSavePrev s => is_req s = true
  | BBreak 0 false => True
  | _ => False
  end.
Proof.
  intros H. destruct st as [| | | | | |[]|[]| |]; try discriminate H; destruct c; cbn [bwd_match]; try (left; reflexivity); try (right; reflexivity); try reflexivity; try exact I.
  destruct (Nat.even n); [exact I|left; reflexivity].
Qed.
Lemma bwd_match_fe t c p n : t <> AcceptAny -> t <> AcceptNone ->
  match bwd_match (WFormatExtend t) c p n with
  | BNext s => plain s = true
  | BBreak 0 true => True
  | _ => False
  end.
Proof. intros H1 H2. destruct t; try contradiction; destruct c; cbn [bwd_match]; try reflexivity; exact I. Qed.
Lemma bwd_match_any c p n :
  match bwd_match (WFormatExtend AcceptAny) c p n with
  | BNext s => plain s = true \/ s = WFormatExtend AcceptAny
  | BSaveIdx s => s = WFormatExtend AcceptQLetter
  | BBreak 0 _ => True
  | _ => False
  end.
Proof. destruct c; cbn [bwd_match]; try (left; reflexivity); try (right; reflexivity); try reflexivity; exact I. Qed.

Definition bcuts (S : str) (r : outcome bvars) : Prop :=
  exists v' start mid cache, r = Ret v' /\ bwd_end v' = (slen start, cache) /\ S = start ++ mid /\ mid <> [] /\ cacheb_ok start cache.
Definition saved (S : str) (n : nat) : Prop := exists x y, S = x ++ y /\ y <> [] /\ n = slen x.

Lemma bwd_loop_cuts S : forall rest A m v, rest = rev A -> S = A ++ m -> m <> [] -> b_idx v = slen A -> b_take_curr v = true ->
  cacheb_ok A (b_self v) ->
  match b_state v with
  | WStart => False
  | WFormatExtend AcceptAny => True
  | WFormatExtend AcceptNone => saved S (b_save v) /\ plain (b_savestate v) = true
  | WFormatExtend _ => saved S (b_save v)
  | _ => True
  end -> bcuts S (bwd_loop S rest (slen A) v).
Proof.
  induction rest as [|y rest IH]; intros A m v ER ES NM EI ET EC B.
  { symmetry in ER. apply (f_equal (@rev _)) in ER. rewrite rev_involutive in ER. cbn in ER. subst A. cbn [app] in ES. subst m. cbn [bwd_loop].
    assert (SAVE : saved S (b_save v) -> bwd_end v = (b_save v, None) -> bcuts S (Ret v)).
    { intros (x & z & E1 & E2 & E3) E. exists v, x, z, None. rewrite E, E3. repeat split; auto. }
    assert (ALL : bwd_end v = (slen [], None) -> bcuts S (Ret v)).
    { intros E. exists v, [], S, None. repeat split; auto. }
    destruct (b_state v) eqn:ST; try contradiction;
      try (apply ALL; unfold bwd_end, bwd_rewind; rewrite ST, ET, EI; reflexivity).
    destruct t; try (apply SAVE; [first [exact B | apply B]|unfold bwd_end, bwd_rewind; rewrite ST; reflexivity]).
    apply ALL; unfold bwd_end, bwd_rewind; rewrite ST, ET, EI; reflexivity. }
  assert (EA : exists A', A = A' ++ [y] /\ rest = rev A').
  { exists (rev rest). split; [|symmetry; apply rev_involutive]. rewrite <- (rev_involutive A), <- ER. reflexivity. }
  destruct EA as (A' & -> & ER'). clear ER.
  rewrite bwd_loop_cons. cbv zeta.
  assert (EG : match b_self v with None => wb y | Some c => c end = wb y).
  { unfold cacheb_ok, cache_ok in EC. rewrite rev_app_distr in EC. cbn [rev app] in EC. destruct (b_self v); [exact EC|reflexivity]. }
  rewrite EG, EI. clear EG EC.
  assert (EX : slen (A' ++ [y]) - clen y = slen A') by (rewrite slen_app; cbn; lia). rewrite EX.
  assert (ES2 : S = A' ++ y :: m) by (rewrite ES, <- app_assoc; reflexivity).
  set (pcat := match rest with [] => None | n :: _ => Some (wb n) end). clearbody pcat.
  assert (IHn : forall prev save s sv tk,
    match s with
    | WStart => False
    | WFormatExtend AcceptAny => True
    | WFormatExtend AcceptNone => saved S save /\ plain sv = true
    | WFormatExtend _ => saved S save
    | _ => True
    end ->
    bcuts S (bwd_loop S rest (slen A') (BV (slen A') prev save s sv (wb y) true tk None))).
  { intros prev save s sv tk B'. apply (IH A' (y :: m)); auto; [discriminate|exact I]. }
  assert (SP : saved S (slen (A' ++ [y]))) by (exists (A' ++ [y]), m; auto).
  assert (SI : saved S (slen A')) by (exists A', (y :: m); repeat split; auto; discriminate).
  assert (HERE : forall i sv st, (plain st = true \/ st = WFormatExtend AcceptAny) ->
    bcuts S (Ret (BV i (slen (A' ++ [y])) (b_save v) st sv (wb y) false true None))).
  { intros i sv st H. eexists. exists (A' ++ [y]), m, (Some (wb y)). split; [reflexivity|]. split.
    - unfold bwd_end, bwd_rewind. cbn [b_state]. destruct st as [| | | | | |[]|[]| |]; try (destruct H as [H|H]; discriminate H); reflexivity.
    - split; [exact ES|]. split; [exact NM|]. unfold cacheb_ok. rewrite rev_app_distr. reflexivity. }
  assert (BACK : forall i p st sv tc tk, saved S (b_save v) -> match st with WFormatExtend AcceptAny => False | WFormatExtend _ => True | _ => False end ->
    bcuts S (Ret (BV i p (b_save v) st sv (wb y) tc tk None))).
  { intros i p st sv tc tk (x & z & E1 & E2 & E3) H. eexists. exists x, z, None. split; [reflexivity|]. split; [|repeat split; auto].
    unfold bwd_end, bwd_rewind. cbn [b_state]. destruct st as [| | | | | |[]|[]| |]; try contradiction; cbn; rewrite E3; reflexivity. }
  assert (TP : forall st, plain st = true -> b_state v = st -> bcuts S (turn S rest (slen A') (wb y) pcat st (b_savestate v) (slen (A' ++ [y])) (b_save v) true)).
  { intros st HP HV. unfold turn.
    assert (RC : regional_count S (slen (A' ++ [y])) = Ret (ri_count (kl (cls (A' ++ [y]))))) by (rewrite ES; apply regional_count_at). rewrite RC. clear RC.
    pose proof (bwd_match_plain st (wb y) pcat (ri_count (kl (cls (A' ++ [y])))) HP) as SH.
    destruct (bwd_match st (wb y) pcat (Ret (ri_count (kl (cls (A' ++ [y])))))) as [s|s|s|[|dec] []|]; try contradiction.
    - apply IHn. destruct SH as [SH| ->]; [|exact I]. destruct s; try discriminate SH; exact I.
    - apply IHn. destruct s as [| | | | | |[]|[]| |]; try discriminate SH; exact SP.
    - rewrite Nat.sub_0_r. apply HERE. left. exact HP. }
  assert (TF : forall t, b_state v = WFormatExtend t -> t <> AcceptAny -> t <> AcceptNone -> saved S (b_save v) ->
    bcuts S (turn S rest (slen A') (wb y) pcat (WFormatExtend t) (b_savestate v) (slen (A' ++ [y])) (b_save v) true)).
  { intros t HV N1 N2 HS. unfold turn.
    pose proof (bwd_match_fe t (wb y) pcat (regional_count S (slen (A' ++ [y]))) N1 N2) as SH.
    destruct (bwd_match (WFormatExtend t) (wb y) pcat (regional_count S (slen (A' ++ [y])))) as [s|s|s|[|dec] []|]; try contradiction.
    - apply IHn. destruct s; try discriminate SH; exact I.
    - apply BACK; [exact HS|]. destruct t; try contradiction; exact I. }
  destruct (folds (wb y) (b_state v)).
  - destruct (b_state v) as [| | | | | |[]|[]| |] eqn:ST; try contradiction; apply IHn; try exact B; try (split; [exact SP|reflexivity]).
  - destruct (b_state v) as [| | | | | |[]|[]| |] eqn:ST; try contradiction; try (apply TP; reflexivity); try (apply TF; [reflexivity|discriminate|discriminate|exact B]).
    + (* AcceptAny *)
      unfold turn. pose proof (bwd_match_any (wb y) pcat (regional_count S (slen (A' ++ [y])))) as SH.
      destruct (bwd_match (WFormatExtend AcceptAny) (wb y) pcat (regional_count S (slen (A' ++ [y])))) as [s|s|s|[|dec] []|]; try contradiction.
      * apply IHn. destruct SH as [SH| ->]; [|exact I]. destruct s; try discriminate SH; exact I.
      * apply IHn. rewrite SH. exact SI.
      * eexists. exists A', (y :: m), None. split; [reflexivity|]. split; [unfold bwd_end, bwd_rewind; cbn; rewrite Nat.sub_0_r; reflexivity|].
        split; [exact ES2|]. split; [discriminate|exact I].
      * rewrite Nat.sub_0_r. apply HERE. right. reflexivity.
    + (* AcceptNone *)
      destruct B as [HS HP]. unfold turn. destruct HS as (x & z & E1 & E2 & E3). rewrite E3.
      assert (RC : exists n, regional_count S (slen x) = Ret n) by (rewrite E1; eexists; apply regional_count_at). destruct RC as [n RC]. rewrite RC.
      pose proof (bwd_match_plain (b_savestate v) (wb y) pcat n HP) as SH.
      assert (SX : saved S (slen x)) by (exists x, z; auto).
      destruct (bwd_match (b_savestate v) (wb y) pcat (Ret n)) as [s|s|s|[|dec] []|]; try contradiction.
      * apply IHn. destruct SH as [SH| ->]; [|exact I]. destruct s; try discriminate SH; exact I.
      * apply IHn. destruct s as [| | | | | |[]|[]| |]; try discriminate SH; exact SX.
      * eexists. exists x, z, None. split; [reflexivity|]. split; [|repeat split; auto].
        unfold bwd_end, bwd_rewind. cbn [b_state]. destruct (b_savestate v) as [| | | | | |[]|[]| |]; try discriminate HP; reflexivity.
Qed.

Lemma bwd_start_cuts S cat : S <> [] -> cacheb_ok S cat ->
  let len := slen S in
  let idx := len - clen (last S 0%N) in
  bcuts S (bwd_loop S (rev S) len (BV idx idx idx WStart WStart WB_Other true true cat)).
Proof.
  intros N EC. destruct (snoc_inv S N) as (A & y & ->). cbv zeta. rewrite rev_app_distr. cbn [rev app].
  rewrite last_last.
  rewrite bwd_loop_cons. cbv zeta. cbn [b_self b_state b_savestate b_save b_idx].
  assert (EG : match cat with None => wb y | Some c => c end = wb y).
  { unfold cacheb_ok, cache_ok in EC. rewrite rev_app_distr in EC. cbn [rev app] in EC. destruct cat; [exact EC|reflexivity]. }
  rewrite EG. clear EG EC.
  assert (EX : slen (A ++ [y]) - clen y = slen A) by (rewrite slen_app; cbn; lia). rewrite EX.
  assert (FX : forall (b : outcome bvars) (c : bool), (if c then b else b) = b) by (intros b []; reflexivity).
  rewrite FX. clear FX.
  set (pcat := match rev A with [] => None | n :: _ => Some (wb n) end).
  assert (EP : pcat = lastc (cls A)).
  { unfold pcat, lastc, cls. rewrite <- map_rev. destruct (rev A); reflexivity. }
  clearbody pcat.
  assert (SI : saved (A ++ [y]) (slen A)) by (exists A, [y]; repeat split; auto; discriminate).
  assert (IHn : forall prev save s sv tk, (plain s = true \/ s = WFormatExtend AcceptAny \/ (s = WFormatExtend AcceptQLetter /\ save = slen A)) ->
    bcuts (A ++ [y]) (bwd_loop (A ++ [y]) (rev A) (slen A) (BV (slen A) prev save s sv (wb y) true tk None))).
  { intros prev save s sv tk H. apply (bwd_loop_cuts _ _ A [y]); auto; [discriminate|exact I|]. cbn [b_state b_save].
    destruct H as [H|[-> |[-> ->]]]; [destruct s; try discriminate H; exact I|exact I|exact SI]. }
  assert (ONE : bcuts (A ++ [y]) (Ret (BV (slen A - 0) (slen A) (slen A) WStart WStart (wb y) true true None))).
  { eexists. exists A, [y], None. split; [reflexivity|]. split; [unfold bwd_end, bwd_rewind; cbn; rewrite Nat.sub_0_r; reflexivity|].
    split; [reflexivity|]. split; [discriminate|exact I]. }
  unfold turn.
  destruct (wb y) eqn:Wy; cbn [bwd_match is_start]; try exact ONE; try (apply IHn; left; reflexivity); try (apply IHn; right; left; reflexivity);
    try (apply IHn; right; right; split; reflexivity).
  destruct pcat as [[]|]; try exact ONE.
  destruct A as [|z A' _] using rev_ind; [discriminate EP|]. rewrite cls_snoc, lastc_snoc in EP. injection EP as EP. symmetry in EP.
  eexists. exists A', [z; y], None. split; [reflexivity|]. split.
  - unfold bwd_end, bwd_rewind. cbn [b_state b_take_curr b_idx]. f_equal. rewrite slen_app. cbn. rewrite (cr_clen z EP). lia.
  - split; [rewrite <- app_assoc; reflexivity|]. split; [discriminate|exact I].
Qed.

Definition wok (w : word_bounds) : Prop := cache_ok (w_string w) (w_cat w) /\ cacheb_ok (w_string w) (w_catb w).

Lemma cache_prefix a b c : cache_ok (a ++ b) c -> cache_ok a c.
Proof. destruct c; [|intros; exact I]. destruct a; [intros; exact I|auto]. Qed.
Lemma cacheb_suffix a b c : cacheb_ok (a ++ b) c -> cacheb_ok b c.
Proof. unfold cacheb_ok. rewrite rev_app_distr. apply cache_prefix. Qed.

Lemma words_next_cuts w : w_string w <> [] -> wok w ->
  exists piece rst cache, words_next w = Ret (WBs (w_off w + slen piece) rst cache (w_catb w), Some (w_off w, piece)) /\
    w_string w = piece ++ rst /\ piece <> [] /\ wok (WBs (w_off w + slen piece) rst cache (w_catb w)).
Proof.
  intros N [C1 C2]. destruct (fwd_start_cuts _ _ N C1) as (v & piece & rst & cache & H1 & H2 & H3 & H4 & H5).
  exists piece, rst, cache. split; [|split; [exact H2|split; [exact H3|split; [exact H5|rewrite H2 in C2; apply (cacheb_suffix _ _ _ C2)]]]].
  unfold words_next. destruct (w_string w) as [|y rest] eqn:E; [contradiction|].
  rewrite H1. cbn [obind]. rewrite H4. cbn [obind fst snd]. rewrite H2, split_at_app. reflexivity.
Qed.
Lemma words_next_back_cuts w : w_string w <> [] -> wok w ->
  exists start piece cache, words_next_back w = Ret (WBs (w_off w) start (w_cat w) cache, Some (w_off w + slen start, piece)) /\
    w_string w = start ++ piece /\ piece <> [] /\ wok (WBs (w_off w) start (w_cat w) cache).
Proof.
  intros N [C1 C2]. destruct (bwd_start_cuts _ _ N C2) as (v & start & piece & cache & H1 & H2 & H3 & H4 & H5). cbv zeta in H1.
  exists start, piece, cache. split; [|split; [exact H3|split; [exact H4|split; [rewrite H3 in C1; apply (cache_prefix _ _ _ C1)|exact H5]]]].
  unfold words_next_back.
  destruct (snoc_inv _ N) as (A & y & E). rewrite E in *. rewrite rev_app_distr in *. cbn [rev app] in *. cbv zeta. rewrite last_last in H1.
  rewrite H1. cbn [obind]. rewrite H2. cbn [fst snd]. rewrite H3, split_at_app. reflexivity.
Qed.
Lemma words_none w : w_string w = [] -> words_next w = Ret (w, None) /\ words_next_back w = Ret (w, None).
Proof. intros E. unfold words_next, words_next_back. rewrite E. split; reflexivity. Qed.

Lemma wok_new s : wok (word_bounds_new s).
Proof. split; exact I. Qed.

(** ** Collecting, on any string *)
Lemma collect_any fuel : forall w, wok w -> length (w_string w) <= fuel ->
  exists ps, collect_words fuel words_next w = Ret (Some (indexed (w_off w) ps)) /\ concat ps = w_string w /\ Forall (fun p => p <> []) ps.
Proof.
  induction fuel; intros w W L.
  - assert (E : w_string w = []) by (destruct (w_string w); [reflexivity|cbn in L; lia]).
    exists []. cbn. rewrite (proj1 (words_none w E)). auto.
  - destruct (list_eq_dec N.eq_dec (w_string w) []) as [E|E].
    + exists []. cbn. rewrite (proj1 (words_none w E)). auto.
    + destruct (words_next_cuts w E W) as (piece & rst & cache & H1 & H2 & H3 & H4).
      destruct (IHfuel _ H4) as (ps & P1 & P2 & P3).
      { cbn [w_string]. rewrite H2, app_length in L. destruct piece; [contradiction|]. cbn in L. lia. }
      exists (piece :: ps). cbn [collect_words]. rewrite H1, P1. cbn [w_string w_off] in *. split; [reflexivity|].
      split; [cbn; rewrite P2; symmetry; exact H2|constructor; assumption].
Qed.
Lemma collect_back_any fuel : forall w, wok w -> length (w_string w) <= fuel ->
  exists ps, collect_words fuel words_next_back w = Ret (Some (rev (indexed (w_off w) ps))) /\ concat ps = w_string w /\ Forall (fun p => p <> []) ps.
Proof.
  induction fuel; intros w W L.
  - assert (E : w_string w = []) by (destruct (w_string w); [reflexivity|cbn in L; lia]).
    exists []. cbn. rewrite (proj2 (words_none w E)). auto.
  - destruct (list_eq_dec N.eq_dec (w_string w) []) as [E|E].
    + exists []. cbn. rewrite (proj2 (words_none w E)). auto.
    + destruct (words_next_back_cuts w E W) as (start & piece & cache & H1 & H2 & H3 & H4).
      destruct (IHfuel _ H4) as (ps & P1 & P2 & P3).
      { cbn [w_string]. rewrite H2, app_length in L. destruct piece; [contradiction|]. cbn in L. lia. }
      exists (ps ++ [piece]). cbn [collect_words]. rewrite H1, P1. cbn [w_string w_off] in *. split.
      * rewrite indexed_app, rev_app_distr. cbn [indexed rev app]. rewrite P2. reflexivity.
      * split; [rewrite concat_app, P2; cbn; rewrite app_nil_r; symmetry; exact H2|apply Forall_app; split; [exact P3|constructor; [exact H3|constructor]]].
Qed.

Lemma words_lossless s : exists ps, word_bound_indices s = Ret (Some (indexed 0 ps)) /\ concat ps = s /\ Forall (fun p => p <> []) ps.
Proof. exact (collect_any (length s) _ (wok_new s) (Nat.le_refl _)). Qed.
Lemma words_lossless_rev s : exists ps, word_bound_indices_rev s = Ret (Some (rev (indexed 0 ps))) /\ concat ps = s /\ Forall (fun p => p <> []) ps.
Proof. exact (collect_back_any (length s) _ (wok_new s) (Nat.le_refl _)). Qed.

(** any order of calls *)
Lemma asks_any asks : forall w, wok w -> exists ps w', concat ps = w_string w /\ Forall (fun p => p <> []) ps /\
  run_word_asks w asks = Ret (w', deque (indexed (w_off w) ps) asks) /\
  word_bounds_as_str w' = concat (map snd (deque_rest (indexed (w_off w) ps) asks)).
Proof.
  induction asks as [|a asks IH]; intros w W; cbn [run_word_asks deque deque_rest].
  - destruct (collect_any (length (w_string w)) w W (Nat.le_refl _)) as (ps & _ & P2 & P3). exists ps, w.
    split; [exact P2|]. split; [exact P3|]. split; [reflexivity|].
    assert (E : forall l o, map snd (indexed o l) = l) by (induction l; intros; cbn; [|rewrite IHl]; reflexivity).
    rewrite E. symmetry. exact P2.
  - destruct (list_eq_dec N.eq_dec (w_string w) []) as [E|E].
    + destruct (words_none w E) as [N1 N2]. destruct (IH w W) as (ps & w' & P1 & P2 & P3 & P4).
      assert (ps = []).
      { destruct ps as [|p ps]; [reflexivity|]. inversion P2; subst. rewrite E in P1. cbn in P1. apply app_eq_nil in P1. destruct P1; contradiction. }
      subst ps. exists [], w'. cbn [indexed rev tl] in *. destruct a; rewrite ?N1, ?N2, P3; auto.
    + destruct a.
      * destruct (words_next_cuts w E W) as (piece & rst & cache & H1 & H2 & H3 & H4).
        destruct (IH _ H4) as (ps & w' & P1 & P2 & P3 & P4). cbn [w_string w_off] in *.
        exists (piece :: ps), w'. rewrite H1, P3. cbn [indexed tl]. split; [cbn; rewrite P1; symmetry; exact H2|].
        split; [constructor; assumption|]. split; [reflexivity|exact P4].
      * destruct (words_next_back_cuts w E W) as (start & piece & cache & H1 & H2 & H3 & H4).
        destruct (IH _ H4) as (ps & w' & P1 & P2 & P3 & P4). cbn [w_string w_off] in *.
        exists (ps ++ [piece]), w'. rewrite H1, P3. rewrite indexed_app. cbn [indexed]. rewrite rev_app_distr. cbn [rev app tl]. rewrite rev_involutive.
        split; [rewrite concat_app, P1; cbn; rewrite app_nil_r; symmetry; exact H2|].
        split; [apply Forall_app; split; [exact P2|constructor; [exact H3|constructor]]|]. split; [rewrite P1; reflexivity|exact P4].
Qed.

Lemma size_hint_bounds w ps : concat ps = word_bounds_as_str w -> Forall (fun p => p <> []) ps ->
  let (lo, hi) := word_bounds_size_hint w in lo <= length ps /\ length ps <= hi.
Proof.
  intros C N. unfold word_bounds_size_hint, word_bounds_as_str in *. rewrite <- C. split.
  - destruct ps; [cbn; lia|]. cbn [length]. lia.
  - clear C. induction N as [|p ps H _ IH]; [cbn; lia|]. cbn [concat length]. rewrite slen_app. pose proof (slen_pos p H). lia.
Qed.

(** ** On texts that follow the rules *)
Lemma no_double_prefix a b : no_double_modifier (a ++ b) -> no_double_modifier a.
Proof. intros T pre x post E. apply (T pre x (post ++ b)). rewrite E, <- app_assoc. reflexivity. Qed.
Lemma glue_prefix a b : glue_alone (a ++ b) -> glue_alone a.
Proof.
  intros T pre z x post E Hz Hx. destruct (T pre z x (post ++ b)) as [H1 H2]; auto; [rewrite E, <- app_assoc; reflexivity|].
  split; [exact H1|]. intros H. specialize (H2 H). revert H2. unfold class_after. rewrite map_app, wb4_app.
  destruct (wb4 (Some (word_break x)) (map word_break post)); [reflexivity|]. cbn. auto.
Qed.
Lemma zwj_suffix a b : no_zwj_base_modifier (a ++ b) -> no_zwj_base_modifier b.
Proof. intros T pre z x post E. apply (T (a ++ pre) z x post). rewrite E, <- app_assoc. reflexivity. Qed.

Section Rules.
Context (s : str) (ps : list str).
Hypothesis SG : segments word_boundary s ps.

Lemma cut_boundary a b : ps = a ++ b -> word_boundary (concat a) (concat b) = true.
Proof.
  intros ->. destruct SG as (C & _ & I). apply I; [rewrite <- C, concat_app; reflexivity|]. exists a, b. auto.
Qed.

(** the rest of the text after [mid] does not matter to the next cut *)
Lemma next_hidden df p mid db : ps = df ++ (p :: mid) ++ db ->
  next_bound word_boundary (concat df) (concat (p :: mid)) p (concat mid).
Proof.
  intros EP. pose proof SG as SG0. rewrite EP in SG0. cbn [app] in SG0.
  destruct (segments_next _ _ _ _ _ SG0) as (E & N & B & F). cbn [concat] in *. rewrite concat_app in *.
  assert (Q : word_boundary ((concat df ++ p) ++ concat mid) (concat db) = true).
  { pose proof (cut_boundary ((df ++ [p]) ++ mid) db) as H. rewrite !concat_app in H. cbn in H. rewrite app_nil_r in H. apply H.
    rewrite EP, <- !app_assoc. reflexivity. }
  assert (DROP : forall x y, y <> [] -> x ++ y = (concat df ++ p) ++ concat mid -> word_boundary x (y ++ concat db) = word_boundary x y).
  { intros x y Ny Exy. rewrite !wbd, cls_app. apply bnd_drop_right; [destruct y; [contradiction|discriminate]|].
    rewrite <- cls_app, Exy. exact Q. }
  split; [reflexivity|]. split; [exact N|]. split.
  - destruct (list_eq_dec N.eq_dec (concat mid) []) as [Z|Z]; [rewrite Z; apply wbd_end|]. rewrite <- DROP by auto. exact B.
  - intros m1 m2 Em N1 N2. rewrite <- DROP.
    + rewrite <- app_assoc. apply F; assumption.
    + destruct m2; [contradiction|discriminate].
    + rewrite Em, <- !app_assoc. reflexivity.
Qed.
Lemma prev_hidden df mid p db : ps = df ++ (mid ++ [p]) ++ db ->
  prev_bound word_boundary (concat (mid ++ [p])) (concat db) (concat mid) p.
Proof.
  intros EP. pose proof SG as SG0. rewrite EP in SG0. rewrite <- app_assoc in SG0. cbn [app] in SG0. rewrite app_assoc in SG0.
  destruct (segments_prev _ _ _ _ _ SG0) as (E & N & B & F).
  rewrite !concat_app in *. cbn [concat] in *. rewrite app_nil_r in *.
  assert (Q : word_boundary (concat df) (concat mid ++ p ++ concat db) = true).
  { pose proof (cut_boundary df ((mid ++ [p]) ++ db) EP) as H. rewrite !concat_app in H. cbn in H. rewrite app_nil_r, <- app_assoc in H. exact H. }
  assert (DROP : forall x y, x <> [] -> x ++ y = concat mid ++ p ++ concat db -> word_boundary (concat df ++ x) y = word_boundary x y).
  { intros x y Nx Exy. destruct x as [|x0 x]; [contradiction|]. rewrite !wbd, cls_app, cls_cons. apply bnd_drop_left.
    rewrite <- cls_app, <- cls_cons. rewrite <- wbd, app_comm_cons, Exy. exact Q. }
  split; [reflexivity|]. split; [exact N|]. split.
  - destruct (list_eq_dec N.eq_dec (concat mid) []) as [Z|Z]; [rewrite Z; reflexivity|]. rewrite <- DROP by auto. exact B.
  - intros m1 m2 Em N1 N2. rewrite <- DROP.
    + rewrite app_assoc. apply F; assumption.
    + intros H. apply app_eq_nil in H. destruct H as [_ H]. contradiction.
    + rewrite Em, <- !app_assoc. reflexivity.
Qed.

Lemma rules_next df p mid db w : ps = df ++ (p :: mid) ++ db -> w_string w = concat (p :: mid) -> wok w ->
  no_double_modifier s -> glue_alone s ->
  exists w', words_next w = Ret (w', Some (w_off w, p)) /\ w_off w' = w_off w + slen p /\ w_string w' = concat mid /\ wok w'.
Proof.
  intros EP ES [W1 W2] T1 T2. pose proof (next_hidden _ _ _ _ EP) as NB.
  assert (C : s = (concat df ++ concat (p :: mid)) ++ concat db).
  { destruct SG as [C _]. rewrite <- C, EP, !concat_app, <- app_assoc. reflexivity. }
  rewrite C in T1, T2. apply no_double_prefix in T1. apply glue_prefix in T2.
  destruct (words_next_bound (concat df) w) as (piece & rst & cache & H1 & H2 & H3); rewrite ?ES; auto.
  - destruct NB as (E & N & _). rewrite E. destruct p; [contradiction|discriminate].
  - destruct NB as (E & N & _). pose proof (cut_boundary df ((p :: mid) ++ db) EP) as B. rewrite concat_app in B.
    destruct (list_eq_dec N.eq_dec (concat (p :: mid)) []) as [Z|Z]; [rewrite Z; apply wbd_end|].
    rewrite wbd in *. rewrite cls_app in B. rewrite bnd_drop_right in B; [exact B|destruct (concat (p :: mid)); [contradiction|discriminate]|].
    rewrite <- cls_app. pose proof (cut_boundary (df ++ p :: mid) db) as B2. rewrite concat_app in B2. apply B2. rewrite EP, <- app_assoc. reflexivity.
  - rewrite <- ES. exact W1.
  - rewrite ES in H3. destruct (next_bound_unique _ _ _ _ _ _ _ H3 NB) as [-> ->].
    eexists. split; [exact H1|]. split; [reflexivity|]. split; [reflexivity|]. split; [exact H2|].
    cbn [w_string w_catb]. rewrite ES in W2. cbn [concat] in W2. apply (cacheb_suffix _ _ _ W2).
Qed.
Lemma rules_next_back df mid p db w : ps = df ++ (mid ++ [p]) ++ db -> w_string w = concat (mid ++ [p]) -> wok w ->
  no_zwj_base_modifier s ->
  exists w', words_next_back w = Ret (w', Some (w_off w + slen (concat mid), p)) /\ w_off w' = w_off w /\ w_string w' = concat mid /\ wok w'.
Proof.
  intros EP ES [W1 W2] T. pose proof (prev_hidden _ _ _ _ EP) as NB.
  assert (C : s = concat df ++ concat (mid ++ [p]) ++ concat db).
  { destruct SG as [C _]. rewrite <- C, EP, !concat_app, <- ?app_assoc. reflexivity. }
  rewrite C in T. apply zwj_suffix in T.
  assert (NE : concat (mid ++ [p]) <> []).
  { destruct NB as (E & N & _). rewrite E. intros H. apply app_eq_nil in H. destruct H; contradiction. }
  destruct (words_next_back_bound (concat db) w) as (start & piece & cache & H1 & H2 & H3); rewrite ?ES; auto.
  - pose proof (cut_boundary (df ++ mid ++ [p]) db) as B. rewrite concat_app in B. specialize (B ltac:(rewrite EP, <- (app_assoc df); reflexivity)).
    destruct (concat (mid ++ [p])) as [|x0 x] eqn:EX; [contradiction|]. rewrite wbd in *. rewrite cls_app, cls_cons in B. rewrite bnd_drop_left in B; [exact B|].
    pose proof (cut_boundary df ((mid ++ [p]) ++ db) EP) as B2. rewrite concat_app, EX, wbd in B2. cbn [app] in B2. rewrite cls_cons, cls_app in B2. exact B2.
  - rewrite <- ES. exact W2.
  - rewrite ES in H3. destruct (prev_bound_unique _ _ _ _ _ _ _ H3 NB) as [-> ->].
    eexists. split; [exact H1|]. split; [reflexivity|]. split; [reflexivity|]. split; [|exact H2].
    cbn [w_string w_cat]. rewrite ES, concat_app in W1. apply (cache_prefix _ _ _ W1).
Qed.

Lemma collect_rules fuel : no_double_modifier s -> glue_alone s -> forall df mid w, ps = df ++ mid -> w_string w = concat mid -> wok w -> length mid <= fuel ->
  collect_words fuel words_next w = Ret (Some (indexed (w_off w) mid)).
Proof.
  intros T1 T2. induction fuel; intros df mid w EP ES W L.
  - destruct mid; [|cbn in L; lia]. cbn. rewrite (proj1 (words_none w ES)). reflexivity.
  - destruct mid as [|p mid].
    + cbn. rewrite (proj1 (words_none w ES)). reflexivity.
    + destruct (rules_next df p mid [] w) as (w' & H1 & H2 & H3 & H4); auto; [rewrite app_nil_r; exact EP|].
      cbn [collect_words]. rewrite H1, (IHfuel (df ++ [p]) mid w'); auto.
      * rewrite H2. reflexivity.
      * rewrite EP, <- app_assoc. reflexivity.
      * cbn in L. lia.
Qed.
Lemma collect_rules_back fuel : no_zwj_base_modifier s -> forall mid db w, ps = mid ++ db -> w_string w = concat mid -> wok w -> length mid <= fuel ->
  collect_words fuel words_next_back w = Ret (Some (rev (indexed (w_off w) mid))).
Proof.
  intros T. induction fuel; intros mid db w EP ES W L.
  - destruct mid; [|cbn in L; lia]. cbn. rewrite (proj2 (words_none w ES)). reflexivity.
  - destruct (list_eq_dec (list_eq_dec N.eq_dec) mid []) as [->|NM].
    + cbn. rewrite (proj2 (words_none w ES)). reflexivity.
    + destruct (snoc_inv mid NM) as (m & p & ->).
      destruct (rules_next_back [] m p db w) as (w' & H1 & H2 & H3 & H4); auto.
      cbn [collect_words]. rewrite H1, (IHfuel m (p :: db) w'); auto.
      * rewrite H2, indexed_app, rev_app_distr. reflexivity.
      * rewrite EP, <- app_assoc. reflexivity.
      * rewrite app_length in L. cbn in L. lia.
Qed.

Lemma asks_rules : no_double_modifier s -> glue_alone s -> no_zwj_base_modifier s -> forall asks df mid db w,
  ps = df ++ mid ++ db -> w_string w = concat mid -> wok w ->
  exists w', run_word_asks w asks = Ret (w', deque (indexed (w_off w) mid) asks).
Proof.
  intros T1 T2 T3. induction asks as [|a asks IH]; intros df mid db w EP ES W; cbn [run_word_asks deque]; [eauto|].
  destruct a.
  - destruct mid as [|p mid].
    + rewrite (proj1 (words_none w ES)). destruct (IH df [] db w EP ES W) as (w' & H). rewrite H. eauto.
    + destruct (rules_next df p mid db w) as (w1 & H1 & H2 & H3 & H4); auto. rewrite H1.
      destruct (IH (df ++ [p]) mid db w1) as (w' & H); auto; [rewrite EP, <- app_assoc; reflexivity|].
      rewrite H, H2. cbn [indexed]. eauto.
  - destruct (list_eq_dec (list_eq_dec N.eq_dec) mid []) as [->|NM].
    + rewrite (proj2 (words_none w ES)). destruct (IH df [] db w EP ES W) as (w' & H). rewrite H. eauto.
    + destruct (snoc_inv mid NM) as (m & p & ->).
      destruct (rules_next_back df m p db w) as (w1 & H1 & H2 & H3 & H4); auto. rewrite H1.
      destruct (IH df m (p :: db) w1) as (w' & H); auto; [rewrite EP, <- !app_assoc; reflexivity|].
      rewrite H, H2. rewrite indexed_app. cbn [indexed]. rewrite rev_app_distr. cbn [rev app]. rewrite rev_involutive. eauto.
Qed.
End Rules.

Lemma words_segments s : exists ps, segments word_boundary s ps.
Proof. apply segments_exist; [reflexivity|apply wbd_end]. Qed.

Lemma words_forward s : no_double_modifier s -> glue_alone s ->
  exists ps, segments word_boundary s ps /\ word_bound_indices s = Ret (Some (indexed 0 ps)).
Proof.
  intros T1 T2. destruct (words_segments s) as (ps & SG). exists ps. split; [exact SG|].
  apply (collect_rules s ps SG (length s) T1 T2 [] ps (word_bounds_new s)); auto.
  - symmetry. apply SG.
  - apply wok_new.
  - destruct SG as (C & N & _). rewrite <- C. apply pieces_length. exact N.
Qed.
Lemma words_backward s : no_zwj_base_modifier s ->
  exists ps, segments word_boundary s ps /\ word_bound_indices_rev s = Ret (Some (rev (indexed 0 ps))).
Proof.
  intros T. destruct (words_segments s) as (ps & SG). exists ps. split; [exact SG|].
  apply (collect_rules_back s ps SG (length s) T ps [] (word_bounds_new s)); auto.
  - rewrite app_nil_r. reflexivity.
  - symmetry. apply SG.
  - apply wok_new.
  - destruct SG as (C & N & _). rewrite <- C. apply pieces_length. exact N.
Qed.
Lemma words_agree s : no_double_modifier s -> glue_alone s -> no_zwj_base_modifier s ->
  exists l, word_bound_indices s = Ret (Some l) /\ word_bound_indices_rev s = Ret (Some (rev l)).
Proof.
  intros T1 T2 T3. destruct (words_forward s T1 T2) as (ps & S1 & H1), (words_backward s T3) as (qs & S2 & H2).
  rewrite (segments_unique _ _ _ _ S2 S1) in H2. eauto.
Qed.
Lemma words_mixed s ps asks : no_double_modifier s -> glue_alone s -> no_zwj_base_modifier s -> segments word_boundary s ps ->
  exists w, run_word_asks (word_bounds_new s) asks = Ret (w, deque (indexed 0 ps) asks).
Proof.
  intros T1 T2 T3 SG. apply (asks_rules s ps SG T1 T2 T3 asks [] ps [] (word_bounds_new s)).
  - rewrite app_nil_r. reflexivity.
  - symmetry. apply SG.
  - apply wok_new.
Qed.

(** ** Words: the pieces that pass the filter *)
Lemma words_filter f s : exists ps, concat ps = s /\ Forall (fun p => p <> []) ps /\
  word_bound_indices s = Ret (Some (indexed 0 ps)) /\ words f s = Ret (Some (filter f ps)).
Proof.
  destruct (words_lossless s) as (ps & H1 & H2 & H3). exists ps. unfold words. rewrite H1.
  assert (E : forall l o, map snd (indexed o l) = l) by (induction l; intros; cbn; [|rewrite IHl]; reflexivity).
  rewrite E. auto.
Qed.

Lemma words_any_order s asks : exists ps w, concat ps = s /\ Forall (fun p => p <> []) ps /\
  run_word_asks (word_bounds_new s) asks = Ret (w, deque (indexed 0 ps) asks) /\
  let left := deque_rest (indexed 0 ps) asks in
  word_bounds_as_str w = concat (map snd left) /\
  word_bounds_size_hint w = (Nat.min (bytes (concat (map snd left))) 1, bytes (concat (map snd left))).
Proof.
  destruct (asks_any asks _ (wok_new s)) as (ps & w & P1 & P2 & P3 & P4). exists ps, w. cbv zeta.
  cbn [word_bounds_new w_off] in *. rewrite <- P4. repeat split; auto.
Qed.

(** ** Where the iterators depart from the rules *)
Lemma not_rules s l : word_bound_indices s = Ret (Some l) -> forall a b, s = a ++ b -> a <> [] -> b <> [] ->
  word_boundary a b <> existsb (fun p => Nat.eqb (fst p) (slen a)) l ->
  forall ps, segments word_boundary s ps -> word_bound_indices s <> Ret (Some (indexed 0 ps)).
Proof.
  intros H a b E Na Nb D ps SG HP. apply D. rewrite HP in H.
  assert (EL : l = indexed 0 ps) by congruence. clear H HP. subst l.
  destruct SG as (C & NE & I). pose proof (I a b E) as IA. clear I D.
  assert (X : existsb (fun p => Nat.eqb (fst p) (slen a)) (indexed 0 ps) = true <-> exists x y, ps = x ++ y /\ concat x = a).
  { split.
    - intros HX. apply existsb_exists in HX. destruct HX as ([o q] & IN & Q). apply Nat.eqb_eq in Q. cbn [fst] in Q.
      assert (SP : forall l k, In (o, q) (indexed k l) -> exists x y, l = x ++ q :: y /\ o = k + slen (concat x)).
      { clear. induction l as [|p l IH]; intros k IN; [destruct IN|]. destruct IN as [IN|IN].
        - exists [], l. injection IN as <- <-. split; [reflexivity|cbn; lia].
        - destruct (IH _ IN) as (x & y & -> & ->). exists (p :: x), y. split; [reflexivity|]. cbn [concat]. rewrite slen_app. change bytes with slen. lia. }
      destruct (SP _ _ IN) as (x & y & EP & EO). exists x, (q :: y). split; [exact EP|].
      rewrite EP, concat_app in C. assert (SL : slen (concat x) = slen a) by lia.
      assert (SA : split_at s (slen a) = Some (a, b)) by (rewrite E; apply split_at_app).
      rewrite <- SL, <- C, split_at_app in SA. congruence.
    - intros (x & y & EP & EX). apply existsb_exists. destruct y as [|q y].
      + exfalso. rewrite app_nil_r in EP. subst x. rewrite EX in C. rewrite E in C. apply (f_equal (@length _)) in C. rename C into E0. rewrite app_length in E0. destruct b; [contradiction|cbn in E0; lia].
      + exists (slen a, q). split; [|apply Nat.eqb_refl]. rewrite EP, indexed_app. apply in_or_app. right. left. rewrite EX. reflexivity. }
  destruct (word_boundary a b) eqn:WBE.
  - symmetry. apply X. destruct (proj1 IA eq_refl) as (x & y & H1 & H2). exists x, y. auto.
  - destruct (existsb _ _) eqn:EE; [|reflexivity]. destruct (proj1 X eq_refl) as (x & y & EP & EX).
    apply IA. exists x, y. auto.
Qed.

(** The word iterator on a text from which pieces are cut off. *)
From Coq Require Import List NArith Lia Bool Arith.
Import ListNotations.
From Verif Require Import Base Enums TableTypes UcdModel BidiModel BidiLemmas GraphSpec SegLemmas SegConcat GraphIter
  WordModel WordSpec WordTables WordRules WordForward WordBackward WordLocal WordIter.
Open Scope nat_scope.
Local Opaque word_break wb.

(** ** The loop only looks at what follows the piece to see where the piece ends *)
Lemma match_ncat st c n n' : settled st = true -> fwd_match st c n = fwd_match st c n'.
Proof. intros H. destruct st; try reflexivity. discriminate H. Qed.
Lemma settled_start st : settled st = true -> is_start st = false.
Proof. destruct st; try reflexivity. discriminate. Qed.

Lemma end_whole m m' z v : m = m' ++ [z] -> f_idx v = slen m' -> f_take_curr v = true -> is_req (f_state v) = false ->
  forall r, fwd_end (m ++ r) v = Ret (slen m, None).
Proof.
  intros EM HI HT RQ r. unfold fwd_end. rewrite rewind_not, HT, HI, EM, <- app_assoc, split_at_app, slen_app by exact RQ. cbn.
  rewrite Nat.add_0_r. reflexivity.
Qed.

Lemma fwd_loop_least : forall rest m m' z v, m = m' ++ [z] -> f_idx v = slen m' -> f_take_curr v = true -> cache_ok rest (f_self v) ->
  settled (f_state v) = true -> forall v' n k, fwd_loop rest (slen m) v = Ret v' -> fwd_end (m ++ rest) v' = Ret (n, k) ->
  if is_req (f_state v) then n = f_saveidx v \/ slen m < n else slen m <= n.
Proof.
  induction rest as [|y rest IH]; intros m m' z v EM HI HT HC HS v' n k HL HE.
  - cbn [fwd_loop] in HL. injection HL as <-. destruct (is_req (f_state v)) eqn:RQ.
    + rewrite rewind_req in HE by exact RQ. injection HE as <- _. left. reflexivity.
    + rewrite (end_whole _ _ _ _ EM HI HT RQ) in HE. injection HE as <- _. lia.
  - cbn [fwd_loop] in HL.
    assert (EC : match f_self v with Some c => c | None => wb y end = wb y) by (destruct (f_self v); [exact HC|reflexivity]).
    rewrite EC in HL. clear EC HC.
    assert (EMY : slen m + clen y = slen (m ++ [y])) by (rewrite slen_app; cbn; lia). rewrite EMY in HL.
    assert (ES : m ++ y :: rest = (m ++ [y]) ++ rest) by (rewrite <- app_assoc; reflexivity). rewrite ES in HE.
    assert (LT : slen m < slen (m ++ [y])) by (rewrite slen_app; pose proof (slen_pos [y] ltac:(discriminate)); lia).
    match type of HL with context [fwd_match _ _ ?n] => set (ncat := n) in HL end. clearbody ncat.
    pose proof (fwd_match_shape (f_state v) (wb y) ncat HS) as SH.
    destruct (negb (is_start (f_state v)) && extend_format_zwj (wb y)).
    { match type of HL with fwd_loop _ _ ?w = _ => pose proof (IH (m ++ [y]) m y w eq_refl eq_refl eq_refl I HS _ _ _ HL HE) as H end. cbn [f_state f_saveidx] in H. destruct (is_req (f_state v)); lia. }
    destruct (WB_eqb (f_cat v) WB_ZWJ && WB_eqb (wb y) WB_GlueAfterZwj).
    { match type of HL with fwd_loop _ _ ?w = _ => pose proof (IH (m ++ [y]) m y w eq_refl eq_refl eq_refl I HS _ _ _ HL HE) as H end. cbn [f_state f_saveidx] in H. destruct (is_req (f_state v)); lia. }
    destruct (WB_eqb (f_cat v) WB_ZWJ && WB_eqb (wb y) WB_EBaseGAZ).
    { match type of HL with fwd_loop _ _ ?w = _ => pose proof (IH (m ++ [y]) m y w eq_refl eq_refl eq_refl I eq_refl _ _ _ HL HE) as H end. cbn in H. destruct (is_req (f_state v)); lia. }
    destruct (fwd_match (f_state v) (wb y) ncat) as [s|s|c|[|inc] tc tk|] eqn:FM; try contradiction.
    + destruct SH as [H1 H2]. match type of HL with fwd_loop _ _ ?w = _ => pose proof (IH (m ++ [y]) m y w eq_refl eq_refl eq_refl I H1 _ _ _ HL HE) as H end. cbn [f_state f_saveidx] in H.
      rewrite H2 in H. destruct (is_req (f_state v)); lia.
    + destruct SH as [H1 H2]. match type of HL with fwd_loop _ _ ?w = _ => pose proof (IH (m ++ [y]) m y w eq_refl eq_refl eq_refl I H1 _ _ _ HL HE) as H end. cbn [f_state f_saveidx] in H.
      rewrite H2 in H. destruct (is_req (f_state v)) eqn:RQ; [|lia].
      exfalso. destruct (f_state v) as [| | | | | |[]|[]| |]; try discriminate RQ; destruct (wb y); discriminate FM.
    + injection HL as <-. destruct (is_req (f_state v)) eqn:RQ.
      * rewrite rewind_req in HE by exact RQ. cbn [f_saveidx] in HE. injection HE as <- _. left. reflexivity.
      * destruct SH as [-> |SH]; [|discriminate SH]. unfold fwd_end in HE. rewrite rewind_not in HE by exact RQ. cbn in HE. injection HE as <- _. lia.
Qed.

Lemma fwd_loop_truncate tail : forall rest m m' z v, m = m' ++ [z] -> f_idx v = slen m' -> f_take_curr v = true -> cache_ok (rest ++ tail) (f_self v) ->
  settled (f_state v) = true -> forall v' n k, fwd_loop (rest ++ tail) (slen m) v = Ret v' -> fwd_end (m ++ rest ++ tail) v' = Ret (n, k) ->
  n <= slen (m ++ rest) -> exists v2 k2, fwd_loop rest (slen m) v = Ret v2 /\ fwd_end (m ++ rest) v2 = Ret (n, k2).
Proof.
  induction rest as [|y rest IH]; intros m m' z v EM HI HT HC HS v' n k HL HE HN.
  - rewrite app_nil_r in *. cbn [app] in *. exists v. cbn [fwd_loop].
    pose proof (fwd_loop_least _ _ _ _ _ EM HI HT HC HS _ _ _ HL HE) as H.
    destruct (is_req (f_state v)) eqn:RQ.
    + rewrite rewind_req by exact RQ. eexists. split; [reflexivity|]. f_equal. f_equal. lia.
    + pose proof (end_whole _ _ _ _ EM HI HT RQ []) as E. rewrite app_nil_r in E. rewrite E. exists None. split; [reflexivity|]. f_equal. f_equal. lia.
  - cbn [fwd_loop app] in *.
    assert (EC : match f_self v with Some c => c | None => wb y end = wb y) by (destruct (f_self v); [exact HC|reflexivity]).
    rewrite EC in *. clear EC HC.
    assert (EMY : slen m + clen y = slen (m ++ [y])) by (rewrite slen_app; cbn; lia). rewrite EMY in *.
    assert (ES : forall t, m ++ y :: t = (m ++ [y]) ++ t) by (intros t; rewrite <- app_assoc; reflexivity). rewrite (ES (rest ++ tail)) in HE. rewrite (ES rest) in HN |- *.
    rewrite (match_ncat (f_state v) (wb y) (match rest with [] => None | n :: _ => Some (wb n) end) (match rest ++ tail with [] => None | n :: _ => Some (wb n) end) HS).
    match type of HL with context [fwd_match _ _ ?n] => set (ncat := n) in * end. clearbody ncat.
    pose proof (fwd_match_shape (f_state v) (wb y) ncat HS) as SH.
    destruct (negb (is_start (f_state v)) && extend_format_zwj (wb y)).
    { match type of HL with fwd_loop _ _ ?w = _ => exact (IH (m ++ [y]) m y w eq_refl eq_refl eq_refl I HS _ _ _ HL HE HN) end. }
    destruct (WB_eqb (f_cat v) WB_ZWJ && WB_eqb (wb y) WB_GlueAfterZwj).
    { match type of HL with fwd_loop _ _ ?w = _ => exact (IH (m ++ [y]) m y w eq_refl eq_refl eq_refl I HS _ _ _ HL HE HN) end. }
    destruct (WB_eqb (f_cat v) WB_ZWJ && WB_eqb (wb y) WB_EBaseGAZ).
    { match type of HL with fwd_loop _ _ ?w = _ => exact (IH (m ++ [y]) m y w eq_refl eq_refl eq_refl I eq_refl _ _ _ HL HE HN) end. }
    destruct (fwd_match (f_state v) (wb y) ncat) as [s|s|c|[|inc] tc tk|] eqn:FM; try contradiction.
    + destruct SH as [H1 H2]. match type of HL with fwd_loop _ _ ?w = _ => exact (IH (m ++ [y]) m y w eq_refl eq_refl eq_refl I H1 _ _ _ HL HE HN) end.
    + destruct SH as [H1 H2]. match type of HL with fwd_loop _ _ ?w = _ => exact (IH (m ++ [y]) m y w eq_refl eq_refl eq_refl I H1 _ _ _ HL HE HN) end.
    + injection HL as <-. eexists. exists k. split; [reflexivity|]. rewrite <- HE. destruct (is_req (f_state v)) eqn:RQ.
      * rewrite !rewind_req by exact RQ. reflexivity.
      * destruct SH as [-> |SH]; [|discriminate SH]. unfold fwd_end. rewrite !rewind_not by exact RQ. reflexivity.
Qed.

(** ** One call: the piece at the start of a text *)
Definition start_vars : fvars := FV 0 0 WStart WB_Other WB_Other true true None.
Definition first_piece (S p : str) : Prop := exists r v k, S = p ++ r /\ p <> [] /\ fwd_loop S 0 start_vars = Ret v /\ fwd_end S v = Ret (slen p, k).

Lemma first_exists S : S <> [] -> exists p, first_piece S p.
Proof.
  intros N. destruct (fwd_start_cuts S None N I) as (v & p & r & k & H1 & H2 & H3 & H4 & H5).
  exists p, r, v, k. auto.
Qed.
Lemma first_unique S p q : first_piece S p -> first_piece S q -> p = q.
Proof.
  intros (r & v & k & E & _ & H1 & H2) (r' & v' & k' & E' & _ & H1' & H2'). rewrite H1 in H1'. injection H1' as <-.
  rewrite H2 in H2'. injection H2' as L _. rewrite E in E'. destruct (slen_len_inj _ _ _ _ E' L). assumption.
Qed.

Lemma start_cache S cat : S <> [] -> cache_ok S cat -> fwd_loop S 0 (FV 0 0 WStart WB_Other WB_Other true true cat) = fwd_loop S 0 start_vars.
Proof.
  intros N C. destruct S as [|y rest]; [contradiction|]. destruct cat as [c|]; [|reflexivity].
  cbn [cache_ok] in C. unfold start_vars. cbn [fwd_loop f_self f_cat f_state f_saveidx f_savecat]. rewrite C. reflexivity.
Qed.

Lemma words_next_first w p r : w_string w = p ++ r -> first_piece (p ++ r) p -> wok w ->
  exists cache, words_next w = Ret (WBs (w_off w + slen p) r cache (w_catb w), Some (w_off w, p)) /\ wok (WBs (w_off w + slen p) r cache (w_catb w)).
Proof.
  intros E F W. assert (N : w_string w <> []) by (destruct F as (? & ? & ? & _ & N & _); rewrite E; destruct p; [contradiction|discriminate]).
  destruct (words_next_cuts w N W) as (q & r' & cache & H1 & H2 & H3 & H4).
  assert (Q : first_piece (w_string w) q).
  { destruct (fwd_start_cuts _ _ N (proj1 W)) as (v & q' & r2 & k & J1 & J2 & J3 & J4 & J5).
    rewrite (start_cache _ _ N (proj1 W)) in J1.
    assert (q' = q).
    { pose proof (start_cache _ _ N (proj1 W)) as SC. unfold words_next in H1. destruct (w_string w) as [|y t] eqn:EW; [contradiction|].
      rewrite SC, J1 in H1. cbn [obind] in H1. rewrite J4 in H1. cbn [obind fst snd] in H1.
      rewrite J2, split_at_app in H1. injection H1 as _ _ _ H1. exact H1. }
    subst q'. exists r2, v, k. auto. }
  rewrite E in Q, H2. pose proof (first_unique _ _ _ F Q) as <-. apply app_inv_head in H2. subst r'. exists cache. auto.
Qed.

(** the pieces of a text, call by call *)
Inductive fpieces : str -> list str -> Prop :=
| fp_nil : fpieces [] []
| fp_cons p r ps : first_piece (p ++ r) p -> fpieces r ps -> fpieces (p ++ r) (p :: ps).

Lemma collect_fpieces fuel : forall w ps, fpieces (w_string w) ps -> wok w -> length (w_string w) <= fuel ->
  collect_words fuel words_next w = Ret (Some (indexed (w_off w) ps)).
Proof.
  induction fuel; intros w ps F W L; inversion F as [E1 E2|p r qs F1 F2 E1 E2].
  - cbn [collect_words]. rewrite (proj1 (words_none w (eq_sym E1))). reflexivity.
  - exfalso. destruct F1 as (? & ? & ? & _ & N & _). rewrite <- E1, app_length in L. destruct p; [contradiction|]. cbn in L. lia.
  - cbn [collect_words]. rewrite (proj1 (words_none w (eq_sym E1))). reflexivity.
  - destruct (words_next_first w p r (eq_sym E1) F1 W) as (cache & H1 & H2). cbn [collect_words]. rewrite H1.
    rewrite (IHfuel (WBs (w_off w + slen p) r cache (w_catb w)) qs F2 H2); [reflexivity|].
    cbn [w_string]. rewrite <- E1, app_length in L. destruct F1 as (? & ? & ? & _ & N & _). destruct p; [contradiction|]. cbn in L. lia.
Qed.
Lemma fpieces_exist n : forall s, length s <= n -> exists ps, fpieces s ps.
Proof.
  induction n; intros s L.
  - destruct s; [|cbn in L; lia]. exists []. constructor.
  - destruct s as [|y s]; [exists []; constructor|]. destruct (first_exists (y :: s) ltac:(discriminate)) as [p F].
    pose proof F as (r & v & k & E & N & _). destruct (IHn r) as [ps P].
    { rewrite E, app_length in L. destruct p; [contradiction|]. cbn in L. lia. }
    exists (p :: ps). rewrite E in *. constructor; assumption.
Qed.
Lemma words_iff s ps : word_bound_indices s = Ret (Some (indexed 0 ps)) <-> fpieces s ps.
Proof.
  destruct (fpieces_exist (length s) s (Nat.le_refl _)) as [qs Q].
  pose proof (collect_fpieces (length s) (word_bounds_new s) qs Q (wok_new s) (Nat.le_refl _)) as H.
  fold (word_bound_indices s) in H. cbn [w_off word_bounds_new] in H. split.
  - intros E. rewrite H in E. injection E as E. apply indexed_inj in E. subst. exact Q.
  - intros P. exact (collect_fpieces (length s) (word_bounds_new s) ps P (wok_new s) (Nat.le_refl _)).
Qed.

(** ** Cutting *)
Lemma first_truncate p r1 r2 : first_piece (p ++ r1 ++ r2) p -> first_piece (p ++ r1) p.
Proof.
  intros (r & v & k & E & N & HL & HE). apply app_inv_head in E. subst r.
  exists r1. destruct p as [|y p]; [contradiction|].
  assert (G : exists v2 k2, fwd_loop ((y :: p) ++ r1) 0 start_vars = Ret v2 /\ fwd_end ((y :: p) ++ r1) v2 = Ret (slen (y :: p), k2)).
  2:{ destruct G as (v2 & k2 & G1 & G2). exists v2, k2. auto. }
  cbn [app] in *. unfold start_vars in *. cbn [fwd_loop f_cat f_self f_state is_start negb andb f_saveidx f_savecat] in *.
  change (WB_eqb WB_Other WB_ZWJ) with false in *. cbn [andb Nat.add] in *.
  assert (EY : clen y = slen [y]) by (cbn; lia). rewrite EY in *.
  assert (NX : forall s self, settled s = true -> is_req s = false -> cache_ok (p ++ r1 ++ r2) self ->
    fwd_loop (p ++ r1 ++ r2) (slen [y]) (FV 0 0 s (wb y) WB_Other true true self) = Ret v ->
    exists v2 k2, fwd_loop (p ++ r1) (slen [y]) (FV 0 0 s (wb y) WB_Other true true self) = Ret v2 /\ fwd_end (y :: p ++ r1) v2 = Ret (slen (y :: p), k2)).
  { intros s self H1 H2 H3 H4. rewrite app_assoc in H3, H4, HE.
    apply (fwd_loop_truncate r2 (p ++ r1) [y] [] y (FV 0 0 s (wb y) WB_Other true true self) eq_refl eq_refl eq_refl H3 H1 _ _ _ H4 HE).
    change ([y] ++ p ++ r1) with ((y :: p) ++ r1). rewrite slen_app. lia. }
  assert (ONE : v = FV 0 0 WStart (wb y) WB_Other true true None -> p = [] /\
    forall r, exists k2, fwd_end (y :: r) (FV 0 0 WStart (wb y) WB_Other true true None) = Ret (slen (y :: p), k2)).
  { intros ->. unfold fwd_end, fwd_rewind in HE |- *. cbn [f_state f_take_curr f_idx split_at Nat.add] in HE |- *. injection HE as HE _.
    destruct p as [|x p]; [split; [reflexivity|]; intros r; exists None; rewrite EY; reflexivity|].
    exfalso. pose proof (slen_pos (x :: p) ltac:(discriminate)). lia. }
  assert (HD : p <> [] -> match p ++ r1 with [] => None | n :: _ => Some (wb n) end = match p ++ r1 ++ r2 with [] => None | n :: _ => Some (wb n) end).
  { destruct p; [contradiction|reflexivity]. }
  assert (SKIP : forall n, match p ++ r1 ++ r2 with [] => None | m :: _ => Some (wb m) end = Some n -> extend_format_zwj n = true ->
    fwd_loop (p ++ r1 ++ r2) (slen [y]) (FV 0 0 (WFormatExtend AcceptNone) (wb y) WB_Other true true (Some n)) = Ret v -> p <> []).
  { intros n E X H ->. cbn [app] in *. destruct (r1 ++ r2) as [|x t]; [discriminate E|]. injection E as <-.
    cbn [fwd_loop f_self f_state is_start negb andb f_saveidx f_savecat] in H. rewrite X in H.
    assert (ET : slen [y] + clen x = slen [y; x]) by (cbn; lia). rewrite ET in H.
    match type of H with fwd_loop _ _ ?w = _ => pose proof (fwd_loop_least t [y; x] [y] x w eq_refl eq_refl eq_refl I eq_refl _ _ _ H HE) as G end. cbn [f_state is_req] in G.
    change [y; x] with ([y] ++ [x]) in G. rewrite slen_app in G. pose proof (slen_pos [x] ltac:(discriminate)). lia. }
  assert (DEF : (match match p ++ r1 ++ r2 with [] => None | n :: _ => Some (wb n) end with
                 | Some n => if extend_format_zwj n then FSkip n else FBreak 0 true true
                 | None => FBreak 0 true true end) = fwd_match WStart (wb y) (match p ++ r1 ++ r2 with [] => None | n :: _ => Some (wb n) end) ->
                (match match p ++ r1 with [] => None | n :: _ => Some (wb n) end with
                 | Some n => if extend_format_zwj n then FSkip n else FBreak 0 true true
                 | None => FBreak 0 true true end) = fwd_match WStart (wb y) (match p ++ r1 with [] => None | n :: _ => Some (wb n) end) -> 
    exists v2 k2, match fwd_match WStart (wb y) (match p ++ r1 with [] => None | n :: _ => Some (wb n) end) with
      | FNext s => fwd_loop (p ++ r1) (slen [y]) (FV 0 0 s (wb y) WB_Other true true None)
      | FSave s => fwd_loop (p ++ r1) (slen [y]) (FV 0 0 s (wb y) (wb y) true true None)
      | FSkip c => fwd_loop (p ++ r1) (slen [y]) (FV 0 0 (WFormatExtend AcceptNone) (wb y) WB_Other true true (Some c))
      | FBreak inc tc tk => Ret (FV inc 0 WStart (wb y) WB_Other tc tk None)
      | FUnreachable => Panic end = Ret v2 /\ fwd_end (y :: p ++ r1) v2 = Ret (slen (y :: p), k2)).
  { intros D1 D2. rewrite <- D1 in HL. rewrite <- D2. clear D1 D2.
    destruct (list_eq_dec N.eq_dec p []) as [EP|NP].
    - destruct (match p ++ r1 ++ r2 with [] => None | n :: _ => Some (wb n) end) as [n|] eqn:EN.
      + destruct (extend_format_zwj n) eqn:X; [exfalso; exact (SKIP n eq_refl X HL EP)|].
        injection HL as <-. destruct (ONE eq_refl) as [_ H]. destruct (H (p ++ r1)) as [k2 H2].
        subst p. cbn [app] in *. destruct r1 as [|x r1]; [eauto|]. cbn [app] in EN. injection EN as <-. rewrite X. eauto.
      + injection HL as <-. destruct (ONE eq_refl) as [_ H]. destruct (H (p ++ r1)) as [k2 H2].
        subst p. cbn [app] in *. destruct r1 as [|x r1]; [eauto|discriminate EN].
    - rewrite (HD NP). destruct (match p ++ r1 ++ r2 with [] => None | n :: _ => Some (wb n) end) as [n|] eqn:EN.
      + destruct (extend_format_zwj n) eqn:X.
        * apply NX; auto. destruct (p ++ r1 ++ r2); [discriminate EN|]. injection EN as <-. reflexivity.
        * injection HL as <-. exfalso. apply NP. apply ONE. reflexivity.
      + injection HL as <-. exfalso. apply NP. apply ONE. reflexivity. }
  destruct (wb y) eqn:WY; try (apply NX; [reflexivity|reflexivity|exact I|exact HL]); try (apply DEF; reflexivity);
    try (cbn [fwd_match] in *; injection HL as <-; destruct (ONE eq_refl) as [_ H]; destruct (H (p ++ r1)) as [k2 H2]; eauto).
  (* CR *)
  cbn [fwd_match] in *. destruct (list_eq_dec N.eq_dec p []) as [EP|NP].
  - subst p. cbn [app] in *. destruct (match r1 ++ r2 with [] => None | n :: _ => Some (wb n) end) as [n|] eqn:EN.
    + assert (NLF : n <> WB_LF).
      { intros ->. injection HL as <-. destruct (r1 ++ r2) as [|x t]; [discriminate EN|]. unfold fwd_end, fwd_rewind in HE. cbn [f_state f_take_curr f_idx] in HE.
        replace 1 with (slen [y]) in HE at 1 by (cbn; rewrite (cr_clen y WY); reflexivity).
        change (y :: x :: t) with ([y] ++ x :: t) in HE. rewrite split_at_app in HE. injection HE as HE _.
        rewrite (cr_clen y WY) in HE. pose proof (slen_pos [x] ltac:(discriminate)) as P. change (slen [x]) with (clen x + 0) in P. lia. }
      assert (v = FV 0 0 WStart WB_CR WB_Other true true None) by (destruct n; try contradiction; injection HL as <-; reflexivity).
      destruct (ONE H) as [_ H2]. destruct (H2 r1) as [k2 H3].
      destruct r1 as [|x r1]; [eauto|]. cbn [app] in EN. injection EN as EN. rewrite EN. destruct n; try contradiction; eauto.
    + injection HL as <-. destruct (ONE eq_refl) as [_ H]. destruct (H r1) as [k2 H2]. destruct r1; [eauto|discriminate EN].
  - rewrite (HD NP). destruct (match p ++ r1 ++ r2 with [] => None | n :: _ => Some (wb n) end) as [n|] eqn:EN.
    + destruct n; try (injection HL as <-; exfalso; apply NP; apply ONE; reflexivity).
      injection HL as <-. eexists. exists k. split; [reflexivity|]. rewrite <- HE. unfold fwd_end, fwd_rewind. cbn [f_state f_take_curr f_idx].
      destruct p as [|x p]; [contradiction|]. cbn [app].
      replace 1 with (slen [y]) by (cbn; rewrite (cr_clen y WY); reflexivity).
      change (y :: x :: p ++ r1) with ([y] ++ x :: p ++ r1). change (y :: x :: p ++ r1 ++ r2) with ([y] ++ x :: p ++ r1 ++ r2).
      rewrite !split_at_app. reflexivity.
    + injection HL as <-. exfalso. apply NP. apply ONE. reflexivity.
Qed.

Lemma fpieces_concat s ps : fpieces s ps -> concat ps = s.
Proof. induction 1; [reflexivity|]. cbn. congruence. Qed.

Lemma fpieces_cut ps : forall s qs, fpieces s (ps ++ qs) -> fpieces (concat ps) ps /\ fpieces (concat qs) qs.
Proof.
  induction ps as [|p ps IH]; intros s qs F; cbn [app concat] in *.
  - split; [constructor|]. rewrite (fpieces_concat _ _ F). exact F.
  - inversion F as [|? r ? F1 F2]; subst. destruct (IH _ _ F2) as [H1 H2]. split; [|exact H2].
    constructor; [|exact H1]. pose proof (fpieces_concat _ _ F2) as C. rewrite concat_app in C. rewrite <- C in F1. exact (first_truncate _ _ _ F1).
Qed.

Lemma words_cut s ps qs : word_bound_indices s = Ret (Some (indexed 0 (ps ++ qs))) ->
  word_bound_indices (concat ps) = Ret (Some (indexed 0 ps)) /\ word_bound_indices (concat qs) = Ret (Some (indexed 0 qs)).
Proof. rewrite !words_iff. apply fpieces_cut. Qed.
Lemma words_single s ps : word_bound_indices s = Ret (Some (indexed 0 ps)) -> Forall (fun p => word_bound_indices p = Ret (Some [(0, p)])) ps.
Proof.
  intros H. apply Forall_forall. intros p IN. apply in_split in IN. destruct IN as (a & b & ->).
  destruct (words_cut _ _ _ H) as [_ H2]. change (p :: b) with ([p] ++ b) in H2. destruct (words_cut _ _ _ H2) as [H3 _].
  cbn [concat] in H3. rewrite app_nil_r in H3. exact H3.
Qed.

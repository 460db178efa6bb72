(** What the word iterator never cuts apart, on any text: a character and the
    marks after it, and two letters. *)
From Coq Require Import List NArith Lia Bool Arith.
Import ListNotations.
From Verif Require Import Base Enums TableTypes UcdModel BidiModel BidiLemmas GraphSpec SegLemmas SegConcat GraphIter
  WordModel WordSpec WordTables WordRules WordForward WordBackward WordLocal WordIter WordConcat.
Open Scope nat_scope.
Local Opaque word_break wb.

Definition newline (w : WB) : bool := match w with WB_Newline | WB_CR | WB_LF => true | _ => false end.
Definition letter (w : WB) : bool := match w with WB_ALetter => true | _ => false end.
Definition apart (z x : N) : Prop := newline (wb z) = true \/ (extend_format_zwj (wb x) = false /\ letter (wb z) && letter (wb x) = false).
Definition edge (S : str) (n : nat) : Prop := forall p z x r, S = (p ++ [z]) ++ x :: r -> slen (p ++ [z]) = n -> apart z x.

Lemma edge_at p z x r : apart z x -> edge ((p ++ [z]) ++ x :: r) (slen (p ++ [z])).
Proof.
  intros A p' z' x' r' E L. destruct (slen_len_inj _ _ _ _ E (eq_sym L)) as [E1 E2]. apply app_inj_tail in E1 as [_ <-]. injection E2 as <- _. exact A.
Qed.
Lemma edge_end S : edge S (slen S).
Proof.
  intros p z x r E L. exfalso. rewrite E in L. pose proof (slen_app (p ++ [z]) (x :: r)) as A. pose proof (slen_pos (x :: r) ltac:(discriminate)). lia.
Qed.

Lemma match_letter st n s : fwd_match st WB_ALetter n = FNext s -> s = WLetter.
Proof. destruct st as [| | | | | |[]|[]| |]; cbn [fwd_match]; intros H; try discriminate H; injection H as <-; reflexivity. Qed.
Lemma match_save st c n s : settled st = true -> fwd_match st c n = FSave s -> extend_format_zwj c = false /\ letter c = false.
Proof. intros H. destruct st as [| | | | | |[]|[]| |]; try discriminate H; destruct c; cbn [fwd_match]; intros E; try discriminate E; auto. Qed.

Lemma fwd_loop_edge : forall rest m m' z v, m = m' ++ [z] -> f_idx v = slen m' -> f_take_curr v = true -> cache_ok rest (f_self v) ->
  settled (f_state v) = true -> (letter (wb z) = true -> f_state v = WLetter) ->
  (is_req (f_state v) = true -> exists m0 q x, m = m0 ++ q :: x /\ f_saveidx v = slen m0 /\ extend_format_zwj (wb q) = false /\ letter (wb q) = false) ->
  forall v' n k, fwd_loop rest (slen m) v = Ret v' -> fwd_end (m ++ rest) v' = Ret (n, k) -> edge (m ++ rest) n.
Proof.
  induction rest as [|y rest IH]; intros m m' z v EM HI HT HC HS HZ HR v' n k HL HE.
  - cbn [fwd_loop] in HL. injection HL as <-. destruct (is_req (f_state v)) eqn:RQ.
    + rewrite rewind_req in HE by exact RQ. injection HE as <- _. destruct (HR eq_refl) as (m0 & q & x & E1 & E2 & E3 & E4).
      rewrite app_nil_r, E1, E2. intros p z' x' r E L. destruct (slen_len_inj _ _ _ _ E (eq_sym L)) as [F1 F2]. injection F2 as <- _.
      right. rewrite E3, E4, andb_false_r. auto.
    + rewrite (end_whole _ _ _ _ EM HI HT RQ) in HE. injection HE as <- _. rewrite app_nil_r. apply edge_end.
  - cbn [fwd_loop] in HL.
    assert (EC : match f_self v with Some c => c | None => wb y end = wb y) by (destruct (f_self v); [exact HC|reflexivity]).
    rewrite EC in HL. clear EC HC.
    assert (EMY : slen m + clen y = slen (m ++ [y])) by (rewrite slen_app; cbn; lia). rewrite EMY in HL.
    assert (ES : m ++ y :: rest = (m ++ [y]) ++ rest) by (rewrite <- app_assoc; reflexivity).
    assert (HR2 : is_req (f_state v) = true -> exists m0 q x, m ++ [y] = m0 ++ q :: x /\ f_saveidx v = slen m0 /\ extend_format_zwj (wb q) = false /\ letter (wb q) = false).
    { intros RQ. destruct (HR RQ) as (m0 & q & x & E1 & E2 & E3 & E4). exists m0, q, (x ++ [y]). rewrite E1, <- app_assoc. repeat split; auto. }
    match type of HL with context [fwd_match _ _ ?n] => set (ncat := n) in HL end. clearbody ncat.
    pose proof (fwd_match_shape (f_state v) (wb y) ncat HS) as SH.
    rewrite (settled_start _ HS) in HL. cbn [negb andb] in HL.
    destruct (extend_format_zwj (wb y)) eqn:EX.
    { rewrite ES in HE |- *. match type of HL with fwd_loop _ _ ?w = _ => refine (IH (m ++ [y]) m y w eq_refl eq_refl eq_refl I HS _ HR2 _ _ _ HL HE) end. intros L. exfalso. destruct (wb y); discriminate. }
    destruct (WB_eqb (f_cat v) WB_ZWJ && WB_eqb (wb y) WB_GlueAfterZwj) eqn:EG.
    { rewrite ES in HE |- *. match type of HL with fwd_loop _ _ ?w = _ => refine (IH (m ++ [y]) m y w eq_refl eq_refl eq_refl I HS _ HR2 _ _ _ HL HE) end. intros L. exfalso.
      apply andb_true_iff in EG as [_ EG]. destruct (wb y); discriminate. }
    destruct (WB_eqb (f_cat v) WB_ZWJ && WB_eqb (wb y) WB_EBaseGAZ) eqn:EB.
    { rewrite ES in HE |- *. match type of HL with fwd_loop _ _ ?w = _ => refine (IH (m ++ [y]) m y w eq_refl eq_refl eq_refl I eq_refl _ _ _ _ _ HL HE) end; [|discriminate]. intros L. exfalso.
      apply andb_true_iff in EB as [_ EB]. destruct (wb y); discriminate. }
    destruct (fwd_match (f_state v) (wb y) ncat) as [s|s|c|[|inc] tc tk|] eqn:FM; try contradiction.
    + destruct SH as [H1 H2]. rewrite ES in HE |- *. match type of HL with fwd_loop _ _ ?w = _ => refine (IH (m ++ [y]) m y w eq_refl eq_refl eq_refl I H1 _ _ _ _ _ HL HE) end; cbn [f_state].
      * intros L. destruct (wb y); try discriminate L. exact (match_letter _ _ _ FM).
      * rewrite H2. discriminate.
    + destruct SH as [H1 H2]. destruct (match_save _ _ _ _ HS FM) as [M1 M2]. rewrite ES in HE |- *.
      match type of HL with fwd_loop _ _ ?w = _ => refine (IH (m ++ [y]) m y w eq_refl eq_refl eq_refl I H1 _ _ _ _ _ HL HE) end; cbn [f_state f_saveidx].
      * rewrite M2. discriminate.
      * intros _. exists m, y, []. auto.
    + injection HL as <-. destruct (is_req (f_state v)) eqn:RQ.
      * rewrite rewind_req in HE by exact RQ. cbn [f_saveidx] in HE. injection HE as <- _. destruct (HR eq_refl) as (m0 & q & x & E1 & E2 & E3 & E4).
        rewrite E1, E2. intros p z' x' r E L. rewrite <- app_assoc in E. destruct (slen_len_inj _ _ _ _ E (eq_sym L)) as [F1 F2]. injection F2 as <- _.
        right. rewrite E3, E4, andb_false_r. auto.
      * destruct SH as [-> |SH]; [|discriminate SH]. unfold fwd_end in HE. rewrite rewind_not in HE by exact RQ. cbn in HE. injection HE as <- _.
        rewrite Nat.add_0_r, EM. apply edge_at. right. split; [exact EX|].
        destruct (letter (wb z)) eqn:LZ; [|reflexivity]. destruct (letter (wb y)) eqn:LY; [|reflexivity]. exfalso. rewrite (HZ eq_refl) in FM.
        destruct (wb y); discriminate.
Qed.

Lemma first_piece_edge S p : first_piece S p -> edge S (slen p).
Proof.
  intros (r & v' & k & ES & NP & HL & HE). destruct S as [|y rest]; [destruct p; [contradiction|discriminate ES]|].
  unfold start_vars in HL. cbn [fwd_loop f_cat f_self f_state is_start negb andb f_saveidx f_savecat] in HL.
  change (WB_eqb WB_Other WB_ZWJ) with false in HL. cbn [andb] in HL.
  set (ncat := match rest with [] => None | n :: _ => Some (wb n) end) in HL.
  assert (EY : clen y = slen [y]) by (cbn; lia). cbn [Nat.add] in HL. rewrite EY in HL.
  assert (NX : forall s self, settled s = true -> is_req s = false -> cache_ok rest self -> (letter (wb y) = true -> s = WLetter) ->
    fwd_loop rest (slen [y]) (FV 0 0 s (wb y) WB_Other true true self) = Ret v' -> edge (y :: rest) (slen p)).
  { intros s self H1 H2 H3 H4 HL'. change (y :: rest) with ([y] ++ rest) in *. refine (fwd_loop_edge rest [y] [] y (FV 0 0 s (wb y) WB_Other true true self) eq_refl eq_refl eq_refl _ _ _ _ _ _ _ HL' HE).
    - exact H3.
    - exact H1.
    - exact H4.
    - cbn [f_state]. rewrite H2. discriminate. }
  assert (SK : forall n, ncat = Some n -> cache_ok rest (Some n)).
  { intros n E. unfold ncat in E. destruct rest; [exact I|]. injection E as <-. reflexivity. }
  (* one character *)
  assert (ONE : (newline (wb y) = true \/ match ncat with Some n => extend_format_zwj n = false /\ letter (wb y) && letter n = false | None => True end) ->
    Ret (FV 0 0 WStart (wb y) WB_Other true true None) = Ret v' -> edge (y :: rest) (slen p)).
  { intros A E. injection E as <-. unfold fwd_end, fwd_rewind in HE. cbn [f_state f_take_curr f_idx Nat.add split_at] in HE. rewrite EY in HE. injection HE as HE _.
    rewrite <- HE. intros q z x t E L. change (y :: rest) with ([y] ++ rest) in E. destruct (slen_len_inj _ _ _ _ E (eq_sym L)) as [F1 F2].
    destruct q as [|? [|]]; try discriminate F1. injection F1 as <-. unfold ncat in A. rewrite F2 in A. exact A. }
  pose proof (NX WLetter None eq_refl eq_refl I) as NL.
  destruct (wb y) eqn:EY1; cbn [fwd_match] in HL; cbn [letter] in *;
    try (refine (NX _ None _ _ I _ HL); [reflexivity|reflexivity|discriminate]); try (exact (NL (fun _ => eq_refl) HL));
    try (refine (ONE (or_introl eq_refl) HL));
    try (destruct ncat as [n|]; [destruct (extend_format_zwj n) eqn:EN; [refine (NX _ (Some n) _ _ (SK n eq_refl) _ HL); [reflexivity|reflexivity|discriminate]|]|];
         refine (ONE _ HL); right; auto).
  destruct ncat as [n|] eqn:EN; [|refine (ONE (or_introl eq_refl) HL)].
  destruct n; try (refine (ONE (or_introl eq_refl) HL)).
  unfold ncat in EN. destruct rest as [|n rest]; [discriminate EN|]. injection EN as EN. injection HL as <-.
  unfold fwd_end, fwd_rewind in HE. cbn [f_state f_take_curr f_idx Nat.add] in HE.
  replace 1 with (slen [y]) in HE at 1 by (cbn; rewrite (cr_clen y EY1); reflexivity).
  change (y :: n :: rest) with ([y] ++ n :: rest) in HE. rewrite split_at_app in HE. injection HE as HE _.
  replace (slen p) with (slen ([y] ++ [n])) by (rewrite slen_app; cbn in *; rewrite (cr_clen y EY1); lia).
  intros q z x t E L. change (y :: n :: rest) with (([y] ++ [n]) ++ rest) in E. destruct (slen_len_inj _ _ _ _ E (eq_sym L)) as [F1 F2].
  apply app_inj_tail in F1 as [_ <-]. left. rewrite EN. reflexivity.
Qed.

Lemma fpieces_edge ps : forall s qs a z y b, fpieces s (ps ++ qs) -> concat ps = a ++ [z] -> concat qs = y :: b -> apart z y.
Proof.
  induction ps as [|p ps IH]; intros s qs a z y b F EA EB; [destruct a; discriminate EA|].
  cbn [app] in F. inversion F as [|? r ? F1 F2]; subst. destruct ps as [|p' ps].
  - cbn [concat app] in *. rewrite app_nil_r in EA. subst p. pose proof (fpieces_concat _ _ F2) as C. rewrite EB in C. subst r.
    exact (first_piece_edge _ _ F1 _ _ _ _ eq_refl eq_refl).
  - destruct (exists_last (l := concat (p' :: ps))) as (a' & z' & E).
    { pose proof F2 as F3. inversion F3 as [|? r' ? F4 F5]. destruct F4 as (_ & _ & _ & _ & N & _). cbn. destruct p'; [contradiction|discriminate]. }
    pose proof E as E'. cbn [concat] in EA, E. rewrite E, app_assoc in EA. apply app_inj_tail in EA as [_ <-]. exact (IH _ _ _ _ _ _ F2 E' EB).
Qed.

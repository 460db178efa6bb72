(** How many characters the forward word iterator takes, from their classes. *)
From Coq Require Import List NArith Lia Bool Arith.
Import ListNotations.
From Verif Require Import Base Enums TableTypes UcdModel BidiModel BidiLemmas GraphSpec SegLemmas SegConcat GraphIter
  WordModel WordSpec WordTables WordRules WordForward WordBackward WordLocal WordIter WordConcat.
Open Scope nat_scope.
Local Opaque word_break wb.

Definition zwj (c : WB) : bool := WB_eqb c WB_ZWJ.
(** [n] characters have been read; the state asks to go back to [save] or not *)
Fixpoint fw (l : list WB) (st : wstate) (z : bool) (save n : nat) : nat :=
  match l with
  | [] => if is_req st then save else n
  | c :: r =>
      if negb (is_start st) && extend_format_zwj c then fw r st (zwj c) save (S n)
      else if z && WB_eqb c WB_GlueAfterZwj then fw r st (zwj c) save (S n)
      else if z && WB_eqb c WB_EBaseGAZ then fw r WEmoji (zwj c) save (S n)
      else match fwd_match st c (hd_error r) with
      | FNext s => fw r s (zwj c) save (S n)
      | FSave s => fw r s (zwj c) n (S n)
      | FSkip _ => fw r (WFormatExtend AcceptNone) (zwj c) save (S n)
      | FBreak inc tc _ => if is_req st then save else (if tc then S n else n) + inc
      | FUnreachable => 0
      end
  end.

Lemma hd_map (r : str) : match r with [] => None | n :: _ => Some (wb n) end = hd_error (map wb r).
Proof. destruct r; reflexivity. Qed.

Lemma slen_firstn_app (m r : str) : slen (firstn (length m) (m ++ r)) = slen m.
Proof. rewrite firstn_app, Nat.sub_diag, firstn_all, app_nil_r. reflexivity. Qed.

Lemma fw_loop : forall rest m m' z v save, m = m' ++ [z] -> f_idx v = slen m' -> f_take_curr v = true -> cache_ok rest (f_self v) ->
  settled (f_state v) = true -> (is_req (f_state v) = true -> exists m1, m = firstn save m ++ m1 /\ f_saveidx v = slen (firstn save m) /\ save <= length m) ->
  forall v' n k, fwd_loop rest (slen m) v = Ret v' -> fwd_end (m ++ rest) v' = Ret (n, k) ->
  let N := fw (map wb rest) (f_state v) (zwj (f_cat v)) save (length m) in
  N <= length (m ++ rest) /\ n = slen (firstn N (m ++ rest)).
Proof.
  induction rest as [|y rest IH]; intros m m' z v save EM HI HT HC HS HR v' n k HL HE; cbn zeta.
  - cbn [fwd_loop] in HL. injection HL as <-. cbn [map fw]. rewrite app_nil_r in *. destruct (is_req (f_state v)) eqn:RQ.
    + rewrite rewind_req in HE by exact RQ. injection HE as <- _. destruct (HR eq_refl) as (m1 & E1 & E2 & E3). rewrite E2. split; [lia|reflexivity].
    + pose proof (end_whole _ _ _ _ EM HI HT RQ []) as E. rewrite app_nil_r in E. rewrite E in HE. injection HE as <- _.
      rewrite firstn_all. split; [lia|reflexivity].
  - cbn [fwd_loop] in HL. cbn [map fw].
    assert (EC : match f_self v with Some c => c | None => wb y end = wb y) by (destruct (f_self v); [exact HC|reflexivity]).
    rewrite EC in HL. clear EC HC. rewrite hd_map in HL. fold (zwj (f_cat v)) in HL.
    assert (EMY : slen m + clen y = slen (m ++ [y])) by (rewrite slen_app; cbn; lia). rewrite EMY in HL.
    assert (ES : m ++ y :: rest = (m ++ [y]) ++ rest) by (rewrite <- app_assoc; reflexivity).
    assert (EL : S (length m) = length (m ++ [y])) by (rewrite app_length; cbn; lia).
    assert (HR2 : is_req (f_state v) = true -> exists m1, m ++ [y] = firstn save (m ++ [y]) ++ m1 /\ f_saveidx v = slen (firstn save (m ++ [y])) /\ save <= length (m ++ [y])).
    { intros RQ. destruct (HR RQ) as (m1 & E1 & E2 & E3).
      assert (F : firstn save (m ++ [y]) = firstn save m).
      { rewrite firstn_app. replace (save - length m) with 0 by lia. now rewrite firstn_O, app_nil_r. }
      rewrite F. exists (m1 ++ [y]). rewrite app_assoc, <- E1, <- EL. repeat split; auto. }
    match goal with |- context [fwd_match _ _ ?n] => set (ncat := n) in * end. clearbody ncat.
    pose proof (fwd_match_shape (f_state v) (wb y) ncat HS) as SH.
    rewrite EL.
    destruct (negb (is_start (f_state v)) && extend_format_zwj (wb y)).
    { rewrite ES in HE |- *. match type of HL with fwd_loop _ _ ?w = _ => exact (IH (m ++ [y]) m y w save eq_refl eq_refl eq_refl I HS HR2 _ _ _ HL HE) end. }
    destruct (zwj (f_cat v) && WB_eqb (wb y) WB_GlueAfterZwj).
    { rewrite ES in HE |- *. match type of HL with fwd_loop _ _ ?w = _ => exact (IH (m ++ [y]) m y w save eq_refl eq_refl eq_refl I HS HR2 _ _ _ HL HE) end. }
    destruct (zwj (f_cat v) && WB_eqb (wb y) WB_EBaseGAZ).
    { rewrite ES in HE |- *. match type of HL with fwd_loop _ _ ?w = _ => refine (IH (m ++ [y]) m y w save eq_refl eq_refl eq_refl I eq_refl _ _ _ _ HL HE) end. discriminate. }
    destruct (fwd_match (f_state v) (wb y) ncat) as [s|s|c|[|inc] tc tk|] eqn:FM; try contradiction.
    + destruct SH as [H1 H2]. rewrite ES in HE |- *. match type of HL with fwd_loop _ _ ?w = _ => refine (IH (m ++ [y]) m y w save eq_refl eq_refl eq_refl I H1 _ _ _ _ HL HE) end.
      cbn [f_state]. rewrite H2. discriminate.
    + destruct SH as [H1 H2]. rewrite ES in HE |- *. match type of HL with fwd_loop _ _ ?w = _ => refine (IH (m ++ [y]) m y w (length m) eq_refl eq_refl eq_refl I H1 _ _ _ _ HL HE) end.
      intros _. exists [y]. cbn [f_saveidx]. rewrite firstn_app, Nat.sub_diag, firstn_all. cbn [firstn]. rewrite app_nil_r, <- EL. repeat split; auto.
    + injection HL as <-. destruct (is_req (f_state v)) eqn:RQ.
      * rewrite rewind_req in HE by exact RQ. cbn [f_saveidx] in HE. injection HE as <- _. destruct (HR eq_refl) as (m1 & E1 & E2 & E3). rewrite E2.
        rewrite app_length. split; [lia|]. rewrite firstn_app. replace (save - length m) with 0 by lia. now rewrite firstn_O, app_nil_r.
      * destruct SH as [-> |SH]; [|discriminate SH]. unfold fwd_end in HE. rewrite rewind_not in HE by exact RQ. cbn in HE. injection HE as <- _.
        rewrite !Nat.add_0_r. rewrite slen_firstn_app, app_length. split; [lia|reflexivity].
Qed.

Definition count (l : list WB) : nat := fw l WStart false 0 0.

Lemma first_count S p : first_piece S p -> count (map wb S) <= length S /\ slen p = slen (firstn (count (map wb S)) S).
Proof.
  intros (r & v' & k & ES & NP & HL & HE). destruct S as [|y rest]; [destruct p; [contradiction|discriminate ES]|]. unfold count.
  unfold start_vars in HL. cbn [fwd_loop f_cat f_self f_state is_start negb andb f_saveidx f_savecat] in HL.
  change (WB_eqb WB_Other WB_ZWJ) with false in HL. cbn [andb] in HL. rewrite hd_map in HL.
  cbn [map fw is_start negb andb is_req].
  assert (EY : clen y = slen [y]) by (cbn; lia). cbn [Nat.add] in HL. rewrite EY in HL.
  assert (NX : forall s self, settled s = true -> is_req s = false -> cache_ok rest self ->
    fwd_loop rest (slen [y]) (FV 0 0 s (wb y) WB_Other true true self) = Ret v' ->
    fw (map wb rest) s (zwj (wb y)) 0 1 <= length (y :: rest) /\ slen p = slen (firstn (fw (map wb rest) s (zwj (wb y)) 0 1) (y :: rest))).
  { intros s self H1 H2 H3 HL'. change (y :: rest) with ([y] ++ rest) in *.
    refine (fw_loop rest [y] [] y (FV 0 0 s (wb y) WB_Other true true self) 0 eq_refl eq_refl eq_refl _ _ _ _ _ _ HL' HE).
    - exact H3.
    - exact H1.
    - cbn [f_state]. rewrite H2. discriminate. }
  assert (SK : forall n, hd_error (map wb rest) = Some n -> cache_ok rest (Some n)).
  { intros n E. destruct rest; [exact I|]. injection E as <-. reflexivity. }
  assert (ONE : Ret (FV 0 0 WStart (wb y) WB_Other true true None) = Ret v' -> 1 + 0 <= length (y :: rest) /\ slen p = slen (firstn (1 + 0) (y :: rest))).
  { intros E. injection E as <-. unfold fwd_end, fwd_rewind in HE. cbn [f_state f_take_curr f_idx Nat.add split_at] in HE. rewrite EY in HE. injection HE as HE _.
    rewrite <- HE. cbn [length firstn Nat.add]. split; [lia|reflexivity]. }
  destruct (wb y) eqn:EY1; cbn [fwd_match] in HL |- *;
    try (refine (NX _ None _ _ I HL); reflexivity);
    try (refine (ONE HL));
    try (destruct (hd_error (map wb rest)) as [n|]; [destruct (extend_format_zwj n) eqn:EN; [refine (NX _ (Some n) _ _ (SK n eq_refl) HL); reflexivity|]|];
         refine (ONE HL)).
  destruct (hd_error (map wb rest)) as [n|] eqn:EN; [|refine (ONE HL)].
  destruct n; try (refine (ONE HL)).
  destruct rest as [|n rest]; [discriminate EN|]. injection HL as <-. cbn [length firstn Nat.add]. split; [lia|].
  unfold fwd_end, fwd_rewind in HE. cbn [f_state f_take_curr f_idx Nat.add] in HE.
  replace 1 with (slen [y]) in HE at 1 by (cbn; rewrite (cr_clen y EY1); reflexivity).
  change (y :: n :: rest) with ([y] ++ n :: rest) in HE. rewrite split_at_app in HE. injection HE as HE _.
  cbn in *. rewrite (cr_clen y EY1) in *. lia.
Qed.

(** the first piece of a text is determined by the classes *)
Lemma first_length S p : first_piece S p -> length p = count (map wb S).
Proof.
  intros F. destruct (first_count S p F) as [L E]. destruct F as (r & v & k & ES & _).
  assert (S = firstn (count (map wb S)) S ++ skipn (count (map wb S)) S) as E2 by (symmetry; apply firstn_skipn).
  rewrite ES in E2 at 1. destruct (slen_len_inj _ _ _ _ E2 E) as [E3 _]. apply (f_equal (@length _)) in E3. rewrite firstn_length in E3. lia.
Qed.
Lemma first_of_count p r : length p = count (map wb (p ++ r)) -> p ++ r <> [] -> first_piece (p ++ r) p.
Proof.
  intros L N. destruct (first_exists _ N) as (q & F). pose proof (first_length _ _ F) as L2. pose proof F as (r' & v & k & E & _).
  destruct (app_len_inj _ _ _ _ E) as [-> _]; [congruence|assumption].
Qed.

(** ** Characters replaced by several *)
Definition hang (w : WB) : bool := match w with WB_Extend => true | _ => false end.
Definition spread (w : WB) (l : list WB) : Prop :=
  exists r, l = w :: r /\ (r = [] \/ (match w with WB_ZWJ | WB_CR | WB_LF | WB_Newline => false | _ => true end = true /\ forallb hang r = true) \/
    (w = WB_ALetter /\ Forall (fun x => x = WB_ALetter) r)).

Lemma fw_extends r : forall rest st save n z, is_start st = false -> forallb hang r = true ->
  fw (r ++ rest) st z save n = fw rest st (match r with [] => z | _ => false end) save (length r + n).
Proof.
  induction r as [|w r IH]; intros rest st save n z ST H; [reflexivity|]. cbn [forallb] in H. apply andb_true_iff in H as [H1 H2].
  destruct w; try discriminate. cbn [app fw]. rewrite ST. cbn [negb andb extend_format_zwj]. rewrite IH by assumption.
  cbn [length]. rewrite <- plus_n_Sm. destruct r; reflexivity.
Qed.
Lemma fw_letters r : forall rest save n, Forall (fun x => x = WB_ALetter) r ->
  fw (r ++ rest) WLetter false save n = fw rest WLetter false save (length r + n).
Proof.
  induction r as [|w r IH]; intros rest save n H; [reflexivity|]. inversion H as [|? ? H1 H2]; subst. cbn [app fw is_start negb andb extend_format_zwj fwd_match].
  change (zwj WB_ALetter) with false. rewrite IH by assumption. cbn [length]. now rewrite <- plus_n_Sm.
Qed.

(** texts as lists of blocks of classes, one block for each character *)
Definition blocks (cs : list WB) (bs : list (list WB)) : Prop := Forall2 spread cs bs.
Lemma blocks_length cs bs : blocks cs bs -> length cs = length bs.
Proof. induction 1; cbn; congruence. Qed.
Lemma blocks_hd cs bs : blocks cs bs -> hd_error (concat bs) = hd_error cs.
Proof. intros [|c b cs' bs' (r & -> & _) _]; reflexivity. Qed.

Lemma fw_blocks cs bs : blocks cs bs -> forall pc pb st z save, settled st = true -> blocks pc pb -> save <= length pc ->
  fw (concat bs) st z (length (concat (firstn save pb))) (length (concat pb)) =
  length (concat (firstn (fw cs st z save (length pc)) (pb ++ bs))) /\ fw cs st z save (length pc) <= length (pc ++ cs).
Proof.
  induction 1 as [|c b cs bs SP B IH]; intros pc pb st z save ST PB SV.
  - cbn [concat fw]. rewrite !app_nil_r. pose proof (blocks_length _ _ PB) as L. destruct (is_req st); [split; [reflexivity|lia]|].
    rewrite L, firstn_all. auto.
  - pose proof (blocks_length _ _ PB) as LP.
    assert (IH' : forall st z, settled st = true -> fw (concat bs) st z (length (concat (firstn save pb))) (length (concat pb) + length b) =
      length (concat (firstn (fw cs st z save (S (length pc))) (pb ++ b :: bs))) /\ fw cs st z save (S (length pc)) <= length (pc ++ c :: cs)).
    { intros st' z' ST'. destruct (IH (pc ++ [c]) (pb ++ [b]) st' z' save ST') as [E1 E2].
      - apply Forall2_app; [assumption|]. constructor; [assumption|constructor].
      - rewrite app_length. cbn. lia.
      - rewrite app_length, Nat.add_1_r in E1. rewrite app_length, Nat.add_1_r in E2. rewrite concat_app, app_length in E1. cbn [concat] in E1. rewrite app_nil_r in E1.
        rewrite firstn_app in E1. replace (save - length pb) with 0 in E1 by lia. rewrite firstn_O, app_nil_r in E1.
        rewrite <- !app_assoc in E1. rewrite <- app_assoc in E2. cbn [app] in E1, E2. split; assumption. }
    assert (IHs : forall st z, settled st = true -> fw (concat bs) st z (length (concat pb)) (length (concat pb) + length b) =
      length (concat (firstn (fw cs st z (length pc) (S (length pc))) (pb ++ b :: bs))) /\ fw cs st z (length pc) (S (length pc)) <= length (pc ++ c :: cs)).
    { intros st' z' ST'. destruct (IH (pc ++ [c]) (pb ++ [b]) st' z' (length pc) ST') as [E1 E2].
      - apply Forall2_app; [assumption|]. constructor; [assumption|constructor].
      - rewrite app_length. cbn. lia.
      - rewrite app_length, Nat.add_1_r in E1. rewrite app_length, Nat.add_1_r in E2. rewrite concat_app, app_length in E1. cbn [concat] in E1. rewrite app_nil_r in E1.
        rewrite LP, firstn_app, firstn_all, Nat.sub_diag, firstn_O, app_nil_r, <- LP in E1.
        rewrite <- !app_assoc in E1. rewrite <- app_assoc in E2. cbn [app] in E1, E2. split; assumption. }
    pose proof (blocks_hd _ _ B) as HD.
    assert (ST1 : is_start st = false) by (apply settled_start; assumption).
    destruct SP as (r & -> & SP). cbn [concat app fw]. rewrite ST1. cbn [negb andb]. cbn [length] in IH', IHs.
    assert (NC : forall s, fwd_match st c (hd_error (r ++ concat bs)) = s -> fwd_match st c (hd_error cs) = s).
    { intros s <-. apply match_ncat. assumption. }
    (* what follows a step to state st' *)
    assert (GO : forall st', settled st' = true -> (c = WB_ALetter -> st' = WLetter) ->
      fw (r ++ concat bs) st' (zwj c) (length (concat (firstn save pb))) (S (length (concat pb))) =
      fw (concat bs) st' (zwj c) (length (concat (firstn save pb))) (length (concat pb) + S (length r)) /\
      fw (r ++ concat bs) st' (zwj c) (length (concat pb)) (S (length (concat pb))) =
      fw (concat bs) st' (zwj c) (length (concat pb)) (length (concat pb) + S (length r))).
    { intros st' S1 S2. replace (length (concat pb) + S (length r)) with (length r + S (length (concat pb))) by lia. destruct SP as [-> |[[H1 H2]|[-> H2]]].
      - split; reflexivity.
      - rewrite !fw_extends by (assumption || (apply settled_start; assumption)). destruct r; [split; reflexivity|].
        assert (zwj c = false) as -> by (destruct c; try discriminate; reflexivity). split; reflexivity.
      - rewrite (S2 eq_refl). change (zwj WB_ALetter) with false. rewrite !fw_letters by assumption. split; reflexivity. }
    destruct (extend_format_zwj c) eqn:EX.
    { rewrite (proj1 (GO st ST ltac:(intros ->; discriminate))). apply IH'. assumption. }
    destruct (z && WB_eqb c WB_GlueAfterZwj) eqn:EG.
    { rewrite (proj1 (GO st ST ltac:(intros ->; rewrite andb_comm in EG; discriminate))). apply IH'. assumption. }
    destruct (z && WB_eqb c WB_EBaseGAZ) eqn:EB.
    { rewrite (proj1 (GO WEmoji eq_refl ltac:(intros ->; rewrite andb_comm in EB; discriminate))). apply IH'. reflexivity. }
    pose proof (fwd_match_shape st c (hd_error cs) ST) as SH.
    rewrite (match_ncat st c (hd_error (r ++ concat bs)) (hd_error cs) ST).
    destruct (fwd_match st c (hd_error cs)) as [s|s|x|[|inc] tc tk|] eqn:FM; try contradiction.
    + destruct SH as [H1 H2]. rewrite (proj1 (GO s H1 ltac:(intros ->; destruct st as [| | | | | |[]|[]| |]; cbn [fwd_match] in FM; try discriminate FM; injection FM as <-; reflexivity))).
      apply IH'. assumption.
    + destruct SH as [H1 H2]. rewrite (proj2 (GO s H1 ltac:(intros ->; destruct st as [| | | | | |[]|[]| |]; cbn [fwd_match] in FM; discriminate FM))).
      apply IHs. assumption.
    + rewrite !app_length. cbn [length]. destruct (is_req st).
      * split; [|lia]. rewrite firstn_app. replace (save - length pb) with 0 by lia. now rewrite firstn_O, app_nil_r.
      * destruct SH as [-> |SH]; [|discriminate SH]. rewrite !Nat.add_0_r, LP, firstn_app, firstn_all, Nat.sub_diag, firstn_O, app_nil_r. split; [reflexivity|lia].
Qed.

Lemma count_blocks cs bs : blocks cs bs -> count (concat bs) = length (concat (firstn (count cs) bs)) /\ count cs <= length cs.
Proof.
  intros B. destruct B as [|c b cs bs SP B]; [split; reflexivity|]. unfold count. pose proof (blocks_hd _ _ B) as HD.
  pose proof SP as SP0. destruct SP as (r & -> & SP). cbn [concat app fw is_start negb andb is_req].
  assert (NX : forall s, settled s = true -> is_req s = false -> (c = WB_ALetter -> s = WLetter) ->
    fw (r ++ concat bs) s (zwj c) 0 1 = length (concat (firstn (fw cs s (zwj c) 0 1) ((c :: r) :: bs))) /\ fw cs s (zwj c) 0 1 <= length (c :: cs)).
  { intros s S1 S2 S3. destruct (fw_blocks cs bs B [c] [c :: r] s (zwj c) 0 S1) as [E1 E2]; [constructor; [assumption|constructor]|cbn; lia|].
    cbn [app length concat firstn] in E1, E2 |- *. rewrite app_nil_r in E1. cbn [length] in E1. rewrite <- E1. split; [|exact E2].
    replace (S (length r)) with (length r + 1) by lia. destruct SP as [-> |[[H1 H2]|[-> H2]]].
    - reflexivity.
    - rewrite fw_extends by (assumption || (apply settled_start; assumption)). destruct r; [reflexivity|].
      assert (zwj c = false) as -> by (destruct c; try discriminate; reflexivity). reflexivity.
    - rewrite (S3 eq_refl). change (zwj WB_ALetter) with false. now rewrite fw_letters. }
  (* a character of no particular class *)
  assert (SKIP : c <> WB_ALetter -> match hd_error cs with Some n => extend_format_zwj n | None => false end = false ->
    match r with [] => True | _ => fw (r ++ concat bs) (WFormatExtend AcceptNone) (zwj c) 0 1 = length (c :: r) end).
  { intros NL H. destruct r as [|x r]; [exact I|]. destruct SP as [|[[H1 H2]|[-> H2]]]; try discriminate; [|contradiction].
    rewrite fw_extends by (assumption || reflexivity). replace (S (length (x :: r))) with (length (x :: r) + 1) by (cbn; lia).
    destruct (concat bs) as [|d t] eqn:EB; [cbn; lia|]. cbn [hd_error] in HD. rewrite <- HD in H.
    cbn [fw is_start negb andb fwd_match is_req]. rewrite H. cbn. lia. }
  assert (ONE : r = [] -> 1 + 0 = length (concat (firstn (1 + 0) ((c :: r) :: bs))) /\ 1 + 0 <= length (c :: cs)).
  { intros ->. cbn. split; [reflexivity|lia]. }
  assert (GEN : c <> WB_ALetter -> 
    match (match hd_error (r ++ concat bs) with Some n => if extend_format_zwj n then FSkip n else FBreak 0 true true | None => FBreak 0 true true end) with
    | FNext s => fw (r ++ concat bs) s (zwj c) 0 1 | FSave s => fw (r ++ concat bs) s (zwj c) 0 1
    | FSkip _ => fw (r ++ concat bs) (WFormatExtend AcceptNone) (zwj c) 0 1 | FBreak inc tc _ => (if tc then 1 else 0) + inc | FUnreachable => 0 end =
    length (concat (firstn (match (match hd_error cs with Some n => if extend_format_zwj n then FSkip n else FBreak 0 true true | None => FBreak 0 true true end) with
    | FNext s => fw cs s (zwj c) 0 1 | FSave s => fw cs s (zwj c) 0 1
    | FSkip _ => fw cs (WFormatExtend AcceptNone) (zwj c) 0 1 | FBreak inc tc _ => (if tc then 1 else 0) + inc | FUnreachable => 0 end) ((c :: r) :: bs))) /\
    match (match hd_error cs with Some n => if extend_format_zwj n then FSkip n else FBreak 0 true true | None => FBreak 0 true true end) with
    | FNext s => fw cs s (zwj c) 0 1 | FSave s => fw cs s (zwj c) 0 1
    | FSkip _ => fw cs (WFormatExtend AcceptNone) (zwj c) 0 1 | FBreak inc tc _ => (if tc then 1 else 0) + inc | FUnreachable => 0 end <= length (c :: cs)).
  { intros NL. destruct r as [|x r].
    - cbn [app]. rewrite HD. destruct (hd_error cs) as [n|]; [destruct (extend_format_zwj n)|].
      + exact (NX (WFormatExtend AcceptNone) eq_refl eq_refl ltac:(intros; contradiction)).
      + exact (ONE eq_refl).
      + exact (ONE eq_refl).
    - destruct SP as [|[[H1 H2]|[-> H2]]]; try discriminate; [|contradiction].
      assert (x = WB_Extend) as -> by (cbn [forallb] in H2; apply andb_true_iff in H2 as [H2 _]; destruct x; try discriminate; reflexivity).
      cbn [app hd_error extend_format_zwj].
      destruct (match hd_error cs with Some n => extend_format_zwj n | None => false end) eqn:HN.
      + destruct (hd_error cs) as [n|]; [|discriminate]. rewrite HN. exact (NX (WFormatExtend AcceptNone) eq_refl eq_refl ltac:(intros; contradiction)).
      + specialize (SKIP NL eq_refl). cbv iota in SKIP. cbn [app] in SKIP. rewrite SKIP.
        assert (E : match hd_error cs with Some n => if extend_format_zwj n then FSkip n else FBreak 0 true true | None => FBreak 0 true true end = FBreak 0 true true).
        { destruct (hd_error cs); [rewrite HN|]; reflexivity. }
        rewrite E. cbn [firstn concat length Nat.add]. rewrite app_nil_r. cbn. split; [reflexivity|lia]. }
  destruct c; cbn [fwd_match];
    try (refine (NX _ _ _ _); [reflexivity|reflexivity|try discriminate; reflexivity]);
    try (refine (GEN _); discriminate).
  1-3: assert (r = []) as -> by (destruct SP as [|[[]|[]]]; [assumption|discriminate|discriminate]).
  all: try (exact (ONE eq_refl)).
  cbn [app]. rewrite HD. destruct cs as [|d cs]; cbn [hd_error]; [exact (ONE eq_refl)|]. destruct d; try exact (ONE eq_refl).
  inversion B as [|? b2 ? bs2 (r2 & -> & SP2) B2]; subst.
  assert (r2 = []) as -> by (destruct SP2 as [|[[]|[]]]; [assumption|discriminate|discriminate]). cbn. split; [reflexivity|lia].
Qed.

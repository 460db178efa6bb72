(** Line reordering: L1 and L2. *)
From Coq Require Import List NArith ZArith Lia Bool Arith Permutation ZifyBool ZifyNat ZifyN.
Import ListNotations.
From Verif Require Import Base Enums EnumFacts UcdModel BidiModel BidiSpec BidiLemmas BidiTables BidiInit BidiExplicit
  BidiWeak BidiSeqs BidiChars BidiPara BidiLtr BidiRules BidiIso.
Open Scope nat_scope.

(** ** L1 on characters *)

Definition resets (c : BidiClass) : bool := is_in [cWS; cFSI; cLRI; cRLI; cPDI] c.

Fixpoint l1c (p : N) (pend : bool) (cs : list BidiClass) (lv : list N) : list N :=
  match cs, lv with
  | c :: cs', l :: lv' =>
      if is_in [cB; cS] c then p :: l1c p false cs' lv'
      else if resets c then (if reset_here cs' then p else l) :: l1c p true cs' lv'
      else if kept c then l :: l1c p false cs' lv'
      else (if pend && reset_here cs' then p else l) :: l1c p pend cs' lv'
  | _, _ => []
  end.

Lemma l1c_length p cs : forall pend lv, length lv = length cs -> length (l1c p pend cs lv) = length cs.
Proof.
  induction cs as [|c cs IH]; intros pend [|l lv] H; cbn [length] in *; try lia; [reflexivity|].
  cbn [l1c]. destruct (is_in [cB; cS] c); [|destruct (resets c); [|destruct (kept c)]]; cbn [length]; rewrite IH by lia; reflexivity.
Qed.

Lemma upds_range {A} (a m b : list A) x : upds (a ++ m ++ b) (seq (length a) (length m)) x = a ++ repeat x (length m) ++ b.
Proof.
  assert (E : seq (length a) (length m) = map (fun j => length a + j) (seq 0 (length m))).
  { clear. generalize (length m) as n, (length a) as k. intros n k.
    replace (seq k n) with (seq (k + 0) n) by (f_equal; lia).
    generalize 0. induction n as [|n IH]; intros j; [reflexivity|]. cbn [seq map]. f_equal. rewrite <- IH. f_equal. lia. }
  rewrite E, upds_app_r, upds_seq0 by (rewrite app_length; lia).
  rewrite skipn_app, skipn_all2, Nat.sub_diag by lia. reflexivity.
Qed.

Lemma l1_step_class p c levels rf i w :
  l1_step p c levels rf i w
  = (if is_in [cB; cS] c
     then (upds levels (seq (match rf with Some f => f | None => i end) (i + w - match rf with Some f => f | None => i end)) p, None)
     else if resets c then (levels, match rf with Some f => Some f | None => Some i end)
     else if kept c then (levels, None) else (levels, rf)).
Proof. destruct c; reflexivity. Qed.

Lemma reset_here_class c r : reset_here (c :: r) =
  (if is_in [cB; cS] c then true else if resets c then reset_here r else if kept c then false else reset_here r).
Proof. destruct c; reflexivity. Qed.

Lemma expand_cons {A} w ws (x : A) l : expand (w :: ws) (x :: l) = repeat x w ++ expand ws l.
Proof. reflexivity. Qed.

Lemma expand_snoc {A} ws w (l : list A) x : length l = length ws -> expand (ws ++ [w]) (l ++ [x]) = expand ws l ++ repeat x w.
Proof. intros H. rewrite expand_app by assumption. cbn [expand]. now rewrite app_nil_r. Qed.

Lemma expand_all {A} ws (x : A) n : n = length ws -> expand ws (repeat x n) = repeat x (list_sum ws).
Proof. intros ->. apply expand_repeat. Qed.

Lemma pend_snoc (p : N) wp w lp l (b : bool) : length lp = length wp ->
  expand (wp ++ [w]) (if b then repeat p (length (wp ++ [w])) else lp ++ [l])
  = expand wp (if b then repeat p (length wp) else lp) ++ repeat (if b then p else l) w.
Proof.
  intros H. destruct b; [|now apply expand_snoc].
  rewrite !expand_repeat, list_sum_app. cbn [list_sum fold_right]. rewrite Nat.add_0_r. apply repeat_app_n.
Qed.

Lemma l1_loop_chars p oc zl zc : forall cr wr lr wa la wp lp pend,
  length cr = length wr -> length lr = length wr -> length la = length wa -> length lp = length wp ->
  Forall (fun w => 0 < w) wr -> (pend = false -> wp = []) ->
  skipn (list_sum wa + list_sum wp) oc = expand wr cr ++ zc ->
  l1_loop p oc wr (list_sum wa + list_sum wp)
    (expand wa la ++ expand wp lp ++ expand wr lr ++ zl) (if pend then Some (list_sum wa) else None)
  = expand wa la ++ expand wp (if reset_here cr then repeat p (length wp) else lp) ++ expand wr (l1c p pend cr lr) ++ zl.
Proof.
  induction cr as [|c cr IH]; intros wr lr wa la wp lp pend H1 H2 H3 H4 Hw HP HO.
  { destruct wr; [|discriminate H1]. destruct lr; [|discriminate H2]. cbn [l1_loop reset_here l1c expand app].
    rewrite expand_repeat. destruct pend.
    - replace (list_sum wa + list_sum wp - list_sum wa) with (list_sum wp) by lia.
      rewrite <- (expand_length wa la H3) at 1. rewrite <- (expand_length wp lp H4) at 1. rewrite upds_range.
      rewrite (expand_length wp lp H4). reflexivity.
    - rewrite (HP eq_refl) in *. destruct lp; [|discriminate H4]. reflexivity. }
  destruct wr as [|w wr]; [discriminate H1|]. destruct lr as [|l lr]; [discriminate H2|]. cbn [length] in H1, H2.
  pose proof (Forall_inv Hw) as Hw0; cbv beta in Hw0. pose proof (Forall_inv_tail Hw) as Hw'.
  rewrite !expand_cons in *. cbn [l1_loop].
  set (i := list_sum wa + list_sum wp) in *.
  assert (Ec : class_at oc i = c).
  { unfold class_at. rewrite <- (firstn_skipn i oc), HO.
    assert (Li : length (firstn i oc) = i).
    { rewrite firstn_length. apply Nat.min_l. destruct (le_lt_dec i (length oc)); [assumption|].
      rewrite skipn_all2 in HO by lia. destruct w; [lia|discriminate HO]. }
    rewrite app_nth2, Li, Nat.sub_diag by lia. destruct w; [lia|reflexivity]. }
  assert (Sk : skipn (i + w) oc = expand wr cr ++ zc).
  { assert (SK : forall {A} (n m : nat) (x : list A), skipn (m + n) x = skipn n (skipn m x)).
    { clear. intros A n m; revert n; induction m; intros n x; [reflexivity|]. destruct x; [now rewrite !skipn_nil|]. cbn. apply IHm. }
    rewrite SK, HO. rewrite <- app_assoc, skipn_app, repeat_length, Nat.sub_diag, skipn_all2 by (rewrite repeat_length; lia). reflexivity. }
  rewrite Ec, l1_step_class, reset_here_class. cbn [l1c].
  destruct (is_in [cB; cS] c) eqn:EB; [|destruct (resets c) eqn:EW; [|destruct (kept c) eqn:EK]].
  - (* separator *)
    set (from := match (if pend then Some (list_sum wa) else None) with Some f => f | None => i end).
    assert (Ef : from = list_sum wa).
    { unfold from, i. destruct pend; [reflexivity|]. rewrite (HP eq_refl). cbn. lia. }
    rewrite Ef. replace (i + w - list_sum wa) with (list_sum wp + w) by lia.
    assert (U : upds (expand wa la ++ expand wp lp ++ (repeat l w ++ expand wr lr) ++ zl) (seq (list_sum wa) (list_sum wp + w)) p
      = expand (wa ++ wp ++ [w]) (la ++ repeat p (length wp) ++ [p]) ++ expand [] [] ++ expand wr lr ++ zl).
    { replace (expand wa la ++ expand wp lp ++ (repeat l w ++ expand wr lr) ++ zl)
        with (expand wa la ++ (expand wp lp ++ repeat l w) ++ expand wr lr ++ zl) by (rewrite <- !app_assoc; reflexivity).
      pose proof (upds_range (expand wa la) (expand wp lp ++ repeat l w) (expand wr lr ++ zl) p) as X.
      rewrite app_length, (expand_length wa la H3), (expand_length wp lp H4), repeat_length in X. rewrite X.
      rewrite expand_app by assumption. rewrite expand_snoc by (now rewrite repeat_length).
      rewrite expand_repeat, repeat_app_n. cbn [expand app]. now rewrite <- !app_assoc. }
    rewrite U.
    specialize (IH wr lr (wa ++ wp ++ [w]) (la ++ repeat p (length wp) ++ [p]) [] [] false).
    rewrite !list_sum_app in IH. cbn [list_sum fold_right] in IH.
    replace (list_sum wa + (list_sum wp + (w + 0)) + 0) with (i + w) in IH by (unfold i; lia).
    rewrite IH; auto; try lia; [|rewrite !app_length, repeat_length; cbn [length]; lia].
    rewrite expand_app by assumption. rewrite expand_snoc by (now rewrite repeat_length).
    cbn [length repeat]. assert (Z : forall b : bool, (if b then @nil N else []) = []) by (now intros []). rewrite Z. cbn [expand app].
    now rewrite <- !app_assoc.
  - (* pending *)
    assert (E : (match (if pend then Some (list_sum wa) else None) with Some f => Some f | None => Some i end) = Some (list_sum wa)).
    { unfold i. destruct pend; [reflexivity|]. rewrite (HP eq_refl). cbn. f_equal. lia. }
    rewrite E. specialize (IH wr lr wa la (wp ++ [w]) (lp ++ [l]) true).
    rewrite list_sum_app in IH. cbn [list_sum fold_right] in IH.
    replace (list_sum wa + (list_sum wp + (w + 0))) with (i + w) in IH by (unfold i; lia).
    rewrite expand_snoc in IH by assumption.
    replace (expand wa la ++ expand wp lp ++ (repeat l w ++ expand wr lr) ++ zl)
      with (expand wa la ++ (expand wp lp ++ repeat l w) ++ expand wr lr ++ zl) by (rewrite <- !app_assoc; reflexivity).
    rewrite IH; auto; try lia; try discriminate; try (rewrite !app_length; cbn [length]; lia).
    rewrite pend_snoc by assumption. rewrite !expand_cons. now rewrite <- !app_assoc.
  - (* other *)
    specialize (IH wr lr (wa ++ wp ++ [w]) (la ++ lp ++ [l]) [] [] false).
    rewrite !list_sum_app in IH. cbn [list_sum fold_right] in IH.
    replace (list_sum wa + (list_sum wp + (w + 0)) + 0) with (i + w) in IH by (unfold i; lia).
    rewrite expand_app, expand_snoc in IH by assumption. cbn [expand app] in IH.
    replace (expand wa la ++ expand wp lp ++ (repeat l w ++ expand wr lr) ++ zl)
      with ((expand wa la ++ expand wp lp ++ repeat l w) ++ expand wr lr ++ zl) by (rewrite <- !app_assoc; reflexivity).
    rewrite IH; auto; try lia; try (rewrite !app_length; cbn [length]; lia).
    cbn [expand app]. now rewrite <- !app_assoc.
  - (* removed *)
    destruct pend.
    + specialize (IH wr lr wa la (wp ++ [w]) (lp ++ [l]) true).
      rewrite list_sum_app in IH. cbn [list_sum fold_right] in IH.
      replace (list_sum wa + (list_sum wp + (w + 0))) with (i + w) in IH by (unfold i; lia).
      rewrite expand_snoc in IH by assumption.
      replace (expand wa la ++ expand wp lp ++ (repeat l w ++ expand wr lr) ++ zl)
        with (expand wa la ++ (expand wp lp ++ repeat l w) ++ expand wr lr ++ zl) by (rewrite <- !app_assoc; reflexivity).
      rewrite IH; auto; try lia; try discriminate; try (rewrite !app_length; cbn [length]; lia).
      rewrite pend_snoc by assumption. rewrite !expand_cons. cbn [andb]. now rewrite <- !app_assoc.
    + specialize (HP eq_refl). subst wp. destruct lp; [|discriminate H4].
      specialize (IH wr lr (wa ++ [w]) (la ++ [l]) [] [] false).
      rewrite !list_sum_app in IH. cbn [list_sum fold_right] in IH. unfold i in *. cbn [list_sum fold_right] in *.
      replace (list_sum wa + (w + 0) + 0) with (list_sum wa + 0 + w) in IH by lia.
      rewrite expand_snoc in IH by assumption. cbn [expand app length repeat] in *.
      replace (expand wa la ++ (repeat l w ++ expand wr lr) ++ zl) with ((expand wa la ++ repeat l w) ++ expand wr lr ++ zl) by (rewrite <- !app_assoc; reflexivity).
      rewrite IH; auto; try lia; try (rewrite !app_length; cbn [length]; lia). now rewrite <- !app_assoc.
Qed.

(** ** Runs of a line *)

Definition shift (d : nat) (r : run) : run := (d + fst r, d + snd r).

Lemma vruns_spec levels ls lv oc : (forall j, removed_by_x9 (class_at oc j) = false) ->
  forall n i start level mn mx, (forall j, j < i + n -> level_at levels (ls + j) = level_at lv j) ->
  (mn <= level <= mx)%N ->
  exists mn' mx', vruns_loop levels (ls + i + n) (ls + i) n (ls + start) level mn mx
    = (map (shift ls) (level_runs_loop lv oc i n level start), mn', mx') /\
  (mn' <= mn)%N /\ (mx <= mx')%N /\
  (forall j, i <= j < i + n -> (mn' <= level_at lv j <= mx')%N) /\
  (mx' = mx \/ exists j, i <= j < i + n /\ mx' = level_at lv j).
Proof.
  intros Ho. induction n as [|n IH]; intros i start level mn mx H HM; cbn [vruns_loop level_runs_loop].
  - exists mn, mx. unfold shift. cbn [map fst snd]. rewrite Nat.add_0_r. repeat split; try lia; auto.
  - rewrite H by lia. rewrite Ho. cbn [negb andb].
    destruct (N.eqb_spec (level_at lv i) level) as [E|E]; cbn [negb].
    + destruct (IH (S i) start level mn mx) as (mn' & mx' & E1 & A & B & C & F).
      { intros j Hj. apply H. lia. } { assumption. }
      exists mn', mx'. replace (ls + i + S n) with (ls + S i + n) by lia. replace (S (ls + i)) with (ls + S i) by lia.
      rewrite E1. split; [reflexivity|]. split; [assumption|]. split; [assumption|]. split.
      * intros j Hj. destruct (Nat.eq_dec j i) as [-> |]; [lia|apply C; lia].
      * destruct F as [F|(j & Hj & F)]; [now left|right; exists j; split; [lia|assumption]].
    + destruct (IH (S i) i (level_at lv i) (N.min (level_at lv i) mn) (N.max (level_at lv i) mx)) as (mn' & mx' & E1 & A & B & C & F).
      { intros j Hj. apply H. lia. } { lia. }
      exists mn', mx'. replace (ls + i + S n) with (ls + S i + n) by lia. replace (S (ls + i)) with (ls + S i) by lia.
      rewrite E1. split; [reflexivity|]. split; [lia|]. split; [lia|]. split.
      * intros j Hj. destruct (Nat.eq_dec j i) as [-> |]; [lia|apply C; lia].
      * destruct F as [F|(j & Hj & F)]; [|right; exists j; split; [lia|assumption]].
        destruct (N.max_spec (level_at lv i) mx) as [(_ & M)|(_ & M)]; rewrite M in F; [now left|right; exists i; split; [lia|assumption]].
Qed.

Lemma l2_pass_blocks sl k runs : forall g, l2_pass sl k runs g = reverse_blocks (fun r => level_at sl (fst r)) k runs g.
Proof.
  induction runs as [|r runs IH]; intros g; [reflexivity|]. cbn [l2_pass reverse_blocks]. rewrite !IH.
  destruct (N.ltb_spec (level_at sl (fst r)) k), (N.leb_spec k (level_at sl (fst r))); try reflexivity; lia.
Qed.
Lemma l2_loop_down sl n : forall k runs, l2_loop sl n k runs = l2_down (fun r => level_at sl (fst r)) k n runs.
Proof. induction n; intros k runs; [reflexivity|]. cbn [l2_loop l2_down]. now rewrite l2_pass_blocks, IHn. Qed.

Section Blocks.
  Context {A : Type} (lev : A -> N).

  Lemma blocks_perm k items : forall g, Permutation (reverse_blocks lev k items g) (g ++ items).
  Proof.
    induction items as [|x r IH]; intros g; cbn [reverse_blocks]; [now rewrite app_nil_r|].
    destruct (k <=? lev x)%N.
    - rewrite IH. cbn [app]. apply Permutation_middle.
    - rewrite IH. reflexivity.
  Qed.
  Lemma down_perm n : forall k items, Permutation (l2_down lev k n items) items.
  Proof. induction n; intros k items; cbn [l2_down]; [reflexivity|]. rewrite IHn, blocks_perm. reflexivity. Qed.

  Lemma blocks_high k m : forall rest g, Forall (fun x => (k <= lev x)%N) m ->
    reverse_blocks lev k (m ++ rest) g = reverse_blocks lev k rest (rev m ++ g).
  Proof.
    induction m as [|x m IH]; intros rest g F; [reflexivity|]. inversion F; subst. cbn [app reverse_blocks rev].
    destruct (N.leb_spec k (lev x)); [|lia]. rewrite IH by assumption. now rewrite <- app_assoc.
  Qed.
  Lemma blocks_low k m : forall rest, Forall (fun x => (lev x < k)%N) m ->
    reverse_blocks lev k (m ++ rest) [] = m ++ reverse_blocks lev k rest [].
  Proof.
    induction m as [|x m IH]; intros rest F; [reflexivity|]. inversion F; subst. cbn [app reverse_blocks].
    destruct (N.leb_spec k (lev x)); [lia|]. now rewrite IH.
  Qed.

  Lemma blocks_twice k items : forall g, Forall (fun x => (k <= lev x)%N) g ->
    reverse_blocks lev k (reverse_blocks lev k items g) [] = rev g ++ items.
  Proof.
    induction items as [|x r IH]; intros g F; cbn [reverse_blocks].
    - rewrite <- (app_nil_r g) at 1. rewrite blocks_high by assumption. cbn [reverse_blocks]. reflexivity.
    - destruct (N.leb_spec k (lev x)).
      + rewrite IH by (constructor; assumption). cbn [rev]. now rewrite <- app_assoc.
      + rewrite blocks_high by assumption. cbn [reverse_blocks]. destruct (N.leb_spec k (lev x)); [lia|].
        rewrite IH by constructor. cbn [rev app]. now rewrite app_nil_r.
  Qed.

  Lemma blocks_ext k k' items : (forall x, In x items -> (k <=? lev x)%N = (k' <=? lev x)%N) -> forall g,
    reverse_blocks lev k items g = reverse_blocks lev k' items g.
  Proof.
    induction items as [|x r IH]; intros H g; [reflexivity|]. cbn [reverse_blocks].
    rewrite (H x) by now left. rewrite !IH by (intros; apply H; now right). reflexivity.
  Qed.

  (** passes at an even level and the odd level below it cancel when the odd one does not occur *)
  Lemma pairs_cancel m : forall hi items, N.even hi = true -> (N.of_nat (2 * m) <= hi)%N ->
    (forall x, In x items -> N.odd (lev x) = true -> (hi < lev x)%N) ->
    l2_down lev hi (2 * m) items = items.
  Proof.
    induction m as [|m IH]; intros hi items He Hm H; [reflexivity|].
    replace (2 * S m) with (S (S (2 * m))) in * by lia. cbn [l2_down].
    rewrite (blocks_ext (hi - 1) hi).
    - rewrite blocks_twice by constructor. cbn [rev app]. apply IH.
      + apply N.even_spec in He as [q ->]. replace (2 * q - 1 - 1)%N with (2 * (q - 1))%N by lia. apply N.even_spec. now exists (q - 1)%N.
      + lia.
      + intros x Hx Ho. specialize (H x Hx Ho). lia.
    - intros x Hx. assert (Hx' : In x items).
      { eapply Permutation_in; [|exact Hx]. apply (blocks_perm hi items []). }
      destruct (N.leb_spec (hi - 1) (lev x)), (N.leb_spec hi (lev x)); try reflexivity; try lia. exfalso.
      assert (E : lev x = (hi - 1)%N) by lia.
      assert (O : N.odd (lev x) = true).
      { rewrite E. apply N.even_spec in He as [q ->]. apply N.odd_spec. exists (q - 1)%N. lia. }
      specialize (H x Hx' O). lia.
  Qed.

  Lemma down_app n : forall m hi items, l2_down lev hi (n + m) items = l2_down lev (hi - N.of_nat n) m (l2_down lev hi n items).
  Proof.
    induction n as [|n IH]; intros m hi items.
    - cbn [Nat.add l2_down]. f_equal. lia.
    - cbn [Nat.add l2_down]. rewrite IH. f_equal. lia.
  Qed.

  Lemma lowest_odd_spec items :
    match lowest_odd lev items with
    | None => forall x, In x items -> N.odd (lev x) = false
    | Some lo => N.odd lo = true /\ (exists x, In x items /\ lev x = lo) /\
                 forall x, In x items -> N.odd (lev x) = true -> (lo <= lev x)%N
    end.
  Proof.
    induction items as [|x r IH]; [intros x []|]. unfold lowest_odd in *. cbn [fold_right].
    destruct (N.odd (lev x)) eqn:O.
    - destruct (fold_right _ None r) as [m|].
      + destruct IH as (A1 & (y & Y1 & Y2) & A3). repeat split.
        * destruct (N.min_spec (lev x) m) as [(_ & ->)|(_ & ->)]; assumption.
        * destruct (N.min_spec (lev x) m) as [(_ & ->)|(_ & ->)]; [exists x; split; [now left|reflexivity]|exists y; split; [now right|assumption]].
        * intros z [<- |Hz] Oz; [lia|]. specialize (A3 z Hz Oz). lia.
      + repeat split; [assumption|exists x; split; [now left|reflexivity]|].
        intros z [<- |Hz] Oz; [lia|]. rewrite IH in Oz by assumption. discriminate.
    - destruct (fold_right _ None r) as [m|].
      + destruct IH as (A1 & (y & Y1 & Y2) & A3). repeat split; [assumption|exists y; split; [now right|assumption]|].
        intros z [<- |Hz] Oz; [congruence|auto].
      + intros z [<- |Hz]; auto.
  Qed.

  Lemma max_level_spec items mx : (forall x, In x items -> (lev x <= mx)%N) -> (exists x, In x items /\ lev x = mx) ->
    max_level lev items = mx.
  Proof.
    intros H1 (x & Hx & E). unfold max_level.
    assert (U : (fold_right N.max 0 (map lev items) <= mx)%N).
    { clear x Hx E. induction items as [|y r IH]; cbn [map fold_right]; [lia|].
      pose proof (H1 y (or_introl eq_refl)). specialize (IH (fun z Hz => H1 z (or_intror Hz))). lia. }
    assert (L : (mx <= fold_right N.max 0 (map lev items))%N).
    { clear H1 U. subst mx. induction items as [|y r IH]; [destruct Hx|]. cbn [map fold_right].
      destruct Hx as [-> |Hx]; [lia|]. specialize (IH Hx). lia. }
    lia.
  Qed.

  (** reversing down to any odd level below which only even levels occur is L2 *)
  Lemma down_rule items mx mn : (forall x, In x items -> (lev x <= mx)%N) -> (exists x, In x items /\ lev x = mx) ->
    N.odd mn = true -> (mn <= mx + 1)%N ->
    (forall x, In x items -> N.odd (lev x) = true -> (mn <= lev x)%N) ->
    l2_down lev mx (N.to_nat (mx + 1 - mn)) items = l2_rule lev items.
  Proof.
    intros H1 H2 H3 H4 H5. unfold l2_rule. rewrite (max_level_spec items mx H1 H2).
    pose proof (lowest_odd_spec items) as LO. apply N.odd_spec in H3 as [q ->].
    destruct (lowest_odd lev items) as [lo|].
    - destruct LO as (O & (x & Hx & E) & M).
      assert (L1 : (2 * q + 1 <= lo)%N) by (rewrite <- E; apply H5; [assumption|now rewrite E]).
      assert (L2 : (lo <= mx)%N) by (rewrite <- E; auto).
      apply N.odd_spec in O as [s ->].
      replace (N.to_nat (mx + 1 - (2 * q + 1))) with (N.to_nat (mx + 1 - (2 * s + 1)) + 2 * N.to_nat (s - q)) by lia.
      rewrite down_app. apply pairs_cancel.
      + replace (mx - N.of_nat (N.to_nat (mx + 1 - (2 * s + 1))))%N with (2 * s)%N by lia. apply N.even_spec. now exists s.
      + lia.
      + intros y Hy Oy. assert (Hy' : In y items) by (eapply Permutation_in; [apply down_perm|exact Hy]).
        specialize (M y Hy' Oy). lia.
    - assert (EV : N.odd mx = false) by (destruct H2 as (x & Hx & <-); auto).
      rewrite <- N.negb_even in EV. apply negb_false_iff in EV. pose proof EV as EV'. apply N.even_spec in EV as [s ->].
      replace (N.to_nat (2 * s + 1 - (2 * q + 1))) with (2 * N.to_nat (s - q)) by lia.
      apply pairs_cancel; [assumption|lia|]. intros x Hx Ox. rewrite LO in Ox by assumption. discriminate.
  Qed.
End Blocks.

(** ** From runs to characters *)

Definition flipn {X} (n : nat) (l : list X) : list X := if Nat.odd n then rev l else l.
Fixpoint cnt (hi : N) (n : nat) (l : N) : nat :=
  match n with
  | O => 0
  | S n' => (if (hi <=? l)%N then 1 else 0) + cnt (hi - 1) n' l
  end.

Lemma flipn_S {X} n (l : list X) : flipn n (rev l) = flipn (S n) l.
Proof. unfold flipn. rewrite Nat.odd_succ, <- Nat.negb_odd. destruct (Nat.odd n); cbn [negb]; [apply rev_involutive|reflexivity]. Qed.

Lemma cnt_spec n : forall hi l, (l <= hi)%N -> (N.of_nat n <= hi)%N -> cnt hi n l = N.to_nat l - (N.to_nat hi - n).
Proof.
  assert (All : forall n hi l, (hi <= l)%N -> cnt hi n l = n).
  { clear. induction n as [|n IH]; intros hi l H; cbn [cnt]; [reflexivity|].
    destruct (N.leb_spec hi l); [|lia]. rewrite IH by lia. reflexivity. }
  induction n as [|n IH]; intros hi l H1 H2; cbn [cnt]; [lia|].
  destruct (N.leb_spec hi l).
  - rewrite All by lia. lia.
  - rewrite IH by lia. lia.
Qed.

Lemma blocks_concat {X} (lev : X -> N) (R : Type) (lr : R -> N) k runs : forall (P : R -> list X) blk,
  (forall r, In r (blk ++ runs) -> P r <> [] /\ Forall (fun x => lev x = lr r) (P r)) ->
  (forall r, In r blk -> (k <= lr r)%N) ->
  reverse_blocks lev k (concat (map P runs)) (concat (map (fun r => if (k <=? lr r)%N then rev (P r) else P r) blk))
  = concat (map (fun r => if (k <=? lr r)%N then rev (P r) else P r) (reverse_blocks lr k runs blk)).
Proof.
  induction runs as [|r runs IH]; intros P blk HP Hb; [reflexivity|]. cbn [map concat reverse_blocks].
  assert (F : P r <> [] /\ Forall (fun x => lev x = lr r) (P r)) by (apply HP; apply in_or_app; right; now left).
  destruct F as (NE & F).
  destruct (N.leb_spec k (lr r)) as [Hk|Hk].
  - rewrite blocks_high.
    2: { eapply Forall_impl; [|exact F]. cbv beta. intros x ->. assumption. }
    specialize (IH P (r :: blk)). cbn [map concat] in IH. destruct (N.leb_spec k (lr r)); [|lia].
    apply IH.
    + intros r' Hr'. apply HP. cbn [app In] in Hr'. rewrite in_app_iff in *. cbn [In]. tauto.
    + intros r' [<- |Hr']; auto.
  - rewrite map_app, concat_app. cbn [map concat]. destruct (N.leb_spec k (lr r)) as [|_]; [lia|].
    specialize (IH P []). cbn [map concat] in IH. rewrite <- IH.
    + destruct (P r) as [|x m]; [congruence|]. inversion F as [|? ? F1 F2]; subst.
      cbn [app reverse_blocks]. destruct (N.leb_spec k (lev x)); [lia|]. do 2 f_equal.
      apply blocks_low. eapply Forall_impl; [|exact F2]. cbv beta. intros y ->. assumption.
    + intros r' Hr'. apply HP. apply in_or_app. right. right. exact Hr'.
    + intros r' [].
Qed.

Lemma down_concat {X} (lev : X -> N) (R : Type) (lr : R -> N) n : forall hi runs (P : R -> list X),
  (forall r, In r runs -> P r <> [] /\ Forall (fun x => lev x = lr r) (P r)) ->
  l2_down lev hi n (concat (map P runs))
  = concat (map (fun r => flipn (cnt hi n (lr r)) (P r)) (l2_down lr hi n runs)).
Proof.
  induction n as [|n IH]; intros hi runs P HP; cbn [l2_down cnt].
  - f_equal.
  - pose proof (blocks_concat lev R lr hi runs P [] HP) as B. cbn [map concat] in B. rewrite B by (intros r []).
    rewrite IH.
    + f_equal. apply map_ext. intros r. destruct (hi <=? lr r)%N; [apply flipn_S|reflexivity].
    + intros r Hr. assert (Hr' : In r runs) by (eapply Permutation_in; [apply (blocks_perm lr hi runs [])|exact Hr]).
      destruct (HP r Hr') as (NE & F). destruct (hi <=? lr r)%N; [|auto]. split.
      * intros E. apply NE. rewrite <- (rev_involutive (P r)), E. reflexivity.
      * apply Forall_forall. intros x Hx. rewrite Forall_forall in F. apply F. now apply in_rev.
Qed.

Definition cut {X} (items : list X) (r : run) : list X := firstn (snd r - fst r) (skipn (fst r) items).

Lemma skipn_plus {X} n m : forall x : list X, skipn (m + n) x = skipn n (skipn m x).
Proof. induction m; intros x; [reflexivity|]. destruct x; [now rewrite !skipn_nil|]. cbn. apply IHm. Qed.

Lemma cut_runs {X} (items : list X) oc lv runs : length items = length lv -> forall from,
  are_level_runs oc lv from runs -> concat (map (cut items) runs) = skipn from items.
Proof.
  intros HL. induction runs as [|r runs IH]; intros from H; cbn [are_level_runs] in H.
  - subst. now rewrite skipn_all2 by lia.
  - destruct H as (E & (B & _) & _ & H). cbn [map concat]. rewrite (IH _ H). unfold cut. rewrite E.
    rewrite <- (firstn_skipn (snd r - from) (skipn from items)) at 2. f_equal.
    rewrite <- skipn_plus. f_equal. lia.
Qed.

Lemma nth_cut {X} (items : list X) r j d : j < snd r - fst r -> nth j (cut items r) d = nth (fst r + j) items d.
Proof.
  intros H. unfold cut. rewrite <- (firstn_skipn (snd r - fst r) (skipn (fst r) items)) at 1.
  assert (G : nth j (firstn (snd r - fst r) (skipn (fst r) items)) d = nth j (skipn (fst r) items) d).
  { rewrite <- (firstn_skipn (snd r - fst r) (skipn (fst r) items)) at 2.
    destruct (le_lt_dec (length (firstn (snd r - fst r) (skipn (fst r) items))) j) as [L|L].
    - rewrite nth_overflow by assumption. rewrite firstn_length in L.
      rewrite firstn_skipn. rewrite nth_overflow; [reflexivity|]. lia.
    - now rewrite app_nth1. }
  rewrite firstn_skipn. rewrite G. clear.
  generalize (fst r) as k. intros k. revert items. induction k; intros items; [reflexivity|].
  destruct items; [destruct j; reflexivity|]. cbn. apply IHk.
Qed.

Lemma are_runs_in oc lv runs : forall from, are_level_runs oc lv from runs -> forall r, In r runs ->
  run_of_level oc lv (level_at lv (fst r)) r.
Proof.
  induction runs as [|r0 runs IH]; intros from H r Hr; [destruct Hr|].
  destruct H as (E & H1 & _ & H2). destruct Hr as [<- |Hr]; [exact H1|]. eapply IH; eauto.
Qed.

Lemma class_repeat n j : class_at (repeat cL n) j = cL.
Proof. unfold class_at. revert j. induction n; intros [|j]; cbn; auto. Qed.

Lemma cut_level (line : str) lv r : length line = length lv ->
  run_of_level (repeat cL (length lv)) lv (level_at lv (fst r)) r ->
  cut (combine line lv) r <> [] /\ Forall (fun x => snd x = level_at lv (fst r)) (cut (combine line lv) r).
Proof.
  intros HL (B & _ & H).
  assert (LC : length (cut (combine line lv) r) = snd r - fst r).
  { unfold cut. rewrite firstn_length, skipn_length, combine_length. lia. }
  split.
  - intros E. rewrite E in LC. cbn in LC. lia.
  - apply Forall_forall. intros x Hx. apply (In_nth _ _ (0%N, 0%N)) in Hx as (j & Hj & <-). rewrite LC in Hj.
    rewrite nth_cut by assumption. rewrite combine_nth by assumption. cbn [snd].
    apply (H (fst r + j)); [lia|]. rewrite class_repeat. cbn. intuition discriminate.
Qed.

Lemma cut_fst (line : str) : forall (lv : list N) r, length line = length lv -> map fst (cut (combine line lv) r) = cut line r.
Proof.
  intros lv r HL. unfold cut. rewrite <- firstn_map, <- skipn_map.
  assert (E : map fst (combine line lv) = line).
  { revert lv HL. induction line; intros [|l lv] H; cbn in *; try lia; [reflexivity|]. rewrite IHline by lia. reflexivity. }
  now rewrite E.
Qed.

(** ** The whole line *)

Lemma lor_1 m : N.odd (N.lor m 1) = true /\ (m <= N.lor m 1 <= m + 1)%N /\ (N.odd m = true -> N.lor m 1 = m).
Proof.
  assert (E : N.lor m 1 = if N.odd m then m else (m + 1)%N).
  { destruct m as [|[p|p|]]; try reflexivity. }
  rewrite E. destruct (N.odd m) eqn:O.
  - repeat split; try lia; assumption.
  - rewrite N.add_1_r, N.odd_succ, <- N.negb_odd, O. repeat split; try lia; discriminate.
Qed.

Lemma cut_bytes a line z r : fst r <= snd r <= length line ->
  str_slice (a ++ line ++ z) (slen a + off (map clen line) (fst r)) (slen a + off (map clen line) (snd r)) = Ret (cut line r).
Proof.
  intros H.
  assert (E1 : line = firstn (fst r) line ++ cut line r ++ skipn (snd r) line).
  { unfold cut. rewrite <- (firstn_skipn (fst r) line) at 1. f_equal.
    rewrite <- (firstn_skipn (snd r - fst r) (skipn (fst r) line)) at 1. f_equal. rewrite <- skipn_plus. f_equal. lia. }
  assert (O1 : off (map clen line) (fst r) = slen (firstn (fst r) line)).
  { unfold off. rewrite firstn_map, <- slen_sum. reflexivity. }
  assert (O2 : off (map clen line) (snd r) = slen (firstn (fst r) line) + slen (cut line r)).
  { unfold off. rewrite firstn_map, <- slen_sum, <- slen_app. f_equal. unfold cut.
    replace (snd r) with (fst r + (snd r - fst r)) at 1 by lia. generalize (snd r - fst r) as n. clear.
    generalize (fst r) as k. intros k n. revert line. induction k; intros line; [reflexivity|].
    destruct line; [cbn; now rewrite firstn_nil|]. cbn. now rewrite IHk. }
  rewrite O1, O2. rewrite E1 at 1.
  replace (a ++ (firstn (fst r) line ++ cut line r ++ skipn (snd r) line) ++ z)
    with ((a ++ firstn (fst r) line) ++ cut line r ++ (skipn (snd r) line ++ z)) by (rewrite <- !app_assoc; reflexivity).
  rewrite Nat.add_assoc, <- slen_app. apply str_slice_app.
Qed.

Lemma render_map t levels (f : run -> run) (P : run -> str) (o : run -> bool) runs :
  (forall r, In r runs -> str_slice t (fst (f r)) (snd (f r)) = Ret (P r) /\ level_is_rtl (level_at levels (fst (f r))) = o r) ->
  render_runs t levels (map f runs) = Ret (concat (map (fun r => if o r then rev (P r) else P r) runs)).
Proof.
  induction runs as [|r runs IH]; intros H; [reflexivity|]. cbn [map render_runs concat].
  destruct (H r (or_introl eq_refl)) as (-> & ->). cbn [obind]. rewrite IH by (intros; apply H; now right). reflexivity.
Qed.

Lemma blocks_map {R Q} (f : R -> Q) (lev : Q -> N) k rs : forall g,
  reverse_blocks lev k (map f rs) (map f g) = map f (reverse_blocks (fun r => lev (f r)) k rs g).
Proof.
  induction rs as [|r rs IH]; intros g; [reflexivity|]. cbn [map reverse_blocks]. destruct (k <=? lev (f r))%N.
  - apply (IH (r :: g)).
  - rewrite map_app. cbn [map]. do 2 f_equal. apply (IH []).
Qed.
Lemma down_map {R Q} (f : R -> Q) (lev : Q -> N) n : forall k rs,
  l2_down lev k n (map f rs) = map f (l2_down (fun r => lev (f r)) k n rs).
Proof.
  induction n; intros k rs; [reflexivity|]. cbn [l2_down]. rewrite <- IHn. f_equal. apply (blocks_map f lev k rs []).
Qed.
Lemma blocks_lev {R} (l1 l2 : R -> N) k rs : (forall r, In r rs -> l1 r = l2 r) -> forall g,
  reverse_blocks l1 k rs g = reverse_blocks l2 k rs g.
Proof.
  induction rs as [|r rs IH]; intros H g; [reflexivity|]. cbn [reverse_blocks]. rewrite (H r) by now left.
  rewrite !IH by (intros; apply H; now right). reflexivity.
Qed.
Lemma down_lev {R} (l1 l2 : R -> N) n : forall k rs, (forall r, In r rs -> l1 r = l2 r) -> l2_down l1 k n rs = l2_down l2 k n rs.
Proof.
  induction n; intros k rs H; [reflexivity|]. cbn [l2_down]. rewrite (blocks_lev l1 l2) by assumption. apply IHn.
  intros r Hr. apply H. eapply Permutation_in; [|exact Hr]. apply (blocks_perm l2 k rs []).
Qed.

Lemma indices_shift d rs : seq_indices (map (shift d) rs) = map (fun j => d + j) (seq_indices rs).
Proof.
  induction rs as [|r rs IH]; [reflexivity|]. unfold seq_indices in *. cbn [map flat_map]. rewrite map_app, IH. f_equal.
  unfold run_indices, shift. cbn [fst snd]. replace (d + snd r - (d + fst r)) with (snd r - fst r) by lia.
  assert (G : forall n k, seq (d + k) n = map (fun j => d + j) (seq k n)).
  { clear. induction n as [|n IH]; intros k; [reflexivity|]. cbn [seq map]. f_equal. rewrite <- IH. f_equal. lia. }
  apply G.
Qed.

Lemma concat_map_perm {R X} (f g : R -> list X) rs : (forall r, In r rs -> Permutation (f r) (g r)) ->
  Permutation (concat (map f rs)) (concat (map g rs)).
Proof.
  induction rs as [|r rs IH]; intros H; [reflexivity|]. cbn [map concat]. apply Permutation_app; [apply H; now left|].
  apply IH. intros; apply H; now right.
Qed.
Lemma concat_perm {X} (l m : list (list X)) : Permutation l m -> Permutation (concat l) (concat m).
Proof.
  induction 1; cbn; auto.
  - now apply Permutation_app_head.
  - rewrite !app_assoc. apply Permutation_app_tail, Permutation_app_comm.
  - etransitivity; eassumption.
Qed.

Section Line.
  Variables (b : bidi_info) (pl : N) (a line z : str) (lk : list N).
  Let wl := map clen line.
  Let ls := slen a.
  Let le := slen a + slen line.
  Let levels' := l1_loop pl (b_classes b) wl 0 (b_levels b) (Some 0).
  Hypothesis Ht : b_text b = a ++ line ++ z.
  Hypothesis HN : line <> [].
  Hypothesis HLb : length (b_levels b) = slen (b_text b).
  Hypothesis HLl : length levels' = length (b_levels b).
  Hypothesis HK : length lk = length line.
  Hypothesis HE : forall j, j < slen line -> level_at levels' (ls + j) = level_at (expand wl lk) j.

  Definition cruns : list run := level_runs lk (repeat cL (length lk)).
  Definition byte_run (r : run) : run := shift ls (bound wl r).

  Lemma wl_pos : Forall (fun w => 0 < w) wl.
  Proof. apply clens_pos. Qed.
  Lemma wl_sum : list_sum wl = slen line.
  Proof. unfold wl. now rewrite <- slen_sum. Qed.
  Lemma wl_len : length wl = length line.
  Proof. unfold wl. apply map_length. Qed.

  Lemma cruns_level r : In r cruns -> run_of_level (repeat cL (length lk)) lk (level_at lk (fst r)) r.
  Proof. apply are_runs_in with (from := 0). apply level_runs_spec. Qed.

  Lemma run_start_level r : fst r < length line -> level_at levels' (fst (byte_run r)) = level_at lk (fst r).
  Proof.
    intros H. unfold byte_run, shift, bound. cbn [fst]. rewrite HE.
    - unfold level_at. unfold off. rewrite <- (Nat.add_0_r (list_sum (firstn (fst r) wl))).
      apply expand_nth; rewrite ?wl_len; auto. apply wat_pos; [apply wl_pos|now rewrite wl_len].
    - rewrite <- wl_sum. rewrite <- (off_all wl (length wl)) by lia. apply off_lt; [apply wl_pos|]. rewrite wl_len. lia.
  Qed.

  Lemma line_visual : exists mn mx,
    visual_runs b pl ls le
    = match level_lowest_ge_rtl mn with
      | None => Panic
      | Some m => Ret (levels', l2_loop (b_levels b) (N.to_nat (mx + 1 - m)) mx (map byte_run cruns))
      end /\
    (forall j, j < length lk -> (mn <= level_at lk j <= mx)%N) /\ (exists j, j < length lk /\ level_at lk j = mx).
  Proof.
    assert (SL : str_slice (b_text b) ls le = Ret line) by (rewrite Ht; apply str_slice_app).
    assert (PL : 0 < slen line) by (now apply slen_pos).
    assert (LT : slen (b_text b) = slen a + slen line + slen z) by (rewrite Ht, !slen_app; lia).
    assert (LE : length (expand wl lk) = slen line) by (rewrite expand_length, wl_sum; [reflexivity|now rewrite wl_len]).
    destruct (vruns_spec levels' ls (expand wl lk) (expand wl (repeat cL (length lk)))) with (n := slen line - 1) (i := 1) (start := 0)
      (level := level_at levels' ls) (mn := level_at levels' ls) (mx := level_at levels' ls) as (mn & mx & E & A & B & C & F).
    { intros j. rewrite HK, <- wl_len, expand_repeat, class_repeat. reflexivity. }
    { intros j Hj. apply HE. lia. }
    { lia. }
    assert (E0 : level_at levels' ls = level_at (expand wl lk) 0) by (rewrite <- (Nat.add_0_r ls); now apply HE).
    exists mn, mx. split; [|split].
    - unfold visual_runs. fold wl levels'.
      assert (X1 : (ls <=? length (b_levels b)) && (le <=? length (b_levels b)) = true).
      { apply andb_true_iff. split; apply Nat.leb_le; unfold ls, le; lia. }
      rewrite X1, SL. cbn [obind]. fold wl levels'.
      destruct (Nat.ltb_spec ls (length levels')) as [_|X]; [|exfalso; unfold ls in X; lia].
      replace (le - S ls) with (slen line - 1) by (unfold le, ls; lia).
      replace (ls + 1 + (slen line - 1)) with le in E by (unfold le, ls; lia).
      replace (ls + 1) with (S ls) in E by lia. rewrite Nat.add_0_r in E. rewrite E.
      assert (R : level_runs_loop (expand wl lk) (expand wl (repeat cL (length lk))) 1 (slen line - 1) (level_at levels' ls) 0
        = map (bound wl) cruns).
      { unfold cruns. rewrite <- (level_runs_chars wl wl_pos (repeat cL (length lk)) lk); [|rewrite repeat_length, wl_len; assumption|now rewrite wl_len].
        unfold level_runs. rewrite E0. destruct (expand wl lk) as [|l0 rest] eqn:EX; [cbn in LE; lia|].
        rewrite LE. reflexivity. }
      rewrite R, map_map. reflexivity.
    - intros j Hj. assert (Hj' : off wl j < slen line).
      { rewrite <- wl_sum, <- (off_all wl (length wl)) by lia. apply off_lt; [apply wl_pos|]. rewrite wl_len. lia. }
      rewrite <- (level_expand0 wl wl_pos lk j) by (rewrite wl_len; lia).
      destruct (Nat.eq_dec (off wl j) 0) as [Z|Z]; [rewrite Z, <- E0; lia|]. apply C. lia.
    - destruct F as [F|(j & Hj & F)].
      + exists 0. split; [destruct line; [congruence|]; cbn in HK; lia|]. rewrite F, E0. symmetry.
        rewrite <- (level_expand0 wl wl_pos lk 0); [reflexivity|now rewrite wl_len|rewrite wl_len; destruct line; [congruence|cbn; lia]].
      + destruct (byte_char wl j) as (k & i & K1 & K2 & K3); [rewrite wl_sum; lia|].
        exists k. split; [rewrite wl_len in K1; lia|]. rewrite F, K3. symmetry. apply level_expand; auto; try (now rewrite wl_len).
  Qed.

  Lemma cruns_bytes : seq_indices (map byte_run cruns) = seq ls (slen line).
  Proof.
    assert (E : map byte_run cruns = map (shift ls) (map (bound wl) cruns)) by (rewrite map_map; reflexivity).
    rewrite E, indices_shift. unfold cruns.
    rewrite <- (level_runs_chars wl wl_pos (repeat cL (length lk)) lk); [|rewrite repeat_length, wl_len; assumption|now rewrite wl_len].
    destruct (are_level_runs_in_order _ _ _ _ (level_runs_spec (expand wl lk) (expand wl (repeat cL (length lk))))) as (_ & -> & _).
    rewrite expand_length, wl_sum, Nat.sub_0_r by now rewrite wl_len.
    assert (G : forall n k d, map (fun j => d + j) (seq k n) = seq (d + k) n).
    { clear. induction n as [|n IH]; intros k d; [reflexivity|]. cbn [seq map]. f_equal. rewrite IH. f_equal. lia. }
    rewrite G. f_equal. lia.
  Qed.

  Lemma cruns_cut : concat (map (cut line) cruns) = line.
  Proof.
    rewrite (cut_runs line (repeat cL (length lk)) lk cruns) with (from := 0); [reflexivity|symmetry; assumption|apply level_runs_spec].
  Qed.

  Lemma cruns_bounds r : In r cruns -> fst r < snd r <= length line.
  Proof. intros H. apply cruns_level in H as (B & _). lia. Qed.

  (** the visual runs cover the line, and the line is permuted *)
  Lemma line_permuted levels runs : visual_runs b pl ls le = Ret (levels, runs) ->
    Forall (fun r => fst r < snd r) runs /\ Permutation (seq_indices runs) (seq ls (slen line)) /\
    exists out, reorder_line b pl ls le = Ret out /\ Permutation out line.
  Proof.
    intros HV. destruct line_visual as (mn & mx & E & _). rewrite HV in E.
    destruct (level_lowest_ge_rtl mn) as [m|]; [|discriminate]. injection E as -> ER.
    rewrite l2_loop_down, down_map in ER.
    set (rs := l2_down _ _ _ cruns) in ER. assert (PR : Permutation rs cruns) by apply down_perm.
    assert (In_rs : forall r, In r rs -> In r cruns) by (intros r Hr; eapply Permutation_in; eauto).
    split; [|split].
    - subst runs. apply Forall_map, Forall_forall. intros r Hr. apply In_rs, cruns_bounds in Hr.
      unfold byte_run, shift, bound. cbn [fst snd]. pose proof (off_lt wl wl_pos (fst r) (snd r)). rewrite wl_len in H. lia.
    - rewrite <- cruns_bytes. subst runs. apply flat_map_perm. now apply Permutation_map.
    - unfold reorder_line. rewrite HV. cbn [obind]. destruct (forallb (fun r => level_is_ltr (level_at levels' (fst r))) runs).
      + exists line. split; [rewrite Ht; apply str_slice_app|reflexivity].
      + rewrite ER. rewrite (render_map _ _ byte_run (cut line) (fun r => level_is_rtl (level_at lk (fst r)))).
        * eexists. split; [reflexivity|]. apply (Permutation_trans (l' := concat (map (cut line) cruns))); [|now rewrite cruns_cut].
          etransitivity; [|apply concat_perm, Permutation_map, PR].
          apply concat_map_perm. intros r _. destruct (level_is_rtl _); [symmetry; apply Permutation_rev|reflexivity].
        * intros r Hr. apply In_rs, cruns_bounds in Hr. split.
          -- rewrite Ht. apply cut_bytes. lia.
          -- rewrite run_start_level by lia. reflexivity.
  Qed.

  (** if the unmodified levels agree with [lk], the result is that of L2 *)
  Lemma line_l2 out : (forall j, j < length line -> level_at (b_levels b) (ls + off wl j) = level_at lk j) ->
    reorder_line b pl ls le = Ret out -> out = map fst (l2_rule snd (combine line lk)).
  Proof.
    intros HS HR. destruct line_visual as (mn & mx & E & HB & (jm & Hjm & HM)). unfold reorder_line in HR.
    rewrite E in HR. destruct (level_lowest_ge_rtl mn) as [m|] eqn:EM; [|discriminate]. cbn [obind] in HR.
    assert (Em : m = N.lor mn 1).
    { unfold level_lowest_ge_rtl, level_new in EM. destruct (_ <=? _)%N; [now injection EM as <-|discriminate]. }
    destruct (lor_1 mn) as (O & (L1 & L2) & L3). rewrite <- Em in *.
    set (items := combine line lk) in *.
    assert (LI : length items = length lk) by (unfold items; rewrite combine_length; lia).
    assert (In_items : forall x, In x items -> exists j, j < length lk /\ snd x = level_at lk j).
    { intros x Hx. apply (In_nth _ _ (0%N, 0%N)) in Hx as (j & Hj & <-). rewrite LI in Hj. exists j. split; [assumption|].
      unfold items. rewrite combine_nth by congruence. reflexivity. }
    assert (DR : l2_down snd mx (N.to_nat (mx + 1 - m)) items = l2_rule snd items).
    { apply down_rule; auto.
      - intros x Hx. destruct (In_items x Hx) as (j & Hj & ->). apply HB. assumption.
      - exists (nth jm items (0%N, 0%N)). split; [apply nth_In; lia|]. unfold items. rewrite combine_nth by congruence. exact HM.
      - pose proof (HB jm Hjm). lia.
      - intros x Hx Ox. destruct (In_items x Hx) as (j & Hj & Ej). rewrite Ej in *. pose proof (HB j Hj).
        destruct (N.eq_dec mn (level_at lk j)) as [X|]; [|lia]. rewrite <- X in Ox. rewrite (L3 Ox). lia. }
    rewrite l2_loop_down, down_map in HR.
    assert (LRn : forall r, In r cruns -> level_at (b_levels b) (fst (byte_run r)) = level_at lk (fst r)).
    { intros r Hr. apply cruns_bounds in Hr. apply HS. lia. }
    rewrite (down_lev _ (fun r : run => level_at lk (fst r))) in HR by exact LRn.
    set (rs := l2_down _ _ _ cruns) in HR. assert (PR : Permutation rs cruns) by apply down_perm.
    assert (In_rs : forall r, In r rs -> In r cruns) by (intros r Hr; eapply Permutation_in; eauto).
    assert (CI : concat (map (cut items) cruns) = items).
    { rewrite (cut_runs items (repeat cL (length lk)) lk cruns) with (from := 0); [reflexivity|assumption|apply level_runs_spec]. }
    match type of HR with (if ?c then _ else _) = _ => destruct c eqn:FB end.
    - rewrite Ht in HR. unfold le in HR. rewrite str_slice_app in HR. injection HR as <-.
      assert (NO : lowest_odd snd items = None).
      { pose proof (lowest_odd_spec snd items) as LO. destruct (lowest_odd snd items) as [lo|]; [|reflexivity]. exfalso.
        destruct LO as (Lo & (x & Hx & Ex) & _). rewrite <- CI in Hx. apply in_concat in Hx as (q & Hq & Hx).
        apply in_map_iff in Hq as (r & <- & Hr).
        destruct (cut_level line lk r ltac:(congruence) (cruns_level r Hr)) as (_ & F). fold items in F.
        rewrite Forall_forall in F. rewrite (F x Hx) in Ex.
        rewrite forallb_forall in FB. specialize (FB (byte_run r)). rewrite run_start_level in FB by (apply cruns_bounds in Hr; lia).
        rewrite level_is_ltr_even, Ex, <- N.negb_odd, Lo in FB. discriminate FB. apply in_map.
        eapply Permutation_in; [symmetry; exact PR|exact Hr]. }
      unfold l2_rule. rewrite NO. unfold items.
      assert (EF : forall (l : str) (m : list N), length m = length l -> map fst (combine l m) = l).
      { clear. induction l; intros [|n m] H; cbn in *; try lia; [reflexivity|]. rewrite IHl by lia. reflexivity. }
      symmetry. apply EF. assumption.
    - rewrite (render_map _ _ byte_run (cut line) (fun r => level_is_rtl (level_at lk (fst r)))) in HR.
      + injection HR as <-. rewrite <- DR. rewrite <- CI.
        rewrite (down_concat snd run (fun r => level_at lk (fst r))).
        * fold rs. rewrite concat_map, map_map. f_equal. apply map_ext_in. intros r Hr.
          apply In_rs in Hr. apply cruns_bounds in Hr.
          assert (PB : (mn <= level_at lk (fst r) <= mx)%N) by (apply HB; lia).
          assert (M1 : (1 <= m)%N) by (destruct (N.eq_dec m 0) as [Z|]; [rewrite Z in O; discriminate O|lia]).
          rewrite cnt_spec by lia. rewrite level_is_rtl_odd.
          assert (PE : Nat.odd (N.to_nat (level_at lk (fst r)) - (N.to_nat mx - N.to_nat (mx + 1 - m))) = N.odd (level_at lk (fst r))).
          { set (l := level_at lk (fst r)) in *.
            replace (N.to_nat l - (N.to_nat mx - N.to_nat (mx + 1 - m))) with (N.to_nat (l - (m - 1))) by lia.
            clear - O PB L1 L2 L3. apply N.odd_spec in O as [q ->].
            replace (2 * q + 1 - 1)%N with (2 * q)%N by lia.
            destruct (N.le_gt_cases (2 * q) l) as [H|H].
            - assert (X : exists d, l = (2 * q + d)%N) by (exists (l - 2 * q)%N; lia). destruct X as (d & ->).
              replace (2 * q + d - 2 * q)%N with d by lia. rewrite N.odd_add, N.odd_mul. cbn [N.odd xorb andb].
              destruct (N.odd d) eqn:Od.
              + apply N.odd_spec in Od as [e ->]. apply Nat.odd_spec. exists (N.to_nat e). lia.
              + rewrite <- N.negb_even in Od. apply negb_false_iff, N.even_spec in Od as [e ->].
                rewrite <- Nat.negb_even. apply negb_false_iff, Nat.even_spec. exists (N.to_nat e). lia.
            - exfalso. destruct (N.odd mn) eqn:Om; [rewrite L3 in * by reflexivity; lia|].
              assert (mn = (2 * q)%N); [|lia].
              rewrite <- N.negb_even in Om. apply negb_false_iff, N.even_spec in Om as [e ->]. lia. }
          unfold flipn. rewrite PE. unfold items. destruct (N.odd (level_at lk (fst r))); rewrite ?map_rev, cut_fst by congruence; reflexivity.
        * intros r Hr. apply cut_level; [congruence|]. now apply cruns_level.
      + intros r Hr. apply In_rs, cruns_bounds in Hr. split.
        * rewrite Ht. apply cut_bytes. lia.
        * rewrite run_start_level by lia. reflexivity.
  Qed.
End Line.


(** Isolating run sequences are those of BD13 when no removed character directly
    follows an isolate initiator. *)
From Coq Require Import List NArith ZArith Lia Bool Arith Permutation ZifyBool ZifyNat ZifyN.
Import ListNotations.
From Verif Require Import Base Enums EnumFacts UcdModel BidiModel BidiSpec BidiLemmas BidiWeak BidiSeqs BidiExplicit BidiChars BidiPara BidiRules.
Open Scope nat_scope.

(** levels just below the isolate entries, last entry first *)
Fixpoint vlist (st : list status) : list N :=
  match st with
  | e :: rest =>
      match rest with
      | b :: _ => if st_isolate e then st_level b :: vlist rest else vlist rest
      | [] => []
      end
  | [] => []
  end.
Fixpoint sorted (st : list status) : Prop :=
  match st with
  | e :: rest =>
      match rest with
      | b :: _ => (st_level b < st_level e)%N /\ sorted rest
      | [] => True
      end
  | [] => False
  end.
Definition xinv (s : xstate) : Prop := sorted (x_stack s) /\ x_vi s = length (vlist (x_stack s)).
Definition top (s : xstate) : N := st_level (x_top s).
Definition V (s : xstate) : list N := vlist (x_stack s).

Lemma wanted_gt c l : (l < fst (wanted c l))%N.
Proof.
  pose proof (next_odd_gt l). pose proof (next_even_gt l). destruct c; assumption.
Qed.

Lemma vlist_push e st : sorted st -> vlist (e :: st) = if st_isolate e then st_level (hd (mkstatus 0 None false) st) :: vlist st else vlist st.
Proof. destruct st; [intros []|reflexivity]. Qed.

Lemma sorted_above st : sorted st -> match vlist st with [] => True | v :: _ => (v < st_level (hd (mkstatus 0 None false) st))%N end.
Proof.
  induction st as [|e st IH]; [intros []|]. destruct st as [|b st]; [trivial|].
  intros (A & B). specialize (IH B). change (vlist (e :: b :: st)) with (if st_isolate e then st_level b :: vlist (b :: st) else vlist (b :: st)).
  cbn [hd] in *. destruct (st_isolate e); [assumption|]. destruct (vlist (b :: st)); [trivial|lia].
Qed.

Lemma drop_isolate_spec st : sorted st -> forall v vs, vlist st = v :: vs ->
  sorted (drop_isolate st) /\ vlist (drop_isolate st) = vs /\ st_level (hd (mkstatus 0 None false) (drop_isolate st)) = v.
Proof.
  induction st as [|e st IH]; [intros []|]. destruct st as [|b st]; [discriminate|].
  intros (A & B) v vs E. change (vlist (e :: b :: st)) with (if st_isolate e then st_level b :: vlist (b :: st) else vlist (b :: st)) in E.
  change (drop_isolate (e :: b :: st)) with (if st_isolate e then b :: st else drop_isolate (b :: st)).
  destruct (st_isolate e).
  - injection E as <- <-. auto.
  - apply IH; assumption.
Qed.

(** What one character does to the state *)
Lemma x_next_removed c s : xinv s -> kept c = false ->
  xinv (x_next c s) /\ V (x_next c s) = V s /\ x_oi (x_next c s) = x_oi s /\
  (0 < x_oi s -> top (x_next c s) = top s).
Proof.
  intros (S0 & VI) K.
  assert (Same : xinv s /\ V s = V s /\ x_oi s = x_oi s /\ (0 < x_oi s -> top s = top s)) by (repeat split; auto).
  assert (Emb : forall c, let '(l, o) := wanted c (st_level (x_top s)) in
      let s' := if (l <=? 125)%N && (x_oi s =? 0) && (x_oe s =? 0)
        then mkx (mkstatus l o false :: x_stack s) 0 0 (x_vi s)
        else mkx (x_stack s) (x_oi s) (if x_oi s =? 0 then S (x_oe s) else x_oe s) (x_vi s) in
      xinv s' /\ V s' = V s /\ x_oi s' = x_oi s /\ (0 < x_oi s -> top s' = top s)).
  { clear K c. intros c. pose proof (wanted_gt c (st_level (x_top s))) as G.
    destruct (wanted c (st_level (x_top s))) as [l o]. cbn [fst] in G. cbv zeta.
    destruct ((l <=? 125)%N && (x_oi s =? 0) && (x_oe s =? 0)) eqn:E.
    - apply andb_true_iff in E as (E & _). apply andb_true_iff in E as (_ & E). apply Nat.eqb_eq in E.
      unfold xinv, V, top, x_top in *. cbn [x_stack x_vi x_oi hd st_level]. rewrite vlist_push by assumption. cbn [st_isolate].
      repeat split; auto; try lia. destruct (x_stack s) eqn:ES; [destruct S0|]. cbn [hd] in G. cbn [sorted st_level]. split; assumption.
    - unfold xinv, V, top, x_top. cbn [x_stack x_vi x_oi]. auto. }
  destruct c; try discriminate K; cbn [x_next]; try exact Same; try (apply (Emb cLRE)); try (apply (Emb cLRO));
    try (apply (Emb cRLE)); try (apply (Emb cRLO)).
  destruct (0 <? x_oi s) eqn:O; [exact Same|]. apply Nat.ltb_ge in O.
  destruct (0 <? x_oe s); [unfold xinv, V, top, x_top; cbn [x_stack x_vi x_oi]; repeat split; auto; lia|].
  destruct (negb (st_isolate (x_top s)) && (2 <=? length (x_stack s))) eqn:P; [|exact Same].
  apply andb_true_iff in P as (P1 & P2). apply negb_true_iff in P1. apply Nat.leb_le in P2.
  unfold xinv, V, top, x_top in *. cbn [x_stack x_vi x_oi].
  destruct (x_stack s) as [|e [|b st]]; cbn [length] in P2; try lia. cbn [tl hd sorted] in *.
  change (vlist (e :: b :: st)) with (if st_isolate e then st_level b :: vlist (b :: st) else vlist (b :: st)) in *.
  rewrite P1 in *. repeat split; auto; try tauto; lia.
Qed.

Lemma x_next_pdi s : xinv s ->
  xinv (x_next cPDI s) /\
  ((0 < x_oi s /\ V (x_next cPDI s) = V s /\ x_oi s = S (x_oi (x_next cPDI s)) /\ top (x_next cPDI s) = top s) \/
   (x_oi s = 0 /\ V s = [] /\ x_next cPDI s = s) \/
   (x_oi s = 0 /\ exists v vs, V s = v :: vs /\ V (x_next cPDI s) = vs /\ top (x_next cPDI s) = v /\ x_oi (x_next cPDI s) = 0)).
Proof.
  intros (S0 & VI). cbn [x_next]. destruct (0 <? x_oi s) eqn:O.
  - apply Nat.ltb_lt in O. split; [split; assumption|]. left. unfold V, top, x_top. cbn [x_stack x_oi]. repeat split; auto. lia.
  - apply Nat.ltb_ge in O. destruct (Nat.eqb_spec (x_vi s) 0) as [Z|Z].
    + split; [split; assumption|]. right; left. split; [lia|]. split; [|reflexivity].
      unfold V. destruct (vlist (x_stack s)); [reflexivity|]. cbn [length] in VI. lia.
    + destruct (vlist (x_stack s)) as [|v vs] eqn:E; [cbn [length] in VI; lia|].
      destruct (drop_isolate_spec _ S0 _ _ E) as (A & B & C). cbn [length] in VI. split.
      * split; cbn [x_stack x_vi]; [assumption|]. rewrite B. lia.
      * right; right. split; [lia|]. exists v, vs. unfold V, top, x_top. cbn [x_stack x_oi]. auto.
Qed.

Lemma x_next_init c s : xinv s -> initiator c ->
  xinv (x_next c s) /\
  ((x_oi s = 0 /\ x_oi (x_next c s) = 0 /\ V (x_next c s) = top s :: V s /\ (top s < top (x_next c s))%N) \/
   (x_oi (x_next c s) = S (x_oi s) /\ V (x_next c s) = V s /\ top (x_next c s) = top s)).
Proof.
  intros (S0 & VI) I.
  assert (E : x_next c s = let '(l, o) := wanted c (st_level (x_top s)) in
      if (l <=? 125)%N && (x_oi s =? 0) && (x_oe s =? 0)
      then mkx (mkstatus l o true :: x_stack s) 0 0 (S (x_vi s))
      else mkx (x_stack s) (S (x_oi s)) (x_oe s) (x_vi s)) by (destruct I as [->|[->| ->]]; reflexivity).
  rewrite E. clear E. pose proof (wanted_gt c (st_level (x_top s))) as G.
  destruct (wanted c (st_level (x_top s))) as [l o]. cbn [fst] in G.
  destruct ((l <=? 125)%N && (x_oi s =? 0) && (x_oe s =? 0)) eqn:E.
  - apply andb_true_iff in E as (E & _). apply andb_true_iff in E as (_ & E). apply Nat.eqb_eq in E.
    unfold xinv, V, top, x_top in *. cbn [x_stack x_vi x_oi hd st_level]. rewrite vlist_push by assumption. cbn [st_isolate length].
    split; [split; [|lia]|left; auto].
    destruct (x_stack s) eqn:ES; [destruct S0|]. cbn [hd] in G. cbn [sorted st_level]. split; assumption.
  - split; [split; assumption|]. right. auto.
Qed.

Lemma init_dec c : {initiator c} + {~ initiator c}.
Proof. unfold initiator. destruct c; (left; auto; fail) || (right; intuition discriminate). Qed.

Lemma x_next_other c s : kept c = true -> ~ initiator c -> c <> cPDI -> x_next c s = s.
Proof. intros K I P. unfold initiator in I. destruct c; try discriminate K; try congruence; try reflexivity; exfalso; apply I; auto. Qed.

Lemma xinv_next c s : xinv s -> xinv (x_next c s).
Proof.
  intros H. destruct (kept c) eqn:K; [|now apply x_next_removed].
  destruct (init_dec c) as [I|I]; [now apply x_next_init|].
  destruct (BC_eq_dec c cPDI) as [->|P]; [now apply x_next_pdi|]. now rewrite x_next_other.
Qed.

Lemma depth_next c s : xinv s ->
  length (V (x_next c s)) + x_oi (x_next c s) = isolate_depth (length (V s) + x_oi s) [c].
Proof.
  intros H. destruct (kept c) eqn:K.
  - destruct (init_dec c) as [I|I].
    + assert (E : isolate_depth (length (V s) + x_oi s) [c] = S (length (V s) + x_oi s)) by (destruct I as [->|[->| ->]]; reflexivity).
      rewrite E. destruct (x_next_init c s H I) as (_ & [(A & B & C & _)|(A & B & _)]).
      * rewrite A, B, C. cbn [length]. lia.
      * rewrite A, B. lia.
    + destruct (BC_eq_dec c cPDI) as [->|P].
      * cbn [isolate_depth]. destruct (x_next_pdi s H) as (_ & [(A & B & C & _)|[(A & B & C)|(A & v & vs & B & C & _ & D)]]).
        -- rewrite B, C. lia.
        -- rewrite C, A, B. reflexivity.
        -- rewrite C, D, A, B. cbn [length]. lia.
      * rewrite x_next_other by assumption. unfold initiator in I. destruct c; try reflexivity; try congruence; exfalso; apply I; auto.
  - destruct (x_next_removed c s H K) as (_ & -> & -> & _). destruct c; try discriminate K; reflexivity.
Qed.

Lemma isolate_depth_app a : forall b d, isolate_depth d (a ++ b) = isolate_depth (isolate_depth d a) b.
Proof. induction a as [|c a IH]; intros b d; [reflexivity|]. destruct c; cbn; apply IH. Qed.

Section Chars.
  Variables (para : N) (cs : list BidiClass) (lv : list N).
  Definition ST (k : nat) : xstate := fold_left (fun s c => x_next c s) (firstn k cs) (x_start para).
  Definition D (k : nat) : nat := isolate_depth 0 (firstn k cs).

  Lemma firstn_next k : k < length cs -> firstn (S k) cs = firstn k cs ++ [class_at cs k].
  Proof.
    intros H. unfold class_at. revert k H. induction cs as [|c l IH]; intros [|k] H; cbn [length] in H; try lia; [reflexivity|].
    cbn [firstn app nth]. now rewrite <- IH by lia.
  Qed.

  Lemma ST_S k : k < length cs -> ST (S k) = x_next (class_at cs k) (ST k).
  Proof. intros H. unfold ST. rewrite firstn_next, fold_left_app by assumption. reflexivity. Qed.

  Lemma ST_inv k : k <= length cs -> xinv (ST k).
  Proof.
    induction k as [|k IH]; intros H.
    - split; [exact I|reflexivity].
    - rewrite ST_S by lia. apply xinv_next, IH. lia.
  Qed.

  Lemma D_spec k : k <= length cs -> D k = length (V (ST k)) + x_oi (ST k).
  Proof.
    induction k as [|k IH]; intros H; [reflexivity|].
    unfold D. rewrite firstn_next, isolate_depth_app, ST_S, depth_next by (try apply ST_inv; lia).
    fold (D k). now rewrite IH by lia.
  Qed.

  Hypothesis HL : length lv = length cs.
  Hypothesis HB : separator_last cs.
  Hypothesis HG : isolates_begin_kept cs.
  Hypothesis Hlv : forall k, k < length cs -> kept (class_at cs k) = true ->
    level_at lv k = match class_at cs k with cB => para | cPDI => top (ST (S k)) | _ => top (ST k) end.

  Definition below (base : list N) (l : N) : Prop := match base with [] => True | v :: _ => (v < l)%N end.

  (** after the characters of a run of level [l] up to [j]; [base]: levels of the
      isolates open before *)
  Definition QP (base : list N) (l : N) (j : nat) : Prop :=
    (initiator (class_at cs (j - 1)) /\ V (ST j) = l :: base /\ (l < top (ST j))%N /\ x_oi (ST j) = 0) \/
    (V (ST j) = base /\ (0 < x_oi (ST j) -> top (ST j) = l) /\ (initiator (class_at cs (j - 1)) -> 0 < x_oi (ST j))).

  Lemma level_plain k : k < length cs -> kept (class_at cs k) = true -> class_at cs k <> cPDI -> class_at cs k <> cB ->
    level_at lv k = top (ST k).
  Proof. intros H K P B. rewrite Hlv by assumption. destruct (class_at cs k); congruence. Qed.

  Lemma level_pdi k : k < length cs -> class_at cs k = cPDI -> level_at lv k = top (ST (S k)).
  Proof. intros H P. rewrite Hlv by (rewrite ?P; auto). now rewrite P. Qed.

  Lemma init_not_pdi c : initiator c -> c <> cPDI /\ c <> cB /\ kept c = true.
  Proof. intros [->|[->| ->]]; repeat split; discriminate. Qed.

  Lemma QP_step base l j : below base l -> 0 < j < length cs -> class_at cs j <> cB ->
    (kept (class_at cs j) = true -> level_at lv j = l) -> QP base l j -> QP base l (S j).
  Proof.
    intros Hb Hj NB Hl H. pose proof (ST_inv j ltac:(lia)) as XI.
    assert (PJ : class_at cs (S j - 1) = class_at cs j) by (f_equal; lia).
    destruct H as [(I & HV & Ht & Ho)|(HV & Ht & Ho)].
    - assert (K : kept (class_at cs j) = true).
      { replace j with (S (j - 1)) by lia. apply HG; [assumption|lia]. }
      specialize (Hl K).
      destruct (BC_eq_dec (class_at cs j) cPDI) as [P|P].
      2: { exfalso. rewrite level_plain in Hl by (auto; lia). lia. }
      right. rewrite PJ. rewrite ST_S, P by lia.
      destruct (x_next_pdi _ XI) as (_ & [(A & _)|[(A & B & _)|(A & v & vs & B & C & E & F)]]); [lia|congruence|].
      rewrite HV in B. injection B as <- <-. rewrite C, F. split; [reflexivity|]. split; [lia|]. intros [X|[X|X]]; discriminate X.
    - destruct (kept (class_at cs j)) eqn:K.
      + specialize (Hl eq_refl). destruct (init_dec (class_at cs j)) as [I|I].
        * destruct (init_not_pdi _ I) as (N1 & N2 & _). rewrite level_plain in Hl by (auto; lia).
          unfold QP. rewrite PJ. rewrite ST_S by lia. destruct (x_next_init _ _ XI I) as (_ & [(A & B & C & E)|(A & B & C)]).
          -- left. rewrite B, C, HV, Hl. split; [assumption|]. split; [reflexivity|]. split; [lia|reflexivity].
          -- right. rewrite A, B, C, HV. split; [reflexivity|]. split; [auto|]. intros _. lia.
        * right. rewrite PJ. split; [|split; [|tauto]].
          -- rewrite ST_S by lia. destruct (BC_eq_dec (class_at cs j) cPDI) as [P|P].
             ++ rewrite P. destruct (x_next_pdi _ XI) as (_ & [(A & B & _)|[(A & B & C)|(A & v & vs & B & C & E & F)]]); [congruence|congruence|].
                exfalso. rewrite level_pdi, ST_S, P, E in Hl by (auto; lia). rewrite HV in B. rewrite B in Hb. cbn in Hb. lia.
             ++ rewrite x_next_other by assumption. assumption.
          -- rewrite ST_S by lia. destruct (BC_eq_dec (class_at cs j) cPDI) as [P|P].
             ++ rewrite P. destruct (x_next_pdi _ XI) as (_ & [(A & B & C & E)|[(A & B & C)|(A & v & vs & B & C & E & F)]]).
                ** intros _. rewrite E. now apply Ht.
                ** rewrite C. auto.
                ** rewrite F. lia.
             ++ rewrite x_next_other by assumption. assumption.
      + right. rewrite PJ. destruct (x_next_removed _ _ XI K) as (_ & A & B & C). rewrite ST_S by lia.
        rewrite A, B. split; [assumption|]. split.
        * intros X. rewrite C by assumption. now apply Ht.
        * intros X. apply init_not_pdi in X as (_ & _ & X). congruence.
  Qed.

  Lemma QP_run base l i j : below base l -> i < j <= length cs -> QP base l (S i) ->
    (forall k, i < k < j -> class_at cs k <> cB /\ (kept (class_at cs k) = true -> level_at lv k = l)) ->
    forall k, i < k <= j -> QP base l k.
  Proof.
    intros Hb Hj H0 H k Hk. induction k as [|k IH]; [lia|].
    destruct (Nat.eq_dec k i) as [->|]; [assumption|].
    destruct (H k ltac:(lia)). apply QP_step; auto; try lia. apply IH. lia.
  Qed.

  Lemma QP_depth base l j : j <= length cs -> QP base l j -> length base <= D j.
  Proof. intros Hj [(_ & E & _)|(E & _)]; rewrite D_spec, E by assumption; cbn [length]; lia. Qed.

  (** ** The stack of open sequences *)

  Fixpoint chained (s : list run) : Prop :=
    match s with
    | r :: rest => match rest with [] => True | r' :: _ => matching_pdi cs (snd r - 1) (fst r') /\ chained rest end
    | [] => True
    end.
  Definition same_level (l : N) (s : list run) : Prop := Forall (fun r => level_at lv (fst r) = l) s.
  Definition good (s : list run) : Prop := isolating_chain cs s /\ exists l, same_level l s.

  Lemma chained_snoc s r : chained s -> (s = [] \/ matching_pdi cs (seq_end s - 1) (fst r)) -> chained (s ++ [r]).
  Proof.
    induction s as [|a s IH]; intros H1 H2; [exact I|].
    destruct H2 as [H2|H2]; [discriminate|]. destruct s as [|b s].
    - cbn. split; [exact H2|exact I].
    - destruct H1 as (A & B). change ((a :: b :: s) ++ [r]) with (a :: b :: (s ++ [r])).
      split; [exact A|]. apply IH; [exact B|]. right. exact H2.
  Qed.

  Lemma chain_end s : chained s -> s <> [] -> (forall b, ~ matching_pdi cs (seq_end s - 1) b) -> isolating_chain cs s.
  Proof.
    induction s as [|a s IH]; intros H1 H2 H3; [congruence|]. destruct s as [|b s]; [exact H3|].
    destruct H1 as (A & B). split; [exact A|]. apply IH; [exact B|discriminate|exact H3].
  Qed.

  Lemma not_matched_plain a : ~ initiator (class_at cs a) -> forall b, ~ matching_pdi cs a b.
  Proof. intros H b (_ & I & _). auto. Qed.

  Definition entry (s : list run) (v : N) (m i : nat) : Prop :=
    s <> [] /\ chained s /\ same_level v s /\ 0 < seq_end s <= i /\ initiator (class_at cs (seq_end s - 1)) /\
    S (D (seq_end s - 1)) = m /\ (forall j, seq_end s <= j <= i -> m <= D j).

  Fixpoint good_stack (i : nat) (stack : list (list run)) (vs : list N) {struct vs} : Prop :=
    match vs with
    | [] => stack = [[]]
    | v :: vs' => match stack with
                  | s :: st => entry s v (length vs) i /\ good_stack i st vs'
                  | [] => False
                  end
    end.

  Lemma good_stack_extend i i' vs : i <= i' -> (forall j, i <= j <= i' -> length vs <= D j) ->
    forall stack, good_stack i stack vs -> good_stack i' stack vs.
  Proof.
    intros Hi. induction vs as [|v vs IH]; intros HD stack H; [exact H|].
    cbn [good_stack] in *. destruct stack as [|s st]; [destruct H|]. destruct H as ((A1 & A2 & A3 & A4 & A5 & A6 & A7) & B).
    split.
    - unfold entry. repeat split; auto; try lia. intros j Hj. destruct (le_lt_dec j i); [apply A7; lia|apply HD; lia].
    - apply IH; [|assumption]. intros j Hj. specialize (HD j Hj). cbn [length] in HD. lia.
  Qed.

  Lemma leftover vs : forall stack, good_stack (length cs) stack vs ->
    Forall good (filter (fun s => match s with [] => false | _ => true end) stack).
  Proof.
    induction vs as [|v vs IH]; intros stack H; cbn [good_stack] in H.
    - subst. constructor.
    - destruct stack as [|s st]; [destruct H|]. destruct H as ((A1 & A2 & A3 & A4 & A5 & A6 & A7) & B).
      cbn [filter]. destruct s as [|r s]; [congruence|]. constructor; [|now apply IH].
      split; [|exists v; exact A3]. apply chain_end; auto.
      intros b (M1 & _ & _ & _ & M5). fold (D (S b)) (D (seq_end (r :: s) - 1)) in M5.
      specialize (A7 (S b) ltac:(lia)). lia.
  Qed.

  Lemma D_S k : k < length cs -> D (S k) = isolate_depth (D k) [class_at cs k].
  Proof. intros H. unfold D. now rewrite firstn_next, isolate_depth_app. Qed.

  Lemma is_init_spec c : is_isolate_initiator c = true <-> initiator c.
  Proof. unfold initiator. destruct c; cbn; intuition (discriminate || congruence). Qed.

  Lemma runs_end i runs : are_level_runs cs lv i runs -> i = length cs -> runs = [].
  Proof. intros H E. destruct runs as [|r runs]; [reflexivity|]. destruct H as (E1 & (B & _) & _). lia. Qed.

  Lemma last_separator i runs stack seqs : are_level_runs cs lv i runs -> i < length cs -> class_at cs i = cB ->
    exists r, collect_sequences cs runs stack seqs = (seqs ++ [[r]]) ++ filter (fun s => match s with [] => false | _ => true end) stack
      /\ good [r].
  Proof.
    intros H Hi B. pose proof (HB i B Hi) as Hn. destruct runs as [|r runs]; [cbn in H; lia|].
    destruct H as (E1 & (E2 & _) & _ & H). exists r.
    assert (E3 : snd r = length cs) by lia. rewrite (runs_end _ _ H E3) in *.
    assert (EC : class_at cs (snd r - 1) = cB) by (rewrite E3, <- Hn, Nat.sub_succ, Nat.sub_0_r; exact B).
    split.
    - cbn [collect_sequences]. rewrite E1, B, EC. reflexivity.
    - split; [|exists (level_at lv (fst r)); constructor; [reflexivity|constructor]]. cbn [isolating_chain].
      apply not_matched_plain. rewrite EC. intros [X|[X|X]]; discriminate X.
  Qed.

  (** what a run does to the stack at its start *)
  Lemma run_begin i stack : i < length cs -> class_at cs i <> cB ->
    good_stack i stack (V (ST i)) -> x_oi (ST i) = 0 -> (i = 0 \/ kept (class_at cs i) = true) ->
    exists sq st base,
      (match class_at cs i, stack with
       | cPDI, s :: ((_ :: _) as rest) => (s, rest)
       | _, _ => ([], stack)
       end) = (sq, st) /\
      good_stack i st base /\ length base <= D i /\ below base (level_at lv i) /\
      QP base (level_at lv i) (S i) /\ chained sq /\ same_level (level_at lv i) sq /\
      (sq = [] \/ matching_pdi cs (seq_end sq - 1) i).
  Proof.
    intros Hi NB HS HO HK. pose proof (ST_inv i ltac:(lia)) as XI.
    assert (PJ : class_at cs (S i - 1) = class_at cs i) by (f_equal; lia).
    assert (DI : D i = length (V (ST i))) by (rewrite D_spec, HO by lia; lia).
    destruct (kept (class_at cs i)) eqn:K.
    - assert (Ab : class_at cs i <> cPDI -> below (V (ST i)) (level_at lv i)).
      { intros P. rewrite level_plain by assumption. unfold below, V. apply sorted_above, XI. }
      assert (Stay : class_at cs i <> cPDI -> QP (V (ST i)) (level_at lv i) (S i) ->
        exists sq st base,
          (match class_at cs i, stack with
           | cPDI, s :: ((_ :: _) as rest) => (s, rest)
           | _, _ => ([], stack)
           end) = (sq, st) /\
          good_stack i st base /\ length base <= D i /\ below base (level_at lv i) /\
          QP base (level_at lv i) (S i) /\ chained sq /\ same_level (level_at lv i) sq /\
          (sq = [] \/ matching_pdi cs (seq_end sq - 1) i)).
      { intros P Q. exists [], stack, (V (ST i)). split; [destruct (class_at cs i); try reflexivity; congruence|].
        split; [assumption|]. split; [lia|]. split; [auto|]. split; [assumption|]. split; [exact I|]. split; [constructor|auto]. }
      destruct (init_dec (class_at cs i)) as [I0|I0].
      + destruct (init_not_pdi _ I0) as (N1 & N2 & _). apply Stay; [assumption|].
        unfold QP. rewrite PJ, ST_S, (level_plain i) by assumption.
        destruct (x_next_init _ _ XI I0) as (_ & [(A & B & C & E)|(A & B & C)]).
        * left. auto.
        * right. rewrite A, B, C. split; [reflexivity|]. split; [auto|lia].
      + destruct (BC_eq_dec (class_at cs i) cPDI) as [P|P].
        * clear Stay Ab. rewrite P. destruct (x_next_pdi _ XI) as (XI' & [(A & _)|[(A & B & C)|(A & v & vs & B & C & E & F)]]); [lia| |].
          -- rewrite B in *. cbn [good_stack] in HS. subst stack. exists [], [[]], []. split; [reflexivity|].
             split; [reflexivity|]. split; [cbn; lia|]. split; [exact I|]. split; [|split; [exact I|split; [constructor|auto]]].
             right. rewrite PJ, ST_S, P, C by assumption. split; [assumption|]. split; [lia|]. intros [X|[X|X]]; discriminate X.
          -- assert (EL : level_at lv i = v) by (rewrite level_pdi, ST_S, P by assumption; exact E).
             rewrite EL. rewrite B in HS, DI. cbn [good_stack] in HS. destruct stack as [|s st]; [destruct HS|].
             destruct HS as ((A1 & A2 & A3 & A4 & A5 & A6 & A7) & HS).
             exists s, st, vs. split.
             { destruct vs; cbn [good_stack] in HS; [subst st; reflexivity|]. destruct st; [destruct HS|reflexivity]. }
             split; [assumption|]. cbn [length] in DI. split; [lia|]. split.
             { unfold below. pose proof (sorted_above _ (proj1 XI')) as Y. fold (V (x_next cPDI (ST i))) in Y. rewrite C in Y.
               fold (x_top (x_next cPDI (ST i))) in Y. fold (top (x_next cPDI (ST i))) in Y. rewrite E in Y. exact Y. }
             split.
             { right. rewrite PJ, ST_S, P by assumption. split; [assumption|]. split; [lia|]. intros [X|[X|X]]; discriminate X. }
             split; [assumption|]. split; [assumption|]. right.
             cbn [length] in A6, A7. repeat split; try lia; auto.
             ++ intros k Hk. fold (D (seq_end s - 1)) (D k). specialize (A7 k ltac:(lia)). lia.
             ++ fold (D (S i)) (D (seq_end s - 1)). rewrite D_S, P by assumption. cbn [isolate_depth]. lia.
        * apply Stay; [assumption|]. right. rewrite PJ, ST_S, x_next_other by assumption.
          split; [reflexivity|]. split; [lia|]. intros X. contradiction.
    - destruct HK as [-> |HK]; [|discriminate]. change (V (ST 0)) with (@nil N) in HS. cbn [good_stack] in HS. subst stack.
      exists [], [[]], []. split; [destruct (class_at cs 0); reflexivity|]. split; [reflexivity|]. split; [cbn; lia|].
      split; [exact I|]. split; [|split; [exact I|split; [constructor|auto]]].
      right. rewrite PJ, ST_S by assumption. destruct (x_next_removed _ _ XI K) as (_ & -> & -> & _).
      split; [reflexivity|]. split; [lia|]. intros X. apply init_not_pdi in X as (_ & _ & X). congruence.
  Qed.

  Lemma collect_good runs : forall i stack seqs, are_level_runs cs lv i runs -> Forall good seqs ->
    good_stack i stack (V (ST i)) ->
    (i < length cs -> class_at cs i <> cB -> x_oi (ST i) = 0 /\ (i = 0 \/ kept (class_at cs i) = true)) ->
    Forall good (collect_sequences cs runs stack seqs).
  Proof.
    induction runs as [|r runs IH]; intros i stack seqs HR HQ HS HI.
    { cbn [are_level_runs] in HR. rewrite HL in HR. subst i. cbn [collect_sequences]. apply Forall_app. split; [assumption|].
      eapply leftover. exact HS. }
    pose proof HR as HR0. destruct HR as (E1 & (E2 & _ & E3) & E4 & E5). rewrite HL in E2.
    destruct (BC_eq_dec (class_at cs i) cB) as [B|NB].
    { destruct (last_separator i (r :: runs) stack seqs HR0 ltac:(lia) B) as (r' & -> & G).
      pose proof (HB i B ltac:(lia)) as Hn.
      apply Forall_app. split; [apply Forall_app; split; [assumption|constructor; [exact G|constructor]]|].
      eapply (leftover (V (ST i))). eapply good_stack_extend; [| |exact HS]; [lia|].
      intros j Hj. assert (D i = length (V (ST i)) + x_oi (ST i)) by (apply D_spec; lia).
      assert (j = i \/ j = S i) as [-> | ->] by lia; [lia|]. rewrite D_S, B by lia. cbn [isolate_depth]. lia. }
    destruct (HI ltac:(lia) NB) as (HO & HK).
    destruct (run_begin i stack ltac:(lia) NB HS HO HK) as (sq & st & base & EM & GS & DB & Bl & Q0 & Ch & SL & Lk).
    cbn [collect_sequences]. rewrite E1. rewrite EM.
    set (l := level_at lv i) in *.
    assert (Ch' : chained (sq ++ [r])) by (apply chained_snoc; rewrite ?E1; auto).
    assert (SL' : same_level l (sq ++ [r])).
    { apply Forall_app. split; [assumption|]. constructor; [rewrite E1; reflexivity|constructor]. }
    assert (NE : sq ++ [r] <> []) by (destruct sq; discriminate).
    assert (RL : forall k, i < k < snd r -> kept (class_at cs k) = true -> level_at lv k = l).
    { intros k Hk K. rewrite E3; [rewrite E1; reflexivity|lia|]. intros X. clear - K X.
      cbn in X. repeat destruct X as [X|X]; try (rewrite <- X in K; discriminate K). destruct X. }
    assert (Und : forall s, chained s -> s <> [] -> same_level l s -> (forall b, ~ matching_pdi cs (seq_end s - 1) b) -> good s).
    { intros s A1 A2 A3 A4. split; [apply chain_end; auto|exists l; assumption]. }
    destruct (BC_eq_dec (class_at cs (snd r - 1)) cB) as [B|NB2].
    { (* the run ends with the separator *)
      pose proof (HB _ B ltac:(lia)) as Hn. assert (En : snd r = length cs) by lia.
      rewrite (runs_end _ _ E5 En) in *. rewrite B. cbn [is_isolate_initiator collect_sequences].
      assert (Hi' : i < snd r - 1). { destruct (Nat.eq_dec i (snd r - 1)) as [X|]; [rewrite <- X in B; congruence|lia]. }
      apply Forall_app. split; [apply Forall_app; split; [assumption|constructor; [|constructor]]|].
      - apply Und; auto. rewrite seq_end_snoc. apply not_matched_plain. rewrite B. intros [X|[X|X]]; discriminate X.
      - eapply (leftover base). eapply good_stack_extend; [| |exact GS]; [lia|].
        assert (DQ : forall j, i < j <= snd r - 1 -> length base <= D j).
        { intros j Hj. eapply QP_depth; [lia|]. eapply (QP_run base l i (snd r - 1)); auto; try lia.
          intros k Hk. split; [intros X; specialize (HB k X); lia|]. apply RL. lia. }
        intros j Hj. destruct (Nat.eq_dec j i) as [-> |]; [assumption|].
        destruct (Nat.eq_dec j (length cs)) as [-> |]; [|apply DQ; lia].
        rewrite <- Hn. rewrite D_S, B by lia. cbn [isolate_depth]. apply DQ. lia. }
    assert (QA : forall k, i < k <= snd r -> QP base l k).
    { intros k Hk. eapply (QP_run base l i (snd r)); auto; try lia. intros k' Hk'. split; [|apply RL; lia].
      intros X. assert (S k' = length cs) by (apply HB; [assumption|lia]). assert (k' = snd r - 1) by lia. congruence. }
    assert (GS' : good_stack (snd r) st base).
    { eapply good_stack_extend; [| |exact GS]; [lia|]. intros j Hj. destruct (Nat.eq_dec j i) as [-> |]; [assumption|].
      eapply QP_depth; [lia|]. apply QA. lia. }
    pose proof (QA (snd r) ltac:(lia)) as QE.
    (* the next run *)
    assert (Next : 0 < x_oi (ST (snd r)) -> snd r < length cs -> class_at cs (snd r) = cB).
    { intros O Hlt. destruct runs as [|r' runs]; [cbn [are_level_runs] in E5; lia|].
      destruct E4 as (K & NL). destruct E5 as (E6 & _). rewrite E6 in K, NL. rewrite E1 in NL.
      assert (KK : kept (class_at cs (snd r)) = true).
      { clear - K. unfold x9 in K. destruct (class_at cs (snd r)); try reflexivity; exfalso; apply K; cbn; auto 10. }
      destruct (BC_eq_dec (class_at cs (snd r)) cB) as [|NB3]; [assumption|]. exfalso. apply NL. fold l.
      assert (T : top (ST (snd r)) = l) by (destruct QE as [(_ & _ & _ & X)|(_ & X & _)]; [lia|auto]).
      destruct (BC_eq_dec (class_at cs (snd r)) cPDI) as [P|P].
      - rewrite level_pdi, ST_S, P by assumption.
        destruct (x_next_pdi _ (ST_inv (snd r) ltac:(lia))) as (_ & [(_ & _ & _ & X)|[(X & _)|(X & _)]]); [congruence|lia|lia].
      - rewrite level_plain by assumption. exact T. }
    assert (Bound : snd r < length cs -> class_at cs (snd r) <> cB ->
       x_oi (ST (snd r)) = 0 /\ (snd r = 0 \/ kept (class_at cs (snd r)) = true)).
    { intros Hlt NB3. split.
      - destruct (x_oi (ST (snd r))) eqn:O; [reflexivity|]. exfalso. apply NB3, Next; lia.
      - right. destruct runs as [|r' runs]; [cbn [are_level_runs] in E5; lia|].
        destruct E4 as (K & _). destruct E5 as (E6 & _). rewrite E6 in K.
        clear - K. unfold x9 in K. destruct (class_at cs (snd r)); try reflexivity; exfalso; apply K; cbn; auto 10. }
    destruct (is_isolate_initiator (class_at cs (snd r - 1))) eqn:II.
    - apply is_init_spec in II. destruct QE as [(_ & HV & Ht & Ho)|(HV & Ht & Ho)].
      + eapply (IH (snd r)); auto. rewrite HV. cbn [good_stack]. split; [|assumption].
        assert (DE : D (snd r) = S (length base)) by (rewrite D_spec, HV, Ho by lia; cbn [length]; lia).
        unfold entry. rewrite seq_end_snoc. repeat split; auto; try lia.
        * replace (snd r) with (S (snd r - 1)) in DE by lia. rewrite D_S in DE by lia. cbn [length]. rewrite <- DE.
          destruct II as [X|[X|X]]; rewrite X; reflexivity.
        * intros j Hj. assert (j = snd r) as -> by lia. cbn [length]. lia.
      + specialize (Ho II). assert (GF : (forall b, ~ matching_pdi cs (snd r - 1) b) -> good (sq ++ [r])).
        { intros X. apply Und; auto. rewrite seq_end_snoc. exact X. }
        destruct (Nat.eq_dec (snd r) (length cs)) as [En|En].
        * rewrite (runs_end _ _ E5 En) in *. cbn [collect_sequences]. apply Forall_app. split; [assumption|].
          assert (G : good (sq ++ [r])) by (apply GF; intros b (X & _); lia).
          cbn [filter]. destruct (sq ++ [r]); [congruence|]. constructor; [exact G|].
          rewrite En in GS'. eapply leftover; exact GS'.
        * specialize (Next Ho ltac:(lia)).
          destruct (last_separator (snd r) runs ((sq ++ [r]) :: st) seqs E5 ltac:(lia) Next) as (r' & -> & G).
          pose proof (HB _ Next ltac:(lia)) as Hn.
          apply Forall_app. split; [apply Forall_app; split; [assumption|constructor; [exact G|constructor]]|].
          assert (G' : good (sq ++ [r])).
          { apply GF. intros b ((X1 & X2) & _ & X3 & _). assert (b = snd r) as -> by lia. congruence. }
          cbn [filter]. destruct (sq ++ [r]); [congruence|]. constructor; [exact G'|].
          eapply (leftover base). eapply good_stack_extend; [| |exact GS']; [lia|].
          intros j Hj. pose proof (QP_depth base l (snd r) ltac:(lia) (QA (snd r) ltac:(lia))) as DQ.
          assert (j = snd r \/ j = S (snd r)) as [-> | ->] by lia; [assumption|]. rewrite D_S, Next by lia. exact DQ.
    - assert (NI : ~ initiator (class_at cs (snd r - 1))) by (rewrite <- is_init_spec, II; discriminate).
      eapply (IH (snd r)); auto.
      + apply Forall_app. split; [assumption|]. constructor; [|constructor]. apply Und; auto.
        rewrite seq_end_snoc. now apply not_matched_plain.
      + destruct QE as [(X & _)|(HV & _)]; [contradiction|]. now rewrite HV.
  Qed.
End Chars.

(** ** X10 *)

Lemma rposition_level para cs : forall lv n, length lv = length cs -> n <= length cs ->
  match rposition cs n with Some k => level_at lv k | None => para end
  = nearest_level para (rev (firstn n (combine cs lv))).
Proof.
  intros lv n HL. unfold nearest_level. induction n as [|n IH]; intros Hn; [reflexivity|].
  assert (E : firstn (S n) (combine cs lv) = firstn n (combine cs lv) ++ [(class_at cs n, level_at lv n)]).
  { clear IH. unfold class_at, level_at. revert lv n HL Hn. induction cs as [|c cs IH]; intros [|l lv] n HL Hn; cbn [length] in *; try lia.
    destruct n as [|n]; [reflexivity|]. cbn [combine]. rewrite firstn_cons, (IH lv n) by lia. reflexivity. }
  rewrite E, rev_app_distr. cbn [rev app filter fst rposition].
  assert (K : not_removed_by_x9 (class_at cs n) = kept (class_at cs n)) by (destruct (class_at cs n); reflexivity).
  rewrite K. destruct (kept (class_at cs n)); [reflexivity|]. apply IH. lia.
Qed.

Lemma position_level para cs : forall lv n i, length lv = length cs -> i + n = length cs ->
  match position cs i n with Some k => level_at lv k | None => para end
  = nearest_level para (skipn i (combine cs lv)).
Proof.
  intros lv n. induction n as [|n IH]; intros i HL Hn.
  - rewrite skipn_all2 by (rewrite combine_length; lia). reflexivity.
  - assert (E : skipn i (combine cs lv) = (class_at cs i, level_at lv i) :: skipn (S i) (combine cs lv)).
    { clear IH. unfold class_at, level_at. revert lv i HL Hn. induction cs as [|c cs IH]; intros [|l lv] i HL Hn; cbn [length] in *; try lia.
      destruct i as [|i]; [reflexivity|]. cbn [combine nth skipn]. apply IH; lia. }
    rewrite E. unfold nearest_level. cbn [filter fst position].
    assert (K : not_removed_by_x9 (class_at cs i) = kept (class_at cs i)) by (destruct (class_at cs i); reflexivity).
    rewrite K. destruct (kept (class_at cs i)); [reflexivity|]. apply IH; lia.
Qed.

Lemma level_class_border l m : level_class (N.max l m) = border_class l m.
Proof. unfold level_class, border_class. now rewrite level_is_rtl_odd. Qed.

Lemma sequence_borders para cs lv s : length lv = length cs ->
  In s (isolating_run_sequences para cs lv) -> sos_eos para cs lv s.
Proof.
  intros HL Hs. pose proof (sequences_ordered para cs lv) as SO. rewrite Forall_forall in SO. destruct (SO s Hs) as (NE & IO).
  assert (B : seq_start (s_runs s) <= length cs /\ seq_end (s_runs s) <= length cs).
  { assert (X : Forall (fun r => fst r < snd r <= length cs) (s_runs s)).
    { apply Forall_forall. intros r Hr. pose proof (are_level_runs_in_order _ _ _ _ (level_runs_spec lv cs)) as (_ & _ & F & _).
      rewrite Forall_forall in F. rewrite <- HL. apply F. eapply Permutation_in; [apply sequences_perm|].
      apply in_concat. exists (s_runs s). split; [|exact Hr]. apply in_map. exact Hs. }
    unfold seq_start, seq_end. rewrite Forall_forall in X. split.
    - destruct (s_runs s) as [|r rs]; [congruence|]. cbn [hd]. specialize (X r (or_introl eq_refl)). lia.
    - destruct (exists_last NE) as (f & r & E). rewrite E, last_last. specialize (X r). rewrite E in X.
      specialize (X ltac:(apply in_or_app; right; now left)). lia. }
  unfold isolating_run_sequences in Hs. apply in_map_iff in Hs as (rs & <- & _).
  unfold sos_eos, finish_sequence in *. cbn [s_runs s_sos s_eos] in *. rewrite !level_class_border.
  rewrite (rposition_level para cs lv) by lia.
  rewrite (position_level para cs lv) by lia.
  split; [reflexivity|].
  destruct (is_isolate_initiator (class_at cs (seq_end rs - 1))) eqn:E.
  - apply is_init_spec in E. split; [reflexivity|tauto].
  - split; [|reflexivity]. intros X. apply is_init_spec in X. congruence.
Qed.

(** ** All together *)

Lemma x_rules_nth para cs : forall s k d, k < length cs ->
  nth k (x_rules para s cs) d
  = (let st := fold_left (fun s c => x_next c s) (firstn k cs) s in
     let c := class_at cs k in
     match c with cB => (para, cB) | cPDI => x_assign (x_next c st) c | _ => x_assign st c end).
Proof.
  induction cs as [|c cs IH]; intros s k d Hk; cbn [length] in Hk; [lia|].
  destruct k as [|k]; [destruct c; reflexivity|]. cbn [x_rules nth firstn fold_left]. rewrite IH by lia. reflexivity.
Qed.

Lemma Forall2_nth {A B} (P : A -> B -> Prop) l m da db : Forall2 P l m -> forall k, k < length l -> P (nth k l da) (nth k m db).
Proof. induction 1; intros [|k] Hk; cbn in *; try lia; auto. apply IHForall2. lia. Qed.

Lemma exp_level_state para cs k : (para <= 125)%N -> k < length cs -> kept (class_at cs k) = true ->
  level_at (exp_levels para cs) k
  = match class_at cs k with cB => para | cPDI => top (ST para cs (S k)) | _ => top (ST para cs k) end.
Proof.
  intros Hp Hk K. pose proof (cexp_rules para cs Hp (cst0 para) (cst0_ok para Hp)) as R.
  assert (LX : forall s, length (x_rules para s cs) = length cs) by (clear; induction cs; intros; cbn; auto).
  apply (Forall2_nth _ _ _ cL ((0%N, cL), (0%N, cL))) with (k := k) in R; [|assumption].
  rewrite combine_nth in R by (rewrite cexp_length, LX; reflexivity). cbn [fst snd] in R.
  rewrite x_rules_nth in R by assumption. cbv zeta in R. fold (class_at cs k) in R.
  assert (E : level_at (exp_levels para cs) k = fst (nth k (cexp para (cst0 para) cs) (0%N, cL))).
  { unfold level_at, exp_levels. rewrite (map_nth fst _ (0%N, cL)). reflexivity. }
  rewrite E, R.
  - change (xs_of (cst0 para)) with (x_start para). fold (ST para cs k). rewrite ST_S by assumption.
    destruct (class_at cs k); reflexivity.
  - intros X. clear - K X. cbn in X. repeat destruct X as [X|X]; try (rewrite <- X in K; discriminate K). destruct X.
Qed.

Lemma iso_sequences para cs : (para <= 125)%N -> separator_last cs -> isolates_begin_kept cs ->
  Forall (fun s => isolating_chain cs (s_runs s) /\
                   exists l, Forall (fun r => level_at (exp_levels para cs) (fst r) = l) (s_runs s))
    (isolating_run_sequences para cs (exp_levels para cs)).
Proof.
  intros Hp HB HG. unfold isolating_run_sequences. apply Forall_map. cbn [finish_sequence s_runs].
  apply (collect_good para cs (exp_levels para cs)) with (i := 0); auto.
  - apply exp_levels_length.
  - intros k Hk K. now apply exp_level_state.
  - apply level_runs_spec.
  - reflexivity.
Qed.

Lemma byte_sequences ws cs lv para : Forall (fun w => 0 < w) ws -> length cs = length ws -> length lv = length ws ->
  isolating_run_sequences para (expand ws cs) (expand ws lv)
  = map (fun s => mkseq (map (bound ws) (s_runs s)) (s_sos s) (s_eos s)) (isolating_run_sequences para cs lv).
Proof. intros Hw Hc Hl. exact (sequences_chars ws Hw cs lv Hc Hl para). Qed.

(** The explicit pass works character by character and follows X1-X8. *)
From Coq Require Import List NArith ZArith Lia Bool Arith Permutation ZifyBool ZifyNat ZifyN.
Import ListNotations.
From Verif Require Import Base Enums EnumFacts UcdModel BidiModel BidiSpec BidiLemmas.
Open Scope nat_scope.

(** ** One character at a time: run the step on arrays of length one *)

Definition cst := (list (N * override) * nat * nat * nat)%type.

Definition cstep (para : N) (c : BidiClass) (s : cst) : exp_state :=
  let '(stack, oi, oe, vi) := s in exp_step [c] (mkexp [para] [c] stack oi oe vi) 0 1.

Definition cst_of (st : exp_state) : cst := (e_stack st, e_oi st, e_oe st, e_vi st).

Fixpoint cexp (para : N) (s : cst) (cs : list BidiClass) : list (N * BidiClass) :=
  match cs with
  | [] => []
  | c :: cs' =>
      let st := cstep para c s in
      (level_at (e_levels st) 0, class_at (e_classes st) 0) :: cexp para (cst_of st) cs'
  end.

Lemma upd_mid {A} (a b : list A) x y : upd (a ++ x :: b) (length a) y = a ++ y :: b.
Proof. rewrite <- (Nat.add_0_r (length a)), upd_app_r. reflexivity. Qed.

Lemma nth_mid {A} (a b : list A) x d : nth (length a) (a ++ x :: b) d = x.
Proof. rewrite app_nth2, Nat.sub_diag by lia. reflexivity. Qed.

Lemma upds_rest {A} (a b : list A) x y w :
  upds (a ++ x :: repeat y w ++ b) (map (fun j => length a + j) (seq 1 w)) x
  = a ++ x :: repeat x w ++ b.
Proof.
  rewrite upds_app_r. f_equal.
  rewrite <- seq_shift, upds_cons_S, upds_seq0 by (rewrite app_length, repeat_length; lia).
  f_equal. f_equal. rewrite skipn_app, repeat_length, Nat.sub_diag, skipn_all2 by (rewrite repeat_length; lia).
  reflexivity.
Qed.

Lemma copy_bytes_mid la lb pa pb l c l0 c0 w stack oi oe vi : length pa = length la ->
  copy_bytes (mkexp (la ++ l :: repeat l0 w ++ lb) (pa ++ c :: repeat c0 w ++ pb) stack oi oe vi)
    (length la) (S w)
  = mkexp (la ++ l :: repeat l w ++ lb) (pa ++ c :: repeat c w ++ pb) stack oi oe vi.
Proof.
  intros H. unfold copy_bytes. cbn [e_levels e_classes e_stack e_oi e_oe e_vi].
  replace (S w - 1) with w by lia.
  assert (N1 : nth (length la) (pa ++ c :: repeat c0 w ++ pb) cL = c) by (rewrite <- H; apply nth_mid).
  unfold level_at, class_at. rewrite nth_mid, N1, upds_rest. f_equal. rewrite <- H. apply upds_rest.
Qed.

Lemma apply_override_mid o pa pb c : apply_override o (pa ++ c :: pb) (length pa)
  = pa ++ (match o with O_RTL => cR | O_LTR => cL | _ => c end) :: pb.
Proof. destruct o; cbn [apply_override]; rewrite ?upd_mid; reflexivity. Qed.

Lemma exp_step_char oc la lb pa pb para c w stack oi oe vi :
  length pa = length la -> class_at oc (length la) = c ->
  let st := mkexp (la ++ repeat para (S w) ++ lb) (pa ++ repeat c (S w) ++ pb) stack oi oe vi in
  let r := cstep para c (stack, oi, oe, vi) in
  exp_step oc st (length la) (S w)
  = mkexp (la ++ repeat (level_at (e_levels r) 0) (S w) ++ lb)
          (pa ++ repeat (class_at (e_classes r) 0) (S w) ++ pb)
          (e_stack r) (e_oi r) (e_oe r) (e_vi r).
Proof.
  intros H Hc. cbv zeta. unfold cstep, exp_step.
  cbn [e_levels e_classes e_stack e_oi e_oe e_vi]. rewrite Hc.
  change (class_at [c] 0) with c. cbn [repeat app].
  assert (U : forall x, upd (la ++ para :: repeat para w ++ lb) (length la) x = la ++ x :: repeat para w ++ lb)
    by (intros; apply upd_mid).
  assert (V : forall o, apply_override o (pa ++ c :: repeat c w ++ pb) (length la)
     = pa ++ (match o with O_RTL => cR | O_LTR => cL | _ => c end) :: repeat c w ++ pb)
    by (intros; rewrite <- H; apply apply_override_mid).
  assert (U1 : forall x, upd [para] 0 x = [x]) by reflexivity.
  assert (V1 : forall o, apply_override o [c] 0 = [match o with O_RTL => cR | O_LTR => cL | _ => c end])
    by (intros []; reflexivity).
  assert (C1 : forall l c' stack oi oe vi, copy_bytes (mkexp [l] [c'] stack oi oe vi) 0 1
      = mkexp [l] [c'] stack oi oe vi) by reflexivity.
  destruct (stack_last stack) as [last_level last_status].
  pose proof (fun l c' => copy_bytes_mid la lb pa pb l c' para c w) as CP.
  destruct c; cbn [is_isolate_initiator]; cbv zeta; rewrite ?U, ?V, ?U1, ?V1;
    try (rewrite (CP _ _ _ _ _ _ H), C1; reflexivity).
  all: try (match goal with |- context [match ?n with Some _ => _ | None => _ end] => destruct n end;
    destruct oi, oe; rewrite ?upd_mid, ?U1; rewrite (CP _ _ _ _ _ _ H), ?C1; reflexivity).
  - (* PDF *)
    destruct oi; [destruct oe|]; try reflexivity.
    rewrite ?U, ?U1. rewrite (CP _ _ _ _ _ _ H), C1. reflexivity.
  - (* PDI *)
    destruct oi; [destruct vi|].
    + destruct (stack_last stack). rewrite ?U, ?V, ?U1, ?V1. rewrite (CP _ _ _ _ _ _ H), C1. reflexivity.
    + destruct (stack_last (pop_isolate stack)). rewrite ?U, ?V, ?U1, ?V1. rewrite (CP _ _ _ _ _ _ H), C1. reflexivity.
    + destruct (stack_last stack). rewrite ?U, ?V, ?U1, ?V1. rewrite (CP _ _ _ _ _ _ H), C1. reflexivity.
Qed.

Lemma exp_loop_char para ws : forall cs la pa stack oi oe vi oc,
  length cs = length ws -> Forall (fun w => 0 < w) ws -> length pa = length la ->
  skipn (length la) oc = expand ws cs ->
  let st := exp_loop oc ws (length la)
              (mkexp (la ++ repeat para (list_sum ws)) (pa ++ expand ws cs) stack oi oe vi) in
  e_levels st = la ++ expand ws (map fst (cexp para (stack, oi, oe, vi) cs)) /\
  e_classes st = pa ++ expand ws (map snd (cexp para (stack, oi, oe, vi) cs)).
Proof.
  induction ws as [|w ws IH]; intros cs la pa stack oi oe vi oc HL Hw HP HO.
  - destruct cs; [|discriminate]. cbn. auto.
  - destruct cs as [|c cs]; [discriminate|]. inversion Hw as [|? ? Hw1 Hw2]; subst.
    destruct w as [|w]; [lia|].
    cbn [exp_loop].
    assert (HO1 : class_at oc (length la) = c).
    { unfold class_at. rewrite <- (firstn_skipn (length la) oc), HO.
      cbn [expand repeat app].
      assert (Ln : length (firstn (length la) oc) = length la).
      { rewrite firstn_length. apply Nat.min_l.
        destruct (le_lt_dec (length la) (length oc)) as [|Hgt]; [assumption|].
        rewrite skipn_all2 in HO by lia. discriminate. }
      rewrite app_nth2, Ln, Nat.sub_diag by lia. reflexivity. }
    assert (E1 : repeat para (list_sum (S w :: ws)) = repeat para (S w) ++ repeat para (list_sum ws)).
    { change (list_sum (S w :: ws)) with (S w + list_sum ws). apply repeat_app_n. }
    rewrite E1. change (expand (S w :: ws) (c :: cs)) with (repeat c (S w) ++ expand ws cs).
    rewrite exp_step_char by assumption.
    set (r := cstep para c (stack, oi, oe, vi)).
    set (l := level_at (e_levels r) 0). set (c' := class_at (e_classes r) 0).
    specialize (IH cs (la ++ repeat l (S w)) (pa ++ repeat c' (S w)) (e_stack r) (e_oi r) (e_oe r) (e_vi r) oc).
    rewrite !app_length, !repeat_length, <- !app_assoc in IH.
    cbn zeta in IH. cbn [cexp map fst snd expand]. fold r l c'. unfold cst_of.
    apply IH; auto.
    replace (length la + S w) with (S w + length la) by lia.
    assert (SK : forall {A} (n m : nat) (x : list A), skipn (n + m) x = skipn n (skipn m x)).
    { intros A n m; revert n; induction m; intros n x; [now rewrite Nat.add_0_r|].
      rewrite Nat.add_succ_r. destruct x; [now rewrite !skipn_nil|]. cbn. apply IHm. }
    rewrite SK, HO. change (expand (S w :: ws) (c :: cs)) with (repeat c (S w) ++ expand ws cs).
    rewrite skipn_app, skipn_all2, repeat_length, Nat.sub_diag by (rewrite repeat_length; lia). reflexivity.
Qed.

Lemma cexp_length para cs : forall s, length (cexp para s cs) = length cs.
Proof. induction cs; intros; cbn; auto. Qed.

Definition cst0 (para : N) : cst := ([(para, O_Neutral)], 0, 0, 0).

Lemma explicit_char para ws cs : length cs = length ws -> Forall (fun w => 0 < w) ws ->
  explicit_compute ws para (expand ws cs) (repeat para (length (expand ws cs))) (expand ws cs)
  = (expand ws (map fst (cexp para (cst0 para) cs)), expand ws (map snd (cexp para (cst0 para) cs))).
Proof.
  intros HL Hw. unfold explicit_compute.
  rewrite (expand_length ws cs HL).
  destruct (exp_loop_char para ws cs [] [] [(para, O_Neutral)] 0 0 0 (expand ws cs) HL Hw eq_refl eq_refl) as [E1 E2].
  cbn [length app] in E1, E2. rewrite E1, E2. reflexivity.
Qed.

(** ** Simulation by the rules *)

Lemma next_rtl_spec l : (l <= 250)%N -> level_next_rtl l = if (next_odd l <=? 125)%N then Some (next_odd l) else None.
Proof.
  intros H. unfold level_next_rtl, level_new_explicit.
  assert (E : N.lor (l + 1) 1 = next_odd l).
  { unfold next_odd. destruct (N.even l) eqn:Ev.
    - apply N.even_spec in Ev as [k ->]. replace (2 * k + 1)%N with (N.succ_double k) by (rewrite N.succ_double_spec; lia).
      destruct k; reflexivity.
    - assert (O : N.odd l = true) by (rewrite <- N.negb_even, Ev; reflexivity).
      apply N.odd_spec in O as [k ->]. replace (2 * k + 1 + 1)%N with (N.double (k + 1)) by (rewrite N.double_spec; lia).
      replace (2 * k + 1 + 2)%N with (N.succ_double (k + 1)) by (rewrite N.succ_double_spec; lia).
      destruct (k + 1)%N; reflexivity. }
  rewrite E. reflexivity.
Qed.

Lemma next_ltr_spec l : (l <= 250)%N -> level_next_ltr l = if (next_even l <=? 125)%N then Some (next_even l) else None.
Proof.
  intros H. unfold level_next_ltr, level_new_explicit.
  assert (E : N.land (l + 2) 254 = next_even l).
  { assert (A : forallb (fun n => (N.land (N.of_nat n + 2) 254 =? next_even (N.of_nat n))%N) (seq 0 251) = true)
      by (vm_compute; reflexivity).
    rewrite forallb_forall in A. specialize (A (N.to_nat l)). rewrite N2Nat.id in A.
    apply N.eqb_eq, A, in_seq. lia. }
  rewrite E. reflexivity.
Qed.

Definition entry_of (e : N * override) : status :=
  mkstatus (fst e) (match snd e with O_RTL => Some cR | O_LTR => Some cL | _ => None end)
    (match snd e with O_Isolate => true | _ => false end).

Definition xs_of (s : cst) : xstate :=
  let '(stack, oi, oe, vi) := s in mkx (map entry_of stack) oi oe vi.

Definition isolates (stack : list (N * override)) : nat :=
  length (filter (fun e => match snd e with O_Isolate => true | _ => false end) stack).

(** shape of the stack: the bottom entry is the paragraph's, levels at most 125, and
    the valid isolate count counts the isolate entries *)
Definition cst_ok (para : N) (s : cst) : Prop :=
  let '(stack, oi, oe, vi) := s in
  (exists up, stack = up ++ [(para, O_Neutral)]) /\
  Forall (fun e => (para <= fst e <= 125)%N) stack /\ vi = isolates stack.

Lemma pop_isolate_map stack : map entry_of (pop_isolate stack) = drop_isolate (map entry_of stack).
Proof.
  induction stack as [|[l o] stack IH]; [reflexivity|].
  destruct o; cbn; auto.
Qed.

Lemma pop_isolate_ok para stack k :
  (exists up, stack = up ++ [(para, O_Neutral)]) -> Forall (fun e => (para <= fst e <= 125)%N) stack ->
  S k = isolates stack ->
  (exists up, pop_isolate stack = up ++ [(para, O_Neutral)]) /\
  Forall (fun e => (para <= fst e <= 125)%N) (pop_isolate stack) /\ k = isolates (pop_isolate stack).
Proof.
  intros (up & ->). induction up as [|[l o] up IH]; intros F E; [discriminate|].
  inversion F as [|? ? F1 F2]; subst. cbn [app pop_isolate].
  destruct o; cbn [isolates filter snd length] in E; try (apply IH; assumption).
  split; [eauto|]. split; [assumption|].
  change (S k = S (isolates (up ++ [(para, O_Neutral)]))) in E. lia.
Qed.

Lemma stack_last_top para up :
  let stack := up ++ [(para, O_Neutral)] in
  hd (mkstatus 0 None false) (map entry_of stack) = entry_of (stack_last stack).
Proof. destruct up; reflexivity. Qed.

Lemma stack_last_in para up : In (stack_last (up ++ [(para, O_Neutral)])) (up ++ [(para, O_Neutral)]).
Proof. destruct up; cbn; auto. Qed.

Lemma next_odd_gt l : (l < next_odd l)%N.
Proof. unfold next_odd. destruct (N.even l); lia. Qed.
Lemma next_even_gt l : (l < next_even l)%N.
Proof. unfold next_even. destruct (N.even l); lia. Qed.

Lemma cstep_sim para c s : (para <= 125)%N -> cst_ok para s ->
  xs_of (cst_of (cstep para c s)) = x_next c (xs_of s) /\
  cst_ok para (cst_of (cstep para c s)) /\
  (~ x9 c -> (level_at (e_levels (cstep para c s)) 0, class_at (e_classes (cstep para c s)) 0)
     = match c with
       | cB => (para, cB)
       | cPDI => x_assign (x_next c (xs_of s)) c
       | _ => x_assign (xs_of s) c
       end) /\
  (para <= level_at (e_levels (cstep para c s)) 0 <= 125)%N.
Proof.
  intros Hp. destruct s as [[[stack oi] oe] vi]. intros ((up & Hup) & HF & Hvi).
  assert (Hlast : In (stack_last stack) stack) by (rewrite Hup; apply stack_last_in).
  assert (Htop : x_top (xs_of (stack, oi, oe, vi)) = entry_of (stack_last stack))
    by (unfold x_top, xs_of; cbn [x_stack]; rewrite Hup; apply stack_last_top).
  pose proof (proj1 (Forall_forall _ _) HF _ Hlast) as Hll.
  unfold cstep, exp_step. cbn [e_levels e_classes e_stack e_oi e_oe e_vi].
  change (class_at [c] 0) with c.
  destruct (stack_last stack) as [ll ls] eqn:El. cbn [fst] in Hll.
  assert (C1 : forall l c' stack oi oe vi, copy_bytes (mkexp [l] [c'] stack oi oe vi) 0 1
      = mkexp [l] [c'] stack oi oe vi) by reflexivity.
  assert (V1 : forall o c, apply_override o [c] 0 = [match o with O_RTL => cR | O_LTR => cL | _ => c end])
    by (intros []; reflexivity).
  assert (Hpush : forall l o, (ll < l <= 125)%N ->
     (exists up', (l, o) :: stack = up' ++ [(para, O_Neutral)]) /\
     Forall (fun e => (para <= fst e <= 125)%N) ((l, o) :: stack)).
  { intros l o Hl. split; [exists ((l, o) :: up); rewrite Hup; reflexivity|].
    constructor; [cbn; lia|assumption]. }
  pose proof (next_odd_gt ll) as Gt1. pose proof (next_even_gt ll) as Gt2.
  assert (Hinit : forall stack', stack' = stack -> vi = isolates stack') by (intros; now subst).
  cbn [xs_of] in Htop |- *.
  assert (U1 : forall x y : N, upd [x] 0 y = [y]) by reflexivity.
  assert (B1 : forall stack oi oe vi c, copy_bytes (mkexp [para] [c] stack oi oe vi) 0 1
      = mkexp [para] [c] stack oi oe vi) by reflexivity.
  assert (Same : (exists up', stack = up' ++ [(para, O_Neutral)]) /\
     Forall (fun e => (para <= fst e <= 125)%N) stack /\ vi = isolates stack) by eauto.
  destruct c; cbn [is_isolate_initiator bc_is_rtl]; cbv zeta;
    rewrite ?next_rtl_spec, ?next_ltr_spec by lia;
    cbn [x_next wanted]; rewrite ?V1, ?U1, ?Htop; cbn [entry_of st_level fst x_oi x_oe x_vi x_stack].
  (* ordinary characters, B, BN *)
  all: try (rewrite C1; unfold cst_of, cst_ok; cbn [e_levels e_classes e_stack e_oi e_oe e_vi xs_of level_at class_at nth];
    split; [reflexivity|]; split; [exact Same|]; split;
    [intros Hx; unfold x_assign; rewrite ?Htop; try (exfalso; apply Hx; cbn; tauto); destruct ls; reflexivity|lia]).
  (* initiators *)
  all: try (match goal with |- context [(?n <=? 125)%N] => destruct (N.leb_spec n 125) as [Le|Le] end;
    destruct oi as [|oi], oe as [|oe]; cbn [andb Nat.eqb]; rewrite ?U1, ?C1;
    unfold cst_of, cst_ok; cbn [e_levels e_classes e_stack e_oi e_oe e_vi xs_of level_at class_at nth];
    (split; [reflexivity|]); (split;
    [try exact Same;
     match goal with |- (exists up', (?l, ?o) :: _ = _) /\ _ => destruct (Hpush l o) as [P1 P2]; [lia|split; [exact P1|split; [exact P2|]]] end;
     cbn [isolates filter snd length]; rewrite Hvi; reflexivity
    |split;
     [intros Hx; try (exfalso; apply Hx; cbn; tauto); unfold x_assign; rewrite Htop; destruct ls; reflexivity
     |lia]])).
  - (* PDF *)
    destruct oi as [|oi]; [destruct oe as [|oe]|]; change (0 <? 0) with false; try change (0 <? S oi) with true; try change (0 <? S oe) with true; cbv iota;
      try (unfold cst_of, cst_ok; cbn [e_levels e_classes e_stack e_oi e_oe e_vi xs_of level_at class_at nth];
           split; [f_equal; lia|]; split; [exact Same|]; split; [intros Hx; exfalso; apply Hx; cbn; tauto|lia]).
    rewrite C1. unfold cst_of, cst_ok; cbn [e_levels e_classes e_stack e_oi e_oe e_vi xs_of level_at class_at nth].
    assert (Hst : exists stack', (match ls with O_Isolate => stack | _ => if 2 <=? length stack then tl stack else stack end) = stack' /\
      (exists up', stack' = up' ++ [(para, O_Neutral)]) /\
      Forall (fun e => (para <= fst e <= 125)%N) stack' /\ vi = isolates stack' /\
      mkx (map entry_of stack') 0 0 vi =
        if negb (st_isolate (entry_of (ll, ls))) && (2 <=? length (map entry_of stack))
        then mkx (tl (map entry_of stack)) 0 0 vi else mkx (map entry_of stack) 0 0 vi).
    { rewrite map_length. destruct (Nat.leb_spec 2 (length stack)) as [L2|L2].
      - destruct up as [|[l1 o1] up']; [subst stack; cbn in L2; lia|].
        assert (Hl1 : stack_last stack = (l1, o1)) by (subst stack; reflexivity).
        rewrite El in Hl1. inversion Hl1; subst l1 o1.
        destruct ls; cbn [entry_of snd st_isolate negb andb].
        4:{ exists stack. split; [reflexivity|]. split; [eauto|]. split; [assumption|]. split; [assumption|reflexivity]. }
        all: exists (tl stack); split; [reflexivity|];
          subst stack; cbn [app tl map]; (split; [eauto|]);
          (split; [inversion HF; assumption|]); (split; [assumption|reflexivity]).
      - exists stack. split; [destruct ls; reflexivity|]. split; [eauto|]. split; [assumption|].
        split; [assumption|]. rewrite andb_false_r. reflexivity. }
    destruct Hst as (stack' & -> & (up' & Hup') & HF' & Hvi' & Hx).
    split; [exact Hx|]. split; [eauto|]. split; [intros Hx9; exfalso; apply Hx9; cbn; tauto|].
    assert (Hin : In (stack_last stack') stack') by (rewrite Hup'; apply stack_last_in).
    exact (proj1 (Forall_forall _ _) HF' _ Hin).
  - (* PDI *)
    destruct oi as [|oi]; [destruct vi as [|vi]|]; cbn [Nat.ltb Nat.leb Nat.eqb].
    + rewrite El. rewrite U1, V1, C1.
      unfold cst_of, cst_ok; cbn [e_levels e_classes e_stack e_oi e_oe e_vi xs_of level_at class_at nth].
      split; [reflexivity|]. split; [exact Same|]. split; [|lia].
      intros _. unfold x_assign. rewrite Htop. destruct ls; reflexivity.
    + destruct (pop_isolate_ok para stack vi) as ((up' & Hup') & HF' & Hvi'); [eauto|assumption|assumption|].
      destruct (stack_last (pop_isolate stack)) as [l1 o1] eqn:E1.
      rewrite U1, V1, C1.
      unfold cst_of, cst_ok; cbn [e_levels e_classes e_stack e_oi e_oe e_vi xs_of level_at class_at nth].
      assert (Hin : In (stack_last (pop_isolate stack)) (pop_isolate stack)) by (rewrite Hup'; apply stack_last_in).
      split; [rewrite pop_isolate_map; f_equal; lia|]. split; [split; [eauto|auto]|].
      split; [|rewrite E1 in Hin; exact (proj1 (Forall_forall _ _) HF' _ Hin)].
      intros _. unfold x_assign, x_top. cbn [x_stack]. rewrite <- pop_isolate_map, Hup', stack_last_top, <- Hup', E1.
      destruct o1; reflexivity.
    + rewrite El. rewrite U1, V1, C1.
      unfold cst_of, cst_ok; cbn [e_levels e_classes e_stack e_oi e_oe e_vi xs_of level_at class_at nth].
      split; [f_equal; lia|]. split; [exact Same|]. split; [|lia].
      intros _. unfold x_assign, x_top. cbn [x_stack]. rewrite Hup, stack_last_top, <- Hup, El. destruct ls; reflexivity.
Qed.

Lemma cst0_ok para : (para <= 125)%N -> cst_ok para (cst0 para).
Proof. intros H. unfold cst0, cst_ok. split; [exists []; reflexivity|]. split; [|reflexivity]. constructor; [cbn; lia|constructor]. Qed.

Lemma cexp_rules para cs : (para <= 125)%N -> forall s, cst_ok para s ->
  Forall2 (fun c p => ~ x9 c -> fst p = snd p)
    cs (combine (cexp para s cs) (x_rules para (xs_of s) cs)).
Proof.
  intros Hp. induction cs as [|c cs IH]; intros s Hs; cbn [cexp x_rules combine]; constructor.
  - cbn [fst snd]. intros Hx. destruct (cstep_sim para c s Hp Hs) as (_ & _ & H & _). rewrite (H Hx).
    destruct c; reflexivity.
  - destruct (cstep_sim para c s Hp Hs) as (E & Hok & _). rewrite <- E. apply IH. assumption.
Qed.

Lemma cexp_bounds para cs : (para <= 125)%N -> forall s, cst_ok para s ->
  Forall (fun p => (para <= fst p <= 125)%N) (cexp para s cs).
Proof.
  intros Hp. induction cs as [|c cs IH]; intros s Hs; cbn [cexp]; constructor.
  - cbn [fst]. now destruct (cstep_sim para c s Hp Hs) as (_ & _ & _ & H).
  - destruct (cstep_sim para c s Hp Hs) as (_ & Hok & _). apply IH. assumption.
Qed.

(** Levels of a text in which characters are spelled as a character and marks. *)
From Coq Require Import List NArith ZArith Lia Bool Arith Permutation ZifyBool ZifyNat ZifyN.
Import ListNotations.
From Verif Require Import Base Enums EnumFacts UcdModel BidiModel BidiSpec BidiLemmas BidiInit BidiWeak BidiSeqs BidiExplicit BidiChars BidiPara.
Open Scope nat_scope.

(** ** Blocks: the classes and widths that stand for one character *)
Definition sepc (c : BidiClass) : bool := match c with cES | cCS | cET => true | _ => false end.
Definition plainc (c : BidiClass) : bool := match c with cL | cR | cAL | cON | cNSM => true | _ => false end.
Definition tailc (c x : BidiClass) : Prop := x = cNSM \/ (x = c /\ (c = cL \/ c = cR)).
Definition blk (c : BidiClass) (w : nat) (B : list BidiClass) (W : list nat) : Prop :=
  length W = length B /\
  ((exists w', B = [c] /\ W = [w'] /\ (sepc c = true -> w' = w)) \/
   (plainc c = true /\ exists r, B = c :: r /\ Forall (tailc c) r)).
Inductive blocks : list BidiClass -> list nat -> list (list BidiClass) -> list (list nat) -> Prop :=
  | blocks_nil : blocks [] [] [] []
  | blocks_cons c w B W cs ws bs vs : blk c w B W -> blocks cs ws bs vs -> blocks (c :: cs) (w :: ws) (B :: bs) (W :: vs).
Notation lens bs := (map (@length _) bs).

Lemma blk_head c w B W : blk c w B W -> exists r, B = c :: r.
Proof. intros (_ & [(w' & -> & _)|(_ & r & -> & _)]); eauto. Qed.
Lemma blocks_lengths cs ws bs vs : blocks cs ws bs vs ->
  length ws = length cs /\ length bs = length cs /\ length vs = length cs /\ lens vs = lens bs /\ Forall (fun w => 0 < w) (lens bs).
Proof.
  induction 1 as [|c w B W cs ws bs vs H _ (A1 & A2 & A3 & A4 & A5)]; [repeat split; constructor|].
  cbn [length map]. destruct (blk_head _ _ _ _ H) as (r & E). destruct H as (L & _).
  repeat split; try congruence. constructor; [subst; cbn [length]; lia|assumption].
Qed.

(** ** W1-W6 *)
Lemma et_fate_nsm r R al : Forall (tailc cNSM) r -> et_fate (r ++ R) al = et_fate R al.
Proof.
  induction 1 as [|x r H _ IH]; [reflexivity|]. destruct H as [->|[-> _]]; cbn [app et_fate]; exact IH.
Qed.
Lemma looks_blocks eos cs ws bs vs : blocks cs ws bs vs -> looks eos (concat bs) cs.
Proof.
  induction 1 as [|c w B W cs ws bs vs H _ (A & F)]; [split; reflexivity|].
  destruct H as (_ & [(w' & -> & _)|(P & r & -> & T)]); cbn [concat app].
  - split.
    + unfold next_in in *. cbn [find]. destruct (not_removed_by_x9 c); [reflexivity|exact A].
    + intros al. cbn [et_fate]. rewrite F. reflexivity.
  - split.
    + unfold next_in. cbn [find]. destruct c; try discriminate P; reflexivity.
    + intros al. destruct c; try discriminate P; try reflexivity. cbn [et_fate]. rewrite et_fate_nsm by assumption. apply F.
Qed.
Lemma wl_class_free eos c R R' prev al : sepc c = false ->
  wl_class eos c R prev al = wl_class eos c R' prev al /\ wl_prev eos c R prev al = wl_prev eos c R' prev al.
Proof. intros H. unfold wl_prev, wl_class. destruct c; try discriminate H; split; reflexivity. Qed.
Lemma looks_seen eos c w R r : looks eos R r -> looks eos (seen_after c w R) (seen_after c w r).
Proof.
  intros (A & B). unfold seen_after. destruct (1 <? w); [|split; assumption]. split.
  - unfold next_in in *. cbn [find]. destruct (not_removed_by_x9 c); [reflexivity|exact A].
  - intros al. cbn [et_fate]. now rewrite B.
Qed.
Lemma wlc_tail eos c p a : nsm_class p = p -> al_after p a = a -> (c = cL -> p = cL) -> (c = cR -> p = cR) ->
  forall r W vs R, length W = length r -> Forall (tailc c) r ->
  wlc eos (W ++ vs) (r ++ R) p a = repeat p (length r) ++ wlc eos vs R p a.
Proof.
  intros H1 H2 H3 H4. induction r as [|x r IH]; intros [|w W] vs R HL HF; cbn [length] in HL; try lia; [reflexivity|].
  inversion HF as [|? ? T HF']; subst. cbn [app wlc length repeat].
  assert (E : removed_by_x9 x = false /\ (forall l, wl_class eos x l p a = p) /\ (forall l, wl_prev eos x l p a = p)).
  { destruct T as [->|[-> [->| ->]]].
    - repeat split; intros; unfold wl_prev, wl_class; assumption.
    - rewrite (H3 eq_refl). repeat split.
    - rewrite (H4 eq_refl). repeat split. }
  destruct E as (E0 & E1 & E2). rewrite E0. cbn zeta. rewrite E1, E2, H2, IH by (auto; lia). reflexivity.
Qed.
Lemma wlc_blocks eos cs ws bs vs : blocks cs ws bs vs -> forall prev al,
  wlc eos (concat vs) (concat bs) prev al = expand (lens bs) (wlc eos ws cs prev al).
Proof.
  induction 1 as [|c w B W cs ws bs vs H HB IH]; intros prev al; [reflexivity|].
  pose proof (looks_blocks eos _ _ _ _ HB) as HL.
  destruct H as (L & [(w' & -> & -> & S1)|(P & r & -> & T)]).
  - cbn [concat app map wlc length]. destruct (removed_by_x9 c) eqn:E.
    + cbn [expand repeat app]. now rewrite IH.
    + cbn zeta.
      assert (X : wl_class eos c (seen_after c w' (concat bs)) prev al = wl_class eos c (seen_after c w cs) prev al /\
                  wl_prev eos c (seen_after c w' (concat bs)) prev al = wl_prev eos c (seen_after c w cs) prev al).
      { destruct (sepc c) eqn:SC; [|now apply wl_class_free]. rewrite (S1 eq_refl). apply wl_class_looks, looks_seen, HL. }
      destruct X as (-> & ->). cbn [expand repeat app]. now rewrite IH.
  - destruct W as [|w0 W]; [discriminate L|]. cbn [length] in L.
    assert (E : removed_by_x9 c = false) by (destruct c; try discriminate P; reflexivity).
    assert (SC : sepc c = false) by (destruct c; try discriminate P; reflexivity).
    cbn [concat app map wlc length]. rewrite E. cbn zeta.
    destruct (wl_class_free eos c (seen_after c w0 (r ++ concat bs)) (seen_after c w cs) prev al SC) as (-> & ->).
    set (R := seen_after c w cs).
    set (p := wl_prev eos c R prev al). set (a := al_after p al).
    assert (PC : wl_class eos c R prev al = p) by (unfold p, wl_prev; destruct c; try discriminate P; reflexivity).
    rewrite PC, (wlc_tail eos c p a).
    + cbn [expand repeat app]. rewrite IH. reflexivity.
    + unfold p, wl_prev, wl_class. destruct c; try discriminate P; try reflexivity. destruct prev; reflexivity.
    + unfold a. destruct p; reflexivity.
    + intros ->. reflexivity.
    + intros ->. reflexivity.
    + lia.
    + assumption.
Qed.

(** ** The explicit pass *)
Definition ov (o : override) (c : BidiClass) : BidiClass := match o with O_RTL => cR | O_LTR => cL | _ => c end.
Lemma cstep_plain para c stack oi oe vi : plainc c = true ->
  cstep para c (stack, oi, oe, vi) = mkexp [fst (stack_last stack)] [ov (snd (stack_last stack)) c] stack oi oe vi.
Proof.
  intros P. unfold cstep, exp_step. cbn [e_stack]. destruct (stack_last stack) as [l o].
  destruct c; try discriminate P; destruct o; reflexivity.
Qed.
Lemma cexp_plain para c st cs : plainc c = true ->
  cexp para st (c :: cs) = (let '(stack, _, _, _) := st in (fst (stack_last stack), ov (snd (stack_last stack)) c)) :: cexp para st cs.
Proof.
  intros P. destruct st as [[[stack oi] oe] vi]. cbn [cexp]. rewrite cstep_plain by assumption. reflexivity.
Qed.
Lemma ov_tail o c x : tailc c x -> tailc (ov o c) (ov o x).
Proof. intros [->|[-> H]]; destruct o; unfold tailc; cbn; auto. Qed.
Lemma cexp_tail para st c r R : plainc c = true -> Forall (tailc c) r ->
  cexp para st (r ++ R) = map (fun x => let '(stack, _, _, _) := st in (fst (stack_last stack), ov (snd (stack_last stack)) x)) r ++ cexp para st R.
Proof.
  intros P. induction 1 as [|x r T _ IH]; [reflexivity|].
  assert (PX : plainc x = true) by (destruct T as [->|[-> _]]; [reflexivity|assumption]).
  change ((x :: r) ++ R) with (x :: (r ++ R)). rewrite cexp_plain, IH by assumption. reflexivity.
Qed.

Lemma copy1 st : copy_bytes st 0 1 = st.
Proof. destruct st. reflexivity. Qed.
Lemma cstep_class para c st : let x := class_at (e_classes (cstep para c st)) 0 in x = c \/ x = cL \/ x = cR.
Proof.
  destruct st as [[[stack oi] oe] vi]. unfold cstep, exp_step. cbn [e_stack].
  assert (A : forall o, class_at (apply_override o [c] 0) 0 = c \/ class_at (apply_override o [c] 0) 0 = cL \/ class_at (apply_override o [c] 0) 0 = cR)
    by (intros []; cbn; auto).
  destruct (stack_last stack) as [l o]. change (class_at [c] 0) with c.
  destruct c; rewrite ?copy1; cbn [is_isolate_initiator e_oi e_oe e_vi e_classes e_levels e_stack]; try (left; reflexivity); try exact (A o);
    repeat (match goal with
      | |- context [match ?q with _ => _ end] => destruct q; rewrite ?copy1; cbn [e_classes]; try (left; reflexivity); try exact (A _)
      end).
Qed.
Lemma cexp_blocks para cs ws bs vs : blocks cs ws bs vs -> forall st,
  map fst (cexp para st (concat bs)) = expand (lens bs) (map fst (cexp para st cs)) /\
  exists bs', map snd (cexp para st (concat bs)) = concat bs' /\ lens bs' = lens bs /\ blocks (map snd (cexp para st cs)) ws bs' vs.
Proof.
  induction 1 as [|c w B W cs ws bs vs H HB IH]; intros st.
  { split; [reflexivity|]. exists []. repeat split; constructor. }
  destruct H as (L & [(w' & -> & -> & S1)|(P & r & -> & T)]).
  - cbn [concat app cexp map expand length repeat fst snd].
    destruct (IH (cst_of (cstep para c st))) as (E1 & bs' & E2 & E3 & E4). split; [now rewrite E1|].
    set (x := class_at (e_classes (cstep para c st)) 0).
    exists ([x] :: bs'). cbn [concat app map length]. split; [now rewrite E2|]. split; [now rewrite E3|].
    constructor; [|assumption]. split; [reflexivity|]. left. exists w'. split; [reflexivity|]. split; [reflexivity|].
    intros SX. apply S1. destruct (cstep_class para c st) as [E|[E|E]]; fold x in E; rewrite E in SX; [assumption|discriminate..].
  - destruct st as [[[stack oi] oe] vi]. set (st := (stack, oi, oe, vi)). destruct (IH st) as (E1 & bs' & E2 & E3 & E4).
    change (concat ((c :: r) :: bs)) with (c :: (r ++ concat bs)).
    rewrite (cexp_plain para c st (r ++ concat bs)), (cexp_plain para c st cs), (cexp_tail para st c r) by assumption.
    change (let (p, _) := st in let (p0, _) := p in let (stack, _) := p0 in (fst (stack_last stack), ov (snd (stack_last stack)) c)) with (fst (stack_last stack), ov (snd (stack_last stack)) c).
    change (fun x : BidiClass => let (p, _) := st in let (p0, _) := p in let (stack, _) := p0 in (fst (stack_last stack), ov (snd (stack_last stack)) x)) with (fun x : BidiClass => (fst (stack_last stack), ov (snd (stack_last stack)) x)).
    set (l := fst (stack_last stack)). set (o := snd (stack_last stack)).
    cbn [map fst snd expand length repeat app]. rewrite !map_app, !map_map. cbn [fst snd]. split.
    + rewrite E1. f_equal. f_equal. clear. induction r; cbn; congruence.
    + exists ((ov o c :: map (ov o) r) :: bs'). cbn [concat map length]. rewrite E2, E3, map_length. split; [reflexivity|]. split; [reflexivity|].
      constructor; [|assumption]. split; [cbn [length] in *; rewrite map_length; lia|]. right.
      split; [destruct o; try reflexivity; assumption|]. exists (map (ov o) r). split; [reflexivity|].
      apply Forall_map. eapply Forall_impl; [|exact T]. intros x. apply ov_tail.
Qed.

(** ** Level runs and sequences see little of the classes *)
Definition like (c d : BidiClass) : Prop :=
  removed_by_x9 c = removed_by_x9 d /\ is_isolate_initiator c = is_isolate_initiator d /\ (c = cPDI <-> d = cPDI).
Lemma like_refl c : like c c.
Proof. repeat split; auto. Qed.
Section Like.
  Context (oc oc' : list BidiClass).
  Hypothesis HL : length oc = length oc'.
  Hypothesis H : forall k, like (class_at oc k) (class_at oc' k).

  Lemma level_runs_loop_like lv n : forall i cur start, level_runs_loop lv oc i n cur start = level_runs_loop lv oc' i n cur start.
  Proof.
    induction n as [|n IH]; intros i cur start; [reflexivity|]. cbn [level_runs_loop].
    rewrite (proj1 (H i)), !IH. reflexivity.
  Qed.
  Lemma level_runs_like lv : level_runs lv oc = level_runs lv oc'.
  Proof. unfold level_runs. destruct lv; [reflexivity|]. apply level_runs_loop_like. Qed.
  Lemma collect_like runs : forall stack seqs, collect_sequences oc runs stack seqs = collect_sequences oc' runs stack seqs.
  Proof.
    induction runs as [|r runs IH]; intros stack seqs; [reflexivity|]. cbn [collect_sequences].
    rewrite (proj1 (proj2 (H (snd r - 1)))).
    assert (E : (match class_at oc (fst r), stack with cPDI, s :: ((_ :: _) as rest) => (s, rest) | _, _ => ([], stack) end)
              = (match class_at oc' (fst r), stack with cPDI, s :: ((_ :: _) as rest) => (s, rest) | _, _ => ([], stack) end)).
    { destruct (H (fst r)) as (_ & _ & X). destruct (class_at oc (fst r)); destruct (class_at oc' (fst r)); try reflexivity;
        exfalso; first [discriminate (proj1 X eq_refl)|discriminate (proj2 X eq_refl)]. }
    rewrite E. destruct (match class_at oc' (fst r), stack with cPDI, s :: ((_ :: _) as rest) => (s, rest) | _, _ => ([], stack) end) as [sq st].
    now rewrite !IH.
  Qed.
  Lemma rposition_like n : rposition oc n = rposition oc' n.
  Proof. induction n as [|n IH]; [reflexivity|]. cbn [rposition]. unfold not_removed_by_x9. rewrite (proj1 (H n)), IH. reflexivity. Qed.
  Lemma position_like n : forall i, position oc i n = position oc' i n.
  Proof. induction n as [|n IH]; intros i; [reflexivity|]. cbn [position]. unfold not_removed_by_x9. rewrite (proj1 (H i)), IH. reflexivity. Qed.
  Lemma sequences_like para lv : isolating_run_sequences para oc lv = isolating_run_sequences para oc' lv.
  Proof.
    unfold isolating_run_sequences. rewrite level_runs_like, collect_like. apply map_ext. intros s.
    unfold finish_sequence. rewrite rposition_like, HL, position_like, (proj1 (proj2 (H (seq_end s - 1)))). reflexivity.
  Qed.
End Like.

Lemma tail_like c x : plainc c = true -> tailc c x -> like x c.
Proof. intros P [->|[-> _]]; [|apply like_refl]. destruct c; try discriminate P; repeat split; discriminate. Qed.
Lemma blocks_like cs ws bs vs : blocks cs ws bs vs -> Forall2 like (concat bs) (expand (lens bs) cs).
Proof.
  induction 1 as [|c w B W cs ws bs vs H _ IH]; [constructor|]. cbn [concat map expand].
  apply Forall2_app; [|assumption]. destruct H as (_ & [(w' & -> & _)|(P & r & -> & T)]); cbn [length repeat].
  - constructor; [apply like_refl|constructor].
  - constructor; [apply like_refl|]. induction T as [|x r T _ IHr]; cbn [length repeat]; constructor; [now apply tail_like|assumption].
Qed.
Lemma like_at l m : Forall2 like l m -> forall k, like (class_at l k) (class_at m k).
Proof.
  unfold class_at. induction 1 as [|x y l m H _ IH]; intros [|k]; cbn [nth]; auto using like_refl.
Qed.

(** ** Reading blocks *)
Lemma read_block {A} (d : A) bs : forall k, k < length bs ->
  map (fun i => nth i (concat bs) d) (seq (off (lens bs) k) (length (nth k bs []))) = nth k bs [].
Proof.
  induction bs as [|B bs IH]; intros k Hk; cbn [length] in Hk; [lia|]. destruct k as [|k].
  - cbn [nth concat off map firstn list_sum fold_right].
    assert (G : forall p B q, map (fun i => nth i (p ++ B ++ q) d) (seq (length p) (length B)) = B).
    { clear. intros p B. revert p. induction B as [|b B IH]; intros p q; [reflexivity|]. cbn [length seq map]. f_equal.
      - rewrite app_nth2, Nat.sub_diag by lia. reflexivity.
      - specialize (IH (p ++ [b]) q). rewrite app_length in IH. cbn [length] in IH. rewrite <- app_assoc in IH. rewrite Nat.add_1_r in IH. exact IH. }
    exact (G [] B (concat bs)).
  - cbn [nth concat]. specialize (IH k ltac:(lia)). rewrite <- IH at 2. unfold off. cbn [map firstn].
    change (list_sum (length B :: firstn k (lens bs))) with (length B + list_sum (firstn k (lens bs))).
    rewrite <- (map_id (nth k bs [])) at 1. rewrite map_length.
    rewrite <- (Nat.add_0_r (length B)) at 1.
    assert (Q : forall n a, seq (length B + a) n = map (Nat.add (length B)) (seq a n)).
    { induction n as [|n IHn]; intros a; [reflexivity|]. cbn [seq map]. rewrite <- IHn. now rewrite Nat.add_succ_r. }
    rewrite Nat.add_0_r, Q, map_map. apply map_ext. intros i. rewrite app_nth2 by lia. f_equal. lia.
Qed.
Lemma read_blocks {A} (d : A) bs idx : (forall k, In k idx -> k < length bs) ->
  map (fun i => nth i (concat bs) d) (flat_map (span (lens bs)) idx) = concat (map (fun k => nth k bs []) idx).
Proof.
  induction idx as [|k idx IH]; intros H; [reflexivity|]. cbn [flat_map map concat]. rewrite map_app, IH by (intros; apply H; now right).
  f_equal. unfold span, wat. change 0 with (length (@nil A)). rewrite (map_nth (@length A)). apply read_block. apply H. now left.
Qed.
Lemma blocks_nth cs ws bs vs : blocks cs ws bs vs -> forall k, k < length cs ->
  blk (class_at cs k) (wat ws k) (nth k bs []) (nth k vs []).
Proof.
  unfold class_at, wat. induction 1 as [|c w B W cs ws bs vs H _ IH]; intros k Hk; cbn [length] in Hk; [lia|].
  destruct k; cbn [nth]; [assumption|]. apply IH. lia.
Qed.
Lemma blocks_at cs ws bs vs idx : blocks cs ws bs vs -> (forall k, In k idx -> k < length cs) ->
  blocks (reads cs idx) (map (wat ws) idx) (map (fun k => nth k bs []) idx) (map (fun k => nth k vs []) idx).
Proof.
  intros HB. induction idx as [|k idx IH]; intros H; [constructor|]. unfold reads in *. cbn [map]. constructor.
  - apply (blocks_nth _ _ _ _ HB). apply H. now left.
  - apply IH. intros. apply H. now right.
Qed.

(** ** The classes and levels of a paragraph *)
Lemma char_classes_blocks para oc pc ws bo bp vs lv :
  blocks oc ws bo vs -> blocks pc ws bp vs -> length lv = length oc ->
  char_classes (concat vs) para (concat bo) (expand (lens vs) lv) (concat bp) = expand (lens vs) (char_classes ws para oc lv pc).
Proof.
  intros BO BP HL. set (ns := lens vs).
  destruct (blocks_lengths _ _ _ _ BO) as (O1 & O2 & O3 & O4 & O5).
  destruct (blocks_lengths _ _ _ _ BP) as (P1 & P2 & P3 & P4 & P5).
  assert (Hw : Forall (fun w => 0 < w) ns) by (unfold ns; rewrite O4; assumption).
  assert (N1 : length ns = length oc) by (unfold ns; rewrite map_length; assumption).
  assert (LP : length pc = length oc) by congruence.
  assert (CP : length (concat bp) = list_sum ns) by (unfold ns; rewrite P4; clear; induction bp as [|b bp IH]; [reflexivity|]; cbn [concat map]; rewrite app_length, IH; reflexivity).
  assert (SQ : isolating_run_sequences para (concat bo) (expand ns lv) = map (map_seq ns) (isolating_run_sequences para oc lv)).
  { rewrite <- (sequences_chars ns Hw oc lv) by congruence. pose proof (blocks_like _ _ _ _ BO) as X.
    assert (EN : lens bo = ns) by (unfold ns; congruence). rewrite EN in X. apply sequences_like.
    - clear -X. induction X; cbn; congruence.
    - now apply like_at. }
  destruct (char_classes_spec ws para oc lv pc ltac:(congruence)) as (CL & CR).
  destruct (char_classes_spec (concat vs) para (concat bo) (expand ns lv) (concat bp)) as (A & B).
  { rewrite expand_length by congruence. congruence. }
  set (out := char_classes (concat vs) para (concat bo) (expand ns lv) (concat bp)) in *.
  apply classes_ext; [rewrite expand_length by congruence; congruence|].
  intros i Hi. rewrite A, CP in Hi.
  destruct (byte_char ns i Hi) as (k & j & Hk & Hj & E).
  destruct (sequences_nodup para oc lv) as (_ & HI2).
  assert (Hin : In k (flat_map (fun s => seq_indices (s_runs s)) (isolating_run_sequences para oc lv))) by (apply HI2; lia).
  apply in_flat_map in Hin as (s & Hs & Hks).
  assert (Hs' : In (map_seq ns s) (isolating_run_sequences para (concat bo) (expand ns lv))) by (rewrite SQ; now apply in_map).
  specialize (B _ Hs'). specialize (CR _ Hs).
  assert (FR : Forall (fun r => fst r < snd r <= length ns) (s_runs s)).
  { destruct (are_level_runs_in_order _ _ _ _ (level_runs_spec lv oc)) as (_ & _ & F & _).
    apply Forall_forall. intros r Hr. rewrite Forall_forall in F. rewrite N1, <- HL. apply F.
    eapply Permutation_in; [apply (sequences_perm para oc lv)|]. apply in_concat. exists (s_runs s).
    split; [now apply in_map|assumption]. }
  assert (IX : forall k, In k (seq_indices (s_runs s)) -> k < length oc).
  { intros k' Hk'. rewrite <- HL. apply HI2. apply in_flat_map. eauto. }
  assert (NE : s_runs s <> []).
  { pose proof (sequences_ordered para oc lv) as SO. rewrite Forall_forall in SO. now apply SO. }
  assert (SS : seq_start (s_runs s) < length ns).
  { destruct (s_runs s) as [|r rs]; [congruence|]. change (fst r < length ns). inversion FR; subst. lia. }
  unfold resolve_chars in B, CR. cbn [map_seq s_runs s_sos s_eos] in B.
  rewrite (indices_chars ns Hw) in B by assumption.
  rewrite seq_start_map, (level_expand0 ns Hw) in B by (assumption || congruence).
  set (idx := seq_indices (s_runs s)) in *.
  assert (R1 : reads (concat bp) (flat_map (span ns) idx) = concat (map (fun k => nth k bp []) idx)).
  { unfold ns. rewrite P4. apply read_blocks. intros x Hx. rewrite P2, LP. auto. }
  assert (R2 : map (wat (concat vs)) (flat_map (span ns) idx) = concat (map (fun k => nth k vs []) idx)).
  { apply read_blocks. intros x Hx. rewrite O3. auto. }
  rewrite R1, R2 in B.
  assert (BI : blocks (reads pc idx) (map (wat ws) idx) (map (fun k => nth k bp []) idx) (map (fun k => nth k vs []) idx)).
  { apply blocks_at; [assumption|]. intros x Hx. rewrite LP. auto. }
  rewrite (wlc_blocks _ _ _ _ _ BI) in B.
  assert (NI : lens (map (fun k => nth k bp []) idx) = map (wat ns) idx).
  { rewrite map_map. apply map_ext. intros x. unfold wat, ns. rewrite P4. change 0 with (length (@nil BidiClass)). now rewrite (map_nth (@length BidiClass)). }
  rewrite NI in B.
  assert (WP : Forall (fun w => 0 < w) (map (wat ns) idx)).
  { apply Forall_map, Forall_forall. intros x Hx. apply wat_pos; [assumption|]. rewrite N1. auto. }
  assert (LR : length (reads pc idx) = length (map (wat ws) idx)) by (unfold reads; now rewrite !map_length).
  assert (LW : length (wlc (s_eos s) (map (wat ws) idx) (reads pc idx) (s_sos s) false) = length (map (wat ns) idx)).
  { rewrite wlc_length by assumption. unfold reads. now rewrite !map_length. }
  rewrite w7l_expand in B by assumption.
  rewrite nl_expand in B by (auto; rewrite w7l_length; assumption).
  rewrite <- CR in B.
  rewrite <- (reads_chars ns (char_classes ws para oc lv pc)) in B; [|congruence|intros x Hx; rewrite N1; auto].
  eapply map_eq_in in B; [exact B|]. apply in_flat_map. exists k. split; [assumption|].
  unfold span. apply in_seq. lia.
Qed.

Lemma implicit_levels_expand ws : forall lv cs, length lv = length ws -> length cs = length ws ->
  implicit_levels (expand ws lv) (expand ws cs) = expand ws (implicit_levels lv cs).
Proof.
  induction ws as [|w ws IH]; intros [|l lv] [|c cs] H1 H2; cbn [length] in *; try lia; [reflexivity|].
  cbn [expand implicit_levels]. rewrite <- IH by lia. induction w as [|w IHw]; [reflexivity|]. cbn [repeat app implicit_levels]. now rewrite IHw.
Qed.
Lemma assign_removed_like para l : forall cs cs', Forall2 like cs cs' -> assign_removed para cs l = assign_removed para cs' l.
Proof.
  intros cs cs' F. revert para l. induction F as [|c d cs cs' (H & _) _ IH]; intros para [|x l]; try reflexivity.
  cbn [assign_removed]. rewrite H, IH. reflexivity.
Qed.

Lemma char_levels_blocks para cs ws bs vs : (para <= 125)%N -> blocks cs ws bs vs ->
  char_levels (concat vs) para (concat bs) = obind (char_levels ws para cs) (fun l => Ret (expand (lens bs) l)).
Proof.
  intros Hp HB. rewrite !char_levels_spec by assumption. cbn [obind]. f_equal.
  destruct (blocks_lengths _ _ _ _ HB) as (O1 & O2 & O3 & O4 & O5).
  destruct (cexp_blocks para _ _ _ _ HB (cst0 para)) as (E1 & bs' & E2 & E3 & E4).
  assert (LE : length (exp_levels para cs) = length (lens bs)) by (rewrite exp_levels_length, map_length; congruence).
  assert (EF : final_classes (concat vs) para (concat bs) = expand (lens bs) (final_classes ws para cs)).
  { unfold final_classes. unfold exp_levels at 1, exp_classes at 1. rewrite E1, E2, <- O4.
    apply char_classes_blocks; [assumption|exact E4|apply exp_levels_length]. }
  rewrite EF. unfold exp_levels at 1. rewrite E1. fold (exp_levels para cs).
  rewrite implicit_levels_expand; [|assumption|rewrite final_classes_length, map_length; congruence].
  rewrite (assign_removed_like para _ _ _ (blocks_like _ _ _ _ HB)). apply assign_removed_expand; [assumption|rewrite map_length; congruence|].
  rewrite implicit_levels_length; rewrite ?final_classes_length, ?exp_levels_length, ?map_length; congruence.
Qed.

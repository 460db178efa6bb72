(** The weak and neutral passes as functions on the class list of a sequence. *)
From Coq Require Import List NArith ZArith Lia Bool Arith Permutation ZifyBool ZifyNat ZifyN.
Import ListNotations.
From Verif Require Import Base Enums EnumFacts UcdModel BidiModel BidiSpec BidiLemmas.
Open Scope nat_scope.

Lemma BC_eq_dec (a b : BidiClass) : {a = b} + {a <> b}.
Proof.
  destruct (BC_eqb a b) eqn:E; [left; now apply BC_eqb_eq|right].
  intros ->. pose proof (proj2 (BC_eqb_eq b b) eq_refl). congruence.
Qed.

(** ** W1-W6 on lists *)

Definition next_in (cs : list BidiClass) (eos : BidiClass) : BidiClass :=
  match find not_removed_by_x9 cs with Some c => c | None => eos end.

Definition al_after (c : BidiClass) (al : bool) : bool :=
  match c with cL | cR => false | cAL => true | _ => al end.

(** what becomes of pending ETs *)
Fixpoint et_fate (cs : list BidiClass) (al : bool) : BidiClass :=
  match cs with
  | [] => cET
  | c :: r =>
      match c with
      | cNSM | cET => et_fate r al
      | cEN => if al then cON else cEN
      | _ => if removed_by_x9 c then et_fate r al else cON
      end
  end.

Definition nsm_class (prev : BidiClass) : BidiClass :=
  match prev with cRLI | cLRI | cFSI | cPDI => cON | _ => prev end.
Definition sep_class (prev c next : BidiClass) : BidiClass :=
  match prev, c, next with
  | cEN, cES, cEN | cEN, cCS, cEN => cEN
  | cAN, cCS, cAN => cAN
  | _, _, _ => cON
  end.

(** the class given to [c], which is not removed *)
Definition wl_class (eos : BidiClass) (c : BidiClass) (r : list BidiClass) (prev : BidiClass)
    (al : bool) : BidiClass :=
  match c with
  | cNSM => nsm_class prev
  | cEN => if al then cAN else cEN
  | cAL => cR
  | cES | cCS => sep_class prev c (next_in r eos)
  | cET => match prev with cEN => cEN | _ => et_fate r al end
  | _ => c
  end.

(** the class seen by what follows *)
Definition wl_prev (eos : BidiClass) (c : BidiClass) (r : list BidiClass) (prev : BidiClass)
    (al : bool) : BidiClass :=
  match c with
  | cET => match prev with cEN => cEN | _ => cET end
  | _ => wl_class eos c r prev al
  end.

Fixpoint wl (eos : BidiClass) (cs : list BidiClass) (prev : BidiClass) (al : bool)
  : list BidiClass :=
  match cs with
  | [] => []
  | c :: r =>
      if removed_by_x9 c then c :: wl eos r prev al
      else wl_class eos c r prev al ::
           wl eos r (wl_prev eos c r prev al) (al_after (wl_prev eos c r prev al) al)
  end.

Lemma wl_length eos cs : forall prev al, length (wl eos cs prev al) = length cs.
Proof. induction cs; intros; cbn [wl]; [reflexivity|]. destruct (removed_by_x9 a); cbn; auto. Qed.

(** reading an array at a list of positions *)
Definition reads (pc : list BidiClass) (idx : list nat) : list BidiClass := map (class_at pc) idx.

Definition in_range (pc : list BidiClass) (idx : list nat) : Prop := forall i, In i idx -> i < length pc.

Lemma class_at_upd pc i x j : i < length pc -> class_at (upd pc i x) j = if j =? i then x else class_at pc j.
Proof. intros. unfold class_at. now apply nth_upd. Qed.

Lemma class_at_upds pc is x j : in_range pc is ->
  class_at (upds pc is x) j = if in_dec Nat.eq_dec j is then x else class_at pc j.
Proof. intros. unfold class_at. now apply nth_upds. Qed.

Lemma reads_ext pc pc' idx : (forall j, In j idx -> class_at pc' j = class_at pc j) -> reads pc' idx = reads pc idx.
Proof. intros H. apply map_ext_in. assumption. Qed.

(** an update outside the positions still to come *)
Lemma reads_upd_other pc i x idx : ~ In i idx -> reads (upd pc i x) idx = reads pc idx.
Proof.
  intros H. apply reads_ext. intros j Hj. unfold class_at. apply nth_upd_ne. intros ->. contradiction.
Qed.

Lemma reads_upds_other pc is x idx : (forall i, In i is -> ~ In i idx) ->
  reads (upds pc is x) idx = reads pc idx.
Proof.
  revert pc. induction is as [|i is IH]; intros pc H; [reflexivity|].
  change (upds pc (i :: is) x) with (upds (upd pc i x) is x).
  rewrite IH by (intros; apply H; now right). apply reads_upd_other. apply H. now left.
Qed.

Definition weak_out (eos : BidiClass) idx pc prev al ets (out : list BidiClass) : Prop :=
  length out = length pc /\
  reads out idx = wl eos (reads pc idx) prev al /\
  (forall j, In j ets -> class_at out j = et_fate (reads pc idx) al) /\
  (forall j, ~ In j idx -> ~ In j ets -> class_at out j = class_at pc j).

Lemma weak_loop_out eos idx : forall pc prev al ets,
  NoDup idx -> in_range pc idx -> in_range pc ets -> (forall j, In j ets -> ~ In j idx) ->
  (forall j, In j ets -> class_at pc j = cET) ->
  (ets <> [] -> prev = cET) ->
  weak_out eos idx pc prev al ets (weak_loop eos idx pc prev al ets).
Proof.
  induction idx as [|i rest IH]; intros pc prev al ets ND RI RE DJ HET HP.
  { cbn [weak_loop]. split; [reflexivity|]. split; [reflexivity|]. split; [|auto]. cbn. auto. }
  inversion ND as [|? ? Hni ND']; subst.
  assert (Ri : i < length pc) by (apply RI; now left).
  assert (RI' : in_range pc rest) by (intros j Hj; apply RI; now right).
  assert (NE : ~ In i ets) by (intros Hi; apply (DJ i Hi); now left).
  assert (DJ' : forall j, In j ets -> ~ In j rest) by (intros j Hj Hr; apply (DJ j Hj); now right).
  (* the effect of the tail of the body, with class [x] now at [i] *)
  assert (Tail : forall x prev',
     prev' = x -> x <> cET ->
     forall pc1, pc1 = upds (upd pc i x) ets cON ->
     weak_out eos rest pc1 prev' (al_after x al) [] (weak_loop eos rest pc1 prev' (al_after x al) [])).
  { intros x prev' -> Hx pc1 ->. apply IH; auto.
    all: try (intros j []); try congruence. intros j Hj. rewrite upds_length, upd_length. auto. }
  (* reading off the result *)
  assert (Done : forall x pc1 prev' al' out, x <> cET ->
     length pc1 = length pc ->
     (forall j, class_at pc1 j = if j =? i then x else if in_dec Nat.eq_dec j ets then et_fate (reads pc (i :: rest)) al else class_at pc j) ->
     weak_out eos rest pc1 prev' al' [] out ->
     wl eos (reads pc (i :: rest)) prev al = x :: wl eos (reads pc rest) prev' al' ->
     weak_out eos (i :: rest) pc prev al ets out).
  { intros x pc1 prev' al' out Hx Hlen H1 (L & R & _ & O) Hw.
    assert (Rr : reads pc1 rest = reads pc rest).
    { apply reads_ext. intros j Hj. rewrite H1. destruct (Nat.eqb_spec j i) as [->|]; [contradiction|].
      destruct (in_dec Nat.eq_dec j ets) as [He|]; [|reflexivity]. exfalso. now apply (DJ' j He). }
    split; [congruence|]. split; [|split].
    - rewrite Hw. cbn [reads map]. f_equal.
      + rewrite O by (auto; intros []). rewrite H1, Nat.eqb_refl. reflexivity.
      + fold (reads out rest). rewrite R, Rr. reflexivity.
    - intros j Hj. rewrite O; [|now apply DJ'|intros []]. rewrite H1.
      destruct (Nat.eqb_spec j i) as [->|]; [contradiction|].
      destruct (in_dec Nat.eq_dec j ets); [reflexivity|contradiction].
    - intros j Hj Hje. cbn [In] in Hj. rewrite O; [|tauto|intros []]. rewrite H1.
      destruct (Nat.eqb_spec j i) as [->|]; [tauto|].
      destruct (in_dec Nat.eq_dec j ets); [contradiction|reflexivity]. }
  assert (Upd1 : forall x y (P : et_fate (reads pc (i :: rest)) al = y \/ ets = []) j,
     class_at (upds (upd pc i x) ets y) j
     = if j =? i then x else if in_dec Nat.eq_dec j ets then et_fate (reads pc (i :: rest)) al else class_at pc j).
  { intros x y P j. rewrite class_at_upds by (intros k Hk; rewrite upd_length; auto).
    rewrite class_at_upd by assumption.
    destruct (in_dec Nat.eq_dec j ets) as [He|He].
    - destruct (Nat.eqb_spec j i) as [->|]; [contradiction|]. destruct P as [P|P]; [now rewrite P|]. subst ets. destruct He.
    - reflexivity. }
  assert (L1 : forall x y, length (upds (upd pc i x) ets y) = length pc) by (intros; now rewrite upds_length, upd_length).
  (* continuing with an ET at [i] pending *)
  assert (Pend : forall ets1, (forall j, In j ets1 <-> In j ets \/ (class_at pc i = cET /\ j = i)) ->
     forall pc1, pc1 = upd pc i cET -> (class_at pc i = cET \/ class_at pc i = cNSM /\ prev = cET) ->
     (class_at pc i = cET -> prev <> cEN) ->
     weak_out eos (i :: rest) pc prev al ets (weak_loop eos rest pc1 cET al ets1)).
  { intros ets1 He1 pc1 -> Hc Hprev.
    assert (A : weak_out eos rest (upd pc i cET) cET al ets1 (weak_loop eos rest (upd pc i cET) cET al ets1)).
    { apply IH; auto.
      - intros j Hj. rewrite upd_length. auto.
      - intros j Hj. rewrite upd_length. apply He1 in Hj as [Hj|[_ ->]]; auto.
      - intros j Hj. apply He1 in Hj as [Hj|[_ ->]]; auto.
      - intros j Hj. rewrite class_at_upd by assumption. destruct (Nat.eqb_spec j i); [reflexivity|].
        apply He1 in Hj as [Hj|[_ ->]]; [now apply HET|congruence]. }
    destruct A as (L & R & E & O). rewrite upd_length in L.
    assert (Rr : reads (upd pc i cET) rest = reads pc rest) by now apply reads_upd_other.
    rewrite Rr in *.
    assert (F : et_fate (reads pc (i :: rest)) al = et_fate (reads pc rest) al).
    { cbn [reads map et_fate]. destruct Hc as [-> |[-> _]]; reflexivity. }
    split; [assumption|]. split; [|split].
    - cbn [reads map]. fold (reads (weak_loop eos rest (upd pc i cET) cET al ets1) rest). fold (reads pc rest).
      rewrite R. cbn [wl]. destruct Hc as [Hc|[Hc ->]]; rewrite Hc; cbn [removed_by_x9 wl_class wl_prev].
      + rewrite (E i) by (apply He1; right; auto).
        specialize (Hprev Hc). destruct prev; try congruence; reflexivity.
      + cbn [nsm_class al_after]. f_equal. rewrite O; [|assumption|rewrite He1; intros [|[X _]]; [contradiction|congruence]].
        rewrite class_at_upd, Nat.eqb_refl by assumption. reflexivity.
    - intros j Hj. rewrite F. apply E. apply He1. now left.
    - intros j Hj Hje. cbn [In] in Hj. rewrite O.
      + rewrite class_at_upd by assumption. destruct (Nat.eqb_spec j i) as [->|]; [tauto|reflexivity].
      + tauto.
      + rewrite He1. intros [|[_ ->]]; tauto. }
  cbn [weak_loop].
  assert (Same : forall c, class_at pc i = c -> upd pc i c = pc).
  { intros c <-. clear -Ri. revert i Ri. induction pc as [|a pc IHp]; intros [|i] H; cbn in *; try lia; [reflexivity|].
    f_equal. apply IHp. lia. }
  assert (Go : forall x, x <> cET ->
     (et_fate (reads pc (i :: rest)) al = cON \/ ets = []) ->
     wl eos (reads pc (i :: rest)) prev al = x :: wl eos (reads pc rest) x (al_after x al) ->
     weak_out eos (i :: rest) pc prev al ets
       (let '(prev', al', pc', ets') := weak_tail (upd pc i x) i al ets in
        weak_loop eos rest pc' prev' al' ets')).
  { intros x Hx HF Hw. unfold weak_tail. rewrite class_at_upd, Nat.eqb_refl by assumption.
    eapply (Done x (upds (upd pc i x) ets cON) x (al_after x al)); [assumption|apply L1|now apply Upd1| |exact Hw].
    pose proof (Tail x x eq_refl Hx _ eq_refl) as T.
    destruct x; try exact T. congruence. }
  assert (Plain : forall x, class_at pc i = x -> x <> cET ->
     (et_fate (reads pc (i :: rest)) al = cON \/ ets = []) ->
     wl eos (reads pc (i :: rest)) prev al = x :: wl eos (reads pc rest) x (al_after x al) ->
     weak_out eos (i :: rest) pc prev al ets
       (let '(prev', al', pc', ets') := weak_tail pc i al ets in
        weak_loop eos rest pc' prev' al' ets')).
  { intros x E Hx HF Hw. pose proof (Go x Hx HF Hw) as G. rewrite (Same x E) in G. exact G. }
  assert (HE : prev <> cET -> ets = []).
  { intros H. destruct ets; [reflexivity|]. exfalso. apply H, HP. discriminate. }
  destruct (class_at pc i) eqn:Ec; cbn [removed_by_x9].
  (* plain classes *)
  all: try (eapply Plain; [reflexivity|discriminate|left; cbn [reads map et_fate]; rewrite Ec; reflexivity
                          |cbn [reads map wl]; rewrite Ec; reflexivity]).
  (* removed: skip *)
  all: try (
    destruct (IH pc prev al ets ND' RI' RE DJ' HET HP) as (L & R & E & O);
    split; [assumption|]; split;
    [cbn [reads map wl]; rewrite Ec; cbn [removed_by_x9]; f_equal;
      [rewrite O by assumption; assumption|exact R]
    |split;
     [intros j Hj; rewrite (E j Hj); cbn [reads map et_fate]; rewrite Ec; reflexivity
     |intros j Hj Hje; apply O; [intros X; apply Hj; now right|assumption]]]).
  - (* AL *)
    eapply Go; [discriminate|left; cbn [reads map et_fate]; rewrite Ec; reflexivity
               |cbn [reads map wl]; rewrite Ec; reflexivity].
  - (* CS *)
    match goal with |- context [upd pc i ?x] => set (v := x) end.
    assert (Hv : v = sep_class prev cCS (next_in (reads pc rest) eos)) by reflexivity.
    assert (v = cON \/ v = cEN \/ v = cAN) as Hv'.
    { unfold v. destruct prev; auto; destruct (next_class pc rest eos); auto. }
    eapply Go; [destruct Hv' as [-> |[-> | ->]]; discriminate
               |left; cbn [reads map et_fate]; rewrite Ec; reflexivity|].
    cbn [reads map wl]. rewrite Ec. cbn [removed_by_x9 wl_class wl_prev]. fold (reads pc rest).
    rewrite <- Hv. reflexivity.
  - (* EN *)
    destruct al.
    + eapply Go; [discriminate|left; cbn [reads map et_fate]; rewrite Ec; reflexivity
                 |cbn [reads map wl]; rewrite Ec; reflexivity].
    + unfold weak_tail.
      assert (C : class_at (upds pc ets cEN) i = cEN).
      { rewrite class_at_upds by assumption. destruct (in_dec Nat.eq_dec i ets); auto. }
      rewrite C. change (upds (upds pc ets cEN) [] cON) with (upds pc ets cEN).
      pose proof (L1 cEN cEN) as Le. pose proof (fun P => Upd1 cEN cEN P) as U.
      rewrite (Same cEN eq_refl) in Le, U.
      eapply (Done cEN (upds pc ets cEN) cEN false);
        [discriminate|exact Le|apply U; left; cbn [reads map et_fate]; rewrite Ec; reflexivity
        | |cbn [reads map wl]; rewrite Ec; reflexivity].
      apply IH; auto.
      all: try (intros j []); try congruence. intros j Hj. rewrite upds_length. auto.
  - (* ES *)
    match goal with |- context [upd pc i ?x] => set (v := x) end.
    assert (Hv : v = sep_class prev cES (next_in (reads pc rest) eos)) by reflexivity.
    assert (v = cON \/ v = cEN) as Hv'.
    { unfold v. destruct prev; auto; destruct (next_class pc rest eos); auto. }
    eapply Go; [destruct Hv' as [-> | ->]; discriminate
               |left; cbn [reads map et_fate]; rewrite Ec; reflexivity|].
    cbn [reads map wl]. rewrite Ec. cbn [removed_by_x9 wl_class wl_prev]. fold (reads pc rest).
    rewrite <- Hv. reflexivity.
  - (* ET *)
    destruct (BC_eq_dec prev cEN) as [-> |Hp].
    + eapply Go; [discriminate|right; apply HE; discriminate|cbn [reads map wl]; rewrite Ec; reflexivity].
    + assert (W : weak_out eos (i :: rest) pc prev al ets
         (let '(prev', al', pc', ets') := weak_tail pc i al (ets ++ [i]) in
          weak_loop eos rest pc' prev' al' ets')).
      { unfold weak_tail. rewrite Ec. apply Pend; auto.
        - intros j. rewrite in_app_iff. cbn [In]. intuition.
        - symmetry. now apply Same. }
      destruct prev; try exact W. congruence.
  - (* NSM *)
    fold (nsm_class prev).
    destruct (BC_eq_dec prev cET) as [-> |Hp].
    + cbn [nsm_class]. unfold weak_tail. rewrite class_at_upd, Nat.eqb_refl by assumption.
      apply Pend; auto; try congruence. intros j. intuition congruence.
    + eapply Go; [destruct prev; (discriminate || congruence)|right; now apply HE|].
      cbn [reads map wl]. rewrite Ec. reflexivity.
Qed.

(** ** W7 on lists *)

Definition l_after (c : BidiClass) (last_l : bool) : bool :=
  match c with cL => true | cR | cAL => false | _ => last_l end.
Definition w7_class (c : BidiClass) (last_l : bool) : BidiClass :=
  match c with cEN => if last_l then cL else cEN | _ => c end.
Fixpoint w7l (cs : list BidiClass) (last_l : bool) : list BidiClass :=
  match cs with
  | [] => []
  | c :: r => w7_class c last_l :: w7l r (l_after c last_l)
  end.

Lemma w7l_length cs : forall b, length (w7l cs b) = length cs.
Proof. induction cs; intros; cbn; auto. Qed.

Definition list_out (f : list BidiClass -> list BidiClass) idx (pc out : list BidiClass) : Prop :=
  length out = length pc /\ reads out idx = f (reads pc idx) /\
  (forall j, ~ In j idx -> class_at out j = class_at pc j).


Lemma weak_w7_out idx : forall pc last_l, NoDup idx -> in_range pc idx ->
  list_out (fun cs => w7l cs last_l) idx pc (weak_w7 idx pc last_l).
Proof.
  induction idx as [|i rest IH]; intros pc b ND RI.
  { cbn [weak_w7]. split; [reflexivity|]. split; [reflexivity|auto]. }
  inversion ND as [|? ? Hni ND']; subst.
  assert (Ri : i < length pc) by (apply RI; now left).
  assert (RI' : in_range pc rest) by (intros j Hj; apply RI; now right).
  assert (K : forall b', l_after (class_at pc i) b = b' -> w7_class (class_at pc i) b = class_at pc i ->
     list_out (fun cs => w7l cs b) (i :: rest) pc (weak_w7 rest pc b')).
  { intros b' Hb Hc. destruct (IH pc b' ND' RI') as (L & R & O). split; [assumption|]. split.
    - cbn [reads map w7l]. rewrite Hb, Hc. f_equal; [now apply O|exact R].
    - intros j Hj. apply O. intros X. apply Hj. now right. }
  cbn [weak_w7]. destruct (class_at pc i) eqn:Ec; try (apply K; reflexivity).
  destruct b; [|apply K; reflexivity].
  destruct (IH (upd pc i cL) true ND') as (L & R & O).
  { intros j Hj. rewrite upd_length. auto. }
  rewrite upd_length in L. split; [assumption|]. split.
  - cbn [reads map w7l]. rewrite Ec. cbn [l_after w7_class]. f_equal.
    + rewrite O by assumption. rewrite class_at_upd, Nat.eqb_refl by assumption. reflexivity.
    + fold (reads (weak_w7 rest (upd pc i cL) true) rest). rewrite R. rewrite reads_upd_other by assumption. reflexivity.
  - intros j Hj. rewrite O by (intros X; apply Hj; now right).
    rewrite class_at_upd by assumption. destruct (Nat.eqb_spec j i) as [->|]; [|reflexivity].
    exfalso. apply Hj. now left.
Qed.

Definition weak_list (sos eos : BidiClass) (cs : list BidiClass) : list BidiClass :=
  w7l (wl eos cs sos false) (is_class_L sos).

Lemma weak_list_length sos eos cs : length (weak_list sos eos cs) = length cs.
Proof. unfold weak_list. now rewrite w7l_length, wl_length. Qed.

Lemma resolve_weak_out s pc : NoDup (seq_indices (s_runs s)) -> in_range pc (seq_indices (s_runs s)) ->
  list_out (weak_list (s_sos s) (s_eos s)) (seq_indices (s_runs s)) pc (resolve_weak s pc).
Proof.
  intros ND RI. unfold resolve_weak.
  destruct (weak_loop_out (s_eos s) (seq_indices (s_runs s)) pc (s_sos s) false []) as (L & R & _ & O); auto.
  all: cbn [In]; try (intros j []; fail); try tauto; try (intros X; now elim X).
  set (pc1 := weak_loop _ _ _ _ _ _) in *.
  destruct (weak_w7_out (seq_indices (s_runs s)) pc1 (is_class_L (s_sos s)) ND) as (L2 & R2 & O2).
  { intros j Hj. rewrite L. auto. }
  split; [congruence|]. split.
  - rewrite R2, R. reflexivity.
  - intros j Hj. rewrite O2 by assumption. apply O; auto.
Qed.

(** ** N1-N2 on lists *)

Definition next_non_neutral (cs : list BidiClass) (eos : BidiClass) : BidiClass :=
  match find (fun c => negb (removed_by_x9 c || is_NI c)) cs with Some c => c | None => eos end.

Fixpoint nl (e eos : BidiClass) (cs : list BidiClass) (prev : BidiClass) (inrun : bool)
  : list BidiClass :=
  match cs with
  | [] => []
  | c :: r =>
      if is_NI c then neutral_class prev (next_non_neutral r eos) e :: nl e eos r prev true
      else if inrun && removed_by_x9 c then c :: nl e eos r prev true
      else c :: nl e eos r c false
  end.

Lemma nl_length e eos cs : forall prev b, length (nl e eos cs prev b) = length cs.
Proof.
  induction cs; intros; cbn [nl]; [reflexivity|].
  destruct (is_NI a); cbn; [auto|]. destruct (b && removed_by_x9 a); cbn; auto.
Qed.

Lemma NI_not_removed c : is_NI c = true -> removed_by_x9 c = false.
Proof. destruct c; cbn; congruence. Qed.

Definition run_of (run : option (list nat)) : list nat := match run with Some r => r | None => [] end.
Definition in_run (run : option (list nat)) : bool := match run with Some _ => true | None => false end.

Lemma neutral_loop_out e eos idx : forall pc prev run,
  NoDup idx -> in_range pc idx -> in_range pc (run_of run) ->
  (forall j, In j (run_of run) -> ~ In j idx) ->
  let out := neutral_loop e eos idx pc prev run in
  length out = length pc /\
  reads out idx = nl e eos (reads pc idx) prev (in_run run) /\
  (forall j, In j (run_of run) -> class_at out j = neutral_class prev (next_non_neutral (reads pc idx) eos) e) /\
  (forall j, ~ In j idx -> ~ In j (run_of run) -> class_at out j = class_at pc j).
Proof.
  induction idx as [|i rest IH]; intros pc prev run ND RI RR DJ.
  { cbn [neutral_loop]. destruct run as [r|]; cbn [run_of] in *; cbn zeta.
    - rewrite upds_length. split; [reflexivity|]. split; [reflexivity|]. split; intros j Hj.
      + rewrite class_at_upds by assumption. destruct (in_dec Nat.eq_dec j r); [reflexivity|contradiction].
      + intros Hr. rewrite class_at_upds by assumption. destruct (in_dec Nat.eq_dec j r); [contradiction|reflexivity].
    - split; [reflexivity|]. split; [reflexivity|]. split; [intros j []|reflexivity]. }
  inversion ND as [|? ? Hni ND']; subst.
  assert (Ri : i < length pc) by (apply RI; now left).
  assert (RI' : in_range pc rest) by (intros j Hj; apply RI; now right).
  assert (DJ' : forall j, In j (run_of run) -> ~ In j rest) by (intros j Hj Hr; apply (DJ j Hj); now right).
  assert (NE : ~ In i (run_of run)) by (intros Hi; apply (DJ i Hi); now left).
  cbn [neutral_loop reads map]. fold (reads pc rest).
  assert (FN : forall c, is_NI c = true \/ removed_by_x9 c = true -> next_non_neutral (c :: reads pc rest) eos = next_non_neutral (reads pc rest) eos).
  { intros c H. unfold next_non_neutral. cbn [find]. destruct H as [-> | ->]; cbn [orb]; rewrite ?orb_true_r; reflexivity. }
  assert (FS : forall c, is_NI c = false -> removed_by_x9 c = false -> next_non_neutral (c :: reads pc rest) eos = c).
  { intros c H1 H2. unfold next_non_neutral. cbn [find]. now rewrite H1, H2. }
  (* adding [i] to the run *)
  assert (Add : is_NI (class_at pc i) = true -> forall r, (forall j, In j r <-> In j (run_of run) \/ j = i) ->
     let out := neutral_loop e eos rest pc prev (Some r) in
     length out = length pc /\
     class_at out i :: reads out rest = nl e eos (class_at pc i :: reads pc rest) prev (in_run run) /\
     (forall j, In j (run_of run) -> class_at out j = neutral_class prev (next_non_neutral (class_at pc i :: reads pc rest) eos) e) /\
     (forall j, ~ In j (i :: rest) -> ~ In j (run_of run) -> class_at out j = class_at pc j)).
  { intros HN r Hr. cbn zeta. destruct (IH pc prev (Some r) ND' RI') as (L & R & E & O).
    - cbn [run_of]. intros j Hj. apply Hr in Hj as [Hj| ->]; auto.
    - cbn [run_of]. intros j Hj. apply Hr in Hj as [Hj| ->]; auto.
    - cbn [run_of in_run] in *. split; [assumption|]. split; [|split].
      + cbn [nl]. rewrite HN. f_equal; [|exact R]. apply E. apply Hr. now right.
      + intros j Hj. rewrite FN by now left. apply E. apply Hr. now left.
      + intros j Hj Hje. cbn [In] in Hj. apply O; [tauto|]. rewrite Hr. intros [| ->]; tauto. }
  destruct run as [r|]; cbn [run_of in_run] in *.
  - destruct (removed_by_x9 (class_at pc i)) eqn:Er.
    + destruct (IH pc prev (Some r) ND' RI' RR DJ') as (L & R & E & O). cbn [run_of in_run] in *.
      cbn zeta. split; [assumption|]. split; [|split].
      * cbn [nl]. rewrite Er. destruct (is_NI (class_at pc i)) eqn:EN; [apply NI_not_removed in EN; congruence|].
        cbn [andb]. f_equal; [now apply O|exact R].
      * intros j Hj. rewrite FN by now right. now apply E.
      * intros j Hj Hje. apply O; [|assumption]. intros X. apply Hj. now right.
    + destruct (is_NI (class_at pc i)) eqn:EN.
      * apply Add; [reflexivity|]. intros j. rewrite in_app_iff. cbn [In]. intuition.
      * set (x := neutral_class prev (class_at pc i) e).
        assert (Ci : class_at (upds pc r x) i = class_at pc i).
        { rewrite class_at_upds by assumption. destruct (in_dec Nat.eq_dec i r); [contradiction|reflexivity]. }
        cbn zeta. rewrite Ci.
        destruct (IH (upds pc r x) (class_at pc i) None ND') as (L & R & _ & O).
        { intros j Hj. rewrite upds_length. auto. }
        { intros j []. } { intros j []. }
        cbn [run_of in_run] in *. rewrite upds_length in L. rewrite reads_upds_other in R by assumption.
        split; [assumption|]. split; [|split].
        -- cbn [nl]. rewrite EN, Er. cbn [andb]. f_equal; [|exact R]. rewrite O by (auto; intros []). exact Ci.
        -- intros j Hj. rewrite FS by assumption. rewrite O; [|now apply DJ'|intros []].
           rewrite class_at_upds by assumption. destruct (in_dec Nat.eq_dec j r); [reflexivity|contradiction].
        -- intros j Hj Hje. rewrite O; [|intros X; apply Hj; now right|intros []].
           rewrite class_at_upds by assumption. destruct (in_dec Nat.eq_dec j r); [contradiction|reflexivity].
  - destruct (is_NI (class_at pc i)) eqn:EN.
    + apply Add; [reflexivity|]. intros j. cbn [In]. intuition.
    + destruct (IH pc (class_at pc i) None ND' RI') as (L & R & _ & O). { intros j []. } { intros j []. }
      cbn [run_of in_run] in *. cbn zeta. split; [assumption|]. split; [|split].
      * cbn [nl]. rewrite EN. cbn [andb]. f_equal; [|exact R]. now apply O.
      * intros j [].
      * intros j Hj _. apply O; [|intros []]. intros X. apply Hj. now right.
Qed.

Lemma resolve_neutral_out s levels pc :
  NoDup (seq_indices (s_runs s)) -> in_range pc (seq_indices (s_runs s)) ->
  list_out (fun cs => nl (level_class (level_at levels (seq_start (s_runs s)))) (s_eos s) cs (s_sos s) false)
    (seq_indices (s_runs s)) pc (resolve_neutral s levels pc).
Proof.
  intros ND RI. unfold resolve_neutral.
  destruct (neutral_loop_out (level_class (level_at levels (seq_start (s_runs s)))) (s_eos s)
    (seq_indices (s_runs s)) pc (s_sos s) None ND RI) as (L & R & _ & O). { intros j []. } { intros j []. }
  split; [assumption|]. split; [exact R|]. intros j Hj. apply O; [assumption|intros []].
Qed.

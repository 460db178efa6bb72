(** Statements about all characters that depend only on table look-ups can be
    decided at the break points of the tables. *)
From Coq Require Import List NArith ZArith Lia Bool Sorted ZifyBool ZifyN.
From Verif Require Import Base RangeModel TableModel TableSpec TableProofs UcdModel UcdProofs.
Import ListNotations.
Open Scope N_scope.

Definition breaks {V} (l : list (N * N * V)) : list N :=
  flat_map (fun e => [fst (fst e); snd (fst e) + 1]) l.

(** No element of [bs] lies in (b, c]. *)
Definition quiet (bs : list N) (b c : N) : Prop :=
  b <= c /\ forall x, In x bs -> ~ (b < x /\ x <= c).

Lemma quiet_app bs1 bs2 b c : quiet (bs1 ++ bs2) b c -> quiet bs1 b c /\ quiet bs2 b c.
Proof.
  intros [H1 H2]. split; (split; [assumption|]); intros x Hx; apply H2; apply in_or_app; auto.
Qed.

Lemma scan_quiet {V} (l : list (N * N * V)) b c : quiet (breaks l) b c -> scan l b = scan l c.
Proof.
  intros [Hle Hq]. induction l as [|[[lo hi] v] l IH]; [reflexivity|].
  cbn [scan]. rewrite IH.
  2:{ intros x Hx. apply Hq. cbn [breaks flat_map]. apply in_or_app. now right. }
  assert (~ (b < lo /\ lo <= c)) as H1 by (apply Hq; cbn; auto).
  assert (~ (b < hi + 1 /\ hi + 1 <= c)) as H2 by (apply Hq; cbn; auto).
  assert (((lo <=? b) && (b <=? hi)) = ((lo <=? c) && (c <=? hi))) as -> by lia.
  reflexivity.
Qed.

Lemma greatest_break bs c : exists b, In b (0 :: bs) /\ quiet bs b c.
Proof.
  induction bs as [|x bs IH].
  - exists 0. split; [now left|]. split; [lia|intros x []].
  - destruct IH as (b & Hb & [Hle Hq]).
    destruct (N.le_gt_cases x c) as [Hx|Hx]; [destruct (N.le_gt_cases x b) as [Hxb|Hxb]|].
    + exists b. split; [cbn in *; tauto|]. split; [assumption|].
      intros y [<-|Hy]; [lia|now apply Hq].
    + exists x. split; [cbn; tauto|]. split; [assumption|].
      intros y [<-|Hy]; [lia|]. specialize (Hq y Hy). lia.
    + exists b. split; [cbn in *; tauto|]. split; [assumption|].
      intros y [<-|Hy]; [lia|now apply Hq].
Qed.

Lemma piecewise (bs : list N) (Q : N -> bool) :
  (forall b c, quiet bs b c -> Q b = Q c) ->
  forallb Q (0 :: bs) = true -> forall c, Q c = true.
Proof.
  intros Hq Hall c. destruct (greatest_break bs c) as (b & Hb & Hquiet).
  rewrite <- (Hq _ _ Hquiet). rewrite forallb_forall in Hall. now apply Hall.
Qed.

(** Linear-time evaluation of look-ups at increasing points: entries that end
    before the current point are dropped. *)
Fixpoint advance {V} (l : list (N * N * V)) (c : N) : list (N * N * V) :=
  match l with
  | (lo, hi, v) :: l' => if hi <? c then advance l' c else l
  | [] => []
  end.
Definition head_at {V} (l : list (N * N * V)) (c : N) : option V :=
  match l with
  | (lo, hi, v) :: _ => if lo <=? c then Some v else None
  | [] => None
  end.

Section Sweep.
  Context {A B C D : Type} (P : option A -> option B -> option C -> option D -> bool).

  Fixpoint sweep (la : list (N * N * A)) (lb : list (N * N * B)) (lc : list (N * N * C))
    (ld : list (N * N * D)) (prev : N) (pts : list N) : bool :=
    match pts with
    | [] => true
    | c :: pts' =>
        let la := advance la c in let lb := advance lb c in
        let lc := advance lc c in let ld := advance ld c in
        (prev <=? c) && P (head_at la c) (head_at lb c) (head_at lc c) (head_at ld c)
        && sweep la lb lc ld c pts'
    end.
End Sweep.

Lemma advance_scan {V} (l : list (N * N * V)) c d : c <= d -> scan (advance l c) d = scan l d.
Proof.
  intros Hle. induction l as [|[[lo hi] v] l IH]; [reflexivity|].
  cbn [advance]. destruct (N.ltb_spec hi c); [|reflexivity].
  rewrite IH. cbn [scan]. destruct (N.leb_spec d hi); [lia|]. now rewrite andb_false_r.
Qed.

Lemma advance_sorted {V} (l : list (N * N * V)) c : StronglySorted entry_lt l -> StronglySorted entry_lt (advance l c).
Proof.
  induction 1 as [|[[lo hi] v] l Hs IH Hf]; [constructor|].
  cbn [advance]. destruct (hi <? c); [assumption|now constructor].
Qed.

Lemma advance_ok {V} (l : list (N * N * V)) c : Forall entry_ok l -> Forall entry_ok (advance l c).
Proof.
  induction 1 as [|[[lo hi] v] l Hs IH]; [constructor|].
  cbn [advance]. destruct (hi <? c); [assumption|now constructor].
Qed.

Lemma head_at_scan {V} (l : list (N * N * V)) c : StronglySorted entry_lt l -> Forall entry_ok l ->
  head_at (advance l c) c = scan l c.
Proof.
  intros Hs Hok. rewrite <- (advance_scan l c c) by lia.
  pose proof (advance_sorted l c Hs) as Hs'. pose proof (advance_ok l c Hok) as Hok'.
  assert (match advance l c with (lo, hi, v) :: _ => c <= hi | [] => True end) as Hhd.
  { clear. induction l as [|[[lo hi] v] l IH]; [exact I|]. cbn [advance].
    destruct (N.ltb_spec hi c); [apply IH|assumption]. }
  destruct (advance l c) as [|[[lo hi] v] l']; [reflexivity|]. cbn [head_at scan].
  destruct (N.leb_spec lo c); destruct (N.leb_spec c hi); try lia; [reflexivity|]. cbn [andb].
  destruct (scan l' c) as [w|] eqn:E; [|reflexivity].
  apply scan_some in E as (e & He & [Hc1 Hc2] & _). inversion Hs' as [|? ? _ Hall]; subst.
  rewrite Forall_forall in Hall. specialize (Hall e He). unfold entry_lt in Hall. cbn in Hall.
  inversion Hok' as [|? ? Ho _]; subst. unfold entry_ok in Ho. cbn in Ho. lia.
Qed.

Lemma sweep_sound {A B C D} (P : option A -> option B -> option C -> option D -> bool) pts :
  forall la lb lc ld prev,
  StronglySorted entry_lt la -> Forall entry_ok la -> StronglySorted entry_lt lb -> Forall entry_ok lb ->
  StronglySorted entry_lt lc -> Forall entry_ok lc -> StronglySorted entry_lt ld -> Forall entry_ok ld ->
  sweep P la lb lc ld prev pts = true ->
  forall c, In c pts -> prev <= c /\ P (scan la c) (scan lb c) (scan lc c) (scan ld c) = true.
Proof.
  induction pts as [|x pts IH]; intros la lb lc ld prev Ha Oa Hb Ob Hc Oc Hd Od Hsw c Hin; [destruct Hin|].
  cbn [sweep] in Hsw. apply andb_true_iff in Hsw as [Hsw Hrest]. apply andb_true_iff in Hsw as [Hle HP].
  rewrite !head_at_scan in HP by assumption.
  destruct Hin as [<-|Hin]; [split; [lia|assumption]|].
  specialize (IH _ _ _ _ _ (advance_sorted _ x Ha) (advance_ok _ x Oa) (advance_sorted _ x Hb) (advance_ok _ x Ob)
    (advance_sorted _ x Hc) (advance_ok _ x Oc) (advance_sorted _ x Hd) (advance_ok _ x Od) Hrest c Hin).
  destruct IH as [Hx HPc]. rewrite !advance_scan in HPc by assumption. split; [lia|assumption].
Qed.

Definition check4 {A B C D} (ta : CharDataTable A) (tb : CharDataTable B) (tc : CharDataTable C)
  (td : CharDataTable D) (P : option A -> option B -> option C -> option D -> bool) : bool :=
  let la := entries ta in let lb := entries tb in let lc := entries tc in let ld := entries td in
  sweep P la lb lc ld 0 (0 :: breaks la) && sweep P la lb lc ld 0 (breaks lb)
  && sweep P la lb lc ld 0 (breaks lc) && sweep P la lb lc ld 0 (breaks ld).

Lemma piecewise4 {A B C D} (ta : CharDataTable A) (tb : CharDataTable B) (tc : CharDataTable C)
  (td : CharDataTable D) (P : option A -> option B -> option C -> option D -> bool) :
  wf_table ta -> wf_table tb -> wf_table tc -> wf_table td -> check4 ta tb tc td P = true ->
  forall c, P (lookup ta c) (lookup tb c) (lookup tc c) (lookup td c) = true.
Proof.
  intros Ha Hb Hc Hd H c. rewrite !lookup_scan by assumption.
  destruct Ha as [Sa Oa], Hb as [Sb Ob], Hc as [Sc Oc], Hd as [Sd Od].
  unfold check4 in H. cbv zeta in H.
  apply andb_true_iff in H as [H H4]. apply andb_true_iff in H as [H H3]. apply andb_true_iff in H as [H1 H2].
  revert c.
  apply (piecewise (breaks (entries ta) ++ breaks (entries tb) ++ breaks (entries tc) ++ breaks (entries td))).
  - intros b c Hq. apply quiet_app in Hq as [Q1 Hq]. apply quiet_app in Hq as [Q2 Hq]. apply quiet_app in Hq as [Q3 Q4].
    now rewrite (scan_quiet _ _ _ Q1), (scan_quiet _ _ _ Q2), (scan_quiet _ _ _ Q3), (scan_quiet _ _ _ Q4).
  - apply forallb_forall. intros c Hin.
    assert (In c (0 :: breaks (entries ta)) \/ In c (breaks (entries tb)) \/ In c (breaks (entries tc)) \/
            In c (breaks (entries td))) as Hcase.
    { destruct Hin as [Hin|Hin]; [left; now left|]. rewrite !in_app_iff in Hin. cbn [In]. tauto. }
    destruct Hcase as [Hx|[Hx|[Hx|Hx]]].
    + apply (sweep_sound P _ _ _ _ _ _ Sa Oa Sb Ob Sc Oc Sd Od H1 c Hx).
    + apply (sweep_sound P _ _ _ _ _ _ Sa Oa Sb Ob Sc Oc Sd Od H2 c Hx).
    + apply (sweep_sound P _ _ _ _ _ _ Sa Oa Sb Ob Sc Oc Sd Od H3 c Hx).
    + apply (sweep_sound P _ _ _ _ _ _ Sa Oa Sb Ob Sc Oc Sd Od H4 c Hx).
Qed.

Definition none : CharDataTable unit := Direct [].
Lemma wf_none : wf_table none. Proof. split; constructor. Qed.

Definition check1 {A} (ta : CharDataTable A) (P : option A -> bool) : bool :=
  check4 ta none none none (fun a _ _ _ => P a).
Definition check2 {A B} (ta : CharDataTable A) (tb : CharDataTable B) (P : option A -> option B -> bool) : bool :=
  check4 ta tb none none (fun a b _ _ => P a b).
Definition check3 {A B C} (ta : CharDataTable A) (tb : CharDataTable B) (tc : CharDataTable C)
  (P : option A -> option B -> option C -> bool) : bool :=
  check4 ta tb tc none (fun a b c _ => P a b c).

Lemma piecewise1 {A} (ta : CharDataTable A) (P : option A -> bool) : wf_table ta ->
  check1 ta P = true -> forall c, P (lookup ta c) = true.
Proof.
  intros Ha H c. exact (piecewise4 ta none none none (fun a _ _ _ => P a) Ha wf_none wf_none wf_none H c).
Qed.

Lemma piecewise2 {A B} (ta : CharDataTable A) (tb : CharDataTable B) (P : option A -> option B -> bool) :
  wf_table ta -> wf_table tb -> check2 ta tb P = true ->
  forall c, P (lookup ta c) (lookup tb c) = true.
Proof.
  intros Ha Hb H c. exact (piecewise4 ta tb none none (fun a b _ _ => P a b) Ha Hb wf_none wf_none H c).
Qed.

Lemma piecewise3 {A B C} (ta : CharDataTable A) (tb : CharDataTable B) (tc : CharDataTable C)
  (P : option A -> option B -> option C -> bool) :
  wf_table ta -> wf_table tb -> wf_table tc -> check3 ta tb tc P = true ->
  forall c, P (lookup ta c) (lookup tb c) (lookup tc c) = true.
Proof.
  intros Ha Hb Hc H c. exact (piecewise4 ta tb tc none (fun a b c _ => P a b c) Ha Hb Hc wf_none H c).
Qed.

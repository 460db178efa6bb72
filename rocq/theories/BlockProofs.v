(** Proofs about blocks and ages. *)
From Coq Require Import List NArith ZArith Lia Bool ZifyBool ZifyN Sorted.
From Verif Require Import Base RangeModel TableModel TableSpec TableProofs TableLemmas Enums EnumFacts TableTypes
  TablesMisc TablesCategory UcdModel UcdSpec UcdProofs UcdLemmas TablePiecewise NormTables NameSpec BlockModel BlockSpec.
Import ListNotations.
Open Scope N_scope.

Definition raw (t : CharDataTable str) : list (CharRange * str) :=
  match t with Range l => l | Direct _ => [] end.
Definition BS := raw BLOCKS.
Lemma BLOCKS_eq : BLOCKS = Range BS. Proof. reflexivity. Qed.

Lemma block_next_eq i : block_next i = match nth_error BS i with None => (None, i) | Some e => (Some e, S i) end.
Proof.
  unfold block_next, table_iter_next. rewrite BLOCKS_eq. destruct (nth_error BS i) as [[r n]|]; reflexivity.
Qed.

Lemma skipn_nth {A} (e : A) : forall i m, nth_error m i = Some e -> skipn i m = e :: skipn (S i) m.
Proof.
  induction i as [|i IH]; intros [|x m] E; try discriminate; cbn [nth_error] in E.
  - injection E as ->. reflexivity.
  - change (skipn (S i) (x :: m)) with (skipn i m). exact (IH m E).
Qed.

Lemma collects_iff : forall i l k, block_collects i l k <-> l = skipn i BS /\ (k = Nat.max i (length BS)).
Proof.
  intros i l k. split.
  - intros H. induction H as [i j H|i j b l k H _ [E1 E2]]; rewrite block_next_eq in H;
      destruct (nth_error BS i) as [e|] eqn:E; try discriminate.
    + injection H as <-. apply nth_error_None in E. rewrite skipn_all2 by assumption. split; [reflexivity|lia].
    + injection H as <- <-. assert (i < length BS)%nat by (apply nth_error_Some; congruence). split; [|lia].
      rewrite E1. symmetry. now apply skipn_nth.
  - intros [-> ->]. remember (length BS - i)%nat as n eqn:En. revert i En. induction n as [|n IH]; intros i En.
    + rewrite skipn_all2 by lia. constructor. rewrite block_next_eq.
      replace (nth_error BS i) with (@None (CharRange * str)) by (symmetry; apply nth_error_None; lia).
      f_equal. lia.
    + destruct (nth_error BS i) as [e|] eqn:E; [|apply nth_error_None in E; lia].
      assert (skipn i BS = e :: skipn (S i) BS) as ->.
      { now apply skipn_nth. }
      apply (bc_cons i (S i)); [rewrite block_next_eq, E; reflexivity|].
      replace (Nat.max i (length BS)) with (Nat.max (S i) (length BS)) by (assert (i < length BS)%nat by (apply nth_error_Some; congruence); lia).
      apply IH. lia.
Qed.

(** ** Facts of the table *)
Fixpoint nodupb (l : list (list N)) : bool :=
  match l with [] => true | x :: l' => negb (existsb (leqb x) l') && nodupb l' end.
Lemma nodupb_sound l : nodupb l = true -> NoDup l.
Proof.
  induction l as [|x l IH]; cbn [nodupb]; [constructor|]. intros H. apply andb_true_iff in H as [H1 H2].
  constructor; [|auto]. intros Hin. apply negb_true_iff in H1. apply not_true_iff_false in H1. apply H1.
  apply existsb_exists. exists x. split; [assumption|]. now apply leqb_eq.
Qed.
Lemma loose_nodup : NoDup (map (fun b => loose_name (snd b)) BS).
Proof. apply nodupb_sound. vm_cast_no_check (eq_refl true). Qed.
Lemma columns : forallb (fun b => (r_low (fst b) mod 16 =? 0) && (r_high (fst b) mod 16 =? 15)) BS = true.
Proof. vm_cast_no_check (eq_refl true). Qed.


Lemma entries_blocks : entries BLOCKS = map (fun rv => (r_low (fst rv), r_high (fst rv), snd rv)) BS.
Proof. rewrite BLOCKS_eq. reflexivity. Qed.

Lemma blocks_sorted : StronglySorted (fun a b => r_high (fst a) < r_low (fst b)) BS.
Proof.
  pose proof (proj1 wf_BLOCKS) as H. rewrite entries_blocks in H. revert H. generalize BS as l.
  induction l as [|b l IH]; intros H; [constructor|]. inversion H as [|? ? H1 H2]; subst. constructor; [auto|].
  apply Forall_forall. intros x Hx. rewrite Forall_forall in H2.
  exact (H2 _ (in_map (fun rv => (r_low (fst rv), r_high (fst rv), snd rv)) l x Hx)).
Qed.
Lemma blocks_ok b : In b BS -> r_low (fst b) <= r_high (fst b) /\ scalar (r_low (fst b)) /\ scalar (r_high (fst b)).
Proof.
  intros Hb. pose proof (proj2 wf_BLOCKS) as H. rewrite entries_blocks, Forall_forall in H.
  exact (H _ (in_map (fun rv => (r_low (fst rv), r_high (fst rv), snd rv)) BS b Hb)).
Qed.

Lemma sorted_unique (l : list (CharRange * str)) b b' c : StronglySorted (fun a b => r_high (fst a) < r_low (fst b)) l ->
  (forall x, In x l -> r_low (fst x) <= r_high (fst x)) ->
  In b l -> In b' l -> in_block b c -> in_block b' c -> b = b'.
Proof.
  intros Hs Hok. unfold in_block. induction Hs as [|x l Hs IH Hx]; intros H1 H2 [A1 A2] [B1 B2]; [destruct H1|].
  rewrite Forall_forall in Hx. destruct H1 as [<-|H1], H2 as [<-|H2].
  - reflexivity.
  - specialize (Hx b' H2). lia.
  - specialize (Hx b H1). lia.
  - apply IH; auto. intros y Hy. apply Hok. now right.
Qed.

Lemma block_of_iff c b : block_of c = Some b <-> In b BS /\ in_block b c.
Proof.
  destruct (accessors_agree _ BLOCKS [] c wf_BLOCKS) as (o & Ho & _ & _ & Hr).
  specialize (Hr _ BLOCKS_eq). unfold block_of. split.
  - intros E. destruct o as [v|].
    + destruct Hr as (r & Hr & Hin & Hc). rewrite Hr in E. injection E as <-. split; [assumption|exact Hc].
    + rewrite Hr in E. discriminate.
  - intros [Hb Hc]. destruct o as [v|].
    + destruct Hr as (r & Hr & Hin & Hc'). rewrite Hr. f_equal.
      apply (sorted_unique BS (r, v) b c blocks_sorted); try assumption.
      intros x Hx. apply (blocks_ok x Hx).
    + exfalso. apply (proj2 (find_covering_entry _ BLOCKS c wf_BLOCKS)) with (e := (r_low (fst b), r_high (fst b), snd b)) in Ho.
      * apply Ho. exact Hc.
      * rewrite entries_blocks. exact (in_map (fun rv => (r_low (fst rv), r_high (fst rv), snd rv)) BS b Hb).
Qed.

Lemma blocks_spec : exists l k, block_collects block_iter_new l k /\ block_next k = (None, k) /\
  (forall l' k', block_collects block_iter_new l' k' -> l' = l /\ k' = k) /\
  StronglySorted (fun a b => r_high (fst a) < r_low (fst b)) l /\
  NoDup (map (fun b => loose_name (snd b)) l) /\ NoDup (map snd l) /\
  (forall b, In b l -> r_low (fst b) < r_high (fst b) /\ r_low (fst b) mod 16 = 0 /\ r_high (fst b) mod 16 = 15) /\
  (forall c b, block_of c = Some b <-> In b l /\ in_block b c).
Proof.
  exists BS, (length BS). split; [|split; [|split; [|split; [|split; [|split; [|split]]]]]].
  - apply collects_iff. unfold block_iter_new. split; [reflexivity|lia].
  - rewrite block_next_eq. replace (nth_error BS (length BS)) with (@None (CharRange * str)); [reflexivity|].
    symmetry. apply nth_error_None. lia.
  - intros l' k' H. apply collects_iff in H as [-> ->]. unfold block_iter_new. split; [reflexivity|lia].
  - exact blocks_sorted.
  - exact loose_nodup.
  - pose proof loose_nodup as H. rewrite <- (map_map snd loose_name) in H. exact (NoDup_map_inv loose_name _ H).
  - intros b Hb. pose proof columns as H. rewrite forallb_forall in H. specialize (H b Hb).
    apply andb_true_iff in H as [H1 H2]. apply N.eqb_eq in H1, H2. pose proof (blocks_ok b Hb) as [H3 _].
    split; [|auto]. destruct (N.eq_dec (r_low (fst b)) (r_high (fst b))) as [E|E]; [rewrite E in H1; congruence|lia].
  - exact block_of_iff.
Qed.

(** ** Ages *)
Definition NONCH : CharDataTable unit := Range (map (fun p => (mkRange (fst p) (snd p), tt))
  [(0xFDD0, 0xFDEF); (0xFFFE, 0xFFFF); (0x1FFFE, 0x1FFFF); (0x2FFFE, 0x2FFFF); (0x3FFFE, 0x3FFFF); (0x4FFFE, 0x4FFFF);
   (0x5FFFE, 0x5FFFF); (0x6FFFE, 0x6FFFF); (0x7FFFE, 0x7FFFF); (0x8FFFE, 0x8FFFF); (0x9FFFE, 0x9FFFF); (0xAFFFE, 0xAFFFF);
   (0xBFFFE, 0xBFFFF); (0xCFFFE, 0xCFFFF); (0xDFFFE, 0xDFFFF); (0xEFFFE, 0xEFFFF); (0xFFFFE, 0xFFFFF); (0x10FFFE, 0x10FFFF)]).
Lemma wf_NONCH : wf_table NONCH. Proof. apply wf_entriesb_sound. vm_compute. reflexivity. Qed.
Lemma nonch_iff c : c <= 0x10FFFF -> (isS (lookup NONCH c) = true <-> noncharacter c).
Proof.
  intros Hc. rewrite lookup_scan by exact wf_NONCH. unfold noncharacter, NONCH.
  pose proof (N.div_mod c 0x10000 ltac:(lia)) as Hm. pose proof (N.mod_lt c 0x10000 ltac:(lia)) as Hl.
  remember (c / 0x10000) as q eqn:Eq. remember (c mod 0x10000) as r eqn:Er. clear Eq Er.
  assert (q <= 16) as Hq by lia.
  cbn [entries map scan fst snd r_low r_high].
  repeat match goal with |- context [(?a <=? c) && (c <=? ?b)] =>
    destruct ((a <=? c) && (c <=? b)) eqn:?; cbn [isS]; [split; [intros _; lia|reflexivity]|] end.
  split; [discriminate|]. intros H. exfalso. lia.
Qed.

Lemma age_check : check3 AGE_TABLE GENERAL_CATEGORY NONCH
  (fun a g n => eqb (isS a) (negb (GC_eqb (gcv g) GC_Unassigned) || isS n)) = true.
Proof. vm_cast_no_check (eq_refl true). Qed.
Lemma age_exact c : c <= 0x10FFFF ->
  ((exists v, age_of c = Some v) <-> general_category c <> GC_Unassigned \/ noncharacter c).
Proof.
  intros Hc. unfold age_of, general_category. rewrite lookup_or_lookup by use_wf.
  pose proof (piecewise3 _ _ _ _ wf_AGE_TABLE wf_GENERAL_CATEGORY wf_NONCH age_check c) as H. cbv beta in H.
  apply eqb_prop in H. rewrite <- (nonch_iff c Hc). fold (gcv (lookup GENERAL_CATEGORY c)).
  assert ((exists v, lookup AGE_TABLE c = Some v) <-> isS (lookup AGE_TABLE c) = true) as ->.
  { destruct (lookup AGE_TABLE c) as [v|]; cbn [isS]; split; try discriminate; eauto. intros [v E]. discriminate. }
  rewrite H, orb_true_iff, negb_true_iff.
  assert (GC_eqb (gcv (lookup GENERAL_CATEGORY c)) GC_Unassigned = false <-> gcv (lookup GENERAL_CATEGORY c) <> GC_Unassigned) as ->; [|tauto].
  split.
  - intros E A. apply GC_eqb_eq in A. congruence.
  - intros A. destruct (GC_eqb _ _) eqn:E; [|reflexivity]. apply GC_eqb_eq in E. contradiction.
Qed.
Lemma age_values_check : check1 AGE_TABLE
  (fun a => match a with Some v => (micro v =? 0) && ((1 <? major v) || ((major v =? 1) && (minor v =? 1)))
     && ((major v <? 10) || ((major v =? 10) && (minor v =? 0))) | None => true end) = true.
Proof. vm_cast_no_check (eq_refl true). Qed.
Lemma age_values c v : age_of c = Some v -> micro v = 0 /\
  (1 < major v \/ major v = 1 /\ minor v = 1) /\
  (major v < major UNICODE_VERSION \/ major v = major UNICODE_VERSION /\ minor v <= minor UNICODE_VERSION).
Proof.
  unfold age_of. intros E. pose proof (piecewise1 _ _ wf_AGE_TABLE age_values_check c) as H. cbv beta in H. rewrite E in H.
  unfold UNICODE_VERSION. cbn [major minor]. lia.
Qed.

(** the version of the data is the age of some character: that of the Bitcoin sign *)
Lemma version_reached : exists c v, age_of c = Some v /\ general_category c <> GC_Unassigned /\
  major v = major UNICODE_VERSION /\ minor v = minor UNICODE_VERSION.
Proof. exists 0x20BF, (mkVersion 10 0 0). vm_compute. repeat split; discriminate. Qed.

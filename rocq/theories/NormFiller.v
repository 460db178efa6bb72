(** The exact effect of composition on U+11A7. *)
From Coq Require Import List NArith ZArith Lia Bool Relations Permutation ZifyBool ZifyN.
From Verif Require Import Base HangulModel HangulSpec HangulProofs NormSpec NormOrder UcdModel NormModel NormTables NormBubble
  NormIter NormRecomp NormAlgebra NormLemmas NormFillerSpec.
Import ListNotations.
Open Scope N_scope.

Definition lead (c : N) : bool := (0x1100 <=? c) && (c <? 0x1113).
Definition vow (c : N) : bool := (0x1161 <=? c) && (c <? 0x1176).
Definition lvb (c : N) : bool := is_syllable c && ((c - 0xAC00) mod 28 =? 0).

Lemma lead_iff c : lead c = true <-> exists l, l < 19 /\ c = leading l.
Proof.
  unfold lead, leading. split.
  - intros H. exists (c - 0x1100). lia.
  - intros (l & Hl & ->). lia.
Qed.
Lemma vow_iff c : vow c = true <-> exists v, v < 21 /\ c = vowel v.
Proof.
  unfold vow, vowel. split.
  - intros H. exists (c - 0x1161). lia.
  - intros (l & Hl & ->). lia.
Qed.

Definition next (st : N) (c : N) : N := if lead c then 1 else if (st =? 1) && vow c then 2 else 0.
Fixpoint strip (st : N) (l : list N) : list N :=
  match l with
  | [] => []
  | c :: l' => if (st =? 2) && (c =? 0x11A7) then strip 2 l' else c :: strip (next st c) l'
  end.

Definition cstate (c : N) : N := if lead c then 1 else if lvb c then 2 else 0.
Definition related (st : N) (comp last : option N) : Prop :=
  match comp, last with
  | None, None => st = 0
  | Some c, None => st = cstate c
  | Some _, Some _ => st = 0
  | None, Some _ => False
  end.

Lemma ccc_not_jamo c : ccc c <> 0 -> lead c = false /\ vow c = false /\ c <> 0x11A7.
Proof.
  intros H. repeat split.
  - destruct (lead c) eqn:E; [|reflexivity]. exfalso. apply H. apply ccc_jamo; unfold lead in E; lia.
  - destruct (vow c) eqn:E; [|reflexivity]. exfalso. apply H. apply ccc_jamo; unfold vow in E; lia.
  - intros ->. now apply H, ccc_filler.
Qed.
Lemma fixed_not_syllable k c : decompose k c = [c] -> is_syllable c = false.
Proof.
  intros H. destruct (is_syllable c) eqn:E; [exfalso|reflexivity].
  apply block_cover in E as (a & b & d & Hb & ->). rewrite decompose_block_eq in H by assumption.
  unfold jamo_of in H. destruct d; discriminate.
Qed.
Lemma fixed_cstate k c : decompose k c = [c] -> cstate c = if lead c then 1 else 0.
Proof. intros H. unfold cstate, lvb. now rewrite (fixed_not_syllable k c H). Qed.

Lemma triples_not_jamo : forallb (fun t => negb (lead (fst (fst t))) && negb (lead (snd (fst t)))) triples = true.
Proof. vm_cast_no_check (eq_refl true). Qed.

Lemma block_lvb l v t : valid_block l v t -> lvb (block l v t) = (t =? 0).
Proof.
  intros (H1 & H2 & H3). unfold lvb.
  assert (is_syllable (block l v t) = true) as ->.
  { apply block_cover. exists l, v, t. repeat split; assumption. }
  unfold block. replace (0xAC00 + (l * 21 + v) * 28 + t - 0xAC00) with (t + (l * 21 + v) * 28) by lia.
  rewrite N.mod_add by discriminate. rewrite N.mod_small by lia. reflexivity.
Qed.
Lemma block_not_lead l v t : valid_block l v t -> lead (block l v t) = false.
Proof. intros (H1 & H2 & H3). unfold lead, block. lia. Qed.
Lemma block_cstate l v t : valid_block l v t -> cstate (block l v t) = if t =? 0 then 2 else 0.
Proof. intros H. unfold cstate. now rewrite block_not_lead, block_lvb by assumption. Qed.

Lemma cstate_2 c : cstate c = 2 -> exists l v, l < 19 /\ v < 21 /\ c = block l v 0.
Proof.
  unfold cstate. destruct (lead c); [discriminate|]. destruct (lvb c) eqn:E; [|discriminate]. intros _.
  unfold lvb in E. apply andb_true_iff in E as [E1 E2]. apply block_cover in E1 as (l & v & t & Hb & ->).
  exists l, v. destruct Hb as (H1 & H2 & H3). split; [assumption|]. split; [assumption|].
  assert (lvb (block l v t) = (t =? 0)) as X by (apply block_lvb; unfold valid_block; auto).
  unfold lvb in X. rewrite E2, andb_true_r in X.
  assert (is_syllable (block l v t) = true) as Y by (apply block_cover; exists l, v, t; unfold valid_block; auto).
  rewrite Y in X. symmetry in X. apply N.eqb_eq in X. now subst.
Qed.

Local Transparent compose.
Lemma compose_lv l v : l < 19 -> v < 21 -> compose (leading l) (vowel v) = Some (block l v 0).
Proof.
  intros Hl Hv. unfold compose.
  assert (compose_syllable (leading l) (vowel v) = Some (block l v 0)) as ->; [|reflexivity].
  apply compose_syllable_iff. left. now constructor.
Qed.
Lemma compose_lv_filler l v : l < 19 -> v < 21 -> compose (block l v 0) 0x11A7%N = Some (block l v 0).
Proof.
  intros Hl Hv. unfold compose.
  assert (compose_syllable (block l v 0) 0x11A7%N = Some (block l v 0)) as ->; [|reflexivity].
  apply compose_syllable_iff. right. exists l, v. auto.
Qed.

Local Opaque compose.

Lemma cstate_step c ch r : compose c ch = Some r -> ch <> 0x11A7 -> cstate r = next (cstate c) ch.
Proof.
  intros Ec Hne. apply compose_cases in Ec as [E|[(l0 & v & _ & _ & _ & E & _)|E]]; [|contradiction|].
  - destruct E as [l0 v Hl Hv|l0 v t Hv Ht].
    + rewrite (block_cstate l0 v 0) by (unfold valid_block; lia).
      assert (cstate (leading l0) = 1) as ->. { unfold cstate. now rewrite (proj2 (lead_iff _) (ex_intro _ l0 (conj Hl eq_refl))). }
      unfold next. assert (lead (vowel v) = false) as -> by (unfold lead, vowel; lia).
      rewrite (proj2 (vow_iff _) (ex_intro _ v (conj Hv eq_refl))). reflexivity.
    + rewrite (block_cstate l0 v t) by assumption. destruct Hv as (H1 & H2 & H3).
      rewrite (block_cstate l0 v 0) by (unfold valid_block; lia). cbn [N.eqb].
      unfold next. assert (lead (trailing t) = false) as -> by (unfold lead, trailing; lia).
      cbn [N.eqb Pos.eqb andb]. destruct (N.eqb_spec t 0); [lia|reflexivity].
  - pose proof triples_not_jamo as X. rewrite forallb_forall in X. specialize (X _ E). cbn [fst snd] in X.
    apply andb_true_iff in X as [X1 X2]. apply negb_true_iff in X1, X2.
    destruct (good_triple_in _ _ _ E) as (F1 & F2 & F3 & F4 & F5 & F6).
    unfold next. rewrite X2. unfold cstate. rewrite X1.
    assert (lead r = false) as ->.
    { destruct (lead r) eqn:Er; [|reflexivity]. unfold lead in Er. rewrite canon_jamo in F6 by lia. discriminate. }
    assert (lvb r = false) as ->.
    { unfold lvb. destruct (is_syllable r) eqn:Er; [|reflexivity]. rewrite canon_hangul in F6 by assumption. discriminate. }
    destruct (lvb c); reflexivity.
Qed.
Lemma cstate_new k c ch : decompose k ch = [ch] -> compose c ch = None -> cstate ch = next (cstate c) ch.
Proof.
  intros Hch Ec. rewrite (fixed_cstate k ch Hch). unfold next. destruct (lead ch) eqn:El; [reflexivity|].
  destruct (N.eqb_spec (cstate c) 1) as [E1|]; [|reflexivity]. cbn [andb].
  destruct (vow ch) eqn:Ev; [exfalso|reflexivity]. apply vow_iff in Ev as (v & Hv & ->).
  unfold cstate in E1. destruct (lead c) eqn:Elc; [|destruct (lvb c); discriminate].
  apply lead_iff in Elc as (l0 & Hl & ->). rewrite compose_lv in Ec by assumption. discriminate.
Qed.
Lemma cstate_nonstarter c : ccc c <> 0 -> cstate c = 0.
Proof.
  intros H. unfold cstate. destruct (ccc_not_jamo c H) as (-> & _). unfold lvb.
  destruct (is_syllable c) eqn:E; [|reflexivity]. exfalso. now apply H, ccc_hangul.
Qed.

Lemma kept_strip k : forall l st comp last, fixed k l -> related st comp last -> kept l comp last = strip st l.
Proof.
  induction l as [|ch l IH]; intros st comp last Hf Hr; [reflexivity|].
  inversion Hf as [|? ? Hch Hfl]; subst. cbn [kept strip].
  assert (forall st', st' = 0 -> related (next st' ch) (Some ch) None) as Hnew.
  { intros st' ->. cbn [related]. rewrite (fixed_cstate k ch Hch). reflexivity. }
  destruct comp as [c|]; [destruct last as [lc|]|destruct last as [lc|]; [contradiction|]]; cbn [related] in Hr; subst st.
  - cbn [N.eqb andb].
    assert (ccc ch <> 0 -> forall c', related (next 0 ch) (Some c') (Some (ccc ch))) as Hns.
    { intros Hz c'. cbn [related]. unfold next. destruct (ccc_not_jamo ch Hz) as (-> & _). reflexivity. }
    destruct (N.leb_spec (ccc ch) lc).
    + destruct (N.eqb_spec (ccc ch) 0) as [Ez|Ez]; f_equal; apply IH; auto.
    + assert (ccc ch <> 0) as Ez by lia. destruct (compose c ch) as [r|]; f_equal; apply IH; auto.
      cbn [related]. unfold next. destruct (ccc_not_jamo ch Ez) as (-> & _). reflexivity.
  - destruct (compose c ch) as [r|] eqn:Ec.
    + destruct (N.eqb_spec ch 0x11A7) as [->|Hne].
      * pose proof (compose_filler _ _ Ec) as ->. apply compose_cases in Ec as [E|[(l0 & v & Hl & Hv & -> & _ & _)|E]].
        -- now apply composes_not_filler in E.
        -- assert (cstate (block l0 v 0) = 2) as Ec by (apply (block_cstate l0 v 0); unfold valid_block; lia).
           rewrite Ec. cbn [N.eqb Pos.eqb andb]. apply IH; [assumption|]. cbn [related]. now rewrite Ec.
        -- destruct (good_triple_in _ _ _ E) as (F1 & F2 & F3 & F4 & F5 & F6). contradiction.
      * rewrite andb_false_r. f_equal. apply IH; [assumption|]. cbn [related].
        symmetry. now apply cstate_step.
    + assert ((cstate c =? 2) && (ch =? 0x11A7) = false) as ->.
      { apply andb_false_iff. destruct (N.eqb_spec (cstate c) 2) as [E2|]; [right|now left].
        apply N.eqb_neq. intros ->. apply cstate_2 in E2 as (l0 & v & Hl & Hv & ->).
        rewrite compose_lv_filler in Ec by assumption. discriminate. }
      destruct (N.eqb_spec (ccc ch) 0) as [Ez|Ez]; f_equal; apply IH; auto; cbn [related].
      * symmetry. now apply (cstate_new k).
      * unfold next. destruct (ccc_not_jamo ch Ez) as (-> & -> & _). now rewrite andb_false_r.
  - cbn [N.eqb andb]. destruct (N.eqb_spec (ccc ch) 0) as [Ez|Ez]; cbn [negb]; f_equal; apply IH; auto.
    cbn [related]. unfold next. destruct (ccc_not_jamo ch Ez) as (-> & _). reflexivity.
Qed.

Lemma D_C_strip k s : D k (C k s) = strip 0 (D k s).
Proof. rewrite D_C_kept. apply (kept_strip k); [apply fixed_D|reflexivity]. Qed.
Lemma C_strip k s : C k s = crun (strip 0 (D k s)) None None [].
Proof.
  unfold C. rewrite <- (kept_strip k (D k s) 0 None None (fixed_D k s) eq_refl). symmetry. apply kept_crun.
Qed.

(** ** [strip] and the relation of the specification *)
Notation absorbs := (clos_refl_trans _ absorb).

Lemma absorb_app p s t : absorb s t -> absorb (p ++ s) (p ++ t).
Proof. intros [p' l v q Hl Hv]. rewrite !app_assoc. now constructor. Qed.
Lemma absorb_app_r s t q : absorb s t -> absorb (s ++ q) (t ++ q).
Proof. intros [p' l v q' Hl Hv]. rewrite <- !app_assoc. now apply (absorb_intro p' l v (q' ++ q)). Qed.
Lemma absorbs_app s t s' t' : absorbs s t -> absorbs s' t' -> absorbs (s ++ s') (t ++ t').
Proof.
  intros H H'. eapply rt_trans with (t ++ s').
  - clear H'. induction H as [s t H|s|s t u _ IH1 _ IH2]; [apply rt_step; now apply absorb_app_r|apply rt_refl|].
    eapply rt_trans; eassumption.
  - clear H. induction H' as [s' t' H|s'|s' t' u _ IH1 _ IH2]; [apply rt_step; now apply absorb_app|apply rt_refl|].
    eapply rt_trans; eassumption.
Qed.

(** reading: what the state remembers *)
Definition pre (st : N) (p : list N) : Prop :=
  (st = 1 -> exists p' l, l < 19 /\ p = p' ++ [leading l]) /\
  (st = 2 -> exists p' l v, l < 19 /\ v < 21 /\ p = p' ++ [leading l; vowel v]).

Lemma pre_next st p c : pre st p -> pre (next st c) (p ++ [c]).
Proof.
  intros [P1 P2]. unfold next. destruct (lead c) eqn:El.
  - apply lead_iff in El as (l & Hl & ->). split; [intros _; eauto|discriminate].
  - destruct (N.eqb_spec st 1) as [->|]; [|split; discriminate]. cbn [andb].
    destruct (vow c) eqn:Ev; [|split; discriminate].
    apply vow_iff in Ev as (v & Hv & ->). destruct (P1 eq_refl) as (p' & l & Hl & ->).
    split; [discriminate|]. intros _. exists p', l, v. rewrite <- app_assoc. auto.
Qed.

Lemma strip_absorbs_gen : forall s st p, pre st p -> absorbs (p ++ s) (p ++ strip st s).
Proof.
  induction s as [|c s IH]; intros st p Hp; [apply rt_refl|]. cbn [strip].
  destruct (N.eqb_spec st 2) as [->|Hst]; [destruct (N.eqb_spec c 0x11A7) as [->|Hc]|]; cbn [andb].
  - eapply rt_trans; [|apply IH; exact Hp]. apply rt_step. destruct (proj2 Hp eq_refl) as (p' & l & v & Hl & Hv & ->).
    rewrite <- !app_assoc. now apply (absorb_intro p' l v s).
  - change (c :: s) with ([c] ++ s). rewrite app_assoc. change (c :: strip (next 2 c) s) with ([c] ++ strip (next 2 c) s).
    rewrite app_assoc. apply IH. now apply pre_next.
  - change (c :: s) with ([c] ++ s). rewrite app_assoc. change (c :: strip (next st c) s) with ([c] ++ strip (next st c) s).
    rewrite app_assoc. apply IH. now apply pre_next.
Qed.
Lemma strip_absorbs s : absorbs s (strip 0 s).
Proof. apply (strip_absorbs_gen s 0 []). split; discriminate. Qed.

Lemma strip_app_state : forall p st, exists st', forall q, strip st (p ++ q) = strip st p ++ strip st' q.
Proof.
  induction p as [|c p IH]; intros st; [exists st; reflexivity|]. cbn [app strip].
  destruct (_ && _).
  - destruct (IH 2) as (st' & E). exists st'. exact E.
  - destruct (IH (next st c)) as (st' & E). exists st'. intros q. cbn [app]. now rewrite E.
Qed.
Lemma strip_lead st l q : l < 19 -> strip st (leading l :: q) = leading l :: strip 1 q.
Proof.
  intros Hl. cbn [strip]. assert (leading l =? 0x11A7 = false) as -> by (unfold leading; lia). rewrite andb_false_r.
  unfold next. now rewrite (proj2 (lead_iff _) (ex_intro _ l (conj Hl eq_refl))).
Qed.
Lemma strip_vow v q : v < 21 -> strip 1 (vowel v :: q) = vowel v :: strip 2 q.
Proof.
  intros Hv. cbn [strip]. cbn [N.eqb Pos.eqb andb]. unfold next.
  assert (lead (vowel v) = false) as -> by (unfold lead, vowel; lia).
  now rewrite (proj2 (vow_iff _) (ex_intro _ v (conj Hv eq_refl))).
Qed.
Lemma strip_absorb s t : absorb s t -> forall st, strip st s = strip st t.
Proof.
  intros [p l v q Hl Hv] st. destruct (strip_app_state p st) as (st' & E). rewrite !E. f_equal.
  rewrite !strip_lead, !strip_vow by assumption. reflexivity.
Qed.
Lemma strip_absorbs_eq s t : absorbs s t -> strip 0 s = strip 0 t.
Proof. induction 1; [now apply strip_absorb|reflexivity|congruence]. Qed.

Lemma strip_length : forall s st, (length (strip st s) <= length s)%nat.
Proof.
  induction s as [|c s IH]; intros st; [apply le_n|]. cbn [strip length].
  destruct (_ && _); cbn [length]; [pose proof (IH 2)|pose proof (IH (next st c))]; lia.
Qed.

Lemma no_filler_strip s : no_filler s <-> strip 0 s = s.
Proof.
  split.
  - intros H. pose proof (strip_absorbs s) as X. apply clos_rt_rt1n in X.
    remember (strip 0 s) as e eqn:Ee. destruct X as [|t u A _]; [reflexivity|]. exfalso. destruct A as [p l v q Hl Hv].
    exact (H p l v q Hl Hv eq_refl).
  - intros H p l v q Hl Hv ->. pose proof (absorb_intro p l v q Hl Hv) as X. apply strip_absorb with (st := 0) in X.
    rewrite H in X. pose proof (strip_length (p ++ leading l :: vowel v :: q) 0) as L. rewrite <- X in L.
    rewrite !app_length in L. cbn [length] in L. lia.
Qed.
Lemma strip_idem s : strip 0 (strip 0 s) = strip 0 s.
Proof. symmetry. apply strip_absorbs_eq, strip_absorbs. Qed.

Lemma without_fillers_iff s t : without_fillers s t <-> t = strip 0 s.
Proof.
  split.
  - intros [H Hn]. apply no_filler_strip in Hn. apply strip_absorbs_eq in H. congruence.
  - intros ->. split; [apply strip_absorbs|]. apply no_filler_strip, strip_idem.
Qed.

(** ** Decomposition and [strip] *)
Lemma jamo_starter k c : 0x1100 <= c <= 0x11C2 -> forall s t, D k (s ++ c :: t) = D k s ++ c :: D k t.
Proof.
  intros Hc s t. unfold D. rewrite flat_map_app. cbn [flat_map]. rewrite decompose_stable by (apply stable_jamo; lia).
  cbn [app]. apply order_starter_app. apply ccc_jamo; lia.
Qed.
Lemma D_absorb k s t : absorb s t -> absorb (D k s) (D k t).
Proof.
  intros [p l v q Hl Hv].
  assert (0x1100 <= leading l <= 0x11C2) as B1 by (unfold leading; lia).
  assert (0x1100 <= vowel v <= 0x11C2) as B2 by (unfold vowel; lia).
  rewrite !(jamo_starter k _ B1). pose proof (jamo_starter k _ B2 []) as X. cbn [app] in X. rewrite !X.
  pose proof (jamo_starter k 0x11A7 ltac:(lia) [] q) as Y. cbn [app] in Y. rewrite Y.
  change (D k []) with (@nil N). cbn [app]. now constructor.
Qed.
Lemma D_absorbs k s t : absorbs s t -> absorbs (D k s) (D k t).
Proof.
  induction 1 as [s t H|s|s t u _ IH1 _ IH2]; [apply rt_step; now apply D_absorb|apply rt_refl|].
  eapply rt_trans; eassumption.
Qed.

Lemma C_iff k s t : C k s = C k t <-> strip 0 (D k s) = strip 0 (D k t).
Proof.
  split.
  - intros H. rewrite <- !D_C_strip. now rewrite H.
  - intros H. rewrite !C_strip. now rewrite H.
Qed.

Lemma C_concat k s t : C k (C k s ++ C k t) = C k (s ++ t).
Proof.
  apply C_iff. rewrite (D_app k (C k s)), !D_C_strip, (D_app k s t). symmetry. apply strip_absorbs_eq, D_absorbs.
  apply absorbs_app; apply strip_absorbs.
Qed.
Lemma C_compat s : C true (C false s) = C true s.
Proof.
  apply C_iff. rewrite <- (D_compat_canon (C false s)), D_C_strip, <- (D_compat_canon s). symmetry.
  apply strip_absorbs_eq, D_absorbs, strip_absorbs.
Qed.

(** number of U+11A7 *)
Notation count := (count_occ N.eq_dec).
Lemma decompose_count k c : count (decompose k c) 0x11A7%N = count [c] 0x11A7%N.
Proof.
  destruct (N.eq_dec c 0x11A7) as [->|Hc]; [now rewrite filler_stable|].
  cbn [count_occ]. destruct (N.eq_dec c 0x11A7); [contradiction|].
  apply count_occ_not_In. intros H. now apply decompose_filler in H.
Qed.
Lemma D_count k s : count (D k s) 0x11A7%N = count s 0x11A7%N.
Proof.
  unfold D. transitivity (count (flat k s) 0x11A7%N).
  - symmetry. apply (Permutation_count_occ N.eq_dec), order_perm.
  - induction s as [|c s IH]; [reflexivity|]. cbn [flat_map]. rewrite count_occ_app, IH, decompose_count.
    cbn [count_occ]. destruct (N.eq_dec c 0x11A7); reflexivity.
Qed.
Lemma strip_count : forall s st, (count (strip st s) 0x11A7%N + length s = count s 0x11A7%N + length (strip st s))%nat.
Proof.
  induction s as [|c s IH]; intros st; [reflexivity|]. cbn [strip].
  destruct (N.eqb_spec st 2) as [->|Hst]; [destruct (N.eqb_spec c 0x11A7) as [->|Hc]|]; cbn [andb count_occ length].
  - destruct (N.eq_dec 0x11A7 0x11A7); [|contradiction]. specialize (IH 2). lia.
  - destruct (N.eq_dec c 0x11A7); [contradiction|]. specialize (IH (next 2 c)). lia.
  - specialize (IH (next st c)). destruct (N.eq_dec c 0x11A7); lia.
Qed.
Lemma strip_count_eq s : count (strip 0 s) 0x11A7%N = count s 0x11A7%N -> strip 0 s = s.
Proof.
  intros H. pose proof (strip_count s 0) as X. assert (length (strip 0 s) = length s) as L by lia. clear H X.
  revert L. generalize 0 as st. induction s as [|c s IH]; intros st L; [reflexivity|]. cbn [strip] in *.
  destruct (_ && _).
  - pose proof (strip_length s 2). cbn [length] in L. lia.
  - cbn [length] in L. f_equal. apply IH. lia.
Qed.
Lemma C_count k s : count (C k s) 0x11A7%N = count (strip 0 (D k s)) 0x11A7%N.
Proof. rewrite <- D_C_strip. now rewrite D_count. Qed.

(** ** Standard composition keeps every U+11A7 *)
Lemma primary_not_filler a b r : primary_composite a b r -> a <> 0x11A7 /\ b <> 0x11A7 /\ r <> 0x11A7.
Proof.
  intros [H|(H & _)].
  - destruct H as [l v Hl Hv|l v t (H1 & H2 & H3) Ht]; unfold leading, vowel, trailing, block; lia.
  - assert (r <> 0x11A7) as Hr.
    { intros ->. apply canonical_mapping_iff in H. rewrite canon_jamo in H by lia. discriminate. }
    assert (forall x, In x [a; b] -> x <> 0x11A7) as Hx.
    { intros x Hin ->. apply Hr. apply (decompose_filler false).
      assert (decomposes false r (decompose false a ++ decompose false b ++ [])) as Hd.
      { eapply decomposes_step; [left; exact H|]. constructor; [now apply decomposes_iff|].
        constructor; [now apply decomposes_iff|constructor]. }
      apply decomposes_iff in Hd. rewrite <- Hd.
      destruct Hin as [->|[->|[]]]; rewrite ?filler_stable; apply in_or_app; [left; now left|right].
      apply in_or_app. left. now left. }
    split; [apply Hx; now left|]. split; [apply Hx; right; now left|exact Hr].
Qed.

Lemma last_starter_split cls : forall p a x m, last_starter cls p = Some (a, x, m) -> p = a ++ x :: m.
Proof.
  induction p as [|y p IH]; intros a x m H; [discriminate|]. cbn [last_starter] in H.
  destruct (last_starter cls p) as [[[a' s'] m']|].
  - injection H as <- <- <-. cbn [app]. f_equal. now apply IH.
  - destruct (cls y =? 0); [|discriminate]. injection H as <- <- <-. reflexivity.
Qed.
Lemma standard_count cls pair l : (forall x y r, pair x y = Some r -> primary_composite x y r) ->
  count (canonical_composition_of cls pair l) 0x11A7%N = count l 0x11A7%N.
Proof.
  intros Hp. unfold canonical_composition_of.
  assert (forall p, count (fold_left (compose_step cls pair) l p) 0x11A7%N = (count p 0x11A7%N + count l 0x11A7%N)%nat) as H.
  { induction l as [|c l IH]; intros p; cbn [fold_left]; [cbn [count_occ]; lia|]. rewrite IH.
    assert (count (compose_step cls pair p c) 0x11A7%N = (count p 0x11A7%N + count [c] 0x11A7%N)%nat) as ->.
    - unfold compose_step. destruct (last_starter cls p) as [[[a x] m]|] eqn:E; [|apply count_occ_app].
      destruct (blocked cls m c); [apply count_occ_app|]. destruct (pair x c) as [r|] eqn:Er; [|apply count_occ_app].
      apply last_starter_split in E. subst p. apply Hp in Er. destruct (primary_not_filler x c r Er) as (H1 & H2 & H3).
      rewrite !count_occ_app. cbn [count_occ].
      destruct (N.eq_dec r 0x11A7); [contradiction|]. destruct (N.eq_dec x 0x11A7); [contradiction|].
      destruct (N.eq_dec c 0x11A7); [contradiction|]. lia.
    - cbn [count_occ]. destruct (N.eq_dec c 0x11A7); lia. }
  apply (H []).
Qed.

(** ** Without anything to absorb, composition is the standard's *)
Definition ends (st : N) (p : list N) : Prop := st = match rev p with [] => 0 | x :: _ => cstate x end.

Lemma last_starter_tail : forall p a x m, last_starter ccc p = Some (a, x, m) -> Forall (fun y => ccc y <> 0) m.
Proof.
  induction p as [|y p IH]; intros a x m H; [discriminate|]. cbn [last_starter] in H.
  destruct (last_starter ccc p) as [[[a' s'] m']|] eqn:E.
  - injection H as <- <- <-. now apply (IH a' s').
  - destruct (ccc y =? 0); [|discriminate]. injection H as <- <- <-. clear - E.
    induction p as [|y p IH]; [constructor|]. cbn [last_starter] in E.
    destruct (last_starter ccc p) as [[[a' s'] m']|]; [discriminate|]. destruct (N.eqb_spec (ccc y) 0); [discriminate|].
    constructor; [assumption|]. now apply IH.
Qed.
Lemma last_starter_none : forall p, last_starter ccc p = None -> Forall (fun y => ccc y <> 0) p.
Proof.
  induction p as [|y p IH]; intros E; [constructor|]. cbn [last_starter] in E.
  destruct (last_starter ccc p) as [[[a' s'] m']|]; [discriminate|]. destruct (N.eqb_spec (ccc y) 0); [discriminate|].
  constructor; [assumption|]. now apply IH.
Qed.
Lemma standard_run k pair : (forall x y r, pair x y = Some r <-> primary_composite x y r) ->
  forall l p st, fixed k l -> ends st p -> strip st l = l ->
  fold_left (compose_step ccc compose) l p = fold_left (compose_step ccc pair) l p.
Proof.
  intros Hp.
  assert (forall x y, y <> 0x11A7 -> compose x y = pair x y) as Hsame.
  { intros x y Hne. destruct (compose x y) as [r|] eqn:E1; destruct (pair x y) as [r'|] eqn:E2; try reflexivity.
    - apply compose_primary in E1; [|assumption]. apply Hp in E1. congruence.
    - apply compose_primary in E1; [|assumption]. apply Hp in E1. congruence.
    - apply Hp in E2. apply compose_primary in E2; [|assumption]. congruence. }
  assert (forall x, pair x 0x11A7 = None) as Hnone.
  { intros x. destruct (pair x 0x11A7) as [r|] eqn:E; [|reflexivity]. apply Hp, primary_not_filler in E. tauto. }
  induction l as [|c l IH]; intros p st Hf He Hs; [reflexivity|].
  inversion Hf as [|? ? Hc Hfl]; subst. cbn [fold_left].
  assert (strip (next st c) l = l /\ ((st =? 2) && (c =? 0x11A7) = false)) as [Hs' Hno].
  { cbn [strip] in Hs. destruct (_ && _).
    - pose proof (strip_length l 2) as L. rewrite Hs in L. cbn [length] in L. lia.
    - split; [congruence|reflexivity]. }
  (* what a step does *)
  assert (compose_step ccc compose p c = compose_step ccc pair p c /\ ends (next st c) (compose_step ccc compose p c)) as [Eq En].
  { unfold compose_step. destruct (last_starter ccc p) as [[[a x] m]|] eqn:Els.
    - pose proof (last_starter_split _ _ _ _ _ Els) as Ep. pose proof (last_starter_tail _ _ _ _ Els) as Hm.
      destruct m as [|y m] using rev_ind.
      + (* nothing after the starter *)
        unfold ends in He. rewrite Ep, rev_app_distr in He. cbn [rev app] in He.
        cbn [blocked existsb]. destruct (compose x c) as [r|] eqn:Ec.
        * destruct (N.eq_dec c 0x11A7) as [->|Hne].
          -- exfalso. pose proof Ec as Ec'. apply compose_cases in Ec' as [E|[(l0 & v & Hl & Hv & -> & _ & _)|E]].
             ++ now apply composes_not_filler in E.
             ++ rewrite (block_cstate l0 v 0) in He by (unfold valid_block; lia). subst st. discriminate Hno.
             ++ destruct (good_triple_in _ _ _ E) as (F1 & F2 & F3 & F4 & F5 & F6). contradiction.
          -- rewrite <- (Hsame x c Hne), Ec. split; [reflexivity|]. unfold ends. rewrite rev_app_distr. cbn [rev app].
             subst st. symmetry. now apply cstate_step.
        * assert (pair x c = None) as ->.
          { destruct (N.eq_dec c 0x11A7) as [->|Hne]; [apply Hnone|]. now rewrite <- Hsame. }
          split; [reflexivity|]. unfold ends. rewrite rev_app_distr. cbn [rev app]. subst st. symmetry. now apply (cstate_new k).
      + clear IHm. assert (ccc y <> 0) as Hy. { apply Forall_app in Hm as [_ Hm]. now inversion Hm. }
        assert (st = 0) as ->.
        { unfold ends in He. rewrite Ep, rev_app_distr in He. cbn [rev] in He. rewrite rev_app_distr in He. cbn [rev app] in He.
          rewrite He. now apply cstate_nonstarter. }
        assert (ends (next 0 c) (p ++ [c])) as Hend.
        { unfold ends. rewrite rev_app_distr. cbn [rev app]. unfold next. cbn [N.eqb andb]. symmetry. now apply (fixed_cstate k). }
        destruct (blocked ccc (m ++ [y]) c) eqn:Eb; [auto|].
        assert (ccc c <> 0) as Hcz.
        { intros Ez. unfold blocked in Eb. rewrite existsb_app in Eb. apply orb_false_iff in Eb as [_ Eb]. cbn [existsb] in Eb. lia. }
        destruct (ccc_not_jamo c Hcz) as (Hnl & _ & Hne). rewrite <- (Hsame x c Hne).
        destruct (compose x c) as [r|]; [|auto]. split; [reflexivity|]. unfold ends, next. rewrite Hnl. cbn [N.eqb andb].
        change (a ++ r :: m ++ [y]) with (a ++ (r :: m) ++ [y]). rewrite app_assoc, rev_app_distr. cbn [rev app].
        symmetry. now apply cstate_nonstarter.
    - split; [reflexivity|]. unfold ends. rewrite rev_app_distr. cbn [rev app].
      assert (st = 0) as ->.
      { pose proof (last_starter_none p Els) as Hn. unfold ends in He. apply Forall_rev in Hn.
        destruct (rev p) as [|y q]; [assumption|]. rewrite He. inversion Hn. now apply cstate_nonstarter. }
      unfold next. cbn [N.eqb andb]. symmetry. now apply (fixed_cstate k). }
  rewrite <- Eq. apply (IH _ (next st c)); assumption.
Qed.

Lemma standard_C k pair s : (forall x y r, pair x y = Some r <-> primary_composite x y r) ->
  (C k s = canonical_composition_of ccc pair (D k s) <-> no_filler (D k s)).
Proof.
  intros Hp. split.
  - intros H. apply no_filler_strip, strip_count_eq. rewrite <- C_count, H. apply standard_count. intros x y r. apply Hp.
  - intros H. apply no_filler_strip in H. rewrite C_spec. unfold canonical_composition_of.
    apply (standard_run k pair Hp _ [] 0); [apply fixed_D|reflexivity|assumption].
Qed.

(** ** The theorems *)
Lemma cform_standard_iff k s a pair : (forall x y r, pair x y = Some r <-> primary_composite x y r) ->
  form k s = Some a ->
  (cform k s = Some (canonical_composition_of combining_class pair a) <-> no_filler a).
Proof.
  intros Hp. rewrite form_eq, cform_eq. intros [= <-]. rewrite <- (standard_C k pair s Hp).
  rewrite (composition_ext combining_class ccc pair pair (D k s)) by (auto using ccc_spec; intros; symmetry; apply ccc_spec).
  split; [intros H; congruence|intros ->; reflexivity].
Qed.

Lemma cform_preserves_exact k s d a : form k s = Some d -> cform k s = Some a ->
  exists e, form k a = Some e /\ without_fillers d e.
Proof.
  rewrite form_eq, cform_eq. intros [= <-] [= <-]. rewrite form_eq. eexists. split; [reflexivity|].
  apply without_fillers_iff, D_C_strip.
Qed.
Lemma cform_preserves_iff k s d a : form k s = Some d -> cform k s = Some a -> (form k a = Some d <-> no_filler d).
Proof.
  rewrite form_eq, cform_eq. intros [= <-] [= <-]. rewrite form_eq, D_C_strip, no_filler_strip.
  split; [now intros [= ->]|intros ->; reflexivity].
Qed.
Lemma cform_equal_iff k s t d d' : form k s = Some d -> form k t = Some d' ->
  (cform k s = cform k t <-> exists e, without_fillers d e /\ without_fillers d' e).
Proof.
  rewrite !form_eq, !cform_eq. intros [= <-] [= <-]. split.
  - intros [= H]. apply C_iff in H. exists (strip 0 (D k s)). split; apply without_fillers_iff; auto.
  - intros (e & H1 & H2). apply without_fillers_iff in H1, H2. f_equal. apply C_iff. congruence.
Qed.
Lemma nfkc_after_nfc_all s a : nfc s = Some a -> nfkc a = nfkc s.
Proof. rewrite nfc_eq, !nfkc_eq. intros [= <-]. now rewrite C_compat. Qed.
Lemma nfkd_after_nfc_iff s d a : nfd s = Some d -> nfc s = Some a -> (nfkd a = nfkd s <-> no_filler d).
Proof.
  rewrite nfd_eq, nfc_eq, !nfkd_eq. intros [= <-] [= <-]. rewrite <- (D_compat_canon (C false s)), D_C_strip, <- (D_compat_canon s).
  rewrite no_filler_strip. split; [|intros ->; reflexivity]. intros [= H].
  apply strip_count_eq. rewrite <- (D_count true (strip 0 (D false s))), H, !D_count. reflexivity.
Qed.
Lemma cform_concat k s t a b : cform k s = Some a -> cform k t = Some b -> cform k (a ++ b) = cform k (s ++ t).
Proof. rewrite !cform_eq. intros [= <-] [= <-]. now rewrite C_concat. Qed.
Lemma nfc_concat_all s t a b : nfc s = Some a -> nfc t = Some b -> nfc (a ++ b) = nfc (s ++ t).
Proof. exact (cform_concat false s t a b). Qed.
Lemma nfkc_concat_all s t a b : nfkc s = Some a -> nfkc t = Some b -> nfkc (a ++ b) = nfkc (s ++ t).
Proof. exact (cform_concat true s t a b). Qed.
Lemma compose_exact a b r : compose a b = Some r <->
  primary_composite a b r \/ (exists l v, l < 19 /\ v < 21 /\ a = block l v 0 /\ b = 0x11A7 /\ r = a).
Proof.
  destruct (N.eq_dec b 0x11A7) as [->|Hne].
  - split.
    + intros H. right. pose proof (compose_filler _ _ H) as ->. apply compose_cases in H as [E|[(l & v & Hl & Hv & -> & _ & _)|E]].
      * now apply composes_not_filler in E.
      * exists l, v. auto.
      * destruct (good_triple_in _ _ _ E) as (F1 & F2 & F3 & F4 & F5 & F6). contradiction.
    + intros [H|(l & v & Hl & Hv & -> & _ & ->)]; [|now apply compose_lv_filler].
      apply primary_not_filler in H. tauto.
  - rewrite compose_primary by assumption. split; [auto|]. intros [H|(l & v & _ & _ & _ & H & _)]; [assumption|contradiction].
Qed.

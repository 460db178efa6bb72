(** The levels of a paragraph and of a text, character by character. *)
From Coq Require Import List NArith ZArith Lia Bool Arith Permutation ZifyBool ZifyNat ZifyN.
Import ListNotations.
From Verif Require Import Base Enums EnumFacts UcdModel BidiModel BidiSpec BidiLemmas BidiInit BidiWeak BidiSeqs BidiExplicit BidiChars.
Open Scope nat_scope.

(** ** Results of the passes on expanded arrays *)

Lemma resolve_levels_app a b : forall l m, length a = length l ->
  resolve_levels (a ++ b) (l ++ m)
  = obind (resolve_levels a l) (fun x => obind (resolve_levels b m) (fun y => Ret (x ++ y))).
Proof.
  induction a as [|c a IH]; intros [|x l] m H; cbn [length] in H; try lia.
  - cbn [app resolve_levels obind]. destruct (resolve_levels b m); reflexivity.
  - cbn [app resolve_levels]. destruct (resolve_level c x); [|reflexivity]. cbn [obind].
    rewrite IH by lia. destruct (resolve_levels a l); [|reflexivity]. cbn [obind].
    destruct (resolve_levels b m); reflexivity.
Qed.

Lemma resolve_levels_repeat c l w : 0 < w ->
  resolve_levels (repeat c w) (repeat l w) = obind (resolve_level c l) (fun x => Ret (repeat x w)).
Proof.
  intros H. destruct w as [|w]; [lia|]. clear H. induction w as [|w IH]; cbn [repeat resolve_levels].
  - destruct (resolve_level c l); reflexivity.
  - cbn [repeat resolve_levels] in IH. rewrite IH. destruct (resolve_level c l); reflexivity.
Qed.

Lemma resolve_levels_expand ws : Forall (fun w => 0 < w) ws -> forall cs lv,
  length cs = length ws -> length lv = length ws ->
  resolve_levels (expand ws cs) (expand ws lv) = obind (resolve_levels cs lv) (fun x => Ret (expand ws x)).
Proof.
  induction 1 as [|w ws Hp Hw IH]; intros [|c cs] [|l lv] Hc Hl; cbn [length] in *; try lia; [reflexivity|].
  cbn [expand]. rewrite resolve_levels_app by now rewrite !repeat_length.
  rewrite resolve_levels_repeat by assumption. rewrite IH by lia. cbn [resolve_levels].
  destruct (resolve_level c l); [|reflexivity]. cbn [obind].
  destruct (resolve_levels cs lv); reflexivity.
Qed.

Lemma assign_removed_expand ws : Forall (fun w => 0 < w) ws -> forall prev cs lv,
  length cs = length ws -> length lv = length ws ->
  assign_removed prev (expand ws cs) (expand ws lv) = expand ws (assign_removed prev cs lv).
Proof.
  induction 1 as [|w ws Hp Hw IH]; intros prev [|c cs] [|l lv] Hc Hl; cbn [length] in *; try lia; [reflexivity|].
  cbn [expand assign_removed].
  assert (G : forall w prev R L, assign_removed prev (repeat c (S w) ++ R) (repeat l (S w) ++ L)
     = repeat (if removed_by_x9 c then prev else l) (S w) ++ assign_removed (if removed_by_x9 c then prev else l) R L).
  { clear. induction w as [|w IH]; intros prev R L; [reflexivity|].
    change (repeat c (S (S w)) ++ R) with (c :: (repeat c (S w) ++ R)).
    change (repeat l (S (S w)) ++ L) with (l :: (repeat l (S w) ++ L)).
    cbn [assign_removed]. rewrite IH. destruct (removed_by_x9 c); reflexivity. }
  destruct w as [|w]; [lia|]. rewrite G, IH by lia. reflexivity.
Qed.

(** ** A paragraph *)

Definition exp_levels (para : N) (cs : list BidiClass) : list N := map fst (cexp para (cst0 para) cs).
Definition exp_classes (para : N) (cs : list BidiClass) : list BidiClass := map snd (cexp para (cst0 para) cs).

Definition char_levels (ws : list nat) (para : N) (cs : list BidiClass) : outcome (list N) :=
  obind (resolve_levels (char_classes ws para cs (exp_levels para cs) (exp_classes para cs)) (exp_levels para cs))
    (fun l => Ret (assign_removed para cs l)).

Lemma exp_levels_length para cs : length (exp_levels para cs) = length cs.
Proof. unfold exp_levels. now rewrite map_length, cexp_length. Qed.
Lemma exp_classes_length para cs : length (exp_classes para cs) = length cs.
Proof. unfold exp_classes. now rewrite map_length, cexp_length. Qed.

Lemma char_classes_length ws para oc lv pc : length lv = length pc ->
  length (char_classes ws para oc lv pc) = length pc.
Proof. intros. now apply char_classes_spec. Qed.

Lemma resolve_levels_length cs : forall lv r, resolve_levels cs lv = Ret r -> length cs = length lv /\ length r = length lv.
Proof.
  induction cs as [|c cs IH]; intros [|l lv] r H; cbn [resolve_levels] in H; try discriminate.
  - injection H as <-. auto.
  - destruct (resolve_level c l); [|discriminate]. cbn [obind] in H.
    destruct (resolve_levels cs lv) eqn:E; [|discriminate]. cbn [obind] in H. injection H as <-.
    destruct (IH _ _ E). cbn. lia.
Qed.

Lemma para_levels_chars ws para cs : Forall (fun w => 0 < w) ws -> length cs = length ws ->
  para_levels ws para (expand ws cs) = obind (char_levels ws para cs) (fun l => Ret (expand ws l)).
Proof.
  intros Hw Hc. unfold para_levels. rewrite explicit_char by assumption.
  fold (exp_levels para cs) (exp_classes para cs).
  pose proof (exp_levels_length para cs) as L1. pose proof (exp_classes_length para cs) as L2.
  rewrite fold_chars by (auto; congruence).
  set (cl := char_classes _ _ _ _ _). assert (L3 : length cl = length ws).
  { unfold cl. rewrite char_classes_length; congruence. }
  rewrite resolve_levels_expand by (auto; congruence). unfold char_levels. fold cl.
  destruct (resolve_levels cl (exp_levels para cs)) as [r|] eqn:E; [|reflexivity]. cbn [obind].
  apply resolve_levels_length in E as [_ E]. rewrite assign_removed_expand by (auto; congruence). reflexivity.
Qed.

(** ** I1, I2 and the levels of removed characters *)

Lemma mod2_odd l : (l mod 2 =? 1)%N = N.odd l.
Proof.
  destruct (N.odd l) eqn:E.
  - apply N.odd_spec in E as [k ->]. apply N.eqb_eq. rewrite N.add_comm, N.mul_comm, N.mod_add by lia. reflexivity.
  - rewrite <- N.negb_even in E. apply negb_false_iff, N.even_spec in E as [k ->]. apply N.eqb_neq.
    rewrite N.mul_comm, N.mod_mul by lia. discriminate.
Qed.
Lemma level_is_rtl_odd l : level_is_rtl l = N.odd l.
Proof. apply mod2_odd. Qed.
Lemma level_is_ltr_even l : level_is_ltr l = N.even l.
Proof.
  unfold level_is_ltr. rewrite <- N.negb_odd, <- mod2_odd.
  pose proof (N.mod_lt l 2 ltac:(lia)). destruct (N.eqb_spec (l mod 2) 0), (N.eqb_spec (l mod 2) 1); cbn; try reflexivity; lia.
Qed.

Lemma raise_ok l a : (l + a <= 126)%N -> level_raise l a = Some (l + a)%N.
Proof.
  intros H. unfold level_raise, MAX_IMPLICIT_DEPTH, MAX_EXPLICIT_DEPTH.
  destruct (N.leb_spec (l + a) 255); [|lia]. destruct (N.leb_spec (l + a) 126) as [|X]; [reflexivity|].
  exfalso. cbn in X. lia.
Qed.

Lemma resolve_level_spec c l : (l <= 125)%N ->
  resolve_level c l = Ret (implicit_level l c) /\ (l <= implicit_level l c <= 126)%N.
Proof.
  intros H. unfold resolve_level, implicit_level. rewrite level_is_rtl_odd, <- N.negb_odd.
  assert (B : N.odd l = false -> (l <= 124)%N).
  { intros E. destruct (N.eq_dec l 125) as [->|]; [discriminate E|lia]. }
  destruct (N.odd l) eqn:E; cbn [negb].
  - rewrite raise_ok by lia. destruct c; cbn [is_in existsb BC_eqb BC_index N.eqb orb]; split; try reflexivity; try (cbn; lia).
  - specialize (B eq_refl). rewrite !raise_ok by lia.
    destruct c; (split; [reflexivity|]); cbn; lia.
Qed.

Fixpoint implicit_levels (lv : list N) (cs : list BidiClass) : list N :=
  match lv, cs with
  | l :: lv', c :: cs' => implicit_level l c :: implicit_levels lv' cs'
  | _, _ => []
  end.

Lemma resolve_levels_spec cs : forall lv, length cs = length lv -> Forall (fun l => (l <= 125)%N) lv ->
  resolve_levels cs lv = Ret (implicit_levels lv cs).
Proof.
  induction cs as [|c cs IH]; intros [|l lv] H F; cbn [length] in H; try lia; [reflexivity|].
  inversion F; subst. cbn [resolve_levels implicit_levels].
  rewrite (proj1 (resolve_level_spec c l H2)). cbn [obind]. rewrite IH by (auto; lia). reflexivity.
Qed.

Lemma implicit_levels_length cs : forall lv, length cs = length lv -> length (implicit_levels lv cs) = length lv.
Proof. induction cs; intros [|l lv] H; cbn in *; try lia. rewrite IHcs; lia. Qed.

Lemma assign_removed_length cs : forall prev lv, length (assign_removed prev cs lv) = length lv.
Proof. induction cs; intros prev [|l lv]; cbn; auto. Qed.

Lemma exp_levels_bounds para cs : (para <= 125)%N -> Forall (fun l => (para <= l <= 125)%N) (exp_levels para cs).
Proof.
  intros H. unfold exp_levels. apply Forall_map. eapply cexp_bounds; [assumption|]. now apply cst0_ok.
Qed.

Definition final_classes (ws : list nat) (para : N) (cs : list BidiClass) : list BidiClass :=
  char_classes ws para cs (exp_levels para cs) (exp_classes para cs).

Lemma final_classes_length ws para cs : length (final_classes ws para cs) = length cs.
Proof. unfold final_classes. rewrite char_classes_length; rewrite exp_classes_length; auto. apply exp_levels_length. Qed.

Lemma char_levels_spec ws para cs : (para <= 125)%N ->
  char_levels ws para cs
  = Ret (assign_removed para cs (implicit_levels (exp_levels para cs) (final_classes ws para cs))).
Proof.
  intros H. unfold char_levels. fold (final_classes ws para cs).
  rewrite resolve_levels_spec; [reflexivity| |].
  - rewrite final_classes_length, exp_levels_length. reflexivity.
  - eapply Forall_impl; [|apply exp_levels_bounds; exact H]. cbn. intros. lia.
Qed.

Lemma implicit_levels_bounds lo cs : forall lv, length cs = length lv -> Forall (fun l => (lo <= l <= 125)%N) lv ->
  Forall (fun l => (lo <= l <= 126)%N) (implicit_levels lv cs).
Proof.
  induction cs as [|c cs IH]; intros [|l lv] H F; cbn [length] in H; try lia; [constructor|].
  inversion F; subst. cbn [implicit_levels]. constructor; [|apply IH; auto; lia].
  pose proof (resolve_level_spec c l ltac:(lia)). lia.
Qed.

Lemma assign_removed_bounds (P : N -> Prop) cs : forall prev lv, P prev -> Forall P lv -> Forall P (assign_removed prev cs lv).
Proof.
  induction cs as [|c cs IH]; intros prev [|l lv] Hp F; cbn [assign_removed]; auto.
  inversion F; subst. constructor; [destruct (removed_by_x9 c); assumption|]. apply IH; [destruct (removed_by_x9 c); assumption|assumption].
Qed.

Lemma char_levels_bounds ws para cs : (para <= 125)%N -> exists l,
  char_levels ws para cs = Ret l /\ length l = length cs /\ Forall (fun x => (para <= x <= 126)%N) l.
Proof.
  intros H. eexists. split; [now apply char_levels_spec|]. split.
  - rewrite assign_removed_length, implicit_levels_length; rewrite ?exp_levels_length, ?final_classes_length; reflexivity.
  - apply assign_removed_bounds; [lia|]. apply implicit_levels_bounds; [|now apply exp_levels_bounds].
    now rewrite final_classes_length, exp_levels_length.
Qed.

(** ** The whole text *)

Definition plevel (default : option N) (p : str) : N := unwrap_level (cur_level default (cls p)).

Fixpoint char_all (default : option N) (pieces : list str) (cc : list BidiClass) : outcome (list N) :=
  match pieces with
  | [] => Ret []
  | p :: rest =>
      obind (char_levels (map clen p) (plevel default p) (firstn (length p) cc)) (fun l =>
      obind (char_all default rest (skipn (length p) cc)) (fun r => Ret (l ++ r)))
  end.

Lemma char_levels_length ws para cs l : char_levels ws para cs = Ret l -> length l = length cs.
Proof.
  unfold char_levels. intros H. destruct (resolve_levels _ _) as [r|] eqn:E; [|discriminate]. cbn [obind] in H.
  apply resolve_levels_length in E as [_ E]. injection H as <-. rewrite assign_removed_length, E. apply exp_levels_length.
Qed.

Lemma all_para_chars default pieces : forall pre cpre cc,
  length cpre = length pre -> length cc = length (concat pieces) ->
  all_para_levels (pre ++ concat pieces)
    (expand (map clen pre) cpre ++ expand (map clen (concat pieces)) cc)
    (mkparas default (slen pre) pieces)
  = obind (char_all default pieces cc) (fun l => Ret (expand (map clen (concat pieces)) l)).
Proof.
  induction pieces as [|p rest IH]; intros pre cpre cc Hp Hc; [reflexivity|].
  cbn [mkparas all_para_levels char_all concat] in *. rewrite app_length in Hc. cbn [p_start p_end p_level].
  rewrite str_slice_app. cbn [obind]. fold (plevel default p).
  assert (L1 : length (firstn (length p) cc) = length p) by (rewrite firstn_length; lia).
  assert (L2 : length (skipn (length p) cc) = length (concat rest)) by (rewrite skipn_length; lia).
  assert (Ex : expand (map clen (p ++ concat rest)) cc
     = expand (map clen p) (firstn (length p) cc) ++ expand (map clen (concat rest)) (skipn (length p) cc)).
  { rewrite map_app, <- expand_app by (rewrite map_length; exact L1). now rewrite firstn_skipn. }
  rewrite Ex.
  assert (S1 : slen pre = length (expand (map clen pre) cpre)) by (rewrite expand_length; [apply slen_sum|now rewrite map_length]).
  assert (S2 : slen p = length (expand (map clen p) (firstn (length p) cc))) by (rewrite expand_length; [apply slen_sum|now rewrite map_length]).
  replace (sub _ (slen pre) (slen pre + slen p)) with (expand (map clen p) (firstn (length p) cc))
    by (rewrite S1, S2; symmetry; apply sub_app).
  rewrite para_levels_chars by (try apply clens_pos; rewrite map_length; exact L1).
  destruct (char_levels (map clen p) (plevel default p) (firstn (length p) cc)) as [l|] eqn:E; [|reflexivity].
  cbn [obind]. apply char_levels_length in E. rewrite L1 in E.
  specialize (IH (pre ++ p) (cpre ++ firstn (length p) cc) (skipn (length p) cc)).
  rewrite !app_length, Hp, L1 in IH. specialize (IH eq_refl L2).
  rewrite map_app, expand_app in IH by (rewrite map_length; exact Hp). rewrite <- !app_assoc in IH.
  rewrite slen_app in IH.
  rewrite IH. destruct (char_all default rest (skipn (length p) cc)) as [r|]; [|reflexivity]. cbn [obind].
  rewrite map_app, expand_app by (rewrite map_length; exact E). reflexivity.
Qed.

Theorem bidi_chars t default : exists cc pieces,
  length cc = length t /\ fsi_resolved (cls t) cc /\ paragraphs_of t pieces /\
  bidi_new t default
  = obind (char_all default pieces cc) (fun l =>
      Ret (mkbidi t (expand (map clen t) cc) (expand (map clen t) l) (mkparas default 0 pieces))).
Proof.
  destruct (initial_info_spec t default) as (cc & pieces & E & L & F & P).
  exists cc, pieces. split; [assumption|]. split; [assumption|]. split; [assumption|].
  unfold bidi_new. rewrite E. destruct P as (C & _).
  pose proof (all_para_chars default pieces [] [] cc eq_refl) as A. rewrite C in A. cbn [app map expand slen fold_right] in A.
  rewrite A by assumption. destruct (char_all default pieces cc); reflexivity.
Qed.

Lemma char_all_length default pieces : forall cc l, length cc = length (concat pieces) ->
  char_all default pieces cc = Ret l -> length l = length cc.
Proof.
  induction pieces as [|p rest IH]; intros cc l Hc H; cbn [char_all concat] in *.
  - injection H as <-. now destruct cc.
  - rewrite app_length in Hc. destruct (char_levels _ _ _) as [a|] eqn:E; [|discriminate]. cbn [obind] in H.
    destruct (char_all default rest _) as [r|] eqn:E2; [|discriminate]. cbn [obind] in H. injection H as <-.
    apply char_levels_length in E. apply IH in E2; rewrite ?skipn_length in *; [|lia].
    rewrite firstn_length in E. rewrite app_length. lia.
Qed.

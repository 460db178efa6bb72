(** Texts on which the word iterators do and do not follow the rules. *)
From Coq Require Import List NArith Lia Bool Arith.
Import ListNotations.
From Verif Require Import Base Enums TableTypes UcdModel BidiModel BidiLemmas GraphSpec SegLemmas GraphIter
  WordModel WordSpec WordTables WordRules WordForward WordBackward WordLocal WordIter.
Open Scope nat_scope.

(** ** The conditions, computed *)
Definition WBs_eqb (a b : list WordBreak) : bool :=
  match a, b with [], [] => true | [x], [y] => WB_eqb x y | _, _ => false end.

Definition splits (text : str) : list (str * str) := map (fun n => (firstn n text, skipn n text)) (seq 0 (length text)).
Lemma splits_all text pre x post : text = pre ++ x :: post -> In (pre, x :: post) (splits text).
Proof.
  intros ->. unfold splits. apply in_map_iff. exists (length pre). split.
  - rewrite firstn_app, firstn_all, Nat.sub_diag, skipn_app, skipn_all, Nat.sub_diag. cbn. rewrite app_nil_r. reflexivity.
  - apply in_seq. rewrite app_length. cbn. lia.
Qed.

Definition check_double (text : str) : bool := forallb (fun p => match p with
  | (pre, x :: post) => negb (WB_eqb (word_break x) WB_EModifier && WBs_eqb (class_before pre) [WB_EModifier]) | _ => true end) (splits text).
Definition check_glue (text : str) : bool := forallb (fun p => match p with
  | (pre, z :: x :: post) => negb (WB_eqb (word_break z) WB_ZWJ && is_in [WB_GlueAfterZwj; WB_EBaseGAZ] (word_break x)) ||
      (negb (first_in MidClasses (class_before (pre ++ [z]))) &&
       (negb (WB_eqb (word_break x) WB_GlueAfterZwj) || negb (first_in JoinClasses (class_after x post)))) | _ => true end) (splits text).
Definition check_zwj (text : str) : bool := forallb (fun p => match p with
  | (pre, z :: x :: post) => negb (WB_eqb (word_break z) WB_ZWJ && WB_eqb (word_break x) WB_EBase && WBs_eqb (class_after x post) [WB_EModifier])
  | _ => true end) (splits text).

Local Opaque word_break.
Lemma check_double_ok text : check_double text = true -> no_double_modifier text.
Proof.
  intros H pre x post E W B. unfold check_double in H. rewrite forallb_forall in H. specialize (H _ (splits_all _ _ _ _ E)). cbn beta iota in H.
  rewrite W, B in H. discriminate H.
Qed.
Lemma check_glue_ok text : check_glue text = true -> glue_alone text.
Proof.
  intros H pre z x post E W B. unfold check_glue in H. rewrite forallb_forall in H. specialize (H _ (splits_all _ _ _ _ E)). cbn beta iota in H.
  rewrite W, B in H. cbn [andb negb orb] in H. change (WB_eqb WB_ZWJ WB_ZWJ) with true in H. cbn [andb negb orb] in H.
  apply andb_prop in H. destruct H as [H1 H2]. split; [apply negb_true_iff; exact H1|]. intros G. rewrite G in H2.
  change (WB_eqb WB_GlueAfterZwj WB_GlueAfterZwj) with true in H2. cbn [negb orb] in H2. apply negb_true_iff. exact H2.
Qed.
Lemma check_zwj_ok text : check_zwj text = true -> no_zwj_base_modifier text.
Proof.
  intros H pre z x post E W B C. unfold check_zwj in H. rewrite forallb_forall in H. specialize (H _ (splits_all _ _ _ _ E)). cbn beta iota in H.
  rewrite W, B, C in H. discriminate H.
Qed.

(** ** Plain text *)
Lemma plain_text s : Forall (fun c => is_in [WB_ZWJ; WB_EModifier] (word_break c) = false) s ->
  no_double_modifier s /\ glue_alone s /\ no_zwj_base_modifier s.
Proof.
  intros F. rewrite Forall_forall in F.
  assert (NZ : forall pre z post, s = pre ++ z :: post -> word_break z <> WB_ZWJ /\ word_break z <> WB_EModifier).
  { intros pre z post E. specialize (F z). rewrite E in F. specialize (F (in_elt z pre post)).
    split; intros W; rewrite W in F; discriminate F. }
  split; [|split].
  - intros pre x post E W _. destruct (NZ _ _ _ E) as [_ N]. contradiction.
  - intros pre z x post E W. destruct (NZ _ _ _ E) as [N _]. contradiction.
  - intros pre z x post E W. destruct (NZ _ _ _ E) as [N _]. contradiction.
Qed.
Local Transparent word_break.

(** ** Witnesses *)
Ltac departs A B :=
  intros ps SG; eapply (not_rules _ _) with (a := A) (b := B); [vm_compute; reflexivity|reflexivity|discriminate|discriminate|vm_compute; discriminate|exact SG].

Lemma words_double_modifier : exists s, glue_alone s /\
  forall ps, segments word_boundary s ps -> word_bound_indices s <> Ret (Some (indexed 0 ps)).
Proof.
  exists [0x1F44D; 0x1F3FB; 0x1F3FB]%N. split; [apply check_glue_ok; vm_compute; reflexivity|].
  departs [0x1F44D; 0x1F3FB]%N [0x1F3FB]%N.
Qed.
Lemma words_glue : exists s, no_double_modifier s /\ no_zwj_base_modifier s /\
  forall ps, segments word_boundary s ps -> word_bound_indices s <> Ret (Some (indexed 0 ps)).
Proof.
  exists [0x61; 0x200D; 0x2764; 0x62]%N. split; [apply check_double_ok; vm_compute; reflexivity|]. split; [apply check_zwj_ok; vm_compute; reflexivity|].
  departs [0x61; 0x200D; 0x2764]%N [0x62]%N.
Qed.
Lemma words_punctuation : exists s, no_double_modifier s /\ no_zwj_base_modifier s /\
  forall ps, segments word_boundary s ps -> word_bound_indices s <> Ret (Some (indexed 0 ps)).
Proof.
  exists [0x61; 0x3A; 0x200D; 0x1F469]%N. split; [apply check_double_ok; vm_compute; reflexivity|]. split; [apply check_zwj_ok; vm_compute; reflexivity|].
  departs [0x61]%N [0x3A; 0x200D; 0x1F469]%N.
Qed.
Lemma words_glue_rev : exists s l l', word_bound_indices s = Ret (Some l) /\ word_bound_indices_rev s = Ret (Some l') /\ l' <> rev l.
Proof.
  exists [0x61; 0x200D; 0x2764; 0x62]%N, [(0, [0x61; 0x200D; 0x2764; 0x62]%N)], [(7, [0x62]%N); (0, [0x61; 0x200D; 0x2764]%N)].
  split; [vm_compute; reflexivity|]. split; [vm_compute; reflexivity|]. vm_compute. discriminate.
Qed.
Lemma words_zwj_base : exists s l l', word_bound_indices s = Ret (Some l) /\ word_bound_indices_rev s = Ret (Some l') /\
  l' <> rev l /\ (exists ps, segments word_boundary s ps /\ l = indexed 0 ps).
Proof.
  exists [0x200D; 0x1F44D; 0x1F3FB]%N, [(0, [0x200D]%N); (3, [0x1F44D; 0x1F3FB]%N)], [(0, [0x200D; 0x1F44D; 0x1F3FB]%N)].
  assert (E : word_bound_indices [0x200D; 0x1F44D; 0x1F3FB]%N = Ret (Some [(0, [0x200D]%N); (3, [0x1F44D; 0x1F3FB]%N)])) by (vm_compute; reflexivity).
  split; [exact E|]. split; [vm_compute; reflexivity|]. split; [vm_compute; discriminate|].
  destruct (words_forward [0x200D; 0x1F44D; 0x1F3FB]%N) as (ps & SG & H).
  - apply check_double_ok. vm_compute. reflexivity.
  - apply check_glue_ok. vm_compute. reflexivity.
  - exists ps. split; [exact SG|]. rewrite E in H. congruence.
Qed.

(** The weak pass at every position of a sequence. *)
From Coq Require Import List NArith ZArith Lia Bool Arith ZifyBool ZifyNat ZifyN.
Import ListNotations.
From Verif Require Import Base Enums EnumFacts UcdModel BidiModel BidiSpec BidiLemmas BidiSeqs BidiWeak BidiRules BidiWeakExactSpec.
Open Scope nat_scope.

Lemma beyond_mark c t : beyond [cNSM] (c :: t) = match c with cNSM => beyond [cNSM] t | _ => Some c end.
Proof. destruct c; reflexivity. Qed.
Lemma beyond_glue c t : beyond [cNSM; cET] (c :: t) = match c with cNSM | cET => beyond [cNSM; cET] t | _ => Some c end.
Proof. destruct c; reflexivity. Qed.
Lemma near_cons c t : number_near (c :: t) = match c with cNSM | cET => number_near t | cEN => true | _ => false end.
Proof. unfold number_near. rewrite beyond_glue. destruct c; reflexivity. Qed.
Lemma first_mark c t : first_is cNSM (c :: t) = match c with cNSM => true | _ => false end.
Proof. destruct c; reflexivity. Qed.
Lemma strong_cons sos c t : last_strong sos (c :: t) = match c with cL | cR | cAL => c | _ => last_strong sos t end.
Proof. destruct c; reflexivity. Qed.

Lemma et_fate_beyond r : et_fate r false =
  match beyond [cNSM; cET] (filter kept r) with None => cET | Some cEN => cEN | Some _ => cON end.
Proof.
  induction r as [|c r IH]; [reflexivity|].
  destruct c; exact IH || reflexivity.
Qed.

Lemma next_in_kept r eos : next_in r eos = hd eos (filter kept r).
Proof.
  unfold next_in. induction r as [|c r IH]; [reflexivity|]. cbn [find filter]. unfold not_removed_by_x9.
  rewrite kept_removed, negb_involutive. destruct (kept c); [reflexivity|exact IH].
Qed.

Section Pass.
Variables (sos eos : BidiClass).
Hypothesis (HS : sos = cL \/ sos = cR) (HE : eos = cL \/ eos = cR).

(** the class a position shows to what follows *)
Fixpoint seen (before after : list BidiClass) : BidiClass :=
  match before with
  | [] => sos
  | c :: t =>
      match c with
      | cNSM => nsm_class (seen t (c :: after))
      | cET => match seen t (c :: after) with cEN => cEN | _ => cET end
      | cES | cCS => sep_class (seen t (c :: after)) c (hd eos after)
      | cAL => cR
      | _ => c
      end
  end.

Definition no_number (l : list BidiClass) : Prop := first_is cEN l = false /\ first_is cAN l = false.

Lemma seen_quiet before : forall after, after <> [] -> no_number after ->
  seen before after =
  match beyond [cNSM] before with
  | None => sos
  | Some cET => if number_near before then cEN else cET
  | Some (cES | cCS) => cON
  | Some ((cLRI | cRLI | cFSI | cPDI) as d) => if first_is cNSM before then cON else d
  | Some cAL => cR
  | Some d => d
  end.
Proof.
  induction before as [|c t IH]; intros after NE [N1 N2]; [reflexivity|].
  assert (Hh : hd eos after <> cEN /\ hd eos after <> cAN).
  { destruct after as [|a after]; [congruence|]. cbn in N1, N2 |- *. split; intros ->; discriminate. }
  rewrite beyond_mark, near_cons, first_mark.
  destruct c; cbn [seen]; try reflexivity.
  - (* CS *) destruct Hh as [A B].
    destruct (seen t (cCS :: after)); try reflexivity; cbn [sep_class]; destruct (hd eos after); reflexivity || congruence.
  - destruct Hh as [A B].
    destruct (seen t (cES :: after)); try reflexivity; cbn [sep_class]; destruct (hd eos after); reflexivity || congruence.
  - (* ET *)
    rewrite (IH (cET :: after)) by (try discriminate; split; reflexivity).
    clear - HS. induction t as [|d t IHt]; [destruct HS as [-> | ->]; reflexivity|].
    rewrite beyond_mark, near_cons, first_mark.
    destruct d; try reflexivity.
    + destruct (number_near t); reflexivity.
    + destruct (beyond [cNSM] t) as [e|]; [|exact IHt].
      destruct e; try exact IHt; destruct (first_is cNSM t); exact IHt.
  - (* NSM *)
    rewrite (IH (cNSM :: after)) by (try discriminate; split; reflexivity).
    destruct (beyond [cNSM] t) as [e|]; [|destruct HS as [-> | ->]; reflexivity].
    destruct e; try reflexivity; try (destruct (number_near t); reflexivity); destruct (first_is cNSM t); reflexivity.
Qed.

(** when a number is seen *)
Lemma seen_number before after : after <> [] -> no_number after ->
  (match seen before after with cEN => true | _ => false end) = number_near before.
Proof.
  intros NE NN. rewrite seen_quiet by assumption. clear NE NN.
  induction before as [|d t IHt]; [destruct HS as [-> | ->]; reflexivity|].
  rewrite beyond_mark, near_cons, first_mark. destruct d; try reflexivity.
  - destruct (number_near t); reflexivity.
  - destruct (beyond [cNSM] t) as [e|]; [|exact IHt].
    destruct e; try exact IHt; destruct (first_is cNSM t); exact IHt.
Qed.

Lemma seen_arabic before after : after <> [] -> no_number after ->
  (match seen before after with cAN => true | _ => false end) =
  (match beyond [cNSM] before with Some cAN => true | _ => false end).
Proof.
  intros NE NN. rewrite seen_quiet by assumption.
  destruct (beyond [cNSM] before) as [e|]; [|destruct HS as [-> | ->]; reflexivity].
  destruct e; try reflexivity; try (destruct (first_is cNSM before); reflexivity). destruct (number_near before); reflexivity.
Qed.

Lemma hd_first x l : kept x = true -> x <> eos -> (match hd eos l with y => BC_eqb y x end) = first_is x l.
Proof.
  intros _ N. destruct l as [|a l]; [|reflexivity]. cbn. destruct (BC_eqb eos x) eqn:E; [|reflexivity].
  apply BC_eqb_eq in E. congruence.
Qed.

Lemma wl_class_exact c r before : kept c = true ->
  wl_class eos c r (seen before (c :: filter kept r)) false = weak_class sos before c (filter kept r).
Proof.
  intros K.
  assert (NE : c :: filter kept r <> []) by discriminate.
  assert (EN1 : forall l, first_is cEN l = match hd eos l with cEN => true | _ => false end).
  { intros [|a l]; [destruct HE as [-> | ->]; reflexivity|]. cbn. destruct a; reflexivity. }
  assert (AN1 : forall l, first_is cAN l = match hd eos l with cAN => true | _ => false end).
  { intros [|a l]; [destruct HE as [-> | ->]; reflexivity|]. cbn. destruct a; reflexivity. }
  destruct c; try reflexivity; try discriminate K; cbn [wl_class weak_class].
  - (* CS *)
    assert (NN : no_number (cCS :: filter kept r)) by (split; reflexivity).
    rewrite <- (seen_number _ _ NE NN), EN1, next_in_kept.
    pose proof (seen_arabic before _ NE NN) as A. rewrite AN1.
    destruct (seen before (cCS :: filter kept r)); cbn [andb sep_class];
      destruct (beyond [cNSM] before) as [e|]; try destruct e; try discriminate A; try reflexivity;
      destruct (hd eos (filter kept r)); reflexivity.
  - assert (NN : no_number (cES :: filter kept r)) by (split; reflexivity).
    rewrite <- (seen_number _ _ NE NN), EN1, next_in_kept.
    destruct (seen before (cES :: filter kept r)); cbn [andb sep_class]; try reflexivity;
      destruct (hd eos (filter kept r)); reflexivity.
  - assert (NN : no_number (cET :: filter kept r)) by (split; reflexivity).
    rewrite <- (seen_number _ _ NE NN), et_fate_beyond. unfold number_near.
    destruct (seen before (cET :: filter kept r)); cbn [orb]; try reflexivity;
      destruct (beyond [cNSM; cET] (filter kept r)) as [e|]; try destruct e; reflexivity.
  - assert (NN : no_number (cNSM :: filter kept r)) by (split; reflexivity).
    rewrite (seen_quiet _ _ NE NN).
    destruct (beyond [cNSM] before) as [e|]; [|destruct HS as [-> | ->]; reflexivity].
    destruct e; try reflexivity; try (destruct (first_is cNSM before); reflexivity). destruct (number_near before); reflexivity.
Qed.

Lemma wl_prev_seen c r before : kept c = true ->
  wl_prev eos c r (seen before (c :: filter kept r)) false = seen (c :: before) (filter kept r).
Proof.
  intros K. destruct c; try reflexivity; try discriminate K; cbn [wl_prev wl_class seen]; now rewrite ?next_in_kept.
Qed.

Lemma sep_kinds p c n : sep_class p c n = cEN \/ sep_class p c n = cAN \/ sep_class p c n = cON.
Proof. unfold sep_class. destruct p; auto; destruct c; auto; destruct n; auto. Qed.
Lemma seen_not_al before : forall after, seen before after <> cAL.
Proof.
  induction before as [|c t IH]; intros after; cbn [seen]; [destruct HS as [-> | ->]; discriminate|].
  specialize (IH (c :: after)).
  destruct c; try discriminate.
  - destruct (sep_kinds (seen t (cCS :: after)) cCS (hd eos after)) as [-> |[-> | ->]]; discriminate.
  - destruct (sep_kinds (seen t (cES :: after)) cES (hd eos after)) as [-> |[-> | ->]]; discriminate.
  - destruct (seen t (cET :: after)); discriminate.
  - destruct (seen t (cNSM :: after)); cbn [nsm_class]; congruence.
Qed.
Lemma al_never before after : al_after (seen before after) false = false.
Proof. pose proof (seen_not_al before after). destruct (seen before after); try reflexivity. congruence. Qed.

(** W1-W6 at every position *)
Lemma wl_exact pre : forall before c post,
  nth_error (wl eos (pre ++ c :: post) (seen before (filter kept (pre ++ c :: post))) false) (length pre)
  = Some (if kept c then weak_class sos (rev (filter kept pre) ++ before) c (filter kept post) else c).
Proof.
  induction pre as [|a pre IH]; intros before c post.
  - cbn [app length nth_error wl filter rev]. rewrite kept_removed. destruct (kept c) eqn:K; cbn [negb]; [|reflexivity].
    cbn [nth_error]. now rewrite wl_class_exact.
  - cbn [app length wl filter rev]. rewrite kept_removed. destruct (kept a) eqn:K; cbn [negb nth_error].
    + rewrite wl_prev_seen, al_never by assumption. rewrite IH. cbn [rev]. now rewrite <- app_assoc.
    + now rewrite IH.
Qed.

(** the strong class kept by the second loop *)
Lemma seen_strong_l before : forall after, seen before after = cL -> last_strong sos before = cL.
Proof.
  induction before as [|c t IH]; intros after; cbn [seen]; [auto|].
  rewrite strong_cons. destruct c; try discriminate; auto.
  - destruct (sep_kinds (seen t (cCS :: after)) cCS (hd eos after)) as [-> |[-> | ->]]; discriminate.
  - destruct (sep_kinds (seen t (cES :: after)) cES (hd eos after)) as [-> |[-> | ->]]; discriminate.
  - destruct (seen t (cET :: after)); discriminate.
  - intros H. apply (IH (cNSM :: after)). destruct (seen t _); try discriminate; reflexivity.
Qed.
Lemma seen_strong_r before : forall after, seen before after = cR -> last_strong sos before <> cL.
Proof.
  induction before as [|c t IH]; intros after; cbn [seen].
  { intros ->. discriminate. }
  rewrite strong_cons. destruct c; try discriminate.
  - destruct (sep_kinds (seen t (cCS :: after)) cCS (hd eos after)) as [-> |[-> | ->]]; discriminate.
  - destruct (sep_kinds (seen t (cES :: after)) cES (hd eos after)) as [-> |[-> | ->]]; discriminate.
  - destruct (seen t (cET :: after)); discriminate.
  - intros H. apply (IH (cNSM :: after)). destruct (seen t _); try discriminate; reflexivity.
Qed.

Definition lastl (before : list BidiClass) : bool := is_in [cL] (last_strong sos before).
Lemma l_after_keep c r before : kept c = true ->
  l_after (wl_class eos c r (seen before (c :: filter kept r)) false) (lastl before) = lastl (c :: before).
Proof.
  intros K. destruct c; try reflexivity; try discriminate K; unfold lastl; rewrite strong_cons; cbn [wl_class].
  - destruct (sep_kinds (seen before (cCS :: filter kept r)) cCS (next_in r eos)) as [-> |[-> | ->]]; reflexivity.
  - destruct (sep_kinds (seen before (cES :: filter kept r)) cES (next_in r eos)) as [-> |[-> | ->]]; reflexivity.
  - assert (X : et_fate r false = cEN \/ et_fate r false = cET \/ et_fate r false = cON).
    { rewrite et_fate_beyond. destruct (beyond _ _) as [e|]; [destruct e|]; auto. }
    destruct (seen before _); try reflexivity; destruct X as [-> |[-> | ->]]; reflexivity.
  - pose proof (seen_strong_l before (cNSM :: filter kept r)) as SL. pose proof (seen_strong_r before (cNSM :: filter kept r)) as SR.
    pose proof (al_never before (cNSM :: filter kept r)) as SA.
    destruct (seen before _); cbn [nsm_class l_after al_after] in *; try reflexivity; try discriminate SA.
    + now rewrite (SL eq_refl).
    + specialize (SR eq_refl). destruct (last_strong sos before); try reflexivity. congruence.
Qed.

Lemma weak_exact_at pre : forall before c post,
  nth_error (w7l (wl eos (pre ++ c :: post) (seen before (filter kept (pre ++ c :: post))) false) (lastl before)) (length pre)
  = Some (if kept c then weak_result sos (rev (filter kept pre) ++ before) c (filter kept post) else c).
Proof.
  induction pre as [|a pre IH]; intros before c post.
  - cbn [app length wl filter rev]. rewrite kept_removed. destruct (kept c) eqn:K; cbn [negb w7l nth_error].
    + rewrite wl_class_exact by assumption. unfold weak_result. fold (lastl before).
      destruct (weak_class sos before c (filter kept post)); reflexivity.
    + destruct c; try discriminate K; reflexivity.
  - cbn [app length wl filter rev]. rewrite kept_removed. destruct (kept a) eqn:K; cbn [negb w7l nth_error].
    + rewrite l_after_keep, wl_prev_seen, al_never by assumption. rewrite IH. cbn [rev]. now rewrite <- app_assoc.
    + replace (l_after a (lastl before)) with (lastl before) by (destruct a; try discriminate K; reflexivity).
      now rewrite IH.
Qed.
End Pass.

Lemma weak_exact s pc : NoDup (seq_indices (s_runs s)) -> in_range pc (seq_indices (s_runs s)) ->
  (s_sos s = cL \/ s_sos s = cR) -> (s_eos s = cL \/ s_eos s = cR) ->
  forall pre c post, reads pc (seq_indices (s_runs s)) = pre ++ c :: post ->
  nth_error (reads (resolve_weak s pc) (seq_indices (s_runs s))) (length pre)
  = Some (if kept c then weak_result (s_sos s) (rev (filter kept pre)) c (filter kept post) else c).
Proof.
  intros ND RI HS HE pre c post H.
  destruct (resolve_weak_out s pc ND RI) as (_ & R & _). rewrite R, H. unfold weak_list.
  pose proof (weak_exact_at (s_sos s) (s_eos s) HS HE pre [] c post) as W. rewrite app_nil_r in W. rewrite <- W.
  cbn [seen]. unfold lastl, last_strong. cbn [filter hd]. do 3 f_equal. destruct HS as [-> | ->]; reflexivity.
Qed.

(** Whatever line is asked for, reordering only permutes its characters. *)
From Coq Require Import List NArith ZArith Lia Bool Arith Permutation ZifyBool ZifyNat ZifyN.
Import ListNotations.
From Verif Require Import Base Enums EnumFacts UcdModel BidiModel BidiSpec BidiLemmas.
Open Scope nat_scope.

(** the runs [rs] follow each other from [s] to [e] *)
Fixpoint chained (s e : nat) (rs : list run) : Prop :=
  match rs with
  | [] => s = e
  | r :: rest => fst r = s /\ chained (snd r) e rest
  end.

Lemma vruns_chained levels le n : forall i start level mn mx rs mn' mx',
  vruns_loop levels le i n start level mn mx = (rs, mn', mx') -> chained start le rs.
Proof.
  induction n as [|n IH]; intros i start level mn mx rs mn' mx' H; cbn [vruns_loop] in H.
  - injection H as <- _ _. cbn. auto.
  - destruct (_ =? _)%N; [exact (IH _ _ _ _ _ _ _ _ H)|].
    destruct (vruns_loop levels le (S i) n i _ _ _) as [[rs0 a] b] eqn:E. injection H as <- _ _.
    cbn. split; [reflexivity|]. exact (IH _ _ _ _ _ _ _ _ E).
Qed.

Lemma l2_pass_perm sl k runs : forall g, Permutation (l2_pass sl k runs g) (g ++ runs).
Proof.
  induction runs as [|r rest IH]; intros g; cbn [l2_pass]; [rewrite app_nil_r; reflexivity|].
  destruct (_ <? _)%N.
  - apply Permutation_app_head. constructor. exact (IH []).
  - rewrite IH. cbn [app]. apply Permutation_middle.
Qed.
Lemma l2_loop_perm sl n : forall k runs, Permutation (l2_loop sl n k runs) runs.
Proof.
  induction n as [|n IH]; intros k runs; cbn [l2_loop]; [reflexivity|].
  rewrite IH. exact (l2_pass_perm sl k runs []).
Qed.

Lemma render_pieces t levels runs : forall out, render_runs t levels runs = Ret out ->
  exists ps, Forall2 (fun r p => str_slice t (fst r) (snd r) = Ret p) runs ps /\ Permutation out (concat ps).
Proof.
  induction runs as [|r rest IH]; intros out H; cbn [render_runs] in H.
  - injection H as <-. exists []. split; [constructor|reflexivity].
  - destruct (str_slice t _ _) as [s|] eqn:E; [|discriminate]. cbn [obind] in H.
    destruct (render_runs t levels rest) as [o|]; [|discriminate]. cbn [obind] in H. injection H as <-.
    destruct (IH o eq_refl) as (ps & F & P). exists (s :: ps). split; [constructor; assumption|].
    cbn [concat]. apply Permutation_app; [|assumption]. destruct (level_is_rtl _); [symmetry; apply Permutation_rev|reflexivity].
Qed.

Lemma Forall2_perm {A B} (R : A -> B -> Prop) l l' : Permutation l l' -> forall m, Forall2 R l m ->
  exists m', Permutation m m' /\ Forall2 R l' m'.
Proof.
  induction 1 as [|x l l' P IH|x y l|l l' l'' P1 IH1 P2 IH2]; intros m F.
  - inversion F; subst. exists []. split; [reflexivity|constructor].
  - inversion F as [|? z ? m0 H1 H2]; subst. destruct (IH m0 H2) as (m' & P' & F'). exists (z :: m').
    split; [constructor; assumption|constructor; assumption].
  - inversion F as [|? z ? m0 H1 H2]; subst. inversion H2 as [|? w ? m1 H3 H4]; subst.
    exists (w :: z :: m1). split; [constructor|constructor; [assumption|constructor; assumption]].
  - destruct (IH1 m F) as (m1 & P & F1). destruct (IH2 m1 F1) as (m2 & P' & F2). exists m2.
    split; [etransitivity; eassumption|assumption].
Qed.

Lemma slice_chain t s m e x y : str_slice t s m = Ret x -> str_slice t m e = Ret y -> str_slice t s e = Ret (x ++ y).
Proof.
  intros H1 H2. apply str_slice_spec in H1 as (a & b & -> & -> & ->).
  apply str_slice_spec in H2 as (a' & b' & E & L & ->).
  assert (X : a ++ x = a' /\ b = y ++ b').
  { pose proof (split_at_app (a ++ x) b) as S1. pose proof (split_at_app a' (y ++ b')) as S2.
    rewrite <- E, <- L in S2. rewrite <- slen_app in S2. rewrite <- app_assoc in S1. rewrite S1 in S2.
    injection S2 as E1 E2. auto. }
  destruct X as [<- ->]. apply str_slice_spec. exists a, b'. rewrite !slen_app, <- !app_assoc.
  repeat split. lia.
Qed.

Lemma slice_empty t s x : str_slice t s s = Ret x -> x = [].
Proof.
  intros H. apply str_slice_spec in H as (a & b & _ & -> & L). apply slen_0. lia.
Qed.

Lemma chain_concat t e rs : forall s ps x, chained s e rs -> rs <> [] ->
  Forall2 (fun r p => str_slice t (fst r) (snd r) = Ret p) rs ps -> str_slice t s e = Ret x -> concat ps = x.
Proof.
  assert (G : forall rs s ps, chained s e rs -> rs <> [] ->
    Forall2 (fun r p => str_slice t (fst r) (snd r) = Ret p) rs ps -> str_slice t s e = Ret (concat ps)).
  { clear rs. induction rs as [|r rs IH]; intros s ps C N F; [contradiction|].
    inversion F as [|? p ? ps' H1 H2]; subst. cbn [chained] in C. destruct C as [<- C]. destruct rs as [|r' rs].
    - cbn in C. subst e. inversion H2; subst. cbn [concat]. rewrite app_nil_r. exact H1.
    - cbn [concat]. apply (slice_chain t (fst r) (snd r) e); [exact H1|]. apply IH; [exact C|discriminate|exact H2]. }
  intros s ps x C N F H. rewrite (G rs s ps C N F) in H. injection H as <-. reflexivity.
Qed.

Theorem reorder_any b pl ls le out : reorder_line b pl ls le = Ret out ->
  exists line, str_slice (b_text b) ls le = Ret line /\ Permutation out line.
Proof.
  unfold reorder_line. intros H. destruct (visual_runs b pl ls le) as [[levels runs]|] eqn:V; [|discriminate].
  cbn [obind] in H. match type of H with (if ?c then _ else _) = _ => destruct c end; [exists out; split; [exact H|reflexivity]|].
  unfold visual_runs in V. destruct (_ && _); [|discriminate].
  destruct (str_slice (b_text b) ls le) as [line|] eqn:EL; [|discriminate]. cbn [obind] in V.
  destruct (ls <? _); [|discriminate].
  destruct (vruns_loop _ le (S ls) _ ls _ _ _) as [[rs mn] mx] eqn:EV.
  destruct (level_lowest_ge_rtl mn) as [lo|]; [|discriminate]. injection V as <- <-.
  exists line. split; [reflexivity|].
  apply vruns_chained in EV. destruct (render_pieces _ _ _ _ H) as (ps & F & P).
  destruct (Forall2_perm _ _ _ (l2_loop_perm (b_levels b) _ mx rs) ps F) as (ps' & PP & F').
  destruct rs as [|r rs].
  { inversion F'; subst. cbn in EV. subst le. apply slice_empty in EL. subst line.
    apply Permutation_sym, Permutation_nil in PP. subst ps. exact P. }
  rewrite <- (chain_concat _ _ _ _ _ _ EV ltac:(discriminate) F' EL), P.
  clear -PP. induction PP; cbn [concat]; [reflexivity|now apply Permutation_app_head| |etransitivity; eassumption].
  rewrite !app_assoc. apply Permutation_app_tail, Permutation_app_comm.
Qed.

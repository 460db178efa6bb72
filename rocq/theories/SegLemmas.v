(** Cutting a text at its boundaries: existence and uniqueness, for any notion
    of boundary that holds at both ends of a text. *)
From Coq Require Import List NArith Lia Bool Arith.
Import ListNotations.
From Verif Require Import Base Enums UcdModel BidiModel BidiLemmas GraphSpec.
Open Scope nat_scope.

Lemma bytes_slen t : bytes t = slen t.
Proof. reflexivity. Qed.

Lemma app_split {A} (a b c d : list A) : a ++ b = c ++ d ->
  (exists m, c = a ++ m /\ b = m ++ d) \/ (exists m, a = c ++ m /\ d = m ++ b).
Proof.
  revert c. induction a as [|x a IH]; intros c H; cbn in H.
  - left. exists c. auto.
  - destruct c as [|y c]; cbn in H.
    + right. exists (x :: a). subst. auto.
    + injection H as -> H. destruct (IH c H) as [(m & -> & ->)|(m & -> & ->)]; [left|right]; eexists; split; reflexivity.
Qed.

Lemma app_len_inj {A} (a b c d : list A) : a ++ b = c ++ d -> length a = length c -> a = c /\ b = d.
Proof.
  revert c. induction a as [|x a IH]; intros [|y c] H L; cbn in *; try discriminate; [auto|].
  injection H as -> H. destruct (IH c H) as [-> ->]; auto.
Qed.

Lemma slen_len_inj a b c d : a ++ b = c ++ d -> slen a = slen c -> a = c /\ b = d.
Proof.
  intros H E. destruct (app_split _ _ _ _ H) as [(m & -> & ->)|(m & -> & ->)].
  - rewrite slen_app in E. rewrite (slen_0 m) by lia. rewrite app_nil_r. auto.
  - rewrite slen_app in E. rewrite (slen_0 m) by lia. rewrite app_nil_r. auto.
Qed.

Lemma snoc_inv {A} (l : list A) : l <> [] -> exists p x, l = p ++ [x].
Proof. intros H. destruct (exists_last H) as (p & x & ->). eauto. Qed.

Section Cut.
Context (bd : str -> str -> bool).
Hypothesis bd_start : forall t, bd [] t = true.
Hypothesis bd_end : forall t, bd t [] = true.

Lemma next_bound_unique pre post m1 r1 m2 r2 :
  next_bound bd pre post m1 r1 -> next_bound bd pre post m2 r2 -> m1 = m2 /\ r1 = r2.
Proof.
  intros (E1 & N1 & B1 & F1) (E2 & N2 & B2 & F2). subst post.
  destruct (app_split _ _ _ _ E2) as [(m & -> & ->)|(m & -> & ->)].
  - destruct m as [|x m]; [rewrite app_nil_r; auto|].
    rewrite (F2 m1 (x :: m)) in B1; try discriminate; auto.
  - destruct m as [|x m]; [rewrite app_nil_r; auto|].
    rewrite (F1 m2 (x :: m)) in B2; try discriminate; auto.
Qed.

Lemma prev_bound_unique pre post s1 m1 s2 m2 :
  prev_bound bd pre post s1 m1 -> prev_bound bd pre post s2 m2 -> s1 = s2 /\ m1 = m2.
Proof.
  intros (E1 & N1 & B1 & F1) (E2 & N2 & B2 & F2). subst pre.
  destruct (app_split _ _ _ _ E2) as [(m & -> & ->)|(m & -> & ->)].
  - destruct m as [|x m]; [rewrite app_nil_r; auto|].
    specialize (F1 (x :: m) m2 eq_refl ltac:(discriminate) N2).
    rewrite B2 in F1. discriminate.
  - destruct m as [|x m]; [rewrite app_nil_r; auto|].
    specialize (F2 (x :: m) m1 eq_refl ltac:(discriminate) N1).
    rewrite B1 in F2. discriminate.
Qed.

(** the first boundary after a position exists *)
Lemma next_bound_exists post : forall pre, post <> [] -> exists mid rest, next_bound bd pre post mid rest.
Proof.
  induction post as [|x post IH]; intros pre N; [easy|].
  destruct (bd (pre ++ [x]) post) eqn:E.
  - exists [x], post. repeat split; auto; try discriminate.
    intros m1 m2 H N1 N2. destruct m1 as [|a m1]; [easy|]. destruct m1; [|destruct m1; discriminate].
    cbn in H. injection H as H0 H. subst m2. congruence.
  - destruct post as [|y post]; [rewrite bd_end in E; discriminate|].
    destruct (IH (pre ++ [x])) as (mid & rest & H1 & H2 & H3 & H4); [discriminate|].
    exists (x :: mid), rest. repeat split.
    + cbn. congruence.
    + discriminate.
    + rewrite <- app_assoc in H3. exact H3.
    + intros m1 m2 H N1 N2. destruct m1 as [|a m1]; [easy|]. cbn in H. injection H as <- H.
      destruct m1 as [|b m1].
      * cbn in H. subst m2. rewrite <- H1. exact E.
      * specialize (H4 (b :: m1) m2 H ltac:(discriminate) N2).
        rewrite <- app_assoc in H4. exact H4.
Qed.

(** pieces of the text after position [pre] *)
Definition seg_from (pre post : str) (pieces : list str) : Prop :=
  concat pieces = post /\ Forall (fun p => p <> []) pieces /\
  forall m1 m2, post = m1 ++ m2 ->
    (bd (pre ++ m1) m2 = true <-> exists a b, pieces = a ++ b /\ m1 = concat a).

Lemma seg_from_cons pre post mid rest ps : bd pre post = true ->
  next_bound bd pre post mid rest -> seg_from (pre ++ mid) rest ps -> seg_from pre post (mid :: ps).
Proof.
  intros B (E & N & B1 & F) (C & NE & I). subst post. split; [cbn; congruence|].
  split; [constructor; auto|]. intros m1 m2 H.
  destruct m1 as [|x m1].
  - split; [intros _; exists [], (mid :: ps); auto|]. intros _. cbn in H. rewrite app_nil_r. subst. auto.
  - destruct (app_split _ _ _ _ H) as [(m & E1 & E2)|(m & E1 & E2)].
    + rewrite E1, app_assoc. rewrite (I m m2 E2). split.
      * intros (a & b & -> & ->). exists (mid :: a), b. auto.
      * intros (a & b & H1 & H2). destruct a as [|y a].
        -- cbn in H2. apply app_eq_nil in H2. destruct H2 as [-> ->]. easy.
        -- cbn in H1, H2. injection H1 as -> H1. apply app_inv_head in H2. exists a, b. auto.
    + destruct m as [|y m].
      * rewrite app_nil_r in E1. cbn in E2. subst m2. rewrite <- E1. split; [|auto].
        intros _. exists [mid], ps. cbn. rewrite app_nil_r. auto.
      * rewrite E2. rewrite (F (x :: m1) (y :: m)); auto; try discriminate.
        split; [discriminate|]. intros (a & b & H1 & H2). exfalso.
        destruct a as [|z a]; [discriminate|]. cbn in H1, H2. injection H1 as <- H1.
        rewrite H2 in E1. apply (f_equal (@length _)) in E1. rewrite !app_length in E1. cbn in E1. lia.
Qed.

Lemma seg_from_nil pre : seg_from pre [] [].
Proof.
  split; [reflexivity|]. split; [constructor|]. intros m1 m2 H. symmetry in H. apply app_eq_nil in H. destruct H as [-> ->].
  rewrite bd_end. split; auto. intros _. exists [], []. auto.
Qed.

Lemma seg_from_exists n : forall pre post, length post <= n -> bd pre post = true -> exists ps, seg_from pre post ps.
Proof.
  induction n; intros pre post L B.
  - destruct post; [|cbn in L; lia]. exists []. apply seg_from_nil.
  - destruct post as [|x post]; [exists []; apply seg_from_nil|].
    destruct (next_bound_exists (x :: post) pre ltac:(discriminate)) as (mid & rest & H).
    destruct H as (E & N & B1 & F). assert (H : next_bound bd pre (x :: post) mid rest) by (repeat split; auto).
    destruct (IHn (pre ++ mid) rest) as (ps & P); auto.
    { rewrite E, app_length in L. destruct mid; [easy|]. cbn in L. lia. }
    exists (mid :: ps). eapply seg_from_cons; eauto.
Qed.

Lemma seg_from_segments text ps : seg_from [] text ps <-> segments bd text ps.
Proof. unfold seg_from, segments. cbn. reflexivity. Qed.

Lemma segments_exist text : exists ps, segments bd text ps.
Proof. destruct (seg_from_exists (length text) [] text) as (ps & H); auto. exists ps. apply seg_from_segments. exact H. Qed.

(** between two consecutive cuts there is no boundary *)
Lemma prefix_pieces (a b c : list str) : Forall (fun p : str => p <> []) c -> a ++ b = c ->
  forall d e, c = d ++ e -> length (concat d) <= length (concat a) -> exists f, a = d ++ f.
Proof.
  intros N <- d e H L. destruct (app_split _ _ _ _ H) as [(m & -> & ->)|(m & -> & ->)]; [|eauto].
  exists []. rewrite app_nil_r. destruct m as [|x m]; [rewrite app_nil_r; auto|].
  rewrite concat_app, app_length in L. cbn in L. rewrite app_length in L.
  rewrite app_assoc in N. apply Forall_app in N. destruct N as [N _]. apply Forall_app in N. destruct N as [_ N].
  inversion N; subst. destruct x; [easy|]. cbn in L. lia.
Qed.

Lemma segments_next text a p b : segments bd text (a ++ p :: b) ->
  next_bound bd (concat a) (concat (p :: b)) p (concat b).
Proof.
  clear bd_start bd_end.
  intros (C & N & I). assert (Np : p <> []).
  { apply Forall_app in N. destruct N as [_ N]. inversion N; auto. }
  split; [reflexivity|]. split; [auto|]. rewrite concat_app in C. cbn in C. split.
  - apply I.
    + rewrite <- C, app_assoc. reflexivity.
    + exists (a ++ [p]), b. rewrite <- app_assoc, concat_app. cbn. rewrite app_nil_r. auto.
  - intros m1 m2 E N1 N2. destruct (bd (concat a ++ m1) (m2 ++ concat b)) eqn:B; [|reflexivity]. exfalso.
    apply I in B; [|rewrite <- C, E, !app_assoc; reflexivity].
    destruct B as (d & e & H1 & H2).
    assert (L1 : length (concat d) = length (concat a) + length m1) by (rewrite <- H2, app_length; reflexivity).
    destruct (app_split _ _ _ _ H1) as [(m & -> & H3)|(m & -> & H3)].
    + destruct m as [|x m].
      * rewrite app_nil_r in L1. destruct m1; [easy|]. cbn in L1. lia.
      * cbn in H3. injection H3 as <- H3. rewrite concat_app, app_length in L1. cbn in L1. rewrite app_length in L1.
        rewrite E, app_length in L1. destruct m2; [easy|]. cbn in L1. lia.
    + rewrite concat_app, app_length in L1. destruct m1; [easy|]. cbn in L1. lia.
Qed.

Lemma segments_prev text a p b : segments bd text (a ++ p :: b) ->
  prev_bound bd (concat (a ++ [p])) (concat b) (concat a) p.
Proof.
  clear bd_start bd_end.
  intros S. destruct (segments_next _ _ _ _ S) as (_ & Np & _ & F).
  destruct S as (C & N & I). rewrite concat_app in *. cbn in *. rewrite app_nil_r.
  split; [reflexivity|]. split; [auto|]. split; [|exact F].
  apply I; [auto|]. exists a, (p :: b). auto.
Qed.

Lemma segments_unique text ps qs : segments bd text ps -> segments bd text qs -> ps = qs.
Proof.
  clear bd_start bd_end.
  intros P Q.
  assert (H : forall n a b c, length b <= n -> segments bd text (a ++ b) -> segments bd text (a ++ c) -> b = c).
  { induction n; intros a b c L S1 S2.
    - destruct b; [|cbn in L; lia]. destruct S1 as (C1 & N1 & _), S2 as (C2 & N2 & _). rewrite app_nil_r in C1.
      rewrite concat_app, C1 in C2. destruct c as [|q c]; [reflexivity|].
      apply Forall_app in N2. destruct N2 as [_ N2]. inversion N2; subst.
      apply (f_equal (@length _)) in C2. rewrite app_length in C2. cbn in C2. rewrite app_length in C2. destruct q; [easy|].
      cbn in C2. lia.
    - destruct b as [|p b].
      + destruct S1 as (C1 & N1 & _), S2 as (C2 & N2 & _). rewrite app_nil_r in C1.
        rewrite concat_app, C1 in C2. destruct c as [|q c]; [reflexivity|].
        apply Forall_app in N2. destruct N2 as [_ N2]. inversion N2; subst.
        apply (f_equal (@length _)) in C2. rewrite app_length in C2. cbn in C2. rewrite app_length in C2. destruct q; [easy|].
        cbn in C2. lia.
      + destruct c as [|q c].
        { destruct S1 as (C1 & N1 & _), S2 as (C2 & N2 & _). rewrite app_nil_r in C2.
          rewrite concat_app, C2 in C1. apply Forall_app in N1. destruct N1 as [_ N1]. inversion N1; subst.
          apply (f_equal (@length _)) in C1. rewrite app_length in C1. cbn in C1. rewrite app_length in C1. destruct p; [easy|].
          cbn in C1. lia. }
        pose proof (segments_next _ _ _ _ S1) as H1. pose proof (segments_next _ _ _ _ S2) as H2.
        assert (E : concat (p :: b) = concat (q :: c)).
        { destruct S1 as (C1 & _ & _), S2 as (C2 & _ & _). rewrite concat_app in C1, C2. rewrite <- C2 in C1.
          apply app_inv_head in C1. exact C1. }
        rewrite E in H1. destruct (next_bound_unique _ _ _ _ _ _ H1 H2) as [-> _]. f_equal.
        apply (IHn (a ++ [q]) b c); [cbn in L; lia| |]; rewrite <- app_assoc; assumption. }
  apply (H (length ps) [] ps qs); auto.
Qed.
End Cut.

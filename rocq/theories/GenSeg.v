(** The written segments are divided as the tests say. *)
From Coq Require Import String List NArith ZArith Lia Bool PeanoNat ZifyBool ZifyNat ZifyN.
From Verif Require Import Base GenRegex GenModel GenSpec GenBinarySpec GenMap GenSegModel GenSegSpec.
Import ListNotations.
Open Scope list_scope.

Lemma boundary_snoc ls x k : boundary (ls ++ [x]) k <-> boundary ls k \/ (ls <> [] /\ k = length (concat ls)).
Proof.
  split.
  - intros (p & q & E & Hp & Hq & Hk). destruct (exists_last Hq) as (q' & y & ->).
    rewrite app_assoc in E. apply app_inj_tail in E as [E <-]. destruct q' as [|z q'].
    + right. rewrite app_nil_r in E. subst p. auto.
    + left. exists p, (z :: q'). repeat split; auto. discriminate.
  - intros [(p & q & -> & Hp & Hq & Hk)|[Hne ->]].
    + exists p, (q ++ [x]). rewrite app_assoc. repeat split; auto. destruct q; discriminate.
    + exists ls, [x]. repeat split; auto. discriminate.
Qed.

(** The last segment may grow. *)
Lemma boundary_last ls x y k : boundary (ls ++ [x]) k <-> boundary (ls ++ [y]) k.
Proof. rewrite !boundary_snoc. reflexivity. Qed.

Lemma boundary_lt ls k : Forall (fun l => l <> []) ls -> boundary ls k -> (0 < k < length (concat ls))%nat.
Proof.
  intros H (p & q & -> & Hp & Hq & <-). apply Forall_app in H as [H1 H2].
  assert (forall l : list str, Forall (fun x => x <> []) l -> l <> [] -> (0 < length (concat l))%nat) as K.
  { intros [|x l] Hl Hne; [congruence|]. inversion Hl; subst. cbn. rewrite app_length. destruct x; [congruence|]. cbn. lia. }
  rewrite concat_app, app_length. pose proof (K _ H1 Hp). pose proof (K _ H2 Hq). lia.
Qed.

Section loop.
  Variable split : nat -> bool -> outcome bool.
  Variable cut : nat -> bool -> bool.
  Variable cs : str.

  Lemma cluster_loop_ok bs : forall i (cluster : str) (out : list str),
    (forall j, (j < length bs)%nat -> split (i + j) (nth j bs false) = Ret (cut (i + j) (nth j bs false))) ->
    (i + 1 + length bs = length cs)%nat -> cluster <> [] -> Forall (fun l => l <> []) out ->
    concat (out ++ [cluster]) = firstn (i + 1) cs ->
    exists ls, cluster_loop split cs i bs cluster out = Ret ls /\ concat ls = cs /\ Forall (fun l => l <> []) ls /\
      forall k, boundary ls k <-> boundary (out ++ [cluster]) k \/
        exists j, (j < length bs)%nat /\ k = (i + j + 1)%nat /\ cut (i + j) (nth j bs false) = true.
  Proof.
    induction bs as [|b bs IH]; intros i cluster out Hs Hl Hc Ho E; cbn [cluster_loop].
    - eexists. split; [reflexivity|]. cbn in Hl. split; [etransitivity; [exact E|]; apply firstn_all2; lia|].
      split; [apply Forall_app; repeat constructor; auto|].
      intros k. split; [auto|]. intros [H|(j & Hj & _)]; [exact H|]. cbn in Hj. lia.
    - pose proof (Hs 0%nat) as H0. cbn [length nth] in H0. rewrite Nat.add_0_r in H0. rewrite H0 by lia. cbn [obind].
      unfold at_index. cbn [length] in Hl.
      destruct (nth_error cs (i + 1)) as [c|] eqn:Ec.
      2:{ apply nth_error_None in Ec. lia. }
      cbn [obind].
      assert (firstn (S i + 1) cs = firstn (i + 1) cs ++ [c]) as Ef.
      { replace (S i + 1)%nat with (i + 1 + 1)%nat by lia. clear -Ec. revert cs Ec. generalize (i + 1)%nat as n.
        induction n as [|n IH]; intros [|x l] E; cbn in *; try discriminate; [now injection E as ->|]. f_equal. now apply IH. }
      assert (forall j, (j < length bs)%nat -> split (S i + j) (nth j bs false) = Ret (cut (S i + j) (nth j bs false))) as Hs'.
      { intros j Hj. specialize (Hs (S j)). cbn [length nth] in Hs. replace (i + S j)%nat with (S i + j)%nat in Hs by lia. apply Hs. lia. }
      assert (length (concat (out ++ [cluster])) = (i + 1)%nat) as Hlen by (rewrite E, firstn_length; lia).
      destruct (cut i b) eqn:Eb.
      + destruct (IH (S i) [c] (out ++ [cluster])) as (ls & -> & H1 & H2 & H3).
        { exact Hs'. } { lia. } { discriminate. } { apply Forall_app; repeat constructor; auto. }
        { rewrite concat_app, E. cbn [concat]. rewrite app_nil_r. now rewrite Ef. }
        exists ls. split; [reflexivity|]. split; [exact H1|]. split; [exact H2|]. intros k. rewrite H3, boundary_snoc, Hlen. split.
        * intros [[H|[_ ->]]|(j & Hj & -> & Hcut)]; [auto| |].
          -- right. exists 0%nat. cbn [length nth]. rewrite Nat.add_0_r. repeat split; [lia|exact Eb].
          -- right. exists (S j). cbn [length nth]. replace (i + S j)%nat with (S i + j)%nat by lia. repeat split; [lia|exact Hcut].
        * intros [H|(j & Hj & -> & Hcut)]; [auto|]. destruct j as [|j].
          -- left. right. split; [destruct out; discriminate|lia].
          -- right. exists j. cbn [length nth] in Hj, Hcut. replace (i + S j)%nat with (S i + j)%nat in Hcut by lia. repeat split; [lia|lia|exact Hcut].
      + destruct (IH (S i) (cluster ++ [c]) out) as (ls & -> & H1 & H2 & H3).
        { exact Hs'. } { lia. } { destruct cluster; discriminate. } { exact Ho. }
        { rewrite concat_app in *. cbn [concat] in *. rewrite app_nil_r in *. rewrite app_assoc, E. now rewrite Ef. }
        exists ls. split; [reflexivity|]. split; [exact H1|]. split; [exact H2|]. intros k. rewrite H3, (boundary_last _ _ cluster). split.
        * intros [H|(j & Hj & -> & Hcut)]; [auto|]. right. exists (S j). cbn [length nth]. replace (i + S j)%nat with (S i + j)%nat by lia. repeat split; [lia|exact Hcut].
        * intros [H|(j & Hj & -> & Hcut)]; [auto|]. destruct j as [|j].
          -- exfalso. cbn [nth] in Hcut. rewrite Nat.add_0_r in Hcut. congruence.
          -- right. exists j. cbn [length nth] in Hj, Hcut. replace (i + S j)%nat with (S i + j)%nat in Hcut by lia. repeat split; [lia|lia|exact Hcut].
  Qed.
End loop.

Lemma single_boundary (x : str) k : ~ boundary [x] k.
Proof.
  intros (p & q & E & Hp & Hq & _). destruct p as [|y p]; [congruence|]. injection E as _ E. symmetry in E. apply app_eq_nil in E as [_ E]. congruence.
Qed.

Lemma run_loop split cut c cs bs : (length bs = length cs)%nat ->
  (forall j, (j < length bs)%nat -> split j (nth j bs false) = Ret (cut j (nth j bs false))) ->
  exists ls, cluster_loop split (c :: cs) 0 bs [c] [] = Ret ls /\
    divides (c :: cs) (fun k => cut (k - 1)%nat (nth (k - 1) bs false) = true) ls.
Proof.
  intros Hl Hs. destruct (cluster_loop_ok split cut (c :: cs) bs 0%nat [c] []) as (ls & E & H1 & H2 & H3).
  { exact Hs. } { cbn. lia. } { discriminate. } { constructor. } { reflexivity. }
  exists ls. split; [exact E|]. split; [exact H1|]. split; [exact H2|]. intros k Hk. rewrite H3. cbn [length] in Hk. split.
  - intros [H|(j & Hj & -> & Hc)]; [now apply single_boundary in H|]. replace (0 + j + 1 - 1)%nat with (0 + j)%nat by lia. exact Hc.
  - intros Hc. right. exists (k - 1)%nat. repeat split; [lia|lia|exact Hc].
Qed.

Lemma clusters_ok t : chars t <> [] -> length (breaks t) = (length (chars t) - 1)%nat ->
  exists ls, clusters t = Ret ls /\ divides (chars t) (fun k => nth (k - 1) (breaks t) false = true) ls.
Proof.
  intros Hc Hl. unfold clusters. destruct (chars t) as [|c cs]; [congruence|]. cbn [at_index nth_error obind].
  apply (run_loop (fun _ brk => Ret brk) (fun _ brk => brk)); [cbn in Hl; lia|reflexivity].
Qed.

Lemma legacy_spec r : legacy_should_break r = true <-> extended_only r.
Proof. unfold legacy_should_break, extended_only. rewrite orb_true_iff, !str_eqb_spec. reflexivity. Qed.

Lemma legacy_ok t : chars t <> [] -> length (breaks t) = (length (chars t) - 1)%nat ->
  length (rules t) = (length (chars t) - 1)%nat ->
  exists o, legacy_clusters t = Ret o /\
    match o with
    | None => Forall (fun r => ~ extended_only r) (rules t)
    | Some ls => divides (chars t)
        (fun k => nth (k - 1) (breaks t) false = true \/ extended_only (nth (k - 1) (rules t) [])) ls
    end.
Proof.
  intros Hc Hl Hr. unfold legacy_clusters. destruct (existsb legacy_should_break (rules t)) eqn:E.
  - destruct (chars t) as [|c cs]; [congruence|]. cbn [at_index nth_error obind]. cbn [length] in Hl, Hr.
    destruct (run_loop (fun i brk => if brk then Ret true else obind (at_index (rules t) i) (fun r => Ret (legacy_should_break r)))
      (fun i brk => brk || legacy_should_break (nth i (rules t) [])) c cs (breaks t)) as (ls & -> & H1 & H2 & H3).
    { lia. }
    { intros j Hj. destruct (nth j (breaks t) false); [reflexivity|]. cbn [orb]. unfold at_index.
      rewrite (nth_error_nth' (rules t) []) by lia. reflexivity. }
    cbn [obind]. eexists. split; [reflexivity|]. split; [exact H1|]. split; [exact H2|]. intros k Hk. rewrite H3 by exact Hk.
    rewrite orb_true_iff, legacy_spec. reflexivity.
  - eexists. split; [reflexivity|]. apply Forall_forall. intros r Hin Hx. apply legacy_spec in Hx.
    assert (existsb legacy_should_break (rules t) = true) by (apply existsb_exists; eauto). congruence.
Qed.

(** There is only one way to divide a text at given places. *)
Lemma divides_unique s cut ls ls' : divides s cut ls -> divides s cut ls' -> ls = ls'.
Proof.
  intros (E & N & H) (E' & N' & H').
  assert (forall k, boundary ls k <-> boundary ls' k) as B.
  { intros k. split; intros K.
    - pose proof (boundary_lt _ _ N K) as L. rewrite E in L. apply H', H; assumption.
    - pose proof (boundary_lt _ _ N' K) as L. rewrite E' in L. apply H, H'; assumption. }
  clear H H'. rewrite <- E' in E. clear E'. revert ls' N' E B. induction ls as [|x ls IH]; intros ls' N' E B.
  - destruct ls' as [|y ls']; [reflexivity|]. cbn in E. inversion N'; subst. symmetry in E. apply app_eq_nil in E as [-> _]. congruence.
  - inversion N as [|? ? Hx N1]; subst. destruct ls' as [|y ls'].
    { cbn in E. apply app_eq_nil in E as [-> _]. congruence. }
    inversion N' as [|? ? Hy N1']; subst. cbn [concat] in E.
    assert (length x = length y) as Hlen.
    { assert (forall a (l : list str) b (m : list str), a ++ concat l = b ++ concat m -> Forall (fun z => z <> []) m -> b <> [] ->
        (forall k, boundary (a :: l) k -> boundary (b :: m) k) -> (length a < length b)%nat -> False) as K.
      { clear. intros a l b m E Nm Nb B L. destruct l as [|z l].
        - apply (f_equal (@length N)) in E. rewrite !app_length in E. cbn in E. lia.
        - assert (boundary (a :: z :: l) (length a)) as Ba.
          { exists [a], (z :: l). cbn. rewrite app_nil_r. repeat split; discriminate. }
          apply B in Ba as (p & q & Eq & Hp & Hq & Hk). destruct p as [|p0 p]; [congruence|]. injection Eq as <- Eq.
          cbn in Hk. rewrite app_length in Hk. lia. }
      destruct (lt_eq_lt_dec (length x) (length y)) as [[L|L]|L]; [exfalso|exact L|exfalso].
      - eapply (K x ls y ls'); eauto. intros k. apply B.
      - eapply (K y ls' x ls); eauto. intros k. apply B. }
    assert (x = y /\ concat ls = concat ls') as [-> Ec].
    { revert y Hlen E Hy N' B. clear. induction x as [|a x IH]; intros [|b y] Hl E; cbn in *; try discriminate; [auto|].
      injection E as -> E. intros _ _ _. injection Hl as Hl. clear IH. assert (x = y /\ concat ls = concat ls') as [-> ?]; [|auto].
      revert y Hl E. induction x as [|c x IH]; intros [|d y] Hl E; cbn in *; try discriminate; [auto|].
      injection E as -> E. injection Hl as Hl. destruct (IH y Hl E) as [-> ?]. auto. }
    f_equal. apply IH; auto. intros k.
    assert (forall l : list str, Forall (fun z => z <> []) l -> (boundary l k <-> (0 < k)%nat /\ boundary (y :: l) (length y + k))) as T.
    { clear. intros l Nl. split.
      - intros K. pose proof (boundary_lt _ _ Nl K). destruct K as (p & q & -> & Hp & Hq & Hk). split; [lia|].
        exists (y :: p), q. cbn. rewrite app_length. repeat split; auto. discriminate.
      - intros [L (p & q & Eq & Hp & Hq & Hk)]. destruct p as [|p0 p]; [congruence|]. injection Eq as <- ->.
        cbn in Hk. rewrite app_length in Hk. exists p, q. repeat split; auto; [|lia]. intros ->. cbn in Hk. lia. }
    rewrite (T ls N1), (T ls' N1'), B. reflexivity.
Qed.

(** A word boundary hides what is beyond it: cutting a text at a boundary does
    not move the boundaries of the two parts. *)
From Coq Require Import List NArith Lia Bool Arith.
Import ListNotations.
From Verif Require Import Base Enums TableTypes UcdModel BidiModel BidiLemmas GraphSpec SegLemmas WordModel WordSpec WordTables WordRules WordForward WordBackward.
Open Scope nat_scope.

Lemma fresh_app P x a : fresh (P ++ x :: a) = fresh (x :: a).
Proof.
  unfold fresh, lastc. rewrite rev_app_distr. cbn [rev]. destruct (rev a); reflexivity.
Qed.
Lemma kl_app P x post a : bnd P (x :: post) = true -> kl (P ++ x :: a) = kl (x :: a) ++ kl P.
Proof.
  intros B. induction a as [|g a IH] using rev_ind.
  - rewrite (start_kept _ _ _ B). change [x] with ([] ++ [x]). rewrite kl_snoc. change (fresh []) with true. rewrite andb_false_r. reflexivity.
  - change (x :: a ++ [g]) with ((x :: a) ++ [g]). rewrite app_assoc, !kl_snoc, IH, fresh_app. destruct (ig g && negb (fresh (x :: a))); reflexivity.
Qed.
Lemma kl_first x a : exists M, kl (x :: a) = M ++ [x].
Proof.
  induction a as [|g a IH] using rev_ind; [exists []; change [x] with ([] ++ [x]); rewrite kl_snoc; change (fresh []) with true; rewrite andb_false_r; reflexivity|].
  destruct IH as [M IH]. change (x :: a ++ [g]) with ((x :: a) ++ [g]). rewrite kl_snoc, IH.
  destruct (ig g && negb (fresh (x :: a))); [exists M; reflexivity|exists (g :: M); reflexivity].
Qed.

(** the first class after the cut decides whether what follows it sees the
    classes before the cut *)
Lemma free_hide x L R : free L (x :: R) = true -> free (x :: L) R = free [x] R.
Proof.
  intros F. destruct R as [|r R]; [unfold free, free_dec; cbn [hd_error any]; rewrite ?andb_false_r; reflexivity|].
  destruct L as [|l L]; [reflexivity|].
  destruct (left_joins x) eqn:J; [|rewrite !free_left by exact J; reflexivity].
  destruct (WB_eqb x WB_RegionalIndicator) eqn:ER.
  - apply WB_eqb_true in ER. subst x. unfold free, free_dec in *. cbn [hd_error tl] in *.
    destruct l; try (destruct r; cbn; rewrite ?andb_false_r; reflexivity).
    assert (O : Nat.odd (ri_count (WB_RegionalIndicator :: L)) = false).
    { destruct (Nat.odd (ri_count (WB_RegionalIndicator :: L))) eqn:O; [|reflexivity]. cbn in F. rewrite ?orb_true_r in F. discriminate F. }
    change (ri_count (WB_RegionalIndicator :: WB_RegionalIndicator :: L)) with (S (ri_count (WB_RegionalIndicator :: L))).
    rewrite Nat.odd_succ, <- Nat.negb_odd, O. cbn. reflexivity.
  - unfold free, free_dec in *. cbn [hd_error tl] in *.
    destruct x; try discriminate J; try discriminate ER; destruct l; try (destruct r; cbn; rewrite ?andb_false_r; reflexivity);
      destruct r; cbn in F |- *; rewrite ?andb_false_r, ?orb_true_r in *; try reflexivity; discriminate F.
Qed.
Lemma free_hide_right x L R : free (x :: L) R = true -> free L (x :: R) = free L [x].
Proof.
  intros F. destruct R as [|r R]; [reflexivity|].
  destruct (is_in JoinClasses x) eqn:J; [|rewrite !free_right by exact J; reflexivity].
  destruct L as [|l L]; [rewrite !free_nil_l; reflexivity|].
  unfold free, free_dec in *. cbn [hd_error tl] in *.
  destruct x; try discriminate J; destruct l; try (destruct r; cbn; rewrite ?andb_false_r; reflexivity);
    destruct r; cbn in F |- *; rewrite ?andb_false_r, ?orb_true_r in *; try reflexivity; discriminate F.
Qed.
Lemma odd_hide L x R1 M : free L (x :: R1) = true -> Nat.odd (ri_count (M ++ x :: L)) = Nat.odd (ri_count (M ++ [x])).
Proof.
  intros F. induction M as [|m M IH].
  - cbn [app ri_count]. destruct (is_in [WB_RegionalIndicator] x) eqn:E; [|reflexivity].
    assert (x = WB_RegionalIndicator) by (destruct x; try discriminate E; reflexivity). subst x.
    assert (O : Nat.odd (ri_count L) = false).
    { destruct (Nat.odd (ri_count L)) eqn:O; [|reflexivity]. unfold free, free_dec in F. rewrite O in F. cbn in F. rewrite ?orb_true_r in F. discriminate F. }
    rewrite Nat.odd_succ, <- Nat.negb_odd, O. reflexivity.
  - cbn [app ri_count]. destruct (is_in [WB_RegionalIndicator] m); [|reflexivity]. rewrite !Nat.odd_succ, <- !Nat.negb_odd, IH. reflexivity.
Qed.
Lemma free_odd L L' R : hd_error L = hd_error L' -> hd_error (tl L) = hd_error (tl L') -> Nat.odd (ri_count L) = Nat.odd (ri_count L') -> free L R = free L' R.
Proof. intros H1 H2 H3. unfold free. rewrite H1, H2, H3. reflexivity. Qed.

(** what is left when only ignorable characters follow the first *)
Lemma kl_one x a : kl (x :: a) = [x] -> nl x = false -> Forall (fun g => ig g = true) a.
Proof.
  intros E N. induction a as [|g a IH] using rev_ind; [constructor|].
  change (x :: a ++ [g]) with ((x :: a) ++ [g]) in E. rewrite kl_snoc in E.
  destruct (ig g && negb (fresh (x :: a))) eqn:C.
  - apply andb_true_iff in C. destruct C as [C _]. apply Forall_app. split; [apply IH; exact E|constructor; [exact C|constructor]].
  - destruct (kl_first x a) as [M K]. rewrite K in E. destruct M; discriminate E.
Qed.

Lemma lastc_app P x a : lastc (P ++ x :: a) = lastc (x :: a).
Proof. unfold lastc. rewrite rev_app_distr. cbn [rev]. destruct (rev a); reflexivity. Qed.

(** the position after [x :: a], with and without what is before it *)
Lemma bnd_drop_left P x a b : bnd P (x :: a ++ b) = true -> bnd (P ++ x :: a) b = bnd (x :: a) b.
Proof.
  intros B. destruct b as [|g post]; [rewrite !bnd_end; reflexivity|].
  destruct (fresh (x :: a)) eqn:FR.
  - assert (E : exists c h, x :: a = c ++ [h] /\ nl h = true).
    { destruct (snoc_inv (x :: a)) as (c & h & E); [discriminate|]. rewrite E, fresh_snoc in FR. eauto. }
    destruct E as (c & h & E & N). rewrite E, app_assoc.
    destruct (WB_eqb h WB_CR && WB_eqb g WB_LF) eqn:CL.
    + apply andb_true_iff in CL. destruct CL as [C1 C2]. apply WB_eqb_true in C1, C2. subst. rewrite !bnd_crlf. reflexivity.
    + assert (H : h = WB_CR -> hd_error (g :: post) <> Some WB_LF).
      { intros -> H. injection H as ->. discriminate CL. }
      rewrite !bnd_after_nl by assumption. reflexivity.
  - rewrite !bnd_eq by (rewrite ?fresh_app; exact FR). rewrite lastc_app, (kl_app _ _ _ _ B).
    destruct (nl g) eqn:Ng; [reflexivity|]. destruct (_ && _); [reflexivity|]. destruct (ig g) eqn:Ig; [reflexivity|].
    pose proof (start_free _ _ _ B) as F.
    destruct (kl_first x a) as [M K]. rewrite K, <- app_assoc. cbn [app].
    destruct M as [|m M].
    + cbn [app] in *. destruct (nl x) eqn:Nx.
      * rewrite !free_left by (destruct x; try discriminate Nx; reflexivity). reflexivity.
      * apply free_hide. pose proof (kl_one _ _ K Nx) as IA. rewrite wb4_kr in F by exact Nx.
        rewrite kr_igs, kr_cons in F by assumption. exact F.
    + apply free_odd; [reflexivity|destruct M; reflexivity|]. apply (odd_hide _ _ _ (m :: M) F).
Qed.

(** the position before [b], with and without what is after it *)
Lemma bnd_drop_right a b Q : b <> [] -> bnd (a ++ b) Q = true -> bnd a (b ++ Q) = bnd a b.
Proof.
  intros N B. destruct b as [|g b]; [contradiction|]. cbn [app].
  destruct (fresh a) eqn:FR.
  - destruct a as [|h a _] using rev_ind; [reflexivity|]. rewrite fresh_snoc in FR.
    destruct (WB_eqb h WB_CR && WB_eqb g WB_LF) eqn:CL.
    + apply andb_true_iff in CL. destruct CL as [C1 C2]. apply WB_eqb_true in C1, C2. subst. rewrite !bnd_crlf. reflexivity.
    + assert (H : forall l, h = WB_CR -> hd_error (g :: l) <> Some WB_LF).
      { intros l -> H. injection H as ->. discriminate CL. }
      rewrite !bnd_after_nl by auto. reflexivity.
  - rewrite !bnd_eq by exact FR. destruct (nl g) eqn:Ng; [reflexivity|]. destruct (_ && _); [reflexivity|]. destruct (ig g) eqn:Ig; [reflexivity|].
    destruct (kr b) as [|r R] eqn:KB.
    + assert (IB : Forall (fun x => ig x = true) b).
      { clear - KB. induction b as [|x b IH]; [constructor|]. unfold kr in KB. cbn [wb4] in KB. fold (ig x) in KB. destruct (ig x) eqn:I.
        - constructor; [exact I|]. apply IH. cbn [andb] in KB. rewrite wb4_kr in KB by (apply ig_nl; exact I). exact KB.
        - discriminate KB. }
      rewrite kr_igs by exact IB. apply free_hide_right.
      assert (E : a ++ g :: b = (a ++ [g]) ++ b) by (rewrite <- app_assoc; reflexivity). rewrite E in B.
      destruct (kl_igs b (a ++ [g]) IB) as [K F2]; [rewrite fresh_snoc; exact Ng|].
      pose proof (end_free _ _ B F2) as F. rewrite K, kl_cons_snoc in F by exact Ig. exact F.
    + assert (E : exists R', kr (b ++ Q) = r :: R').
      { unfold kr in *. rewrite wb4_app, KB. eexists. reflexivity. }
      destruct E as [R' ->]. reflexivity.
Qed.

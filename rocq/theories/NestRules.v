(** The rules for words and for clusters, on classes that go together. *)
From Coq Require Import List NArith Lia Bool Arith.
Import ListNotations.
From Verif Require Import Base Enums TableTypes UcdModel BidiModel GraphSpec WordModel WordSpec WordRules.
Open Scope nat_scope.

(** the classes of one character *)
Definition linked (g : GraphemeClusterBreak) (w : WordBreak) : bool :=
  match g with
  | GCB_CR => WB_eqb w WB_CR
  | GCB_LF => WB_eqb w WB_LF
  | GCB_Control => is_in [WB_Newline; WB_Format; WB_Other] w
  | GCB_L | GCB_V | GCB_T | GCB_LV | GCB_LVT => WB_eqb w WB_ALetter
  | GCB_Extend => WB_eqb w WB_Extend
  | GCB_ZWJ => WB_eqb w WB_ZWJ
  | GCB_RegionalIndicator => WB_eqb w WB_RegionalIndicator
  | GCB_EBase => WB_eqb w WB_EBase
  | GCB_EBaseGAZ => WB_eqb w WB_EBaseGAZ
  | GCB_EModifier => WB_eqb w WB_EModifier
  | GCB_GlueAfterZwj => WB_eqb w WB_GlueAfterZwj
  | GCB_SpacingMark => is_in [WB_Extend; WB_Other] w
  | GCB_Prepend => is_in [WB_ALetter; WB_Format] w
  | GCB_Other => negb (is_in [WB_CR; WB_LF; WB_Newline; WB_ZWJ; WB_RegionalIndicator; WB_EBase; WB_EBaseGAZ; WB_EModifier; WB_GlueAfterZwj] w)
  end.

Definition ctlg (g : GraphemeClusterBreak) : bool := match g with GCB_Control | GCB_CR | GCB_LF => true | _ => false end.
Definition hangul (a b : GraphemeClusterBreak) : bool :=
  any_of [GCB_L] a && any_of [GCB_L; GCB_V; GCB_LV; GCB_LVT] b || any_of [GCB_LV; GCB_V] a && any_of [GCB_V; GCB_T] b || any_of [GCB_LVT; GCB_T] a && any_of [GCB_T] b.

Lemma gb_joined ext z P y A : gb_boundary ext (z :: P) (y :: A) = false ->
  (z = GCB_CR /\ y = GCB_LF) \/ ctlg z = false /\ ctlg y = false /\
  (hangul z y = true \/ y = GCB_Extend \/ y = GCB_ZWJ \/ ext = true /\ y = GCB_SpacingMark \/ ext = true /\ z = GCB_Prepend \/
   emoji_base_extend (z :: P) = true /\ y = GCB_EModifier \/
   z = GCB_ZWJ /\ (y = GCB_GlueAfterZwj \/ y = GCB_EBaseGAZ) \/
   Nat.odd (ri_run (z :: P)) = true /\ y = GCB_RegionalIndicator).
Proof.
  unfold gb_boundary, first_rule, gb_rules. cbn [next_to find fst]. set (e := emoji_base_extend (z :: P)). set (n := Nat.odd (ri_run (z :: P))). clearbody e n.
  destruct ext, e, n, z, y; cbv; intros H; try discriminate H; auto 20.
Qed.

Section Rules.
  Variable g : N -> GraphemeClusterBreak.
  Variable w : N -> WordBreak.
  Hypothesis L : forall c, linked (g c) (w c) = true.

  Lemma newline_ctl c : nl (w c) = true -> ctlg (g c) = true.
  Proof. specialize (L c). revert L. destruct (g c), (w c); cbv; auto. Qed.

  Lemma kl_head l c : ig (w c) = false -> kl (map w (l ++ [c])) = w c :: kl (map w l).
  Proof. intros H. rewrite map_app. cbn [map]. rewrite kl_snoc, H. reflexivity. Qed.
  Lemma kl_drop l d c : ig (w c) = true -> nl (w d) = false -> kl (map w ((l ++ [d]) ++ [c])) = kl (map w (l ++ [d])).
  Proof.
    intros H1 H2. rewrite (map_app w (l ++ [d])). cbn [map]. rewrite kl_snoc, H1. unfold fresh. rewrite map_app. cbn [map].
    rewrite lastc_snoc, H2. reflexivity.
  Qed.
  Lemma grev l c : rev (map g (l ++ [c])) = g c :: rev (map g l).
  Proof. rewrite map_app, rev_app_distr. reflexivity. Qed.

  Lemma base_kept l : emoji_base_extend (rev (map g l)) = true -> exists q r, kl (map w l) = q :: r /\ is_in [WB_EBase; WB_EBaseGAZ] q = true.
  Proof.
    induction l as [|c l IH] using rev_ind; [discriminate|]. rewrite grev. cbn [emoji_base_extend]. intros H. apply orb_true_iff in H as [H|H].
    - assert (E : is_in [WB_EBase; WB_EBaseGAZ] (w c) = true /\ ig (w c) = false).
      { specialize (L c). revert L H. destruct (g c), (w c); cbv; auto. }
      destruct E as [E1 E2]. rewrite kl_head by exact E2. eauto.
    - apply andb_true_iff in H as [H1 H2]. destruct l as [|d l _] using rev_ind; [discriminate H2|].
      assert (E : ig (w c) = true). { specialize (L c). revert L H1. destruct (g c), (w c); cbv; auto. }
      rewrite kl_drop; [exact (IH H2)|exact E|].
      destruct (nl (w d)) eqn:EN; [|reflexivity]. exfalso. apply newline_ctl in EN. rewrite grev in H2. cbn [emoji_base_extend] in H2.
      destruct (g d); try discriminate EN; discriminate H2.
  Qed.

  Definition ind (c : N) : Prop := w c = WB_RegionalIndicator.
  Definition ign (c : N) : Prop := In (w c) Ignored.
  Lemma ign_ig c : ig (w c) = true -> ign c.
  Proof. unfold ign. destruct (w c); cbv; auto; discriminate. Qed.
  Lemma ind_g c : is_in [WB_RegionalIndicator] (w c) = any_of [GCB_RegionalIndicator] (g c).
  Proof. specialize (L c). revert L. destruct (g c), (w c); cbv; auto; discriminate. Qed.

  (** what is kept last is not a regional indicator, or that has marks *)
  Lemma flag_end l c : is_in [WB_RegionalIndicator] (w c) = false -> ri_count (kl (map w (l ++ [c]))) = 0 \/
    exists p r marks, l ++ [c] = p ++ r :: marks /\ ind r /\ marks <> [] /\ Forall ign marks.
  Proof.
    revert c. induction l as [|d l IH] using rev_ind; intros c H.
    - left. cbn [app map]. change (kl [w c]) with (kl ([] ++ [w c])). rewrite kl_snoc. cbn. rewrite andb_false_r. cbn [ri_count]. rewrite H. reflexivity.
    - destruct (ig (w c)) eqn:EI.
      + destruct (nl (w d)) eqn:EN.
        * left. rewrite (map_app w (l ++ [d])). cbn [map]. rewrite kl_snoc, EI. unfold fresh. rewrite map_app. cbn [map]. rewrite lastc_snoc, EN.
          cbn [negb andb ri_count]. rewrite H. reflexivity.
        * rewrite kl_drop by assumption. destruct (is_in [WB_RegionalIndicator] (w d)) eqn:ER.
          -- right. exists l, d, [c]. rewrite <- app_assoc. split; [reflexivity|]. split; [unfold ind; destruct (w d); try discriminate ER; reflexivity|].
             split; [discriminate|]. constructor; [now apply ign_ig|constructor].
          -- destruct (IH d ER) as [E|(p & r & marks & E & I1 & I2 & I3)]; [now left|]. right. exists p, r, (marks ++ [c]).
             rewrite E, <- app_assoc. split; [reflexivity|]. split; [assumption|]. split; [destruct marks; discriminate|].
             apply Forall_app. split; [assumption|]. constructor; [now apply ign_ig|constructor].
      + left. rewrite kl_head by exact EI. cbn [ri_count]. rewrite H. reflexivity.
  Qed.
  Lemma flags l : ri_count (kl (map w l)) = ri_run (rev (map g l)) \/ ri_run (rev (map g l)) = 0 \/
    exists p r marks rs, l = p ++ r :: marks ++ rs /\ ind r /\ marks <> [] /\ Forall ign marks /\ rs <> [] /\ Forall ind rs.
  Proof.
    induction l as [|c l IH] using rev_ind; [now left|]. rewrite grev. cbn [ri_run]. rewrite <- ind_g.
    destruct (is_in [WB_RegionalIndicator] (w c)) eqn:EC; [|now right; left].
    assert (IC : ind c) by (unfold ind; destruct (w c); try discriminate EC; reflexivity).
    assert (EI : ig (w c) = false) by (rewrite IC; reflexivity).
    rewrite kl_head by exact EI. cbn [ri_count]. rewrite EC. destruct IH as [IH|[IH|(p & r & marks & rs & -> & I1 & I2 & I3 & I4 & I5)]].
    - left. now rewrite IH.
    - rewrite IH. destruct l as [|d l _] using rev_ind; [now left|]. rewrite grev in IH. cbn [ri_run] in IH. rewrite <- ind_g in IH.
      destruct (is_in [WB_RegionalIndicator] (w d)) eqn:ED; [discriminate IH|]. destruct (flag_end l d ED) as [E|(p & r & marks & E & I1 & I2 & I3)].
      + left. now rewrite E.
      + right. right. exists p, r, marks, [c]. rewrite E, <- app_assoc. cbn [app]. split; [reflexivity|]. repeat split; auto. discriminate.
    - right. right. exists p, r, marks, (rs ++ [c]). rewrite <- app_assoc. cbn [app]. rewrite <- app_assoc. split; [reflexivity|]. repeat split; auto.
      + destruct rs; discriminate.
      + apply Forall_app. auto.
  Qed.

  Lemma free_false left right :
    any AHLetter (hd_error left) && any AHLetter (hd_error right) = true \/
    any [WB_EBase; WB_EBaseGAZ] (hd_error left) && any [WB_EModifier] (hd_error right) = true \/
    Nat.odd (ri_count left) && any [WB_RegionalIndicator] (hd_error right) = true -> free left right = false.
  Proof. unfold free, free_dec. intros [H|[H|H]]; rewrite H, ?orb_true_r; reflexivity. Qed.

  Lemma word_in_cluster ext pre post : wb_boundary (map w pre) (map w post) = true -> gb_boundary ext (rev (map g pre)) (map g post) = true \/
    ext = true /\ (exists p z, pre = p ++ [z] /\ g z = GCB_Prepend) \/
    ext = true /\ (exists y q, post = y :: q /\ g y = GCB_SpacingMark /\ w y = WB_Other) \/
    (exists p r marks rs, pre = p ++ r :: marks ++ rs /\ ind r /\ marks <> [] /\ Forall ign marks /\ rs <> [] /\ Forall ind rs) /\
      (exists y q, post = y :: q /\ ind y).
  Proof.
    destruct pre as [|z p _] using rev_ind; [now left|]. destruct post as [|y q].
    { intros _. left. rewrite grev. reflexivity. }
    rewrite grev. cbn [map]. intros HW. destruct (gb_boundary ext (g z :: rev (map g p)) (g y :: map g q)) eqn:EG; [now left|]. right.
    apply gb_joined in EG. rewrite wb_boundary_eq in HW.
    assert (EB : map w (p ++ [z]) <> []) by (rewrite map_app; cbn; destruct (map w p); discriminate).
    destruct (map w (p ++ [z])) as [|h t] eqn:EM; [now elim EB|]. clear EB. rewrite <- EM in HW. clear h t EM. cbv zeta in HW.
    assert (ER : rev (map w (p ++ [z])) = w z :: rev (map w p)) by (rewrite map_app, rev_app_distr; reflexivity).
    rewrite ER in HW. cbn [first_in hd_error] in HW.
    pose proof (L z) as Lz. pose proof (L y) as Ly.
    destruct EG as [[E1 E2]|(C1 & C2 & EG)].
    { rewrite E1 in Lz. rewrite E2 in Ly. exfalso. destruct (w z); try discriminate Lz. destruct (w y); try discriminate Ly. discriminate HW. }
    assert (N1 : is_in Newlines (w z) = false).
    { destruct (is_in Newlines (w z)) eqn:E; [|reflexivity]. apply newline_ctl in E. congruence. }
    assert (N2 : is_in Newlines (w y) = false).
    { destruct (is_in Newlines (w y)) eqn:E; [|reflexivity]. apply newline_ctl in E. congruence. }
    assert (N3 : is_in [WB_CR] (w z) = false) by (destruct (w z); try reflexivity; discriminate N1).
    rewrite N1, N2, N3 in HW. cbn [andb] in HW.
    destruct (is_in [WB_ZWJ] (w z) && is_in [WB_GlueAfterZwj; WB_EBaseGAZ] (w y)) eqn:EZ; [discriminate HW|].
    destruct (is_in Ignored (w y)) eqn:EI; [discriminate HW|].
    assert (FF : free (kl (map w (p ++ [z]))) (wb4 (Some (w z)) (w y :: map w q)) = false -> False) by congruence. clear HW.
    destruct EG as [EG|[EG|[EG|[[EX EG]|[[EX EG]|[[EG EY]|[[EG EY]|[EG EY]]]]]]]].
    - exfalso. apply FF, free_false. left. clear FF.
      assert (A : w z = WB_ALetter /\ w y = WB_ALetter).
      { revert EG Lz Ly. destruct (g z), (g y); try discriminate; cbn [linked]; destruct (w z); try discriminate; destruct (w y); try discriminate; auto. }
      destruct A as [A1 A2]. rewrite kl_head by (rewrite A1; reflexivity). rewrite wb4_cons by (rewrite A2; reflexivity). rewrite A1, A2. reflexivity.
    - exfalso. rewrite EG in Ly. destruct (w y); try discriminate Ly. discriminate EI.
    - exfalso. rewrite EG in Ly. destruct (w y); try discriminate Ly. discriminate EI.
    - right. left. split; [assumption|]. exists y, q. split; [reflexivity|]. split; [assumption|]. rewrite EG in Ly. destruct (w y); try discriminate Ly; [discriminate EI|reflexivity].
    - left. split; [assumption|]. exists p, z. auto.
    - exfalso. apply FF, free_false. right. left. rewrite <- grev in EG. apply base_kept in EG as (h & r & EQ & HQ). rewrite EQ.
      rewrite EY in Ly. rewrite wb4_cons by (destruct (w y); try discriminate Ly; reflexivity). cbn [hd_error any]. rewrite HQ.
      destruct (w y); try discriminate Ly. reflexivity.
    - exfalso. rewrite EG in Lz. destruct (w z); try discriminate Lz.
      destruct EY as [EY|EY]; rewrite EY in Ly; destruct (w y); try discriminate Ly; discriminate EZ.
    - right. right.
      assert (IY : ind y) by (unfold ind; rewrite EY in Ly; destruct (w y); try discriminate Ly; reflexivity).
      rewrite <- grev in EG. destruct (flags (p ++ [z])) as [E|[E|E]].
      + exfalso. apply FF, free_false. right. right. rewrite E, EG. rewrite wb4_cons by (rewrite IY; reflexivity). rewrite IY. reflexivity.
      + rewrite E in EG. discriminate EG.
      + split; [exact E|]. exists y, q. auto.
  Qed.
End Rules.

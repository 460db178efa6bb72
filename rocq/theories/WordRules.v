(** The word boundary rules as a function of a few classes. *)
From Coq Require Import List NArith Lia Bool Arith.
Import ListNotations.
From Verif Require Import Base Enums TableTypes UcdModel BidiModel WordModel WordSpec.
Open Scope nat_scope.

(** WB5 - WB999 from the two classes on each side and the parity of the run of
    regional indicators before *)
Definition any (l : list WB) (o : option WB) : bool := match o with Some g => is_in l g | None => false end.
Definition free_dec (ll l : option WB) (odd : bool) (r rr : option WB) : bool :=
  negb (
    (any AHLetter l && any AHLetter r) ||
    (any AHLetter l && any (WB_MidLetter :: MidNumLetQ) r && any AHLetter rr) ||
    (any AHLetter ll && any (WB_MidLetter :: MidNumLetQ) l && any AHLetter r) ||
    (any [WB_HebrewLetter] l && any [WB_SingleQuote] r) ||
    (any [WB_HebrewLetter] l && any [WB_DoubleQuote] r && any [WB_HebrewLetter] rr) ||
    (any [WB_HebrewLetter] ll && any [WB_DoubleQuote] l && any [WB_HebrewLetter] r) ||
    (any [WB_Numeric] l && any [WB_Numeric] r) ||
    (any AHLetter l && any [WB_Numeric] r) ||
    (any [WB_Numeric] l && any AHLetter r) ||
    (any [WB_Numeric] ll && any (WB_MidNum :: MidNumLetQ) l && any [WB_Numeric] r) ||
    (any [WB_Numeric] l && any (WB_MidNum :: MidNumLetQ) r && any [WB_Numeric] rr) ||
    (any [WB_Katakana] l && any [WB_Katakana] r) ||
    (any ([WB_Numeric; WB_Katakana; WB_ExtendNumLet] ++ AHLetter) l && any [WB_ExtendNumLet] r) ||
    (any [WB_ExtendNumLet] l && any ([WB_Numeric; WB_Katakana] ++ AHLetter) r) ||
    (any [WB_EBase; WB_EBaseGAZ] l && any [WB_EModifier] r) ||
    (odd && any [WB_RegionalIndicator] r)).

Definition free (left right : list WB) : bool :=
  free_dec (hd_error (tl left)) (hd_error left) (Nat.odd (ri_count left)) (hd_error right) (hd_error (tl right)).

(** what WB4 leaves before a position, nearest first *)
Definition kl (l : list WB) : list WB := rev (wb4 None l).
(** what it leaves after a character that is not a line break *)
Definition kr (l : list WB) : list WB := wb4 (Some WB_Other) l.

Lemma first_in_hd l s : first_in l s = any l (hd_error s).
Proof. destruct s; reflexivity. Qed.
Lemma second_in_hd l s : second_in l s = any l (hd_error (tl s)).
Proof. destruct s as [|? [|? ?]]; reflexivity. Qed.

Lemma wb_boundary_eq before after : wb_boundary before after =
  match before, after with
  | [], _ | _, [] => true
  | _, _ =>
    let b := rev before in
    if first_in [WB_CR] b && first_in [WB_LF] after then false
    else if first_in Newlines b then true else if first_in Newlines after then true
    else if first_in [WB_ZWJ] b && first_in [WB_GlueAfterZwj; WB_EBaseGAZ] after then false
    else if first_in Ignored after then false
    else free (kl before) (wb4 (hd_error b) after)
  end.
Proof.
  unfold wb_boundary, wb_rules. destruct before as [|x before]; [reflexivity|].
  destruct after as [|y after]; [reflexivity|].
  cbv zeta. set (b := rev (x :: before)). set (right := wb4 (hd_error b) (y :: after)). fold (kl (x :: before)).
  set (left := kl (x :: before)). clearbody b left right. unfold free, free_dec.
  rewrite !second_in_hd, !first_in_hd. cbn [find fst].
  repeat match goal with |- context [if ?c then Some _ else _] => destruct c; [reflexivity|] end.
  reflexivity.
Qed.

(** ** What WB4 leaves *)
Definition nl (g : WB) : bool := is_in Newlines g.
Definition ig (g : WB) : bool := is_in Ignored g.

Lemma ig_spec g : ig g = extend_format_zwj g.
Proof. destruct g; reflexivity. Qed.
Lemma ig_nl g : ig g = true -> nl g = false.
Proof. destruct g; intros H; try reflexivity; discriminate. Qed.

Lemma wb4_prev a b l : nl a = nl b -> wb4 (Some a) l = wb4 (Some b) l.
Proof. intros H. destruct l as [|g l]; [reflexivity|]. cbn [wb4]. fold (nl a) (nl b). rewrite H. reflexivity. Qed.
Lemma wb4_kr a l : nl a = false -> wb4 (Some a) l = kr l.
Proof. intros H. apply wb4_prev. exact H. Qed.
Lemma wb4_cons p g l : ig g = false -> wb4 p (g :: l) = g :: wb4 (Some g) l.
Proof. intros H. cbn [wb4]. fold (ig g). rewrite H. reflexivity. Qed.
Lemma kr_ig g l : ig g = true -> kr (g :: l) = kr l.
Proof. intros H. unfold kr at 1. cbn [wb4]. fold (ig g). rewrite H. cbn [andb]. apply wb4_kr. apply ig_nl. exact H. Qed.
Lemma kr_igs t l : Forall (fun g => ig g = true) t -> kr (t ++ l) = kr l.
Proof. induction 1 as [|g t H _ IH]; [reflexivity|]. cbn [app]. rewrite kr_ig by exact H. exact IH. Qed.
Lemma kr_cons g l : ig g = false -> nl g = false -> kr (g :: l) = g :: kr l.
Proof. intros H1 H2. unfold kr at 1. rewrite wb4_cons by exact H1. rewrite wb4_kr by exact H2. reflexivity. Qed.

Lemma wb4_app p a b : wb4 p (a ++ b) = wb4 p a ++ wb4 (match rev a with [] => p | g :: _ => Some g end) b.
Proof.
  revert p. induction a as [|g a IH]; intros p; [reflexivity|].
  cbn [app wb4 rev]. rewrite IH.
  assert (E : match rev a ++ [g] with [] => p | h :: _ => Some h end = match rev a with [] => Some g | h :: _ => Some h end)
    by (destruct (rev a); reflexivity).
  rewrite E. destruct (_ && _); reflexivity.
Qed.

(** the raw class before, [None] at the start *)
Definition lastc (l : list WB) : option WB := hd_error (rev l).
Lemma lastc_snoc l g : lastc (l ++ [g]) = Some g.
Proof. unfold lastc. rewrite rev_app_distr. reflexivity. Qed.

(** at the start or after a line break *)
Definition fresh (l : list WB) : bool := match lastc l with Some g => nl g | None => true end.

Lemma kl_snoc l g : kl (l ++ [g]) = if ig g && negb (fresh l) then kl l else g :: kl l.
Proof.
  unfold kl, fresh, lastc. rewrite wb4_app, rev_app_distr. cbn [wb4]. fold (ig g).
  destruct (rev l) as [|h t]; cbn [hd_error].
  - rewrite andb_false_r. cbn. rewrite andb_false_r. reflexivity.
  - fold (nl h). destruct (ig g && negb (nl h)); reflexivity.
Qed.
Lemma kl_nil : kl [] = [].
Proof. reflexivity. Qed.
Lemma kl_cons_snoc l g : ig g = false -> kl (l ++ [g]) = g :: kl l.
Proof. intros H. rewrite kl_snoc, H. reflexivity. Qed.
Lemma kl_ig l g : ig g = true -> fresh l = false -> kl (l ++ [g]) = kl l.
Proof. intros H F. rewrite kl_snoc, H, F. reflexivity. Qed.
Lemma fresh_snoc l g : fresh (l ++ [g]) = nl g.
Proof. unfold fresh. rewrite lastc_snoc. reflexivity. Qed.
Lemma kl_igs t : forall l, Forall (fun g => ig g = true) t -> fresh l = false -> kl (l ++ t) = kl l /\ fresh (l ++ t) = false.
Proof.
  induction t as [|g t IH] using rev_ind; intros l H F; [rewrite app_nil_r; auto|].
  apply Forall_app in H. destruct H as [H1 H2]. inversion H2; subst. destruct (IH l H1 F) as [E1 E2].
  rewrite app_assoc. split; [rewrite kl_ig by auto; exact E1|rewrite fresh_snoc; apply ig_nl; auto].
Qed.

(** ** The decision *)
Definition bnd (pre post : list WB) : bool := wb_boundary pre post.

Lemma bnd_start l : bnd [] l = true.
Proof. reflexivity. Qed.
Lemma bnd_end l : bnd l [] = true.
Proof. destruct l; reflexivity. Qed.
Lemma bnd_nl pre g post : nl g = true -> (g = WB_LF -> lastc pre <> Some WB_CR) -> bnd pre (g :: post) = true.
Proof.
  intros H C. unfold bnd. rewrite wb_boundary_eq. destruct pre as [|p pre]; [reflexivity|].
  cbv zeta. unfold lastc in C. rewrite !first_in_hd. destruct (hd_error (rev (p :: pre))) as [h|]; cbn [hd_error any].
  2: { cbn [andb]. fold (nl g). rewrite H. reflexivity. }
  fold (nl h) (nl g). rewrite H. destruct (is_in [WB_CR] h && is_in [WB_LF] g) eqn:E; [|destruct (nl h); reflexivity].
  destruct h, g; try discriminate. exfalso. apply C; reflexivity.
Qed.
Lemma bnd_crlf pre post : bnd (pre ++ [WB_CR]) (WB_LF :: post) = false.
Proof.
  unfold bnd. rewrite wb_boundary_eq. destruct pre as [|p pre]; [reflexivity|]. cbn [app]. cbv zeta.
  rewrite !first_in_hd. change (p :: pre ++ [WB_CR]) with ((p :: pre) ++ [WB_CR]). rewrite rev_app_distr. reflexivity.
Qed.
Lemma bnd_after_nl pre h post : nl h = true -> (h = WB_CR -> hd_error post <> Some WB_LF) -> bnd (pre ++ [h]) post = true.
Proof.
  intros H C. unfold bnd. rewrite wb_boundary_eq. destruct (pre ++ [h]) as [|p q] eqn:E; [reflexivity|].
  destruct post as [|y post]; [reflexivity|]. cbv zeta. rewrite <- E, rev_app_distr. cbn [rev app first_in].
  fold (nl h). rewrite H. destruct (is_in [WB_CR] h && is_in [WB_LF] y) eqn:D; [|reflexivity].
  destruct h, y; try discriminate. exfalso. apply C; reflexivity.
Qed.
(** after something that is not a line break *)
Lemma bnd_eq pre g post : fresh pre = false -> bnd pre (g :: post) =
  if nl g then true
  else if any [WB_ZWJ] (lastc pre) && is_in [WB_GlueAfterZwj; WB_EBaseGAZ] g then false
  else if ig g then false
  else free (kl pre) (g :: kr post).
Proof.
  intros F. unfold bnd. rewrite wb_boundary_eq. unfold fresh, lastc in *.
  destruct pre as [|p pre]; [discriminate|]. cbv zeta. rewrite !first_in_hd.
  destruct (hd_error (rev (p :: pre))) as [h|]; [|discriminate]. cbn [hd_error any]. fold (nl h) (nl g) (ig g). rewrite F.
  replace (is_in [WB_CR] h) with false by (destruct h; try reflexivity; discriminate). cbn [andb].
  destruct (nl g) eqn:N; [reflexivity|]. destruct (_ && _); [reflexivity|]. destruct (ig g) eqn:I; [reflexivity|].
  rewrite wb4_cons by exact I. rewrite wb4_kr by exact N. reflexivity.
Qed.

(** at a boundary: the character after it is kept, and no later rule joins it *)
Lemma start_kept pre g post : bnd pre (g :: post) = true -> kl (pre ++ [g]) = g :: kl pre.
Proof.
  intros H. rewrite kl_snoc. destruct (fresh pre) eqn:F; [rewrite andb_false_r; reflexivity|].
  rewrite bnd_eq in H by exact F. destruct (ig g) eqn:I; [|reflexivity].
  exfalso. rewrite (ig_nl _ I) in H. destruct (_ && _); discriminate.
Qed.

Lemma free_nil_l r : free [] r = true.
Proof. reflexivity. Qed.

(** The classes that can join to something on their right (other than in WB3, WB3c, WB4) *)
Definition left_joins (g : WB) : bool :=
  is_in [WB_ALetter; WB_HebrewLetter; WB_MidLetter; WB_MidNumLet; WB_SingleQuote; WB_DoubleQuote; WB_MidNum; WB_Numeric;
         WB_Katakana; WB_ExtendNumLet; WB_EBase; WB_EBaseGAZ; WB_RegionalIndicator] g.
Lemma free_left g l r : left_joins g = false -> free (g :: l) r = true.
Proof.
  intros H. unfold free, free_dec. cbn [hd_error tl ri_count].
  destruct g; try discriminate; cbn; rewrite ?andb_false_r; reflexivity.
Qed.
Lemma free_right g l r : is_in JoinClasses g = false -> free l (g :: r) = true.
Proof.
  intros H. unfold free, free_dec. cbn [hd_error tl].
  destruct g; try discriminate; cbn; rewrite ?andb_false_r; reflexivity.
Qed.
Lemma start_free pre g post : bnd pre (g :: post) = true -> free (kl pre) (g :: wb4 (Some g) post) = true.
Proof.
  intros H. destruct (fresh pre) eqn:F.
  - destruct pre as [|p pre] using rev_ind; [reflexivity|]. clear IHpre. rewrite fresh_snoc in F.
    rewrite kl_cons_snoc by (destruct p; try reflexivity; discriminate).
    apply free_left. destruct p; try reflexivity; discriminate.
  - rewrite bnd_eq in H by exact F. destruct (nl g) eqn:N.
    + apply free_right. destruct g; try reflexivity; discriminate.
    + rewrite wb4_kr by exact N. destruct (_ && _); [discriminate|]. destruct (ig g); [discriminate|exact H].
Qed.

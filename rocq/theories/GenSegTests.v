(** What is written for segmentation tests, from the file. *)
From Coq Require Import String List NArith ZArith Lia Bool PeanoNat ZifyBool ZifyNat ZifyN.
From Verif Require Import Base TextModel GenRegex GenModel GenDataModel GenSpec GenBinarySpec GenDataSpec GenLemmas GenProofs
  GenDataEntries GenSegModel GenSegSpec GenSegRegex GenSegRead GenSeg.
Import ListNotations.
Open Scope list_scope.
Open Scope N_scope.

Lemma step_pairs_0 {A B} (f g : A -> B) l h :
  step_from 2 0 (flat_map (fun x => [f x; g x]) l ++ [h]) = map f l ++ [h].
Proof. induction l as [|x l IH]; [reflexivity|]. cbn in *. now rewrite IH. Qed.
Lemma step_pairs_1 {A B} (f g : A -> B) l h :
  step 2 (skipn 1 (flat_map (fun x => [f x; g x]) l ++ [h])) = map g l.
Proof.
  assert (step_from 2 1 (flat_map (fun x => [f x; g x]) l ++ [h]) = map g l) as K.
  { induction l as [|x l IH]; [reflexivity|]. cbn in *. now rewrite IH. }
  destruct l; [reflexivity|]. exact K.
Qed.
Lemma step_triples_0 {A B} (f g k : A -> B) l h :
  step_from 3 0 (flat_map (fun x => [f x; g x; k x]) l ++ [h]) = map f l ++ [h].
Proof. induction l as [|x l IH]; [reflexivity|]. cbn in *. now rewrite IH. Qed.
Lemma step_triples_2 {A B} (f g k : A -> B) l h :
  step 3 (skipn 2 (flat_map (fun x => [f x; g x; k x]) l ++ [h])) = map k l.
Proof.
  assert (step_from 3 2 (flat_map (fun x => [f x; g x; k x]) l ++ [h]) = map k l) as K.
  { induction l as [|x l IH]; [reflexivity|]. cbn in *. now rewrite IH. }
  destruct l; [reflexivity|]. exact K.
Qed.

Definition source_pieces (l : list tested) (z : tested) : list str :=
  flat_map (fun x => [code x; [sign (broken x)]]) l ++ [code z].

Lemma source_joined l z : source_text (l ++ [z]) = joined 0x20 (source_pieces l z).
Proof.
  induction l as [|x l IH]; [reflexivity|]. unfold source_pieces in *. cbn [flat_map app].
  change (source_text (x :: l ++ [z])) with
    (match l ++ [z] with [] => code x | _ => code x ++ [0x20; sign (broken x); 0x20] ++ source_text (l ++ [z]) end).
  destruct (l ++ [z]) as [|y l'] eqn:E; [now destruct l|]. rewrite <- E in *. rewrite IH.
  destruct (flat_map _ l ++ [code z]) as [|p ps] eqn:Ep; [now destruct (flat_map (fun x => [code x; [sign (broken x)]]) l)|].
  reflexivity.
Qed.

Lemma source_split l z : Forall good_tested (l ++ [z]) -> split_whitespace (source_text (l ++ [z])) = source_pieces l z.
Proof.
  intros H. rewrite source_joined. unfold split_whitespace.
  assert (Forall (fun w => w <> [] /\ ~ In 0x20 w) (source_pieces l z)) as K.
  { unfold source_pieces. apply Forall_app in H as [Hl Hz]. inversion Hz as [|? ? Hz' _]; subst.
    assert (forall x, good_tested x -> code x <> [] /\ ~ In 0x20 (code x)) as Kc.
    { intros x ((H1 & H2) & _). split; [intros E; rewrite E in H2; cbn in H2; lia|now apply hex_no_space]. }
    apply Forall_app. split; [|constructor; [now apply Kc|constructor]].
    induction Hl as [|x l Hx Hl IH]; [constructor|]. cbn [flat_map app]. constructor; [now apply Kc|].
    constructor; [|exact IH]. split; [discriminate|]. destruct (sign_cases (broken x)) as [-> | ->]; cbn; lia. }
  rewrite split_space_joined.
  - induction K as [|w ws [Hw _] K IH]; [reflexivity|]. cbn [filter]. destruct w; [congruence|]. now rewrite IH.
  - unfold source_pieces. destruct (flat_map _ l); discriminate.
  - eapply Forall_impl; [|exact K]. now intros w [_ Hw].
Qed.

Lemma omap_Ret {A B} (f : A -> outcome B) (g : A -> B) l : Forall (fun x => f x = Ret (g x)) l -> omap f l = Ret (map g l).
Proof. induction 1 as [|x l Hx Hl IH]; [reflexivity|]. cbn. now rewrite Hx, IH. Qed.

Lemma kept_length (us : list N) :
  let cs := flat_map (fun u => match char_from_u32 u with Some c => [c] | None => [] end) us in
  if forallb scalarb us then cs = us else (length cs < length us)%nat.
Proof.
  cbn zeta. assert (forall us, length (flat_map (fun u => match char_from_u32 u with Some c => [c] | None => [] end) us) <= length us)%nat as Kle.
  { induction us0 as [|u us0 IH]; [reflexivity|]. cbn [flat_map]. rewrite app_length. destruct (char_from_u32 u); cbn; lia. }
  induction us as [|u us IH]; [reflexivity|]. cbn [forallb flat_map]. unfold char_from_u32 at 1 3. destruct (scalarb u).
  - cbn [andb app]. destruct (forallb scalarb us); [now rewrite IH|]. cbn. lia.
  - cbn [andb app]. specialize (Kle us). cbn. lia.
Qed.

Section read.
  Variables uword uspace : N -> bool.
  Hypothesis word_ascii : forall c, c < 128 -> uword c = word c.
  Hypothesis space_ascii : forall c, c < 128 -> uspace c = space c.
  Hypothesis signs : forall b, uword (sign b) = false /\ uspace (sign b) = false.

  Lemma comment_items_ok l z : Forall good_tested (l ++ [z]) ->
    comment_items uword uspace (concat (map comment_text (l ++ [z]))) =
    Ret (flat_map (fun x => [valued x; [sign (broken x)]; by_rule x]) l ++ [valued z]).
  Proof.
    intros H. unfold comment_items. rewrite comment_captures by assumption.
    rewrite (omap_Ret _ (fun c => match c with [(_, z); (_, y); (_, x)] => [x; y; z] | _ => [] end)).
    2:{ apply Forall_map. apply Forall_forall. intros x _. reflexivity. }
    cbn [obind]. rewrite map_map. cbn [comment_groups].
    rewrite map_app. cbn [map]. rewrite concat_app. cbn [concat app]. rewrite <- flat_map_concat_map.
    unfold comment_groups. rewrite app_length. cbn [length]. unfold check.
    replace (Nat.leb 2 _) with true by (symmetry; apply Nat.leb_le; lia). f_equal.
    match goal with |- firstn (length ?a + 3 - 2) (?a ++ _) = _ => replace (length a + 3 - 2)%nat with (length a + 1)%nat by lia;
      rewrite firstn_app_2 end. reflexivity.
  Qed.

  Lemma test_of_line_ok l : l <> [] -> Forall good_tested l ->
    test_of_line uword uspace (line_groups l) =
    Ret (if forallb (fun x => scalarb (hex_number (code x))) l
         then Some (mkBreakTest (test_chars_of l) (map broken (removelast l)) (map by_rule (removelast l))) else None).
  Proof.
    intros Hne H. destruct (exists_last Hne) as (l0 & z & ->). rewrite removelast_last.
    unfold test_of_line, line_groups, index. cbn [get Nat.eqb obind].
    rewrite source_split by exact H. unfold source_pieces, step.
    rewrite step_pairs_0.
    assert (omap hex (map code l0 ++ [code z]) = Ret (test_chars_of (l0 ++ [z]))) as Eh.
    { unfold test_chars_of. change (map code l0 ++ [code z]) with (map code l0 ++ map code [z]). rewrite <- map_app, <- (map_map code hex_number).
      apply omap_Ret. apply Forall_map. eapply Forall_impl; [|exact H]. intros x (Hc & _). now apply hex_code_point. }
    rewrite Eh. cbn [obind].
    pose proof (kept_length (test_chars_of (l0 ++ [z]))) as Hk. cbn zeta in Hk.
    assert (forallb scalarb (test_chars_of (l0 ++ [z])) = forallb (fun x => scalarb (hex_number (code x))) (l0 ++ [z])) as Ef.
    { unfold test_chars_of. generalize (l0 ++ [z]). induction l as [|x l IH]; [reflexivity|]. cbn. now rewrite IH. }
    rewrite Ef in Hk. set (cs := flat_map _ (test_chars_of _)) in *.
    destruct (forallb (fun x => scalarb (hex_number (code x))) (l0 ++ [z])) eqn:E.
    2:{ replace (Nat.eqb _ _) with false by (symmetry; apply Nat.eqb_neq; lia). reflexivity. }
    clearbody cs. subst cs. rewrite Nat.eqb_refl. cbn [negb].
    assert (length (test_chars_of (l0 ++ [z])) = S (length l0)) as Lc.
    { unfold test_chars_of. rewrite map_length, app_length. cbn. lia. }
    rewrite Lc.
    assert (forall A (f g : tested -> A), length (flat_map (fun x => [f x; g x]) l0) = (2 * length l0)%nat) as L2.
    { intros A f g. clear. induction l0; cbn in *; lia. }
    assert (forall A (f g k : tested -> A), length (flat_map (fun x => [f x; g x; k x]) l0) = (3 * length l0)%nat) as L3.
    { intros A f g k. clear. induction l0; cbn in *; lia. }
    rewrite app_length, L2. cbn [length].
    unfold check. replace (Nat.eqb _ _) with true by (symmetry; apply Nat.eqb_eq; lia).
    fold (@step str 2).
    change (step_from 2 0 (skipn 1 ?x)) with (step 2 (skipn 1 x)).
    rewrite step_pairs_1.
    rewrite (omap_Ret _ (fun s => str_eqb s [0xF7])).
    2:{ apply Forall_map. apply Forall_forall. intros x _. destruct (broken x); reflexivity. }
    cbn [obind]. rewrite !map_length. replace (Nat.leb 1 (S (length l0)) && Nat.eqb (length l0) (S (length l0) - 1)) with true
      by (symmetry; apply andb_true_iff; split; [apply Nat.leb_le; lia|apply Nat.eqb_eq; lia]).
    rewrite comment_items_ok by exact H. cbn [obind]. rewrite app_length, L3. cbn [length].
    replace (Nat.leb 2 (S (length l0) * 3) && Nat.eqb (3 * length l0 + 1) (S (length l0) * 3 - 2)) with true
      by (symmetry; apply andb_true_iff; split; [apply Nat.leb_le; lia|apply Nat.eqb_eq; lia]).
    rewrite step_triples_0. rewrite app_length, map_length. cbn [length].
    replace (Nat.eqb (length l0 + 1) (S (length l0))) with true by (symmetry; apply Nat.eqb_eq; lia).
    change (step_from 3 0 (skipn 2 ?x)) with (step 3 (skipn 2 x)).
    rewrite step_triples_2, map_length.
    replace (Nat.eqb (length l0) (S (length l0) - 1)) with true by (symmetry; apply Nat.eqb_eq; lia).
    rewrite map_map. do 3 f_equal. apply map_ext. intros x. destruct (broken x); reflexivity.
  Qed.

  Definition test_of (l : list tested) : BreakTest :=
    mkBreakTest (test_chars_of l) (map broken (removelast l)) (map by_rule (removelast l)).

  Lemma tests_read f : Forall good_test_line f ->
    break_tests_from_str uword uspace (tests_text f) = Ret (map test_of (usable_tests f)).
  Proof.
    intros H. unfold break_tests_from_str. rewrite lines_captures by assumption.
    set (caps := flat_map _ f).
    assert (exists os, omap (test_of_line uword uspace) caps = Ret os /\
      flat_map (fun o => match o with Some t => [t] | None => [] end) os = map test_of (usable_tests f)) as (os & -> & E).
    { unfold caps. clear caps. induction H as [|x f Hx Hf (os & IH1 & IH2)].
      - exists []. split; reflexivity.
      - destruct x as [sp sp' l|t]; cbn [flat_map app usable_tests]; [|exists os; now split].
        destruct Hx as (_ & _ & Hne & Hl). cbn [omap]. rewrite test_of_line_ok by assumption. cbn [obind].
        rewrite IH1. cbn [obind]. eexists. split; [reflexivity|]. cbn [flat_map]. rewrite IH2.
        destruct (forallb _ l); reflexivity. }
    cbn [obind]. now rewrite E.
  Qed.

  Lemma usable_good f : Forall good_test_line f -> Forall (fun l => l <> [] /\ Forall good_tested l) (usable_tests f).
  Proof.
    induction 1 as [|x f Hx Hf IH]; [constructor|]. destruct x as [sp sp' l|t]; cbn [usable_tests]; [|exact IH].
    destruct (forallb _ l); [|exact IH]. constructor; [|exact IH]. now destruct Hx as (_ & _ & H1 & H2).
  Qed.

  Lemma lengths l : l <> [] -> chars (test_of l) <> [] /\ length (breaks (test_of l)) = (length (chars (test_of l)) - 1)%nat /\
    length (rules (test_of l)) = (length (chars (test_of l)) - 1)%nat.
  Proof.
    intros Hne. destruct (exists_last Hne) as (l0 & z & ->). cbn. unfold test_chars_of.
    rewrite removelast_last, !map_length, app_length. cbn. repeat split; [|lia..]. intros E. now destruct l0.
  Qed.

  Lemma nth_marks {A} (g : tested -> A) d l k : (0 < k < length l)%nat ->
    exists x, nth_error l (k - 1) = Some x /\ nth (k - 1) (map g (removelast l)) d = g x.
  Proof.
    intros Hk. destruct (exists_last (l := l)) as (l0 & z & ->); [intros ->; cbn in Hk; lia|].
    rewrite app_length in Hk. cbn in Hk. rewrite removelast_last, nth_error_app1 by lia.
    destruct (nth_error l0 (k - 1)) as [x|] eqn:E; [|apply nth_error_None in E; lia].
    exists x. split; [reflexivity|]. apply nth_error_nth. now apply map_nth_error.
  Qed.

  Lemma divides_ext s cut cut' ls : (forall k, (0 < k < length s)%nat -> cut k <-> cut' k) ->
    divides s cut ls -> divides s cut' ls.
  Proof. intros H (H1 & H2 & H3). split; [exact H1|]. split; [exact H2|]. intros k Hk. now rewrite H3, H. Qed.

  Lemma test_chars_length l : length (test_chars_of l) = length l.
  Proof. apply map_length. Qed.

  Lemma marks_cut l k : (0 < k < length (test_chars_of l))%nat ->
    nth (k - 1) (breaks (test_of l)) false = true <-> break_after l k.
  Proof.
    rewrite test_chars_length. intros Hk. destruct (nth_marks broken false l k Hk) as (x & E1 & E2).
    cbn [test_of breaks]. rewrite E2. unfold break_after. rewrite E1. split; [eauto|]. intros (y & Ey & Hy). now injection Ey as <-.
  Qed.

  Lemma rules_cut l k : (0 < k < length (test_chars_of l))%nat ->
    extended_only (nth (k - 1) (rules (test_of l)) []) <-> exists r, rule_after l k r /\ extended_only r.
  Proof.
    rewrite test_chars_length. intros Hk. destruct (nth_marks by_rule [] l k Hk) as (x & E1 & E2).
    cbn [test_of rules]. rewrite E2. unfold rule_after. rewrite E1. split.
    - intros H. exists (by_rule x). eauto.
    - intros (r & (y & Ey & Er) & Hr). injection Ey as <-. now subst r.
  Qed.

  Lemma words_written f : Forall good_test_line f ->
    exists out, emit_words uword uspace (tests_text f) = Ret out /\
      Forall2 (fun l o => fst o = test_chars_of l /\ divides (test_chars_of l) (break_after l) (snd o)) (usable_tests f) out.
  Proof.
    intros H. unfold emit_words. rewrite tests_read by exact H. cbn [obind].
    pose proof (usable_good f H) as K. clear H; induction K as [|l ls [Hne Hl] K (out & IH1 & IH2)].
    - exists []. split; [reflexivity|constructor].
    - cbn [map omap]. destruct (lengths l Hne) as (L1 & L2 & L3).
      destruct (clusters_ok (test_of l) L1 L2) as (cl & E & Hd). rewrite E. cbn [obind]. rewrite IH1. cbn [obind].
      eexists. split; [reflexivity|]. constructor; [|exact IH2]. cbn [fst snd]. split; [reflexivity|].
      eapply divides_ext; [|exact Hd]. intros k Hk. now apply marks_cut.
  Qed.

  Lemma graphemes_written f : Forall good_test_line f ->
    exists out, emit_graphemes uword uspace (tests_text f) = Ret out /\
      Forall2 (fun l o => let '(s, extended, legacy) := o in
        s = test_chars_of l /\ divides s (break_after l) extended /\
        match legacy with
        | None => forall k r, (0 < k < length l)%nat -> rule_after l k r -> ~ extended_only r
        | Some ls => divides s (fun k => break_after l k \/ exists r, rule_after l k r /\ extended_only r) ls
        end) (usable_tests f) out.
  Proof.
    intros H. unfold emit_graphemes. rewrite tests_read by exact H. cbn [obind].
    pose proof (usable_good f H) as K. clear H; induction K as [|l ls [Hne Hl] K (out & IH1 & IH2)].
    - exists []. split; [reflexivity|constructor].
    - cbn [map omap]. destruct (lengths l Hne) as (L1 & L2 & L3).
      destruct (clusters_ok (test_of l) L1 L2) as (cl & E & Hd). rewrite E. cbn [obind].
      destruct (legacy_ok (test_of l) L1 L2 L3) as (o & Eo & Ho). rewrite Eo. cbn [obind]. rewrite IH1. cbn [obind].
      eexists. split; [reflexivity|]. constructor; [|exact IH2]. split; [reflexivity|]. split.
      { eapply divides_ext; [|exact Hd]. intros k Hk. now apply marks_cut. }
      destruct o as [lg|].
      + eapply divides_ext; [|exact Ho]. intros k Hk. cbn beta. now rewrite marks_cut, rules_cut.
      + intros k r Hk (x & Ex & <-) Hr. cbn [test_of rules] in Ho.
        destruct (nth_marks by_rule [] l k Hk) as (y & E1 & E2). rewrite Ex in E1. injection E1 as <-.
        rewrite Forall_forall in Ho. apply (Ho (by_rule x)); [|exact Hr]. rewrite <- E2. apply nth_In.
        cbn [test_of rules] in L3. rewrite L3. cbn [test_of chars]. rewrite test_chars_length. lia.
  Qed.
End read.

(** The segmentation tests are read exactly. *)
From Coq Require Import String List NArith ZArith Lia Bool PeanoNat ZifyBool ZifyNat ZifyN.
From Verif Require Import Base TextModel GenRegex GenModel GenDataModel GenSpec GenBinarySpec GenLemmas GenSegModel GenSegSpec GenSegRegex.
Import ListNotations.
Open Scope list_scope.
Open Scope N_scope.

Ltac ginv :=
  repeat match goal with
  | H : glang (Seq _ _) _ _ |- _ => apply glang_seq_inv in H as (? & ? & ? & ? & -> & -> & ? & ?)
  | H : glang (Cap _ _) _ _ |- _ => apply glang_cap_inv in H as (? & -> & ?)
  | H : glang (plus (Cls _)) _ _ |- _ => apply glang_plus_inv in H as (? & ? & ->)
  | H : glang (Star (Cls _)) _ _ |- _ => apply glang_star_inv in H as [? ->]
  | H : glang (lit _) _ _ |- _ => apply glang_lit_inv in H as [-> ->]
  | H : glang (lits _ _) _ _ |- _ => apply glang_lits_inv in H as [-> ->]
  | H : glang (Cls _) _ _ |- _ => apply glang_cls_inv in H as (? & -> & ? & ->)
  | H : glang dot _ _ |- _ => apply glang_cls_inv in H as (? & -> & ? & ->)
  end.

Section read.
  Variables uword uspace : N -> bool.
  Hypothesis word_ascii : forall c, c < 128 -> uword c = word c.
  Hypothesis space_ascii : forall c, c < 128 -> uspace c = space c.
  Hypothesis signs : forall b, uword (sign b) = false /\ uspace (sign b) = false.

  Lemma is_word_lt c : is_word c -> c < 128 /\ word c = true.
  Proof. unfold is_word, is_digit, word, alnum, alpha, digit. lia. Qed.
  Lemma is_word_uword c : is_word c -> uword c = true.
  Proof. intros H. apply is_word_lt in H as [H1 H2]. now rewrite word_ascii. Qed.
  Lemma is_word_uspace c : is_word c -> uspace c = false.
  Proof.
    intros H. pose proof (is_word_lt _ H) as [H1 H2]. rewrite space_ascii by exact H1.
    unfold is_word, is_digit, space in *. lia.
  Qed.
  Lemma sign_cases b : sign b = 0xF7 \/ sign b = 0xD7.
  Proof. destruct b; [now left|now right]. Qed.
  Lemma sign_out b : in_name uword uspace (sign b) = false.
  Proof. unfold in_name. destruct (signs b) as [-> ->]. destruct b; reflexivity. Qed.
  Lemma division : uword 0xF7 = false /\ uspace 0xF7 = false.
  Proof. exact (signs true). Qed.

  Local Notation N_ := (in_name uword uspace).

  Lemma in_name_word c : uword c = true -> N_ c = true.
  Proof. unfold in_name. intros ->. reflexivity. Qed.
  Lemma in_name_space c : uspace c = true -> N_ c = true.
  Proof. unfold in_name. intros ->. rewrite orb_true_r. reflexivity. Qed.

  Lemma named_ok w : Forall (fun c => is_word c \/ In c (letters " <>()-")) w -> Forall (fun c => N_ c = true) w.
  Proof.
    apply Forall_impl. intros c [H|H]; [now apply in_name_word, is_word_uword|].
    cbn in H. destruct (c =? 0x20) eqn:E.
    - apply N.eqb_eq in E as ->. apply in_name_space. now rewrite space_ascii.
    - unfold in_name. lia.
  Qed.

  Definition comment_groups (x : tested) : list (nat * str) :=
    [(3%nat, by_rule x); (2%nat, [sign (broken x)]); (1%nat, valued x)].

  Lemma comment_eats x u : good_tested x -> eats (COMMENT_RE uword uspace) (comment_text x) u (comment_groups x).
  Proof.
    intros (_ & Hn & Hn' & Hv & Hv' & Hr & Hr').
    pose proof (signs (broken x)) as [Hsw Hss]. pose proof (sign_out (broken x)) as Hso.
    assert (uspace 0x20 = true) as S20 by (now rewrite space_ascii).
    assert (uspace 0x5B = false) as S5B by (now rewrite space_ascii).
    assert (uword 0x28 = false) as W28 by (now rewrite word_ascii).
    assert (uspace 0x29 = false) as S29 by (now rewrite space_ascii).
    assert (N_ 0x28 = true) as N28 by (unfold in_name; cbn; now rewrite !orb_true_r).
    assert (N_ 0x29 = true) as N29 by (unfold in_name; cbn; now rewrite !orb_true_r).
    assert (Forall (fun c => N_ c = true) (valued x)) as Nv.
    { eapply Forall_impl; [|exact Hv']. intros. now apply in_name_word, is_word_uword. }
    assert (Forall (fun c => uword c = true) (valued x)) as Wv.
    { eapply Forall_impl; [|exact Hv']. intros. now apply is_word_uword. }
    assert (Forall (fun c => negb (c =? 0x5D) = true) (by_rule x)) as Rr.
    { eapply Forall_impl; [|exact Hr']. cbn. lia. }
    apply eats_unique.
    - reflexivity.
    - unfold COMMENT_RE, comment_text, comment_groups.
      change ([0x29; 0x20; sign (broken x); 0x20; 0x5B] ++ by_rule x ++ [0x5D]) with
        ([0x29] ++ [0x20] ++ [sign (broken x)] ++ [0x20] ++ [0x5B] ++ by_rule x ++ [0x5D]).
      change ([0x20; 0x28] ++ valued x ++ [0x29] ++ [0x20] ++ [sign (broken x)] ++ [0x20] ++ [0x5B] ++ by_rule x ++ [0x5D]) with
        ([0x20] ++ [0x28] ++ valued x ++ [0x29] ++ [0x20] ++ [sign (broken x)] ++ [0x20] ++ [0x5B] ++ by_rule x ++ [0x5D]).
      apply glang_seq; [apply glang_plus; [discriminate|now repeat constructor]|].
      apply glang_seq; [apply glang_plus; [exact Hn|now apply named_ok]|].
      apply glang_seq; [apply glang_plus; [discriminate|now repeat constructor]|].
      apply glang_seq; [apply glang_lit|].
      apply (G_seq _ _ _ _ [(1%nat, valued x)] [(3%nat, by_rule x); (2%nat, [sign (broken x)])]).
      { constructor. now apply glang_plus. }
      apply glang_seq; [apply glang_lit|].
      apply glang_seq; [apply glang_plus; [discriminate|now repeat constructor]|].
      apply (G_seq _ _ _ _ [(2%nat, [sign (broken x)])] [(3%nat, by_rule x)]).
      { constructor. constructor. destruct (broken x); reflexivity. }
      apply glang_seq; [apply glang_plus; [discriminate|now repeat constructor]|].
      apply glang_seq; [apply glang_lit|].
      apply (G_seq _ _ _ _ [(3%nat, by_rule x)] []); [constructor; now apply glang_plus|apply glang_lit].
    - intros w' u' g' Hg E. unfold COMMENT_RE in Hg. ginv.
      unfold comment_text in E. cbn [app] in E. repeat (progress (rewrite <- ?app_assoc in E; cbn [app] in E)).
      (* rename the parts *)
      match type of E with _ = ?a ++ ?n ++ ?b ++ 0x28 :: ?v ++ 0x29 :: ?c ++ ?s :: ?d ++ 0x5B :: ?r ++ 0x5D :: u' =>
        rename a into a0; rename n into n0; rename b into b0; rename v into v0; rename c into c0; rename s into s0;
        rename d into d0; rename r into r0 end.
      assert (N_ s0 = false) as Hs0.
      { match goal with H : (s0 =? 0xF7) || (s0 =? 0xD7) = true |- _ =>
          apply orb_true_iff in H as [H|H]; apply N.eqb_eq in H; subst s0 end; [exact (sign_out true)|exact (sign_out false)]. }
      (* up to the sign *)
      replace (a0 ++ n0 ++ b0 ++ 0x28 :: v0 ++ 0x29 :: c0 ++ s0 :: d0 ++ 0x5B :: r0 ++ 0x5D :: u') with
        ((a0 ++ n0 ++ b0 ++ 0x28 :: v0 ++ 0x29 :: c0) ++ s0 :: d0 ++ 0x5B :: r0 ++ 0x5D :: u') in E
        by (repeat (progress (rewrite <- ?app_assoc; cbn [app])); reflexivity).
      replace (0x20 :: named x ++ 0x20 :: 0x28 :: valued x ++ 0x29 :: 0x20 :: sign (broken x) :: 0x20 :: 0x5B :: by_rule x ++ 0x5D :: u) with
        ((0x20 :: named x ++ 0x20 :: 0x28 :: valued x ++ 0x29 :: [0x20]) ++ sign (broken x) :: 0x20 :: 0x5B :: by_rule x ++ 0x5D :: u) in E
        by (repeat (progress (rewrite <- ?app_assoc; cbn [app])); reflexivity).
      apply (span_unique N_) in E as (E1 & Es & E2); auto.
      2:{ constructor; [now apply in_name_space|]. apply Forall_app. split; [now apply named_ok|].
          constructor; [now apply in_name_space|]. constructor; [exact N28|]. apply Forall_app. split; [exact Nv|].
          repeat constructor; [exact N29|now apply in_name_space]. }
      2:{ apply Forall_app. split; [eapply Forall_impl; [|eassumption]; intros; now apply in_name_space|].
          apply Forall_app. split; [assumption|].
          apply Forall_app. split; [eapply Forall_impl; [|eassumption]; intros; now apply in_name_space|].
          constructor; [exact N28|].
          apply Forall_app. split; [eapply Forall_impl; [|eassumption]; intros; now apply in_name_word|].
          constructor; [exact N29|]. eapply Forall_impl; [|eassumption]; intros; now apply in_name_space. }
      (* before the sign *)
      replace (a0 ++ n0 ++ b0 ++ 0x28 :: v0 ++ 0x29 :: c0) with ((a0 ++ n0 ++ b0 ++ 0x28 :: v0) ++ 0x29 :: c0) in E1
        by (repeat (progress (rewrite <- ?app_assoc; cbn [app])); reflexivity).
      replace (0x20 :: named x ++ 0x20 :: 0x28 :: valued x ++ 0x29 :: [0x20]) with
        ((0x20 :: named x ++ 0x20 :: 0x28 :: valued x) ++ 0x29 :: [0x20]) in E1
        by (repeat (progress (rewrite <- ?app_assoc; cbn [app])); reflexivity).
      apply (span_unique_r uspace) in E1 as (E1 & _ & <-); auto.
      replace (a0 ++ n0 ++ b0 ++ 0x28 :: v0) with ((a0 ++ n0 ++ b0) ++ 0x28 :: v0) in E1
        by (repeat (progress (rewrite <- ?app_assoc; cbn [app])); reflexivity).
      replace (0x20 :: named x ++ 0x20 :: 0x28 :: valued x) with ((0x20 :: named x ++ [0x20]) ++ 0x28 :: valued x) in E1
        by (repeat (progress (rewrite <- ?app_assoc; cbn [app])); reflexivity).
      apply (span_unique_r uword) in E1 as (E1 & _ & <-); auto.
      (* after it *)
      change (0x20 :: 0x5B :: by_rule x ++ 0x5D :: u) with ([0x20] ++ 0x5B :: by_rule x ++ 0x5D :: u) in E2.
      apply (span_unique uspace) in E2 as (<- & _ & E2); auto.
      apply (span_unique (fun c => negb (c =? 0x5D))) in E2 as (<- & _ & <-); auto.
      subst s0. split; [|reflexivity].
      unfold comment_text. cbn [app]. repeat (progress (rewrite <- ?app_assoc; cbn [app])).
      replace (a0 ++ n0 ++ b0 ++ 0x28 :: valued x ++ 0x29 :: 0x20 :: sign (broken x) :: 0x20 :: 0x5B :: by_rule x ++ [0x5D]) with
        ((a0 ++ n0 ++ b0) ++ 0x28 :: valued x ++ 0x29 :: 0x20 :: sign (broken x) :: 0x20 :: 0x5B :: by_rule x ++ [0x5D])
        by (repeat (progress (rewrite <- ?app_assoc; cbn [app])); reflexivity).
      rewrite <- E1. cbn [app]. repeat (progress (rewrite <- ?app_assoc; cbn [app])). reflexivity.
  Qed.

  Lemma comment_captures l : Forall good_tested l ->
    captures_iter (COMMENT_RE uword uspace) (concat (map comment_text l)) = map comment_groups l.
  Proof.
    unfold captures_iter. intros H.
    assert (forall n b, (length (concat (map comment_text l)) < n)%nat ->
      captures_loop n (COMMENT_RE uword uspace) b (concat (map comment_text l)) = map comment_groups l) as K; [|apply K; lia].
    induction H as [|x l Hx Hl IH]; intros n b Hn; (destruct n as [|n]; [lia|]).
    - reflexivity.
    - cbn [map concat] in *. cbn [captures_loop]. rewrite (comment_eats x _ Hx b []). cbn [groups line_start ahead].
      rewrite app_length in *. assert (0 < length (comment_text x))%nat by (cbn; lia).
      replace (Nat.ltb _ _) with true by (symmetry; apply Nat.ltb_lt; lia).
      rewrite app_nil_r. f_equal. apply IH. lia.
  Qed.

  (** * Lines *)
  Lemma blank_uspace c : is_blank c -> uspace c = true.
  Proof. intros [->| ->]; now rewrite space_ascii. Qed.

  Lemma hex_word c : is_hex c -> is_word c.
  Proof.
    unfold is_hex, hex_value_of, is_word, is_digit. intros H.
    destruct ((0x30 <=? c) && (c <=? 0x39)) eqn:E1; [lia|].
    destruct ((0x41 <=? c) && (c <=? 0x46)) eqn:E2; [lia|].
    destruct ((0x61 <=? c) && (c <=? 0x66)) eqn:E3; [lia|congruence].
  Qed.

  (** The source starts and ends with a digit. *)
  Lemma source_first l : l <> [] -> Forall good_tested l -> exists c t, source_text l = c :: t /\ is_word c.
  Proof.
    destruct l as [|x l]; [congruence|]. intros _ H. inversion H as [|? ? (Hc & _) Hl]; subst.
    destruct Hc as [Hc Hlen]. destruct (code x) as [|c t] eqn:E; [cbn in Hlen; lia|]. inversion Hc; subst.
    destruct l; cbn [source_text]; rewrite E; cbn [app]; eexists _, _; (split; [reflexivity|now apply hex_word]).
  Qed.

  Lemma source_last l : l <> [] -> Forall good_tested l -> exists c t, source_text l = t ++ [c] /\ is_word c.
  Proof.
    induction l as [|x l IH]; [congruence|]. intros _ H. inversion H as [|? ? (Hc & _) Hl]; subst. destruct l as [|y l].
    - cbn [source_text]. destruct Hc as [Hc Hlen].
      destruct (exists_last (l := code x)) as (t & c & E); [intros E; rewrite E in Hlen; cbn in Hlen; lia|].
      exists c, t. split; [exact E|]. rewrite E in Hc. apply Forall_app in Hc as [_ Hc]. inversion Hc; subst. now apply hex_word.
    - destruct IH as (c & t & E & Hw); [discriminate|exact Hl|]. cbn [source_text] in *. rewrite E.
      exists c, (code x ++ [0x20; sign (broken x); 0x20] ++ t). split; [now rewrite <- !app_assoc|exact Hw].
  Qed.

  Lemma source_chars l : Forall good_tested l -> Forall (fun c => c <> 10 /\ c <> 0x23) (source_text l).
  Proof.
    induction 1 as [|x l (Hc & _) Hl IH]; [constructor|].
    assert (Forall (fun c => c <> 10 /\ c <> 0x23) (code x)) as K.
    { destruct Hc as [Hc _]. eapply Forall_impl; [|exact Hc]. intros c H. apply hex_word in H. unfold is_word, is_digit in H. lia. }
    destruct l; cbn [source_text]; [exact K|]. apply Forall_app. split; [exact K|].
    apply Forall_app. split; [|exact IH]. pose proof (sign_cases (broken x)). repeat constructor; lia.
  Qed.

  Lemma comment_chars x : good_tested x -> Forall (fun c => c <> 10 /\ c <> 0x23) (comment_text x).
  Proof.
    intros (_ & _ & Hn & _ & Hv & _ & Hr). unfold comment_text. pose proof (sign_cases (broken x)).
    repeat (apply Forall_app; split); try (repeat constructor; lia).
    - eapply Forall_impl; [|exact Hn]. intros c Hc. unfold is_word, is_digit in Hc. cbn in Hc. lia.
    - eapply Forall_impl; [|exact Hv]. intros c Hc. unfold is_word, is_digit in Hc. lia.
    - eapply Forall_impl; [|exact Hr]. intros c Hc. cbn in Hc. lia.
  Qed.

  Lemma comments_chars l : Forall good_tested l -> Forall (fun c => c <> 10 /\ c <> 0x23) (concat (map comment_text l)).
  Proof. induction 1; cbn [map concat]; [constructor|]. apply Forall_app. split; [now apply comment_chars|assumption]. Qed.

  Lemma comments_last l : l <> [] -> exists t, concat (map comment_text l) = t ++ [0x5D].
  Proof.
    intros Hne. destruct (exists_last Hne) as (l' & x & ->). rewrite map_app, concat_app. cbn [map concat]. rewrite app_nil_r.
    exists (concat (map comment_text l') ++ [0x20] ++ named x ++ [0x20; 0x28] ++ valued x ++ [0x29; 0x20; sign (broken x); 0x20; 0x5B] ++ by_rule x).
    unfold comment_text. rewrite <- !app_assoc. reflexivity.
  Qed.

  (** The part of a line before the captured comment. *)
  Definition head_text (sp sp' : str) (l : list tested) : str :=
    [0xF7; 0x20] ++ source_text l ++ [0x20; 0xF7] ++ sp ++ [0x23] ++ sp' ++ [0xF7; 0x20] ++ letters "[0.2]".

  Lemma test_text_eq sp sp' l : test_text sp sp' l = head_text sp sp' l ++ concat (map comment_text l).
  Proof. unfold test_text, head_text. now rewrite <- !app_assoc. Qed.

  Lemma split_first (c : N) : forall A P v R, ~ In c A -> P ++ c :: v = A ++ c :: R ->
    P = A \/ exists Q, P = A ++ c :: Q /\ R = Q ++ c :: v.
  Proof.
    induction A as [|a A IH]; intros [|q P] v R HA E; cbn in *.
    - now left.
    - injection E as -> E. right. exists P. auto.
    - injection E as <- _. tauto.
    - injection E as -> E. destruct (IH P v R) as [->|(Q & -> & ->)]; [tauto|exact E|now left|].
      right. now exists Q.
  Qed.

  Lemma split_later (c d : N) : forall Q P v T, ~ In c Q -> c <> d -> P ++ c :: v = Q ++ d :: T -> exists Z, P = Q ++ d :: Z.
  Proof.
    induction Q as [|a Q IH]; intros [|q P] v T HQ Hd E; cbn in *.
    - congruence.
    - injection E as -> E. now exists P.
    - injection E as <- _. tauto.
    - injection E as -> E. destruct (IH P v T) as (Z & ->); [tauto|exact Hd|exact E|]. now exists Z.
  Qed.

  Lemma head_eats sp sp' l T : Forall is_blank sp -> Forall is_blank sp' -> l <> [] -> Forall good_tested l ->
    eats (LINE_HEAD uword uspace) (head_text sp sp' l) (concat (map comment_text l) ++ 10 :: T) [(1%nat, source_text l)].
  Proof.
    intros Hsp Hsp' Hne Hl. destruct division as [Wf7 Sf7].
    assert (uspace 0x20 = true) as S20 by (now rewrite space_ascii).
    assert (uspace 0x5B = false) as S5B by (now rewrite space_ascii).
    assert (uspace 0x5D = false) as S5D by (now rewrite space_ascii).
    assert (uspace 0x23 = false) as S23 by (now rewrite space_ascii).
    assert (uword 0x5D = false) as W5D by (now rewrite word_ascii).
    assert (uword 10 = false) as W10 by (now rewrite word_ascii).
    assert (Forall (fun c => uspace c = true) sp) as Usp by (eapply Forall_impl; [|exact Hsp]; apply blank_uspace).
    assert (Forall (fun c => uspace c = true) sp') as Usp' by (eapply Forall_impl; [|exact Hsp']; apply blank_uspace).
    pose proof (source_chars l Hl) as Hsc. pose proof (comments_chars l Hl) as Hcc.
    destruct (source_first l Hne Hl) as (c1 & t1 & E1 & Hc1). destruct (source_last l Hne Hl) as (c2 & t2 & E2 & Hc2).
    destruct (comments_last l Hne) as (t3 & E3).
    apply eats_unique.
    - reflexivity.
    - unfold LINE_HEAD, head_text.
      change ([0xF7; 0x20] ++ letters "[0.2]") with ([0xF7] ++ [0x20] ++ letters "[0.2]").
      change ([0xF7; 0x20] ++ source_text l ++ [0x20; 0xF7] ++ sp ++ [0x23] ++ sp' ++ [0xF7] ++ [0x20] ++ letters "[0.2]") with
        ([] ++ [0xF7] ++ [0x20] ++ source_text l ++ [0x20] ++ [0xF7] ++ sp ++ [0x23] ++ sp' ++ [0xF7] ++ [0x20] ++ letters "[0.2]").
      apply glang_seq; [apply glang_star; constructor|].
      apply glang_seq; [apply glang_lit|].
      apply glang_seq; [apply glang_plus; [discriminate|now repeat constructor]|].
      apply (G_seq _ _ _ _ [(1%nat, source_text l)] []).
      { constructor. destruct t1 as [|c1' t1].
        - exfalso. destruct l as [|x l]; [congruence|]. inversion Hl as [|? ? ((_ & Hlen) & _) _]; subst.
          assert (length (source_text (x :: l)) = 1%nat) as L by (now rewrite E1).
          destruct l; cbn [source_text] in L; [lia|]. rewrite app_length in L. lia.
        - destruct (exists_last (l := c1' :: t1)) as (m & c & Em); [discriminate|].
          rewrite E1, Em. change (c1 :: m ++ [c]) with ([c1] ++ m ++ [c]).
          assert (c = c2) as ->. { rewrite E1, Em in E2. change (c1 :: m ++ [c]) with ((c1 :: m) ++ [c]) in E2. now apply app_inj_tail in E2. }
          apply glang_seq; [constructor; now apply is_word_uword|]. apply glang_seq; [|constructor; now apply is_word_uword].
          apply glang_star. rewrite E1, Em in Hsc. inversion Hsc as [|? ? _ Hsc']; subst. apply Forall_app in Hsc' as [Hsc' _].
          eapply Forall_impl; [|exact Hsc']. cbn. lia. }
      apply glang_seq; [apply glang_plus; [discriminate|now repeat constructor]|].
      apply glang_seq; [apply glang_lit|].
      apply glang_seq; [now apply glang_star|].
      apply glang_seq; [apply glang_lit|].
      apply glang_seq; [now apply glang_star|].
      apply glang_seq; [apply glang_lit|].
      apply glang_seq; [apply glang_plus; [discriminate|now repeat constructor]|].
      apply (glang_lits (text "0.2]") 0x5B).
    - intros w' u' g' Hg E. unfold LINE_HEAD, dot in Hg. ginv.
      unfold head_text in E. set (C := concat (map comment_text l)) in *.
      cbn [app letters] in E. repeat (progress (rewrite <- ?app_assoc in E; cbn [app] in E)).
      match type of E with _ = ?a ++ 0xF7 :: ?b ++ ?p :: ?m ++ ?q :: ?d ++ 0xF7 :: ?e ++ 0x23 :: ?f ++ 0xF7 :: ?k ++ 0x5B :: _ =>
        rename a into a0; rename b into b0; rename p into p0; rename m into m0; rename q into q0; rename d into d0;
        rename e into e0; rename f into f0; rename k into k0 end.
      (* the first sign *)
      match type of E with 0xF7 :: ?x = _ => change (0xF7 :: x) with ([] ++ 0xF7 :: x) in E end.
      apply (span_unique uspace) in E as (<- & _ & E); auto.
      (* white space *)
      destruct b0 as [|b b0]; [congruence|]. cbn [app] in E. injection E as <- E.
      destruct b0 as [|b b0].
      2:{ exfalso. rewrite E1 in E. cbn [app] in E. injection E as <- _.
          match goal with H : Forall (fun c => uspace c = true) (_ :: c1 :: _) |- _ => inversion H as [|? ? _ H']; subst; inversion H'; subst end.
          rewrite is_word_uspace in * by exact Hc1. discriminate. }
      cbn [app] in E.
      (* the number sign *)
      set (X := p0 :: m0 ++ [q0]).
      replace (p0 :: m0 ++ q0 :: d0 ++ 0xF7 :: e0 ++ 0x23 :: f0 ++ 0xF7 :: k0 ++ 0x5B :: 0x30 :: 0x2E :: 0x32 :: 0x5D :: u') with
        ((X ++ d0 ++ 0xF7 :: e0) ++ 0x23 :: f0 ++ 0xF7 :: k0 ++ 0x5B :: 0x30 :: 0x2E :: 0x32 :: 0x5D :: u') in E
        by (unfold X; cbn [app]; repeat (progress (rewrite <- ?app_assoc; cbn [app])); reflexivity).
      replace (source_text l ++ 0x20 :: 0xF7 :: sp ++ 0x23 :: sp' ++ 0xF7 :: 0x20 :: 0x5B :: 0x30 :: 0x2E :: 0x32 :: 0x5D :: C ++ 10 :: T) with
        ((source_text l ++ 0x20 :: 0xF7 :: sp) ++ 0x23 :: (sp' ++ 0xF7 :: 0x20 :: 0x5B :: 0x30 :: 0x2E :: 0x32 :: 0x5D :: C) ++ 10 :: T) in E
        by (repeat (progress (rewrite <- ?app_assoc; cbn [app])); reflexivity).
      symmetry in E. pose proof E as E0. apply split_first in E.
      2:{ intros K. apply in_app_iff in K as [K|[K|[K|K]]]; try discriminate.
          - rewrite Forall_forall in Hsc. now destruct (Hsc _ K).
          - rewrite Forall_forall in Hsp. destruct (Hsp _ K); discriminate. }
      destruct E as [E|(Q & E & EQ)].
      + (* the source *)
        assert (X ++ d0 = source_text l ++ [0x20] /\ e0 = sp) as [EX ->].
        { replace (X ++ d0 ++ 0xF7 :: e0) with ((X ++ d0) ++ 0xF7 :: e0) in E by (now rewrite <- app_assoc).
          replace (source_text l ++ 0x20 :: 0xF7 :: sp) with ((source_text l ++ [0x20]) ++ 0xF7 :: sp) in E by (now rewrite <- app_assoc).
          apply (span_unique_r uspace) in E as (E & _ & ->); auto. }
        assert (X = source_text l /\ d0 = [0x20]) as [EX' ->].
        { destruct (exists_last (l := d0)) as (d1 & c & Ed); [assumption|]. rewrite Ed, app_assoc in EX.
          apply app_inj_tail in EX as [EX ->]. destruct d1 as [|z d1 _] using rev_ind; [now rewrite app_nil_r in EX|].
          exfalso. rewrite E2, app_assoc in EX. apply app_inj_tail in EX as [_ ->].
          match goal with H : Forall (fun c => uspace c = true) d0 |- _ => rewrite Ed in H;
            apply Forall_app in H as [H _]; apply Forall_app in H as [_ H]; inversion H; subst end.
          rewrite is_word_uspace in * by exact Hc2. discriminate. }
        rewrite E in E0. apply app_inv_head in E0. injection E0 as E0.
        repeat (progress (rewrite <- ?app_assoc in E0; cbn [app] in E0)).
        apply (span_unique uspace) in E0 as (-> & _ & E0); auto.
        match type of E0 with _ = 0x20 :: ?x => change (0x20 :: x) with ([0x20] ++ x) in E0 end.
        apply (span_unique uspace) in E0 as (-> & _ & E0); auto.
        split.
        * unfold head_text. rewrite <- EX'. unfold X. cbn [app]. repeat (progress (rewrite <- ?app_assoc; cbn [app])). reflexivity.
        * rewrite <- EX'. reflexivity.
      + exfalso. symmetry in EQ. apply split_later in EQ.
        2:{ intros K. apply in_app_iff in K as [K|K].
            - rewrite Forall_forall in Hsp'. destruct (Hsp' _ K); discriminate.
            - do 7 (destruct K as [K|K]; [discriminate|]). rewrite Forall_forall in Hcc. now destruct (Hcc _ K). }
        2:{ discriminate. }
        destruct EQ as (Z & ->). rewrite E3 in E.
        replace ((source_text l ++ 0x20 :: 0xF7 :: sp) ++ 0x23 :: (sp' ++ 0xF7 :: 0x20 :: 0x5B :: 0x30 :: 0x2E :: 0x32 :: 0x5D :: t3 ++ [0x5D]) ++ 10 :: Z) with
          (((source_text l ++ 0x20 :: 0xF7 :: sp) ++ 0x23 :: sp' ++ 0xF7 :: 0x20 :: 0x5B :: 0x30 :: 0x2E :: 0x32 :: 0x5D :: t3) ++ 0x5D :: 10 :: Z) in E
          by (repeat (progress (rewrite <- ?app_assoc; cbn [app])); reflexivity).
        match type of E with _ = ?y ++ _ => set (Y := y) in E; clearbody Y end.
        assert (~ In 10 X) as X10.
        { intros K. unfold X in K. destruct K as [->|K]; [congruence|]. apply in_app_iff in K as [K|[->|[]]]; [|congruence].
          match goal with H : Forall _ m0 |- _ => rewrite Forall_forall in H; specialize (H _ K); discriminate H end. }
        assert (~ In 0x5D (d0 ++ 0xF7 :: e0)) as D5D.
        { intros K. apply in_app_iff in K as [K|[K|K]]; [|discriminate|];
            match goal with H : Forall (fun c => uspace c = true) ?z, K : In _ ?z |- _ => rewrite Forall_forall in H; specialize (H _ K); congruence end. }
        change (0x5D :: 10 :: Z) with ([0x5D] ++ 10 :: Z) in E. rewrite (app_assoc Y) in E.
        apply app_eq_app in E as (W & [(EW & EW')|(EW & EW')]).
        * destruct W as [|z W].
          -- rewrite app_nil_r in EW. unfold X in EW. change (p0 :: m0 ++ [q0]) with ((p0 :: m0) ++ [q0]) in EW.
             apply app_inj_tail in EW as [_ ->]. congruence.
          -- cbn in EW'. injection EW' as <- _. apply X10. rewrite EW. apply in_app_iff. right. now left.
        * destruct W as [|z W _] using rev_ind.
          -- rewrite app_nil_r in EW. unfold X in EW. change (p0 :: m0 ++ [q0]) with ((p0 :: m0) ++ [q0]) in EW.
             apply app_inj_tail in EW as [_ <-]. congruence.
          -- rewrite app_assoc in EW. apply app_inj_tail in EW as [_ <-]. apply D5D. rewrite EW'.
             apply in_app_iff. left. apply in_app_iff. right. now left.
  Qed.

  (** * Files *)
  Definition after_head : re := Seq (Cap 2 (Star dot)) (Seq (Star (Cls uspace)) Eol).

  (** White space before a line makes no difference. *)
  Lemma head_newline b T g :
    run (LINE_HEAD uword uspace) (mkPlace b (10 :: T) g) = run (LINE_HEAD uword uspace) (mkPlace true T g).
  Proof.
    unfold LINE_HEAD. cbn [run]. cbn [ahead].
    match goal with |- flat_map ?f (star _ (S (length (10 :: T))) _) = _ => set (F := f) end.
    assert (F (mkPlace b (10 :: T) g) = []) as Z by reflexivity. clearbody F.
    cbn [length]. cbn [star]. cbn [ahead groups]. rewrite space_ascii by lia. change (space 10) with true. cbn [filter ahead length].
    replace (Nat.ltb (length T) (S (length T))) with true by (symmetry; apply Nat.ltb_lt; lia).
    cbn [flat_map]. rewrite app_nil_r, flat_map_app. cbn [flat_map]. rewrite Z, !app_nil_r. reflexivity.
  Qed.

  Lemma line_newline b T g :
    run (Seq (LINE_HEAD uword uspace) after_head) (mkPlace b (10 :: T) g) =
    run (Seq (LINE_HEAD uword uspace) after_head) (mkPlace true T g).
  Proof. unfold after_head. cbn [run]. now rewrite head_newline. Qed.

  Lemma line_not_empty w : lang (LINE_RE uword uspace) w -> w <> [].
  Proof.
    intros H -> . unfold LINE_RE, LINE_HEAD in H.
    repeat match goal with
    | H : lang (Seq _ _) [] |- _ => apply lang_seq_inv in H as (? & ? & H & ? & ?); symmetry in H; apply app_eq_nil in H as [-> ->]
    | H : lang (lit _) [] |- _ => apply lang_lit_inv in H; discriminate
    end.
  Qed.

  Lemma captures_newline n m T : (length T < n)%nat -> (length T < m)%nat ->
    captures_loop (S n) (LINE_RE uword uspace) true (10 :: T) = captures_loop m (LINE_RE uword uspace) true T.
  Proof.
    intros Hn Hm.
    assert (run (LINE_RE uword uspace) (mkPlace true (10 :: T) []) = run (LINE_RE uword uspace) (mkPlace true T [])) as E.
    { unfold LINE_RE. fold after_head. cbn [run line_start flat_map]. rewrite !app_nil_r. apply line_newline. }
    cbn [captures_loop]. rewrite E. destruct (run _ (mkPlace true T [])) as [|e es] eqn:Er; cbn [hd_error].
    - change (10 =? 10) with true. now apply captures_fuel.
    - destruct m as [|m]; [lia|]. cbn [captures_loop]. rewrite Er. cbn [hd_error].
      destruct (run_lang (LINE_RE uword uspace) (mkPlace true T []) e) as (w & Ew & Lw); [rewrite Er; now left|].
      cbn in Ew. apply line_not_empty in Lw.
      assert (length (ahead e) < length T)%nat as Hl.
      { rewrite Ew, app_length. destruct w; [congruence|]. cbn. lia. }
      cbn [length]. rewrite !(proj2 (Nat.ltb_lt _ _)) by lia. f_equal. apply captures_fuel; lia.
  Qed.

  Lemma captures_newlines j : forall n m T, (j + length T < n)%nat -> (length T < m)%nat ->
    captures_loop n (LINE_RE uword uspace) true (repeat 10 j ++ T) = captures_loop m (LINE_RE uword uspace) true T.
  Proof.
    induction j as [|j IH]; intros n m T Hn Hm; [apply captures_fuel; cbn in *; lia|].
    destruct n as [|n]; [lia|]. cbn [repeat app]. rewrite (captures_newline n n); [|rewrite app_length, repeat_length; lia..].
    apply IH; lia.
  Qed.

  Lemma white_is_newlines f : Forall good_test_line f -> forall w u, tests_text f = w ++ u ->
    Forall (fun c => uspace c = true) w -> exists j, w = repeat 10 j.
  Proof.
    unfold tests_text. induction 1 as [|x f Hx Hf IH]; intros w u E Hw; cbn [map concat] in E.
    - symmetry in E. apply app_eq_nil in E as [-> _]. now exists 0%nat.
    - destruct w as [|c w]; [now exists 0%nat|]. inversion Hw as [|? ? Hc Hw']; subst.
      destruct x as [sp sp' l|[|d t]]; cbn [test_line_text app] in E.
      + exfalso. injection E as <- _. destruct division. congruence.
      + injection E as <- E. apply IH in E as (j & ->); [|exact Hw']. now exists (S j).
      + exfalso. injection E as <- _. destruct Hx as [Hx|(v & Hx & _)]; [discriminate|]. injection Hx as -> ->.
        rewrite space_ascii in Hc by lia. discriminate.
  Qed.

  Lemma after_newlines j : after true (repeat 10 j) = true.
  Proof. induction j; [reflexivity|exact IHj]. Qed.

  Definition line_groups (l : list tested) : list (nat * str) :=
    [(2%nat, concat (map comment_text l)); (1%nat, source_text l)].

  (** The end of a line of a test. *)
  Lemma end_found f b g : Forall good_test_line f ->
    exists w u, 10 :: tests_text f = w ++ u /\ Forall (fun c => uspace c = true) w /\
      hd_error (run (Seq (Star (Cls uspace)) Eol) (mkPlace b (10 :: tests_text f) g)) = Some (mkPlace (after b w) u g).
  Proof.
    intros _. set (T := 10 :: tests_text f).
    destruct (run (Seq (Star (Cls uspace)) Eol) (mkPlace b T g)) as [|e l] eqn:E.
    - exfalso. pose proof (glang_run _ _ _ (G_star_nil (Cls uspace)) b T g) as H. cbn [app] in H.
      assert (In (mkPlace b T g) (run (Seq (Star (Cls uspace)) Eol) (mkPlace b T g))) as K.
      { cbn [run]. apply in_flat_map. eexists. split; [exact H|]. cbn. now left. }
      rewrite E in K. exact K.
    - assert (In e (run (Seq (Star (Cls uspace)) Eol) (mkPlace b T g))) as K by (rewrite E; now left).
      change (In e (flat_map (run Eol) (run (Star (Cls uspace)) (mkPlace b T g)))) in K. apply in_flat_map in K as (m & K1 & K2).
      apply run_glang in K1 as (w & u & g' & ET & L & ->); [|reflexivity].
      apply glang_star_inv in L as [Hw ->]. exists w, u. split; [exact ET|]. split; [exact Hw|]. cbn [hd_error].
      unfold end_of in K2. cbn [run app ahead] in K2. destruct u as [|c u]; [destruct K2 as [<-|[]]; reflexivity|].
      destruct (c =? 10); [|now destruct K2]. destruct K2 as [<-|[]]; reflexivity.
  Qed.

  Lemma head_fails_remark u : fails (LINE_HEAD uword uspace) (0x23 :: u).
  Proof.
    apply fails_glang; [reflexivity|]. intros w g v H E. unfold LINE_HEAD in H.
    apply glang_seq_inv in H as (a & w' & ? & ? & -> & -> & Ha & H). apply glang_star_inv in Ha as [Ha ->].
    apply glang_seq_inv in H as (d & w'' & ? & ? & -> & -> & Hd & _). apply glang_lit_inv in Hd as [-> ->].
    destruct a as [|c a]; cbn in E; [discriminate|injection E as <- E].
    inversion Ha as [|? ? Hc _]; subst. rewrite space_ascii in Hc by lia. discriminate.
  Qed.

  Lemma lines_captures f : Forall good_test_line f ->
    captures_iter (LINE_RE uword uspace) (tests_text f) =
    flat_map (fun x => match x with Tested _ _ l => [line_groups l] | Remark _ => [] end) f.
  Proof.
    unfold captures_iter. intros H.
    assert (forall n, (length (tests_text f) < n)%nat ->
      captures_loop n (LINE_RE uword uspace) true (tests_text f) =
      flat_map (fun x => match x with Tested _ _ l => [line_groups l] | Remark _ => [] end) f) as K; [|apply K; lia].
    induction H as [|x f Hx Hf IH]; intros n Hn; (destruct n as [|n]; [lia|]).
    - reflexivity.
    - unfold tests_text in Hn |- *. cbn [map concat] in *. fold (tests_text f) in *.
      destruct x as [sp sp' l|t]; cbn [flat_map] in *; unfold test_line_text in Hn |- *.
      + destruct Hx as (H1 & H2 & H3 & H4). rewrite <- app_assoc in Hn |- *. cbn [app] in Hn |- *.
        destruct (end_found f (after (after true (head_text sp sp' l)) (concat (map comment_text l)))
          ([(2%nat, concat (map comment_text l))] ++ [(1%nat, source_text l)]) Hf) as (w & u & Ew & Hw & He).
        assert (hd_error (run (LINE_RE uword uspace) (mkPlace true (test_text sp sp' l ++ 10 :: tests_text f) [])) =
          Some (mkPlace (after (after (after true (head_text sp sp' l)) (concat (map comment_text l))) w) u (line_groups l))) as E.
        { unfold LINE_RE. cbn [run line_start flat_map]. rewrite app_nil_r, test_text_eq, <- app_assoc.
          pose proof (head_eats sp sp' l (tests_text f) H1 H2 H3 H4 true []) as K. cbn [app] in K.
          eapply hd_flat_map; [exact K|].
          assert (eats (Cap 2 (Star dot)) (concat (map comment_text l)) (10 :: tests_text f) [(2%nat, concat (map comment_text l))]) as K2.
          { apply eats_cap. apply eats_star.
            - pose proof (comments_chars l H4) as Hc. eapply Forall_impl; [|exact Hc]. cbn. lia.
            - cbn. lia. }
          eapply hd_flat_map; [apply K2|]. exact He. }
        cbn [captures_loop]. rewrite E. cbn [groups ahead line_start app].
        assert (length u < length (test_text sp sp' l ++ 10%N :: tests_text f))%nat as Hlt.
        { rewrite Ew, !app_length. cbn. lia. }
        rewrite (proj2 (Nat.ltb_lt _ _) Hlt). f_equal. rewrite <- (IH n) by (rewrite app_length in Hn; cbn in Hn; lia).
        assert (after (after true (head_text sp sp' l)) (concat (map comment_text l)) = false) as Eb.
        { destruct (comments_last l H3) as (t3 & E3). rewrite E3, after_app. reflexivity. }
        rewrite Eb. rewrite app_length in Hn. cbn [length] in Hn.
        assert (length (test_text sp sp' l) <> 0)%nat as Hpos by (cbn; lia).
        destruct w as [|c w]; cbn [app] in Ew.
        * subst u. cbn [after fold_left]. unfold LINE_RE.
          etransitivity; [apply (captures_skip _ [] n (tests_text f)); [intros []|cbn; lia]|]. apply captures_fuel; lia.
        * injection Ew as <- Ew. inversion Hw as [|? ? _ Hw']; subst.
          destruct (white_is_newlines f Hf w u Ew Hw') as (j & ->).
          change (after false (10 :: repeat 10 j)) with (after true (repeat 10 j)). rewrite after_newlines, Ew.
          assert (length (tests_text f) = (j + length u)%nat) as El by (rewrite Ew, app_length, repeat_length; reflexivity).
          symmetry. apply captures_newlines; lia.
      + destruct Hx as [->|(v & -> & Hv)].
        * cbn [app] in Hn |- *. cbn [length] in Hn. rewrite (captures_newline n n) by lia. apply IH. lia.
        * cbn [app] in Hn |- *. rewrite <- app_assoc in Hn |- *. cbn [app] in Hn |- *. unfold LINE_RE. cbn [captures_loop].
          cbn [run line_start flat_map]. rewrite head_fails_remark. cbn [flat_map hd_error app].
          change (0x23 =? 10) with false. cbn [length] in Hn. rewrite captures_skip; [|exact Hv|lia].
          apply IH. rewrite app_length in Hn. cbn in Hn. lia.
  Qed.
End read.

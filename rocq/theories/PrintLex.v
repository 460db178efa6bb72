(** Reading is unique, and the texts of literals, words and marks. *)
From Coq Require Import String List NArith Lia Bool PeanoNat ZifyBool ZifyNat ZifyN.
From Verif Require Import Base CliSpec RangeModel TableModel TextModel CliModel TextProofs CliProofs RustSpec PrintModel.
Import ListNotations.
Open Scope list_scope.
Open Scope N_scope.

(** * Tokens are unique *)
Definition wordb (c : N) : bool :=
  ((0x30 <=? c) && (c <=? 0x39)) || ((0x41 <=? c) && (c <=? 0x5A)) || ((0x61 <=? c) && (c <=? 0x7A)) || (c =? 0x5F).
Lemma wordb_iff c : wordb c = true <-> word_char c.
Proof. unfold wordb, word_char, digit_char. lia. Qed.

Lemma mark_not_word c : In c marks -> ~ word_char c.
Proof. intros H W. apply wordb_iff in W. unfold marks in H. cbn in H. intuition (subst; discriminate). Qed.

Lemma word_split w : forall w' s s', Forall word_char w -> Forall word_char w' ->
  (forall c r, s = c :: r -> ~ word_char c) -> (forall c r, s' = c :: r -> ~ word_char c) ->
  w ++ s = w' ++ s' -> w = w' /\ s = s'.
Proof.
  induction w as [|a w IH]; intros [|b w'] s s' H H' N N' E.
  - auto.
  - exfalso. cbn in E. inversion H'; subst. eapply N; [reflexivity|assumption].
  - exfalso. cbn in E. inversion H; subst. eapply N'; [reflexivity|assumption].
  - cbn in E. injection E as <- E. inversion H; inversion H'; subst.
    destruct (IH w' s s') as [-> ->]; auto.
Qed.

Lemma hex_no_brace h n : hex_number h n -> Forall (fun c => c <> 0x7D) h.
Proof. intros H. eapply hex_number_no_brace; eassumption. Qed.

Lemma escape_split e c e' c' s s' : escape e c -> escape e' c' -> e ++ s = e' ++ s' -> e = e' /\ c = c' /\ s = s'.
Proof.
  intros (h & -> & Hn & _) (h' & -> & Hn' & _) E.
  rewrite <- !app_assoc in E. cbn [app] in E. injection E as E.
  apply brace_split in E; [|eapply hex_no_brace; eassumption..].
  destruct E as [-> ->]. split; [reflexivity|]. split; [eapply hex_number_fun; eassumption|reflexivity].
Qed.

Lemma escape_head e c : escape e c -> exists r, e = 0x5C :: r.
Proof. intros (h & -> & _). cbn. eauto. Qed.

Lemma char_split b c b' c' s s' : char_literal b c -> char_literal b' c' ->
  b ++ 0x27 :: s = b' ++ 0x27 :: s' -> c = c' /\ s = s'.
Proof.
  intros [(-> & N1 & N2 & _)|He] [(-> & N1' & N2' & _)|He'] E.
  - cbn in E. injection E as -> ->. auto.
  - destruct (escape_head _ _ He') as (r & ->). cbn in E. injection E as E _. congruence.
  - destruct (escape_head _ _ He) as (r & ->). cbn in E. injection E as E _. congruence.
  - destruct (escape_split _ _ _ _ _ _ He He' E) as (_ & -> & E'). injection E' as ->. auto.
Qed.

Lemma text_split b t : text_literal b t -> forall b' t' s s', text_literal b' t' ->
  b ++ 0x22 :: s = b' ++ 0x22 :: s' -> t = t' /\ s = s'.
Proof.
  induction 1 as [|c b t N1 N2 N3 H IH|e c b t He H IH]; intros b' t' s s' H' E.
  - destruct H' as [|c' b' t' N1' N2' N3' H'|e' c' b' t' He' H'].
    + cbn in E. injection E as ->. auto.
    + cbn in E. injection E as <- _. congruence.
    + destruct (escape_head _ _ He') as (r & ->). cbn in E. discriminate E.
  - destruct H' as [|c' b' t' N1' N2' N3' H'|e' c' b' t' He' H'].
    + cbn in E. injection E as -> _. congruence.
    + cbn in E. injection E as <- E. destruct (IH _ _ _ _ H' E) as [-> ->]. auto.
    + destruct (escape_head _ _ He') as (r & ->). cbn in E. injection E as -> _. congruence.
  - destruct H' as [|c' b' t' N1' N2' N3' H'|e' c' b' t' He' H'].
    + destruct (escape_head _ _ He) as (r & ->). cbn in E. discriminate E.
    + destruct (escape_head _ _ He) as (r & ->). cbn in E. injection E as <- _. congruence.
    + rewrite <- !app_assoc in E. destruct (escape_split _ _ _ _ _ _ He He' E) as (_ & -> & E').
      destruct (IH _ _ _ _ H' E') as [-> ->]. auto.
Qed.

Lemma line_split l : forall l' s s', ~ In 10 l -> ~ In 10 l' -> l ++ 10 :: s = l' ++ 10 :: s' -> s = s'.
Proof.
  induction l as [|a l IH]; intros [|b l'] s s' H H' E; cbn in E.
  - congruence.
  - injection E as <- _. exfalso. apply H'. left. reflexivity.
  - injection E as -> _. exfalso. apply H. left. reflexivity.
  - injection E as <- E. eapply IH; [| |exact E]; intros I; [apply H|apply H']; right; exact I.
Qed.

Lemma word_head w : rust_word w -> exists c r, w = c :: r /\ word_char c.
Proof. intros [Hne Hf]. destruct w as [|c r]; [contradiction|]. inversion Hf; subst. eauto. Qed.

Lemma lexes_fun s ts : lexes s ts -> forall ts', lexes s ts' -> ts = ts'.
Proof.
  induction 1 as [|c s ts Hc H IH|l s ts Hl H IH|w s ts Hw Hs H IH|b c s ts Hb H IH|b t s ts Hb H IH|c s ts Hc H IH];
    intros ts' H'.
  - inversion H' as [|c s ts Hc H0 E|l s ts Hl H0 E|w s ts Hw Hs H0 E|b c s ts Hb H0 E|b t s ts Hb H0 E|c s ts Hc H0 E];
      try reflexivity.
    exfalso. destruct Hw as [Hw _]. apply app_eq_nil in E. destruct E. contradiction.
  - inversion H' as [|c' s' ts0 Hc' H0 E|l' s' ts0 Hl' H0 E|w' s' ts0 Hw' Hs' H0 E|b' c' s' ts0 Hb' H0 E|b' t' s' ts0 Hb' H0 E|c' s' ts0 Hc' H0 E];
      subst.
    + apply IH. exact H0.
    + lia.
    + destruct (word_head _ Hw') as (d & r & -> & W). cbn in E. injection E as -> _. exfalso. unfold word_char, digit_char in W. lia.
    + lia.
    + lia.
    + exfalso. unfold marks in Hc'. cbn in Hc'. lia.
  - remember ([0x2F; 0x2F] ++ l ++ [10] ++ s) as z eqn:Ez. cbn in Ez.
    inversion H' as [|c' s' ts0 Hc' H0 E|l' s' ts0 Hl' H0 E|w' s' ts0 Hw' Hs' H0 E|b' c' s' ts0 Hb' H0 E|b' t' s' ts0 Hb' H0 E|c' s' ts0 Hc' H0 E];
      subst; try discriminate.
    + injection E as E _. lia.
    + cbn in E. injection E as E. apply IH. rewrite (line_split _ _ _ _ Hl Hl' (eq_sym E)). exact H0.
    + destruct (word_head _ Hw') as (d & r & -> & W). cbn in E. injection E as -> _. exfalso. unfold word_char, digit_char in W. lia.
    + injection E as E _. exfalso. unfold marks in Hc'. cbn in Hc'. lia.
  - remember (w ++ s) as z eqn:Ez. destruct (word_head _ Hw) as (c & r & Ew & W).
    assert (Hz : exists z', z = c :: z') by (rewrite Ez, Ew; cbn; eauto). destruct Hz as (z' & Hz).
    inversion H' as [E|c' s' ts0 Hc' H0 E|l' s' ts0 Hl' H0 E|w' s' ts0 Hw' Hs' H0 E|b' c' s' ts0 Hb' H0 E|b' t' s' ts0 Hb' H0 E|c' s' ts0 Hc' H0 E].
    + rewrite <- E in Hz. discriminate Hz.
    + rewrite Hz in E. injection E as -> _. exfalso. unfold word_char, digit_char in W. lia.
    + rewrite Hz in E. injection E as E _. exfalso. unfold word_char, digit_char in W. lia.
    + rewrite <- E in Ez. apply word_split in Ez; try assumption; [|apply Hw'|apply Hw].
      destruct Ez as [-> ->]. f_equal. apply IH. exact H0.
    + rewrite Hz in E. injection E as E _. exfalso. unfold word_char, digit_char in W. lia.
    + rewrite Hz in E. injection E as E _. exfalso. unfold word_char, digit_char in W. lia.
    + rewrite Hz in E. injection E as -> _. exfalso. eapply mark_not_word; eassumption.
  - remember ([0x27] ++ b ++ [0x27] ++ s) as z eqn:Ez. cbn in Ez.
    inversion H' as [|c' s' ts0 Hc' H0 E|l' s' ts0 Hl' H0 E|w' s' ts0 Hw' Hs' H0 E|b' c' s' ts0 Hb' H0 E|b' t' s' ts0 Hb' H0 E|c' s' ts0 Hc' H0 E];
      subst; try discriminate.
    + injection E as E _. lia.
    + destruct (word_head _ Hw') as (d & r & -> & W). cbn in E. injection E as -> _. exfalso. unfold word_char, digit_char in W. lia.
    + cbn in E. injection E as E. destruct (char_split _ _ _ _ _ _ Hb' Hb E) as [-> ->]. f_equal. apply IH. exact H0.
    + injection E as E _. exfalso. unfold marks in Hc'. cbn in Hc'. lia.
  - remember ([0x22] ++ b ++ [0x22] ++ s) as z eqn:Ez. cbn in Ez.
    inversion H' as [|c' s' ts0 Hc' H0 E|l' s' ts0 Hl' H0 E|w' s' ts0 Hw' Hs' H0 E|b' c' s' ts0 Hb' H0 E|b' t' s' ts0 Hb' H0 E|c' s' ts0 Hc' H0 E];
      subst; try discriminate.
    + injection E as E _. lia.
    + destruct (word_head _ Hw') as (d & r & -> & W). cbn in E. injection E as -> _. exfalso. unfold word_char, digit_char in W. lia.
    + cbn in E. injection E as E. destruct (text_split _ _ Hb' _ _ _ _ Hb E) as [-> ->]. f_equal. apply IH. exact H0.
    + injection E as E _. exfalso. unfold marks in Hc'. cbn in Hc'. lia.
  - inversion H' as [|c' s' ts0 Hc' H0 E|l' s' ts0 Hl' H0 E|w' s' ts0 Hw' Hs' H0 E|b' c' s' ts0 Hb' H0 E|b' t' s' ts0 Hb' H0 E|c' s' ts0 Hc' H0 E];
      subst.
    + exfalso. unfold marks in Hc. cbn in Hc. lia.
    + exfalso. unfold marks in Hc. cbn in Hc. lia.
    + destruct (word_head _ Hw') as (d & r & -> & W). cbn in E. injection E as -> _. exfalso. eapply mark_not_word; eassumption.
    + exfalso. unfold marks in Hc. cbn in Hc. lia.
    + exfalso. unfold marks in Hc. cbn in Hc. lia.
    + f_equal. apply IH. exact H0.
Qed.

(** * Expressions are unique *)
Lemma decimal_digits w n : decimal_of w n -> Forall digit_char w /\ w <> [].
Proof.
  induction 1 as [d H|s n d H [IH1 IH2] Hd]; split; try discriminate.
  - constructor; [exact H|constructor].
  - apply Forall_app. split; [exact IH1|]. constructor; [exact Hd|constructor].
  - destruct s; discriminate.
Qed.

Lemma decimal_fun w n : decimal_of w n -> forall m, decimal_of w m -> n = m.
Proof.
  induction 1 as [d H|s n d H IH Hd]; intros m Hm.
  - inversion Hm as [d' H'|s' n' d' H0 H' E].
    + reflexivity.
    + destruct (decimal_digits _ _ H0) as [_ Hne]. destruct s' as [|x [|y s']]; [contradiction|discriminate E|discriminate E].
  - inversion Hm as [d' H' E|s' n' d' H0 H' E].
    + destruct (decimal_digits _ _ H) as [_ Hne]. destruct s as [|x [|y s]]; [contradiction|discriminate E|discriminate E].
    + apply app_inj_tail in E. destruct E as [-> ->]. rewrite (IH _ H0). reflexivity.
Qed.

Lemma decimal_not_name w n : decimal_of w n -> rust_name w -> False.
Proof.
  intros H (_ & Hn & _). destruct (decimal_digits _ _ H) as [Hf Hne].
  destruct w as [|c r]; [contradiction|]. inversion Hf; subst. eapply Hn; [reflexivity|assumption].
Qed.

Lemma path_fun ts p r : path_at ts p r -> forall p' r', path_at ts p' r' -> p = p' /\ r = r'.
Proof.
  induction 1 as [w r Hw Hr|w ts p r Hw H IH]; intros p' r' H'.
  - inversion H'; subst; [auto|]. exfalso. eapply Hr; reflexivity.
  - inversion H' as [w' r0 Hw' Hr'|w' ts' p0 r0 Hw' H0]; subst.
    + exfalso. eapply Hr'; reflexivity.
    + destruct (IH _ _ H0) as [-> ->]. auto.
Qed.

Lemma path_head ts p r : path_at ts p r -> exists w ts', ts = TWord w :: ts' /\ rust_name w.
Proof. destruct 1; eauto. Qed.

Scheme expr_at_min := Minimality for expr_at Sort Prop
  with list_at_min := Minimality for list_at Sort Prop
  with fields_at_min := Minimality for fields_at Sort Prop.
Combined Scheme expr_list_fields_ind from expr_at_min, list_at_min, fields_at_min.

Definition closing (t : token) : Prop := t = mark ")" \/ t = mark "]".

Lemma expr_not_closing ts e r : expr_at ts e r -> forall t r', (closing t \/ t = mark "}" \/ t = mark ",") -> ts <> t :: r'.
Proof.
  intros H t r' Ht E. unfold closing in Ht.
  destruct H as [w n r H|c r|s r|ts p r H _|ts p ts' l r H _|ts p ts' l r H _|lo hi r|ts l r _ _|ts l r _];
    try (destruct (path_head _ _ _ H) as (w & ts0 & -> & _));
    injection E as E _; subst t; intuition discriminate.
Qed.

Lemma reading_fun :
  (forall ts e r, expr_at ts e r -> forall e' r', expr_at ts e' r' -> e = e' /\ r = r') /\
  (forall close ts l r, list_at close ts l r -> closing close -> forall l' r', list_at close ts l' r' -> l = l' /\ r = r') /\
  (forall ts l r, fields_at ts l r -> forall l' r', fields_at ts l' r' -> l = l' /\ r = r').
Proof.
  apply expr_list_fields_ind.
  - intros w n r H e' r' H'.
    inversion H' as [w' n' r0 H0|c r0|s r0|ts p r0 H0 _|ts p ts' l r0 H0 _|ts p ts' l r0 H0 _|lo hi r0|ts l r0 _ _|ts l r0 _]; subst.
    + rewrite (decimal_fun _ _ H _ H0). auto.
    + exfalso. destruct (path_head _ _ _ H0) as (w1 & ts1 & E & Hn). injection E as -> ->. eapply decimal_not_name; eassumption.
    + exfalso. destruct (path_head _ _ _ H0) as (w1 & ts1 & E & Hn). injection E as -> ->. eapply decimal_not_name; eassumption.
    + exfalso. destruct (path_head _ _ _ H0) as (w1 & ts1 & E & Hn). injection E as -> ->. eapply decimal_not_name; eassumption.
    + exfalso. destruct (decimal_digits _ _ H) as [Hf _]. inversion Hf as [|? ? D]. unfold digit_char in D. cbn in D. lia.
  - intros c r e' r' H'.
    inversion H' as [w' n' r0 H0|c0 r0|s r0|ts p r0 H0 _|ts p ts' l r0 H0 _|ts p ts' l r0 H0 _|lo hi r0|ts l r0 _ _|ts l r0 _]; subst;
      try (destruct (path_head _ _ _ H0) as (w1 & ts1 & E & Hn); discriminate E). auto.
  - intros c r e' r' H'.
    inversion H' as [w' n' r0 H0|c0 r0|s r0|ts p r0 H0 _|ts p ts' l r0 H0 _|ts p ts' l r0 H0 _|lo hi r0|ts l r0 _ _|ts l r0 _]; subst;
      try (destruct (path_head _ _ _ H0) as (w1 & ts1 & E & Hn); discriminate E). auto.
  - intros ts p r H Ha e' r' H'.
    inversion H' as [w' n' r0 H0|c0 r0|s r0|ts0 p0 r0 H0 _|ts0 p0 ts' l r0 H0 _|ts0 p0 ts' l r0 H0 _|lo hi r0|ts0 l r0 _ _|ts0 l r0 _]; subst;
      try (destruct (path_head _ _ _ H) as (w1 & ts1 & E & Hn); discriminate E).
    + exfalso. destruct (path_head _ _ _ H) as (w1 & ts1 & E & Hn). injection E as -> ->. eapply decimal_not_name; eassumption.
    + destruct (path_fun _ _ _ H _ _ H0) as [-> ->]. auto.
    + exfalso. destruct (path_fun _ _ _ H _ _ H0) as [-> ->]. apply Ha. unfold applied. eauto.
    + exfalso. destruct (path_fun _ _ _ H _ _ H0) as [-> ->]. apply Ha. unfold applied. eauto.
    + exfalso. inversion H; subst. apply Ha. unfold applied. eauto.
  - intros ts p ts' l r H _ IH e' r' H'.
    inversion H' as [w' n' r0 H0|c0 r0|s r0|ts0 p0 r0 H0 Ha|ts0 p0 ts0' l0 r0 H0 Hl|ts0 p0 ts0' l0 r0 H0 Hl|lo hi r0|ts0 l0 r0 _ _|ts0 l0 r0 _]; subst;
      try (destruct (path_head _ _ _ H) as (w1 & ts1 & E & Hn); discriminate E).
    + exfalso. destruct (path_head _ _ _ H) as (w1 & ts1 & E & Hn). injection E as -> ->. eapply decimal_not_name; eassumption.
    + exfalso. destruct (path_fun _ _ _ H _ _ H0) as [-> <-]. apply Ha. unfold applied. eauto.
    + destruct (path_fun _ _ _ H _ _ H0) as [-> E]. injection E as <-.
      destruct (IH (or_introl eq_refl) _ _ Hl) as [-> ->]. auto.
    + exfalso. destruct (path_fun _ _ _ H _ _ H0) as [-> E]. discriminate E.
    + exfalso. inversion H.
  - intros ts p ts' l r H _ IH e' r' H'.
    inversion H' as [w' n' r0 H0|c0 r0|s r0|ts0 p0 r0 H0 Ha|ts0 p0 ts0' l0 r0 H0 Hl|ts0 p0 ts0' l0 r0 H0 Hl|lo hi r0|ts0 l0 r0 _ _|ts0 l0 r0 _]; subst;
      try (destruct (path_head _ _ _ H) as (w1 & ts1 & E & Hn); discriminate E).
    + exfalso. destruct (path_head _ _ _ H) as (w1 & ts1 & E & Hn). injection E as -> ->. eapply decimal_not_name; eassumption.
    + exfalso. destruct (path_fun _ _ _ H _ _ H0) as [-> <-]. apply Ha. unfold applied. eauto.
    + exfalso. destruct (path_fun _ _ _ H _ _ H0) as [-> E]. discriminate E.
    + destruct (path_fun _ _ _ H _ _ H0) as [-> E]. injection E as <-.
      destruct (IH _ _ Hl) as [-> ->]. auto.
    + exfalso. inversion H.
  - intros lo hi r e' r' H'.
    inversion H' as [w' n' r0 H0|c0 r0|s r0|ts0 p0 r0 H0 Ha|ts0 p0 ts0' l0 r0 H0 Hl|ts0 p0 ts0' l0 r0 H0 Hl|lo' hi' r0|ts0 l0 r0 _ _|ts0 l0 r0 _]; subst.
    + exfalso. destruct (decimal_digits _ _ H0) as [Hf _]. inversion Hf as [|? ? D]. unfold digit_char in D. cbn in D. lia.
    + exfalso. inversion H0; subst. apply Ha. unfold applied. eauto.
    + exfalso. inversion H0.
    + exfalso. inversion H0.
    + auto.
  - intros ts l r _ IH Hn e' r' H'.
    inversion H' as [w' n' r0 H0|c0 r0|s r0|ts0 p0 r0 H0 Ha|ts0 p0 ts0' l0 r0 H0 Hl|ts0 p0 ts0' l0 r0 H0 Hl|lo' hi' r0|ts0 l0 r0 Hl _|ts0 l0 r0 _]; subst;
      try (destruct (path_head _ _ _ H0) as (w1 & ts1 & E & _); discriminate E).
    destruct (IH (or_introl eq_refl) _ _ Hl) as [-> ->]. auto.
  - intros ts l r _ IH e' r' H'.
    inversion H' as [w' n' r0 H0|c0 r0|s r0|ts0 p0 r0 H0 Ha|ts0 p0 ts0' l0 r0 H0 Hl|ts0 p0 ts0' l0 r0 H0 Hl|lo' hi' r0|ts0 l0 r0 _ _|ts0 l0 r0 Hl]; subst;
      try (destruct (path_head _ _ _ H0) as (w1 & ts1 & E & _); discriminate E).
    destruct (IH (or_intror eq_refl) _ _ Hl) as [-> ->]. auto.
  - intros close r Hc l' r' H'. inversion H' as [c0 r0|c0 ts0 e0 r0 He|c0 ts0 e0 ts1 l0 r0 He Hl]; subst.
    + auto.
    + exfalso. eapply expr_not_closing; [exact He|left; exact Hc|reflexivity].
    + exfalso. eapply expr_not_closing; [exact He|left; exact Hc|reflexivity].
  - intros close ts e r He IH Hc l' r' H'. inversion H' as [c0 r0|c0 ts0 e0 r0 He'|c0 ts0 e0 ts1 l0 r0 He' Hl]; subst.
    + exfalso. eapply expr_not_closing; [exact He|left; exact Hc|reflexivity].
    + destruct (IH _ _ He') as [-> E]. injection E as ->. auto.
    + destruct (IH _ _ He') as [_ E]. injection E as E _. destruct Hc as [-> | ->]; discriminate E.
  - intros close ts e ts' l r He IH _ IHl Hc l' r' H'. inversion H' as [c0 r0|c0 ts0 e0 r0 He'|c0 ts0 e0 ts1 l0 r0 He' Hl]; subst.
    + exfalso. eapply expr_not_closing; [exact He|left; exact Hc|reflexivity].
    + destruct (IH _ _ He') as [_ E]. injection E as E _. destruct Hc as [-> | ->]; discriminate E.
    + destruct (IH _ _ He') as [-> E]. injection E as <-. destruct (IHl Hc _ _ Hl) as [-> ->]. auto.
  - intros r l' r' H'. inversion H'; subst. auto.
  - intros w ts e r Hw He IH l' r' H'. inversion H' as [r0|w0 ts0 e0 r0 Hw0 He0|w0 ts0 e0 ts1 l0 r0 Hw0 He0 Hl]; subst.
    + destruct (IH _ _ He0) as [-> E]. injection E as ->. auto.
    + destruct (IH _ _ He0) as [_ E]. discriminate E.
  - intros w ts e ts' l r Hw He IH _ IHl l' r' H'. inversion H' as [r0|w0 ts0 e0 r0 Hw0 He0|w0 ts0 e0 ts1 l0 r0 Hw0 He0 Hl]; subst.
    + destruct (IH _ _ He0) as [_ E]. discriminate E.
    + destruct (IH _ _ He0) as [-> E]. injection E as <-. destruct (IHl _ _ Hl) as [-> ->]. auto.
Qed.

Theorem source_unique s e e' : source s e -> source s e' -> e = e'.
Proof.
  intros (ts & L & E) (ts' & L' & E'). rewrite <- (lexes_fun _ _ L _ L') in E'.
  apply (proj1 reading_fun _ _ _ E _ _ E').
Qed.

Lemma consts_fun ts l : consts_at ts l -> forall l', consts_at ts l' -> l = l'.
Proof.
  induction 1 as [|w t ts l Hw H IH]; intros l' H'; inversion H'; subst; [reflexivity|].
  f_equal. auto.
Qed.

Theorem source_consts_unique s l l' : source_consts s l -> source_consts s l' -> l = l'.
Proof.
  intros (ts & L & E) (ts' & L' & E'). rewrite <- (lexes_fun _ _ L _ L') in E'.
  eapply consts_fun; eassumption.
Qed.

(** Printed values. *)
From Coq Require Import String List NArith ZArith Lia Bool PeanoNat ZifyBool ZifyNat ZifyN.
From Verif Require Import Base Enums EnumFacts TableTypes RangeModel TextModel NameParseModel NameParseSpec NameParseProofs
  RustSpec PrintModel PrintProofs BidiModel BidiSpec BidiLemmas BidiRefute BidiInit BidiLtr DisplayModel DisplaySpec.
Import ListNotations.
Open Scope list_scope.
Open Scope N_scope.

(** * Enumerated values *)
Section E.
Context {V : Type} (veqb : V -> V -> bool) (all : list V) (read : str -> option V) (show : V -> str).
Hypothesis veqb_eq : forall x y, veqb x y = true <-> x = y.
Hypothesis all_complete : forall v, In v all.

Definition apartb : bool :=
  forallb (fun v => forallb (fun w => implb (eq_ignore_ascii_case (show v) (show w)) (veqb v w)) all) all.
Definition misreadb : bool :=
  forallb (fun v => match read (show v) with Some w => veqb w v | None => true end) all.
Fixpoint nodupb (l : list V) : bool :=
  match l with [] => true | x :: l' => negb (existsb (veqb x) l') && nodupb l' end.

Lemma apartb_ok : apartb = true -> shown_apart show.
Proof.
  intros H v w E. unfold apartb in H. rewrite forallb_forall in H. specialize (H v (all_complete v)).
  rewrite forallb_forall in H. specialize (H w (all_complete w)).
  rewrite (proj2 (eq_ci_iff _ _) E) in H. apply veqb_eq, H.
Qed.
Lemma misreadb_ok : misreadb = true -> never_misread read show.
Proof.
  intros H v w E. unfold misreadb in H. rewrite forallb_forall in H. specialize (H v (all_complete v)).
  rewrite E in H. apply veqb_eq, H.
Qed.
Lemma nodupb_ok l : nodupb l = true -> NoDup l.
Proof.
  induction l as [|x l IH]; cbn; [constructor|]. rewrite andb_true_iff. intros [H1 H2]. constructor; [|auto].
  intros Hin. apply negb_true_iff in H1.
  assert (existsb (veqb x) l = true) by (apply existsb_exists; exists x; split; [exact Hin|apply veqb_eq; reflexivity]).
  congruence.
Qed.
Lemma displayed : (nodupb all && apartb && misreadb) = true ->
  lists_all all /\ shown_apart show /\ never_misread read show.
Proof.
  rewrite !andb_true_iff. intros [[H1 H2] H3].
  split; [split; [apply nodupb_ok, H1|exact all_complete]|split; [apply apartb_ok, H2|apply misreadb_ok, H3]].
Qed.
End E.

Lemma GC_displayed : lists_all GC_all /\ shown_apart GC_display /\ never_misread GC_from_str GC_display.
Proof. apply (displayed GC_eqb _ _ _ GC_eqb_eq GC_all_complete). vm_compute. reflexivity. Qed.
Lemma BC_displayed : lists_all BC_all /\ shown_apart BC_display /\ never_misread BC_from_str BC_display.
Proof. apply (displayed BC_eqb _ _ _ BC_eqb_eq BC_all_complete). vm_compute. reflexivity. Qed.
Lemma GCB_displayed : lists_all GCB_all /\ shown_apart GCB_display /\ never_misread GCB_from_str GCB_display.
Proof. apply (displayed GCB_eqb _ _ _ GCB_eqb_eq GCB_all_complete). vm_compute. reflexivity. Qed.
Lemma WB_displayed : lists_all WB_all /\ shown_apart WB_display /\ never_misread WB_from_str WB_display.
Proof. apply (displayed WB_eqb _ _ _ WB_eqb_eq WB_all_complete). vm_compute. reflexivity. Qed.
Lemma SB_displayed : lists_all SB_all /\ shown_apart SB_display /\ never_misread SB_from_str SB_display.
Proof. apply (displayed SB_eqb _ _ _ SB_eqb_eq SB_all_complete). vm_compute. reflexivity. Qed.
Lemma DT_displayed : lists_all DT_all /\ shown_apart DT_display /\ never_misread DT_from_str DT_display.
Proof. apply (displayed DT_eqb _ _ _ DT_eqb_eq DT_all_complete). vm_compute. reflexivity. Qed.

(** * Readable *)
Definition letterb (c : N) : bool := (0x41 <=? c) && (c <=? 0x5A) || (0x61 <=? c) && (c <=? 0x7A).
Definition readableb (s : str) : bool :=
  match s with [] => false | c :: _ => letterb c end &&
  forallb (fun c => letterb c || (c =? 0x20) || (c =? 0x28) || (c =? 0x29) || (c =? 0x2D) || (c =? 0x2F)) s.
Lemma readableb_ok s : readableb s = true -> readable s.
Proof.
  unfold readableb. rewrite andb_true_iff, forallb_forall. intros [H1 H2]. split.
  - destruct s as [|c r]; [discriminate|]. exists c, r. split; [reflexivity|]. unfold letterb in H1. unfold letter. lia.
  - intros c Hc. specialize (H2 c Hc). unfold letterb in H2. unfold letter. lia.
Qed.
Lemma shown_readable {V} (all : list V) show : (forall v, In v all) ->
  forallb (fun v => readableb (show v)) all = true -> forall v, readable (show v).
Proof. intros Ha H v. rewrite forallb_forall in H. apply readableb_ok, H, Ha. Qed.
Lemma all_readable :
  (forall v, readable (GC_display v)) /\ (forall v, readable (BC_display v)) /\
  (forall v, readable (GCB_display v)) /\ (forall v, readable (WB_display v)) /\
  (forall v, readable (SB_display v)) /\ (forall v, readable (DT_display v)).
Proof.
  split; [apply (shown_readable _ _ GC_all_complete); vm_compute; reflexivity|].
  split; [apply (shown_readable _ _ BC_all_complete); vm_compute; reflexivity|].
  split; [apply (shown_readable _ _ GCB_all_complete); vm_compute; reflexivity|].
  split; [apply (shown_readable _ _ WB_all_complete); vm_compute; reflexivity|].
  split; [apply (shown_readable _ _ SB_all_complete); vm_compute; reflexivity|].
  apply (shown_readable _ _ DT_all_complete); vm_compute; reflexivity.
Qed.

Lemma binary_displayed b :
  binary_from_str (binary_display b) = Some b /\
  binary_from_str (binary_abbr b) = Some b /\ binary_from_str (binary_long b) = Some b /\
  length (binary_abbr b) = 1%nat /\ (2 <= length (binary_long b))%nat /\ binary_display b = binary_long b.
Proof. destruct b; vm_compute; repeat split; try reflexivity; lia. Qed.

(** * Numbers *)
Lemma decimal_hd s n : decimal_of s n -> exists d r, s = d :: r /\ (n = 0 -> d = 0x30).
Proof.
  induction 1 as [d Hd|s n d H (d' & r & -> & IH) Hd].
  - exists d, []. split; [reflexivity|]. unfold digit_char in Hd. lia.
  - exists d', (r ++ [d]). split; [reflexivity|]. intros E. apply IH. lia.
Qed.
Lemma dec_digits_written fuel : forall n acc, n < 10 ^ N.of_nat fuel -> (0 < fuel)%nat ->
  exists ds, dec_digits fuel n acc = ds ++ acc /\ written ds n /\ (n <> 0 -> forall r, ds <> 0x30 :: r).
Proof.
  induction fuel as [|fuel IH]; intros n acc Hn Hf; [lia|].
  cbn [dec_digits]. destruct (N.eqb_spec (n / 10) 0) as [E|E].
  - exists [0x30 + n mod 10]. split; [reflexivity|]. split; [split|].
    + replace n with (0x30 + n mod 10 - 0x30) at 2 by lia. constructor. unfold digit_char. lia.
    + intros r [= _ ->]. reflexivity.
    + intros Hn0 r Hm. assert (E' : 0x30 + n mod 10 = 0x30) by congruence. lia.
  - assert (Hf' : (0 < fuel)%nat).
    { destruct fuel; [|lia]. change (10 ^ N.of_nat 1) with 10 in Hn. lia. }
    assert (Hn' : n / 10 < 10 ^ N.of_nat fuel).
    { rewrite Nat2N.inj_succ, N.pow_succ_r' in Hn. generalize dependent (10 ^ N.of_nat fuel). intros. lia. }
    destruct (IH (n / 10) (0x30 + n mod 10 :: acc) Hn' Hf') as (ds & Eq & [Hd _] & Hz).
    exists (ds ++ [0x30 + n mod 10]). split; [|split; [split|]].
    + rewrite Eq, <- app_assoc. reflexivity.
    + replace n with (n / 10 * 10 + (0x30 + n mod 10 - 0x30)) at 2 by lia. constructor; [exact Hd|unfold digit_char; lia].
    + intros r Er. exfalso. destruct (decimal_hd _ _ Hd) as (d & r' & -> & _). injection Er as -> _. exact (Hz E r' eq_refl).
    + intros _ r Er. destruct (decimal_hd _ _ Hd) as (d & r' & -> & _). injection Er as -> _. exact (Hz E r' eq_refl).
Qed.
(** every [u64] (and [usize]) *)
Lemma fmt_dec_written n : n < 10 ^ 20 -> written (fmt_dec n) n.
Proof.
  intros H. destruct (dec_digits_written 20 n []) as (ds & E & Hd & _); [exact H|lia|].
  unfold fmt_dec. rewrite E, app_nil_r. exact Hd.
Qed.

Lemma decimal_value s n m : decimal_of s n -> decimal_of s m -> n = m.
Proof.
  intros H. revert m. induction H as [d Hd|s n d H IH Hd]; intros m Hm.
  - inversion Hm as [d' Hd' E1 E2|s' n' d' Hs Hd' E1 E2]; subst; [reflexivity|].
    destruct s' as [|a s']; [inversion Hs; destruct s; discriminate|destruct s'; discriminate].
  - inversion Hm as [d' Hd' E1 E2|s' n' d' Hs Hd' E1 E2]; subst.
    + destruct s as [|a s]; [inversion H; destruct s; discriminate|destruct s; discriminate].
    + apply app_inj_tail in E1. destruct E1 as [-> ->]. rewrite (IH _ Hs). reflexivity.
Qed.
Lemma decimal_ub s n : decimal_of s n -> n < 10 ^ N.of_nat (List.length s).
Proof.
  induction 1 as [d Hd|s n d H IH Hd]; unfold digit_char in Hd.
  - change (10 ^ N.of_nat (List.length [d])) with 10. lia.
  - rewrite app_length, Nat.add_1_r, Nat2N.inj_succ, N.pow_succ_r'.
    generalize dependent (10 ^ N.of_nat (List.length s)). intros. lia.
Qed.
Lemma written_lb s n : written s n -> (2 <= List.length s)%nat -> 10 ^ N.of_nat (List.length s - 1) <= n.
Proof.
  intros [H Hz]. revert Hz. induction H as [d Hd|s n d H IH Hd]; intros Hz Hl; [cbn in Hl; lia|].
  rewrite app_length, Nat.add_1_r in *. replace (S (List.length s) - 1)%nat with (List.length s) by lia.
  destruct (decimal_hd _ _ H) as (d' & r & -> & H0).
  destruct r as [|d2 r].
  - change (10 ^ N.of_nat (List.length [d'])) with 10.
    enough (n <> 0) by lia. intros E. specialize (H0 E). subst d'. discriminate (Hz [d] eq_refl).
  - assert (L : 10 ^ N.of_nat (List.length (d' :: d2 :: r) - 1) <= n).
    { apply IH; [|cbn; lia]. intros r0 [= -> <-]. discriminate (Hz _ eq_refl). }
    replace (List.length (d' :: d2 :: r)) with (S (List.length (d' :: d2 :: r) - 1)) at 1 by (cbn; lia).
    rewrite Nat2N.inj_succ, N.pow_succ_r'.
    generalize dependent (10 ^ N.of_nat (List.length (d' :: d2 :: r) - 1)). intros. lia.
Qed.
Lemma decimal_same_length s n : decimal_of s n -> forall t m, decimal_of t m ->
  List.length s = List.length t -> n = m -> s = t.
Proof.
  induction 1 as [d Hd|s n d H IH Hd]; intros t m Ht.
  - destruct Ht as [d' Hd'|t m d' Ht Hd']; intros L E.
    + unfold digit_char in *. f_equal. lia.
    + rewrite app_length in L. destruct t; [inversion Ht; destruct s; discriminate|cbn in L; lia].
  - destruct Ht as [d' Hd'|t m d' Ht Hd']; intros L E.
    + rewrite app_length in L. destruct s; [inversion H; destruct s; discriminate|cbn in L; lia].
    + rewrite !app_length in L. cbn in L. unfold digit_char in *.
      assert (n = m) by lia. assert (d = d') by lia. subst d'. f_equal. apply (IH _ _ Ht); [lia|assumption].
Qed.
Lemma written_inj s t n : written s n -> written t n -> s = t.
Proof.
  intros Hs Ht. apply (decimal_same_length s n (proj1 Hs) t n (proj1 Ht)); [|reflexivity].
  assert (G : forall a b, written a n -> written b n -> (List.length a <= List.length b)%nat).
  { intros a b Ha Hb. destruct (Nat.le_gt_cases (List.length a) (List.length b)) as [L|L]; [exact L|exfalso].
    pose proof (decimal_ub _ _ (proj1 Hb)) as U.
    destruct (decimal_hd _ _ (proj1 Hb)) as (? & ? & Eb & _).
    assert (2 <= List.length a)%nat by (subst b; cbn in L; lia).
    pose proof (written_lb _ _ Ha H) as Lb.
    assert (10 ^ N.of_nat (List.length b) <= 10 ^ N.of_nat (List.length a - 1)) by (apply N.pow_le_mono_r; lia). lia. }
  apply Nat.le_antisymm; apply G; assumption.
Qed.

Lemma class_displayed n : n <= 255 -> written (class_display n) n.
Proof. intros H. apply fmt_dec_written. change (10 ^ 20) with 100000000000000000000. lia. Qed.

Lemma decimal_no_dot s n : decimal_of s n -> ~ In 0x2E s.
Proof.
  induction 1 as [d Hd|s n d H IH Hd]; unfold digit_char in Hd.
  - cbn. lia.
  - intros I. apply in_app_iff in I. destruct I as [I|[I|[]]]; [exact (IH I)|lia].
Qed.
Lemma dot_split (a b c d : str) : ~ In 0x2E a -> ~ In 0x2E c -> a ++ 0x2E :: b = c ++ 0x2E :: d -> a = c /\ b = d.
Proof.
  revert c. induction a as [|x a IH]; intros [|y c] Ha Hc E; cbn in E.
  - injection E as ->. auto.
  - injection E as <- _. exfalso. apply Hc. now left.
  - injection E as -> _. exfalso. apply Ha. now left.
  - injection E as -> E. apply IH in E; [|intros I; apply Ha; now right|intros I; apply Hc; now right].
    destruct E as [-> ->]. auto.
Qed.


Lemma version_displayed v : u8_version v ->
  exists a b c, version_display v = a ++ [0x2E] ++ b ++ [0x2E] ++ c /\
    written a (major v) /\ written b (minor v) /\ written c (micro v).
Proof.
  intros (H1 & H2 & H3). exists (fmt_dec (major v)), (fmt_dec (minor v)), (fmt_dec (micro v)).
  split; [reflexivity|]. repeat split; apply fmt_dec_written; change (10 ^ 20) with 100000000000000000000; lia.
Qed.
Lemma version_apart v w : u8_version v -> u8_version w -> version_display v = version_display w -> v = w.
Proof.
  intros Hv Hw. destruct (version_displayed v Hv) as (a & b & c & Ev & A & B & C).
  destruct (version_displayed w Hw) as (a' & b' & c' & Ew & A' & B' & C'). rewrite Ev, Ew. intros E.
  apply dot_split in E; [|eapply decimal_no_dot, A|eapply decimal_no_dot, A']. destruct E as [-> E].
  apply dot_split in E; [|eapply decimal_no_dot, B|eapply decimal_no_dot, B']. destruct E as [-> ->].
  destruct v, w. cbn in *. f_equal; eapply decimal_value; try apply A; try apply B; try apply C; [apply A'|apply B'|apply C'].
Qed.

(** * Levels *)
Lemma level_displayed l : l <= 126 -> written (level_display l) l.
Proof. intros H. apply fmt_dec_written. change (10 ^ 20) with 100000000000000000000. lia. Qed.
Lemma level_eq_str_iff l s : l <= 126 -> (level_eq_str l s = true <-> s = [0x78] \/ written s l).
Proof.
  intros H. unfold level_eq_str. rewrite orb_true_iff, !str_eqb_eq. change (lit "x") with [0x78].
  split; (intros [E|E]; [left; exact E|right]).
  - subst s. apply level_displayed, H.
  - apply (written_inj _ _ _ E). apply level_displayed, H.
Qed.
Lemma level_vec_iff v r : level_vec v = Some r <-> r = v /\ Forall (fun n => n <= 126) v.
Proof.
  revert r. induction v as [|x v IH]; intros r; cbn [level_vec].
  - split; [intros [= <-]; auto|intros [-> _]; reflexivity].
  - unfold level_new, MAX_IMPLICIT_DEPTH. destruct (N.leb_spec x 126) as [L|L].
    + destruct (level_vec v) as [r'|].
      * destruct (proj1 (IH r') eq_refl) as [-> F]. split; [intros [= <-]; auto|intros [-> _]; reflexivity].
      * split; [discriminate|]. intros [_ F]. inversion F; subst. discriminate (proj2 (IH v) (conj eq_refl H2)).
    + split; [discriminate|]. intros [_ F]. inversion F; subst. lia.
Qed.

Lemma fold_max l : forall x, let m := fold_left (fun m y => if y <? m then m else y) l x in
  (m = x \/ In m l) /\ x <= m /\ forall y, In y l -> y <= m.
Proof.
  induction l as [|y l IH]; intros x; cbn [fold_left]; cbv zeta.
  - cbn. split; [auto|split; [lia|tauto]].
  - destruct (IH (if y <? x then x else y)) as (E & Hx & Hl). cbv zeta in *.
    set (m := fold_left _ l _) in *. destruct (N.ltb_spec y x); split; try (split; [lia|]).
    + destruct E as [E|E]; cbn; auto.
    + intros z [<-|Hz]; [lia|apply Hl, Hz].
    + destruct E as [E|E]; cbn; auto.
    + intros z [<-|Hz]; [lia|apply Hl, Hz].
Qed.
Lemma bidi_info_displayed b : Forall (fun l => l <= 126) (b_levels b) -> N.of_nat (List.length (b_paras b)) < 2 ^ 64 ->
  exists s m t, bidi_info_display b =
      s ++ lit " paragraphs with a maximum bidirectional level of " ++ t /\
    written s (N.of_nat (List.length (b_paras b))) /\ written t m /\
    Forall (fun l => l <= m) (b_levels b) /\ (In m (b_levels b) \/ b_levels b = [] /\ m = 0).
Proof.
  intros Hl Hp. unfold bidi_info_display.
  set (m := match iter_max (b_levels b) with Some m => m | None => LTR_LEVEL end).
  assert (G : Forall (fun l => l <= m) (b_levels b) /\ (In m (b_levels b) \/ b_levels b = [] /\ m = 0)).
  { subst m. destruct (b_levels b) as [|x l]; [split; [constructor|right; auto]|].
    cbn [iter_max]. destruct (fold_max l x) as (E & Hx & Hy). cbv zeta in *. split.
    - constructor; [exact Hx|apply Forall_forall, Hy].
    - left. cbn [In]. destruct E as [E|E]; [left; symmetry; exact E|right; exact E]. }
  destruct G as [G1 G2].
  exists (fmt_dec (N.of_nat (List.length (b_paras b)))), m, (level_display m).
  split; [reflexivity|]. split; [|split; [|split; assumption]].
  - apply fmt_dec_written. change (2 ^ 64) with 18446744073709551616 in Hp. change (10 ^ 20) with 100000000000000000000. lia.
  - apply level_displayed. destruct G2 as [I|[_ ->]]; [|lia]. rewrite Forall_forall in Hl. apply Hl, I.
Qed.

Lemma ranges_cover pieces : forall i k, (i <= k < i + slen (concat pieces))%nat ->
  exists s e, In (s, e) (ranges_from i pieces) /\ (s <= k < e)%nat.
Proof.
  induction pieces as [|p pieces IH]; intros i k H; cbn [concat ranges_from] in *; [cbn in H; lia|].
  rewrite slen_app in H. destruct (Nat.lt_ge_cases k (i + slen p)) as [L|L].
  - exists i, (i + slen p)%nat. cbn. split; [auto|lia].
  - destruct (IH (i + slen p)%nat k) as (s & e & I & B); [lia|]. exists s, e. cbn [In]. auto.
Qed.
Lemma pieces_count pieces : (forall p, In p pieces -> p <> []) -> (List.length pieces <= slen (concat pieces))%nat.
Proof.
  induction pieces as [|p pieces IH]; intros H; cbn [concat List.length]; [lia|].
  rewrite slen_app. assert (slen p <> 0)%nat.
  { destruct p as [|c p]; [destruct (H [] (or_introl eq_refl) eq_refl)|]. cbn. pose proof (clen_pos c). lia. }
  assert (List.length pieces <= slen (concat pieces))%nat by (apply IH; intros q Hq; apply H; right; exact Hq). lia.
Qed.

Lemma bidi_new_displayed t default : default_ok default 125 -> N.of_nat (slen t) < 2 ^ 64 ->
  exists b s m u pieces, bidi_new t default = Ret b /\ paragraphs_of t pieces /\
    bidi_info_display b = s ++ lit " paragraphs with a maximum bidirectional level of " ++ u /\
    written s (N.of_nat (List.length pieces)) /\ written u m /\
    Forall (fun l => l <= m) (b_levels b) /\ (In m (b_levels b) \/ t = [] /\ m = 0).
Proof.
  intros Hd Ht. destruct (bidi_bounds t default Hd) as (b & E & Et & El & _ & Hb).
  destruct (bidi_paragraph_ranges t default b E) as (pieces & Hp & Er).
  assert (Hc : concat pieces = t) by apply Hp.
  assert (Hn : (List.length pieces <= slen t)%nat) by (rewrite <- Hc; apply pieces_count, Hp).
  assert (Hk : List.length (b_paras b) = List.length pieces).
  { rewrite <- (map_length (fun p => (p_start p, p_end p))), Er. generalize 0%nat.
    induction pieces as [|q pieces IHp]; intros i; cbn; [reflexivity|].
    f_equal. clear. generalize (i + slen q)%nat. induction pieces; intros j; cbn; congruence. }
  destruct (bidi_info_displayed b) as (s & m & u & E1 & E2 & E3 & E4 & E5).
  - apply Forall_forall. intros l Hl. destruct (In_nth _ _ 0 Hl) as (k & Hk1 & <-).
    destruct (ranges_cover pieces 0 k) as (st & en & I & B); [rewrite Hc; lia|].
    rewrite <- Er in I. apply in_map_iff in I. destruct I as (p & [= Ep1 Ep2] & Ip).
    apply (Hb p k Ip). lia.
  - rewrite Hk. lia.
  - exists b, s, m, u, pieces. rewrite Hk in E2. repeat (split; [assumption|]).
    destruct E5 as [I|[E5 ->]]; [left; exact I|right]. split; [|reflexivity].
    rewrite E5 in El. destruct t as [|c t]; [reflexivity|]. cbn in El. pose proof (clen_pos c). lia.
Qed.

Lemma written_iff s t n m : written s n -> written t m -> (s = t <-> n = m).
Proof.
  intros Hs Ht. split; intros E.
  - subst t. apply (decimal_value s); [apply Hs|apply Ht].
  - subst m. apply (written_inj _ _ _ Hs Ht).
Qed.
Lemma level_texts l s : l <= 126 ->
  written (level_display l) l /\ (level_eq_str l s = true <-> s = [0x78] \/ written s l).
Proof. intros H. split; [apply level_displayed, H|apply level_eq_str_iff, H]. Qed.

(** Canonically equivalent texts: paragraphs, paragraph levels, directions. *)
From Coq Require Import List NArith ZArith Lia Bool ZifyBool ZifyN Relations.
From Verif Require Import Base RangeModel TableModel TableTypes TableLemmas Enums EnumFacts TablesNormal TablesSegment TablesBidi TablePiecewise
  UcdModel UcdProofs UcdLemmas HangulModel HangulSpec HangulProofs
  BidiModel BidiSpec BidiLemmas BidiInit BidiPara BidiLine BidiLtr
  NormSpec NormOrder NormModel NormTables NormBubble NormIter NormRecomp NormAlgebra NormFiller NormPiecesSpec PieceTables NormCut SpellTables GraphSpec SegLemmas NormPieces ClusterEquiv.
Import ListNotations.
Open Scope nat_scope.

(** ** Tables *)
Definition weak_mark (b : BidiClass) : bool := is_nsm b || is_l b.
Lemma ccc_bidi_check : check2 CANONICAL_COMBINING_CLASS_VALUES BIDI_CLASS_TABLE
  (fun a b => implb (nz a) (match b with Some g => weak_mark g | None => true end)) = true.
Proof. vm_cast_no_check (eq_refl true). Qed.
Lemma some_weak_or o : match o with Some g => weak_mark g | None => true end = weak_mark (match o with Some v => v | None => BC_LeftToRight end).
Proof. destruct o; reflexivity. Qed.
Lemma nonstarter_weak c : ccc c <> 0%N -> weak_mark (bidi_class c) = true.
Proof.
  intros H. apply ccc_nz in H. rewrite bidi_lookup, <- some_weak_or.
  pose proof (piecewise2 _ _ _ wf_CANONICAL_COMBINING_CLASS_VALUES wf_BIDI_CLASS_TABLE ccc_bidi_check c) as P.
  cbv beta in P. rewrite H in P. exact P.
Qed.
Lemma separator_check : check2 BIDI_CLASS_TABLE GRAPHEME_CLUSTER_BREAK
  (fun a b => implb (match a with Some BC_ParagraphSeparator => true | _ => false end) (ctl b)) = true.
Proof. vm_cast_no_check (eq_refl true). Qed.
Lemma ctl_or o : ctl o = true -> ctl_g (match o with Some v => v | None => GCB_Other end) = true.
Proof. destruct o; [auto|discriminate]. Qed.
Lemma sep_or o : match o with Some v => v | None => BC_LeftToRight end = BC_ParagraphSeparator -> match o with Some BC_ParagraphSeparator => true | _ => false end = true.
Proof. destruct o as [b|]; [intros ->; reflexivity|discriminate]. Qed.
Lemma separator_control c : bidi_class c = cB -> control c = true.
Proof.
  rewrite bidi_lookup. intros H. apply sep_or in H. unfold control. rewrite gcb_lookup. apply ctl_or.
  pose proof (piecewise2 _ _ _ wf_BIDI_CLASS_TABLE wf_GRAPHEME_CLUSTER_BREAK separator_check c) as P. cbv beta in P. rewrite H in P. exact P.
Qed.
Lemma bc_eqb_sound x y : BC_eqb x y = true -> x = y.
Proof. destruct x, y; try discriminate; reflexivity. Qed.
Lemma l_jamo c : (0x1100 <= c)%N -> (c <= 0x11C2)%N -> bidi_class c = cL.
Proof. intros H1 H2. rewrite bidi_lookup, (constant_on_sound _ bc_eqb_sound _ _ _ _ c wf_BIDI_CLASS_TABLE jamo_l H1 H2). reflexivity. Qed.
Lemma l_syllable c : is_syllable c = true -> bidi_class c = cL.
Proof.
  intros H. unfold is_syllable in H. hconsts.
  rewrite bidi_lookup, (constant_on_sound _ bc_eqb_sound _ _ _ _ c wf_BIDI_CLASS_TABLE syllable_l) by lia. reflexivity.
Qed.

(** ** What does not see marks and repeated left-to-right characters *)
Section Fold.
  Context {A : Type}.
  Variable f : A -> BidiClass -> A.
  Hypothesis f_nsm : forall a, f a cNSM = a.
  Hypothesis f_l : forall a, f (f a cL) cL = f a cL.
  Notation run l a := (fold_left f (map bidi_class l) a).

  Lemma run_marks l : forall a, forallb weak_mark l = true -> fold_left f l a = if existsb is_l l then f a cL else a.
  Proof.
    induction l as [|x l IH]; intros a H; [reflexivity|]. cbn [forallb existsb fold_left] in *. apply andb_true_iff in H as [H1 H2]. rewrite IH by assumption.
    destruct x; try discriminate; cbn [is_l orb].
    - destruct (existsb is_l l); [apply f_l|reflexivity].
    - rewrite f_nsm. reflexivity.
  Qed.
  Lemma run_nsm l : forall a, forallb is_nsm l = true -> fold_left f l a = a.
  Proof.
    induction l as [|x l IH]; intros a H; [reflexivity|]. cbn [forallb fold_left] in *. apply andb_true_iff in H as [H1 H2]. rewrite IH by assumption.
    destruct x; try discriminate. apply f_nsm.
  Qed.
  Lemma run_shape b l a : shape_b b l = true -> fold_left f l a = f a b.
  Proof.
    unfold shape_b. intros H. apply orb_true_iff in H as [H|H].
    - destruct l as [|x r]; [discriminate|]. apply andb_true_iff in H as [H1 H2]. apply bc_eqb_sound in H1 as ->. cbn [fold_left]. now apply run_nsm.
    - apply andb_true_iff in H as [H H3]. apply andb_true_iff in H as [H1 H2]. rewrite run_marks, H3 by exact H2. destruct b; try discriminate. reflexivity.
  Qed.
  Lemma run_char c a : run (decompose false c) a = f a (bidi_class c).
  Proof.
    destruct (canonical_cases c) as [E|[E|(_ & _ & E)]].
    - rewrite E. reflexivity.
    - rewrite (l_syllable c E). apply block_cover in E as (l & v & t & B & ->). rewrite decompose_block_eq by assumption. unfold jamo_of. pose proof B as (B1 & B2 & B3).
      assert (X1 : bidi_class (leading l) = cL) by (apply l_jamo; unfold leading; lia).
      assert (X2 : bidi_class (vowel v) = cL) by (apply l_jamo; unfold vowel; lia).
      destruct t as [|t].
      + cbn [map fold_left]. rewrite X1, X2. apply f_l.
      + assert (X3 : bidi_class (trailing (N.pos t)) = cL) by (apply l_jamo; unfold trailing; lia).
        cbn [map fold_left]. rewrite X1, X2, X3, !f_l. reflexivity.
    - apply run_shape. exact E.
  Qed.
  Lemma run_flat s : forall a, run (flat_map (decompose false) s) a = run s a.
  Proof. induction s as [|c s IH]; intros a; [reflexivity|]. cbn [flat_map map fold_left]. now rewrite map_app, fold_left_app, run_char, IH. Qed.
  Lemma weak_commute x y a : weak_mark x = true -> weak_mark y = true -> f (f a x) y = f (f a y) x.
  Proof. intros H1 H2. destruct x; try discriminate; destruct y; try discriminate; rewrite ?f_nsm; reflexivity. Qed.
  Lemma run_exchange l m : exchange ccc l m -> forall a, run l a = run m a.
  Proof.
    intros [p x y r [R1 R2]] a. rewrite !map_app, !fold_left_app. cbn [map fold_left]. f_equal.
    apply weak_commute; apply nonstarter_weak; lia.
  Qed.
  Lemma run_D s a : run (D false s) a = run s a.
  Proof.
    assert (H : forall l m, clos_refl_trans _ (exchange ccc) l m -> forall a, run l a = run m a).
    { induction 1 as [l m E|l|l m n _ IH1 _ IH2]; intros b; [now apply run_exchange|reflexivity|]. rewrite IH1. apply IH2. }
    rewrite <- (run_flat s a). symmetry. apply H. apply order_exchanges.
  Qed.
  Lemma run_strip l : forall st a, (st = 2%N -> f a cL = a) -> run (strip st l) a = run l a.
  Proof.
    induction l as [|c l IH]; intros st a H; [reflexivity|]. cbn [strip]. destruct ((st =? 2)%N && (c =? 0x11A7)%N) eqn:X.
    - assert (c = 0x11A7%N) as -> by lia. cbn [map fold_left]. rewrite (l_jamo 0x11A7%N) by lia. rewrite H by lia. apply IH. intros _. apply H. lia.
    - cbn [map fold_left]. apply IH. intros Y. unfold next in Y. destruct (lead c); [discriminate|]. destruct ((st =? 1)%N && vow c) eqn:V; [|discriminate].
      rewrite (l_jamo c) by (unfold vow in V; lia). apply f_l.
  Qed.
  Lemma run_C s a : run (C false s) a = run s a.
  Proof. rewrite <- (run_D (C false s)), D_C_strip, run_strip by discriminate. apply run_D. Qed.
End Fold.

(** ** First strong characters *)
Lemma scan_form F s : (forall a, fold_left scan1 (map bidi_class (F s)) a = fold_left scan1 (map bidi_class s) a) -> scan (cls (F s)) = scan (cls s).
Proof. intros H. unfold scan, cls. apply H. Qed.
Lemma scan_nsm a : scan1 a cNSM = a.
Proof. destruct a as [d [x|]]; reflexivity. Qed.
Lemma scan_l a : scan1 (scan1 a cL) cL = scan1 a cL.
Proof. destruct a as [[|d] [x|]]; reflexivity. Qed.
Lemma level_D d s : cur_level d (cls (D false s)) = cur_level d (cls s).
Proof. unfold cur_level, auto_level. rewrite (scan_form (D false) s); [reflexivity|]. intros a. apply (run_D _ scan_nsm scan_l). Qed.
Lemma level_C d s : cur_level d (cls (C false s)) = cur_level d (cls s).
Proof. unfold cur_level, auto_level. rewrite (scan_form (C false) s); [reflexivity|]. intros a. apply (run_C _ scan_nsm scan_l). Qed.

(** ** Characters of some class *)
Definition some_class (P : BidiClass -> bool) (s : str) : bool := existsb (fun c => P (bidi_class c)) s.
Lemma some_fold P s : forall b, fold_left (fun b c => b || P c) (map bidi_class s) b = b || some_class P s.
Proof.
  unfold some_class. induction s as [|c s IH]; intros b; cbn [map fold_left existsb]; [now rewrite orb_false_r|]. rewrite IH. now rewrite orb_assoc.
Qed.
Lemma some_forms P s : P cNSM = false -> P cL = false -> some_class P (D false s) = some_class P s /\ some_class P (C false s) = some_class P s.
Proof.
  intros H1 H2. assert (F1 : forall a, a || P cNSM = a) by (intros a; now rewrite H1, orb_false_r).
  assert (F2 : forall a, (a || P cL) || P cL = a || P cL) by (intros a; now rewrite H2, !orb_false_r).
  pose proof (run_D (fun b c => b || P c) F1 F2 s false) as X. pose proof (run_C (fun b c => b || P c) F1 F2 s false) as Y.
  rewrite !some_fold in X, Y. auto.
Qed.

(** ** Paragraphs *)
Definition sep (b : BidiClass) : bool := BC_eqb b cB.
Lemma sep_true c : bidi_class c = cB -> sep (bidi_class c) = true.
Proof. intros ->. reflexivity. Qed.
Lemma no_sep s c : some_class sep s = false -> In c s -> bidi_class c <> cB.
Proof. intros H I E. unfold some_class in H. assert (existsb (fun c => sep (bidi_class c)) s = true); [|congruence]. apply existsb_exists. exists c. split; [assumption|now apply sep_true]. Qed.

Section Form.
  Variable F : str -> str.
  Hypothesis F_nil : F [] = [].
  Hypothesis F_cut : forall a z b, control z = true -> F (a ++ z :: b) = F a ++ z :: F b.
  Hypothesis F_nonempty : forall p, p <> [] -> F p <> [].
  Hypothesis F_sep : forall p, some_class sep (F p) = some_class sep p.

  Lemma each_F ps : each (fun l => Some (F l)) ps = Some (concat (map F ps)).
  Proof. induction ps as [|p ps IH]; [reflexivity|]. cbn [each map concat]. rewrite IH. reflexivity. Qed.
  Lemma paragraph_end p z : control z = true -> F (p ++ [z]) = F p ++ [z].
  Proof. intros H. rewrite F_cut, F_nil by assumption. reflexivity. Qed.
  Lemma paragraph_form s ps : paragraphs_of s ps -> paragraphs_of (F s) (map F ps).
  Proof.
    intros (E & NE & SL & CL). split; [|split; [|split]].
    - assert (ED : edges (fun z _ => control z = true) ps).
      { intros l p q r a z y b E1 E2 _. destruct (CL l p (q :: r) E1 ltac:(discriminate)) as (a' & c & E3 & E4).
        rewrite E2 in E3. apply app_inj_tail in E3 as [_ ->]. now apply separator_control. }
      pose proof (pieces_form F (fun l => Some (F l)) (fun z _ => control z = true) (fun _ => eq_refl) F_nil) as X.
      specialize (X ltac:(intros a z y b H; rewrite <- app_assoc; cbn [app]; rewrite F_cut, paragraph_end, <- app_assoc by assumption; reflexivity) ps (proj2 (Forall_forall _ _) NE) ED).
      rewrite each_F, E in X. congruence.
    - intros p I. apply in_map_iff in I as (q & <- & I). apply F_nonempty, NE. exact I.
    - intros p a c b I E1 S. apply in_map_iff in I as (q & <- & I).
      destruct (some_class sep q) eqn:Q.
      + unfold some_class in Q. apply existsb_exists in Q as (z & Iz & Sz). apply bc_eqb_sound in Sz. apply in_split in Iz as (u & v & ->).
        assert (v = []) as -> by (eapply SL; eauto). rewrite paragraph_end in E1 by (now apply separator_control).
        apply app_snoc_inv in E1 as [(-> & _ & _)|(b' & -> & E1)]; [reflexivity|]. exfalso.
        assert (N : some_class sep u = false).
        { destruct (some_class sep u) eqn:U; [|reflexivity]. unfold some_class in U. apply existsb_exists in U as (y & Iy & Sy). apply bc_eqb_sound in Sy.
          apply in_split in Iy as (u1 & u2 & ->). exfalso. rewrite <- app_assoc in I. cbn [app] in I.
          pose proof (SL _ u1 y (u2 ++ [z]) I eq_refl Sy) as X. destruct u2; discriminate. }
        rewrite <- (F_sep u) in N. apply (no_sep _ c N); [|exact S]. rewrite E1. apply in_or_app. right. now left.
      + exfalso. rewrite <- (F_sep q) in Q. apply (no_sep _ c Q); [|exact S]. rewrite E1. apply in_or_app. right. now left.
    - intros front p rest E1 N. apply map_eq_app in E1 as (l & r & -> & E1 & E2). apply map_eq_cons in E2 as (q & r' & -> & E2 & E3).
      destruct (CL l q r' eq_refl) as (a & c & -> & Sc). { intros ->. apply N. now rewrite <- E3. }
      exists (F a), c. split; [|exact Sc]. rewrite <- E2. apply paragraph_end. now apply separator_control.
  Qed.
  Hypothesis F_level : forall d p, cur_level d (cls (F p)) = cur_level d (cls p).
  Lemma paragraph_levels d ps : forall i j, map p_level (mkparas d i (map F ps)) = map p_level (mkparas d j ps).
  Proof. induction ps as [|p ps IH]; intros i j; [reflexivity|]. cbn [map mkparas p_level]. rewrite F_level. f_equal. apply IH. Qed.
End Form.

Lemma paragraphs_unique ps : forall t qs, paragraphs_of t ps -> paragraphs_of t qs -> ps = qs.
Proof.
  assert (X : forall p q ps qs m, paragraphs_of ((q ++ m) ++ concat ps) ((q ++ m) :: ps) -> paragraphs_of (q ++ concat qs) (q :: qs) ->
    (q ++ m) ++ concat ps = q ++ concat qs -> p = q ++ m -> p = q).
  { intros p q ps' qs' m (E & NE & SL & CL) (E' & NE' & SL' & CL') EQ ->. destruct m as [|x m]; [apply app_nil_r|]. exfalso.
    rewrite <- app_assoc in EQ. apply app_inv_head in EQ.
    destruct (CL' [] q qs' eq_refl) as (a & c & -> & Sc). { intros ->. discriminate. }
    pose proof (SL _ a c (x :: m) (or_introl eq_refl)) as Y. rewrite <- app_assoc in Y. discriminate (Y eq_refl Sc). }
  induction ps as [|p ps IH]; intros t [|q qs] P Q.
  - reflexivity.
  - exfalso. destruct P as (E & _). destruct Q as (E' & NE & _). rewrite <- E in E'. cbn [concat] in E'. apply app_eq_nil in E' as [E' _]. exact (NE q (or_introl eq_refl) E').
  - exfalso. destruct Q as (E & _). destruct P as (E' & NE & _). rewrite <- E in E'. cbn [concat] in E'. apply app_eq_nil in E' as [E' _]. exact (NE p (or_introl eq_refl) E').
  - pose proof P as (E & NE & SL & CL). pose proof Q as (E' & NE' & SL' & CL'). cbn [concat] in E, E'. assert (EQ : p ++ concat ps = q ++ concat qs) by congruence.
    assert (p = q) as ->.
    { subst t. destruct (app_split _ _ _ _ EQ) as [(m & EM & _)|(m & EM & _)].
      - subst q. symmetry. rewrite <- E' in Q. exact (X _ _ qs ps m Q P (eq_sym EQ) eq_refl).
      - subst p. rewrite <- E' in Q. exact (X _ _ ps qs m P Q EQ eq_refl). }
    f_equal. apply app_inv_head in EQ. apply (IH (concat ps)).
    + split; [reflexivity|]. split; [intros; apply NE; now right|]. split; [intros p a c b I; apply SL; now right|].
      intros front p rest E1. apply (CL (q :: front)). cbn [app]. now rewrite E1.
    + split; [now rewrite EQ|]. split; [intros; apply NE'; now right|]. split; [intros p a c b I; apply SL'; now right|].
      intros front p rest E1. apply (CL' (q :: front)). cbn [app]. now rewrite E1.
Qed.

(** ** Theorems *)
Lemma C_nonempty p : p <> [] -> C false p <> [].
Proof.
  intros N H. assert (X : D false (C false p) = []) by (rewrite H; reflexivity). rewrite D_C_strip in X.
  pose proof (D_nonempty p N) as Y. destruct (D false p) as [|c l]; [contradiction|]. cbn [strip] in X. change (0 =? 2)%N with false in X. discriminate.
Qed.
Lemma paragraphs_D s ps : paragraphs_of s ps -> paragraphs_of (D false s) (map (D false) ps).
Proof.
  apply paragraph_form; [reflexivity| |exact D_nonempty|].
  - intros a z b H. exact (proj1 (alone_app false a z b H)).
  - intros p. apply some_forms; reflexivity.
Qed.
Lemma paragraphs_C s ps : paragraphs_of s ps -> paragraphs_of (C false s) (map (C false) ps).
Proof.
  apply paragraph_form; [reflexivity| |exact C_nonempty|].
  - intros a z b H. exact (proj2 (alone_app false a z b H)).
  - intros p. apply some_forms; reflexivity.
Qed.

Lemma nfd_paragraphs s ps : paragraphs_of s ps -> exists d qs, nfd s = Some d /\ Forall2 (fun p q => nfd p = Some q) ps qs /\ paragraphs_of d qs.
Proof.
  intros H. exists (D false s), (map (D false) ps). split; [apply nfd_eq|]. split; [|now apply paragraphs_D].
  clear H. induction ps as [|p ps IH]; constructor; [apply nfd_eq|assumption].
Qed.
Lemma nfc_paragraphs s ps : paragraphs_of s ps -> exists d qs, nfc s = Some d /\ Forall2 (fun p q => nfc p = Some q) ps qs /\ paragraphs_of d qs.
Proof.
  intros H. exists (C false s), (map (C false) ps). split; [apply nfc_eq|]. split; [|now apply paragraphs_C].
  clear H. induction ps as [|p ps IH]; constructor; [apply nfc_eq|assumption].
Qed.
Lemma canonical_paragraphs s t ps qs : nfd s = nfd t -> paragraphs_of s ps -> paragraphs_of t qs -> Forall2 (fun p q => nfd p = nfd q) ps qs.
Proof.
  intros E H1 H2. rewrite !nfd_eq in E. assert (E' : D false s = D false t) by congruence. apply paragraphs_D in H1, H2. rewrite E' in H1.
  pose proof (paragraphs_unique _ _ _ H1 H2) as U. clear - U. revert qs U. induction ps as [|p ps IH]; intros [|q qs] U; try discriminate; constructor.
  - cbn [map] in U. apply cons_split in U as [U _]. now rewrite !nfd_eq, U.
  - apply IH. cbn [map] in U. apply cons_split in U. apply U.
Qed.

Lemma bidi_levels s d b : bidi_new s d = Ret b -> exists ps, paragraphs_of s ps /\ map p_level (b_paras b) = map p_level (mkparas d 0 ps).
Proof. intros H. destruct (bidi_shape s d b H) as (cc & lc & ps & _ & _ & _ & P & _ & ->). exists ps. auto. Qed.
Lemma levels_D s d b b' : bidi_new s d = Ret b -> bidi_new (D false s) d = Ret b' -> map p_level (b_paras b') = map p_level (b_paras b).
Proof.
  intros H1 H2. destruct (bidi_levels _ _ _ H1) as (ps & P & ->). destruct (bidi_levels _ _ _ H2) as (qs & Q & ->).
  rewrite (paragraphs_unique _ _ _ Q (paragraphs_D _ _ P)). apply paragraph_levels. exact level_D.
Qed.
Lemma levels_C s d b b' : bidi_new s d = Ret b -> bidi_new (C false s) d = Ret b' -> map p_level (b_paras b') = map p_level (b_paras b).
Proof.
  intros H1 H2. destruct (bidi_levels _ _ _ H1) as (ps & P & ->). destruct (bidi_levels _ _ _ H2) as (qs & Q & ->).
  rewrite (paragraphs_unique _ _ _ Q (paragraphs_C _ _ P)). apply paragraph_levels. exact level_C.
Qed.
Lemma levels_same s t d ps qs : D false s = D false t -> paragraphs_of s ps -> paragraphs_of t qs -> map p_level (mkparas d 0 ps) = map p_level (mkparas d 0 qs).
Proof.
  intros E P Q. pose proof (paragraphs_D _ _ P) as P'. pose proof (paragraphs_D _ _ Q) as Q'. rewrite E in P'. pose proof (paragraphs_unique _ _ _ P' Q') as U.
  transitivity (map p_level (mkparas d 0 (map (D false) ps))); [symmetry; apply (paragraph_levels (D false) level_D)|]. rewrite U. apply (paragraph_levels (D false) level_D).
Qed.
Lemma canonical_levels s t d b b' : nfd s = nfd t -> bidi_new s d = Ret b -> bidi_new t d = Ret b' -> map p_level (b_paras b) = map p_level (b_paras b').
Proof.
  intros E H1 H2. rewrite !nfd_eq in E. destruct (bidi_levels _ _ _ H1) as (ps & P & ->). destruct (bidi_levels _ _ _ H2) as (qs & Q & ->).
  apply (levels_same s t); congruence.
Qed.
Lemma nfc_levels s t d b b' : nfc s = Some t -> bidi_new s d = Ret b -> bidi_new t d = Ret b' -> map p_level (b_paras b') = map p_level (b_paras b).
Proof. rewrite nfc_eq. intros E. assert (t = C false s) as -> by congruence. apply levels_C. Qed.

Lemma forms_classes s d : nfd s = Some d \/ nfc s = Some d -> has_rtl d = has_rtl s /\ has_bidi_explicit d = has_bidi_explicit s.
Proof.
  set (ex := fun b => match bc_category b with BCC_ExplicitFormatting => true | _ => false end).
  destruct (some_forms bc_is_rtl s eq_refl eq_refl) as [R1 R2]. destruct (some_forms ex s eq_refl eq_refl) as [E1 E2].
  intros [H|H]; [rewrite nfd_eq in H|rewrite nfc_eq in H].
  - assert (d = D false s) as -> by congruence. exact (conj R1 E1).
  - assert (d = C false s) as -> by congruence. exact (conj R2 E2).
Qed.
Lemma equivalent_classes s t : nfd s = nfd t -> has_rtl s = has_rtl t /\ has_bidi_explicit s = has_bidi_explicit t.
Proof.
  intros E. destruct (forms_classes s (D false s) (or_introl (nfd_eq s))) as [R1 E1]. destruct (forms_classes t (D false t) (or_introl (nfd_eq t))) as [R2 E2].
  rewrite !nfd_eq in E. assert (E' : D false s = D false t) by congruence. rewrite E' in R1, E1. split; congruence.
Qed.

(** ** Texts without right-to-left characters *)
Definition rtl_list : list BidiClass := [cR; cAL; cAN; cLRE; cLRO; cRLE; cRLO; cPDF; cLRI; cRLI; cFSI; cPDI].
Definition in_rtl (b : BidiClass) : bool := existsb (BC_eqb b) rtl_list.
Lemma in_rtl_in b : in_rtl b = true <-> In b rtl_list.
Proof.
  unfold in_rtl. rewrite existsb_exists. split.
  - intros (x & I & E). apply bc_eqb_sound in E. now subst.
  - intros I. exists b. split; [assumption|]. destruct b; reflexivity.
Qed.
Lemma equivalent_ltr s t : nfd s = nfd t -> (forall c, In c s -> ~ In (bidi_class c) rtl_list) -> forall c, In c t -> ~ In (bidi_class c) rtl_list.
Proof.
  intros E H c I X. rewrite !nfd_eq in E. assert (E' : D false s = D false t) by congruence.
  destruct (some_forms in_rtl s eq_refl eq_refl) as [S1 _]. destruct (some_forms in_rtl t eq_refl eq_refl) as [T1 _]. rewrite E', T1 in S1.
  assert (some_class in_rtl t = true) as T. { apply existsb_exists. exists c. split; [assumption|now apply in_rtl_in]. }
  rewrite T in S1. symmetry in S1. unfold some_class in S1. apply existsb_exists in S1 as (z & Iz & Z). apply in_rtl_in in Z. exact (H z Iz Z).
Qed.
Lemma equivalent_ltr_levels s t : nfd s = nfd t -> (forall c, In c s -> ~ In (bidi_class c) rtl_list) ->
  exists b b', bidi_new s None = Ret b /\ bidi_new t None = Ret b' /\ (forall i, level_at (b_levels b) i = 0%N) /\ (forall i, level_at (b_levels b') i = 0%N).
Proof.
  intros E H. destruct (ltr_text s H) as (b & B1 & B2 & _). destruct (ltr_text t (equivalent_ltr s t E H)) as (b' & B3 & B4 & _). exists b, b'. auto.
Qed.

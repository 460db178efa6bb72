(** The characters of accepted names. *)
From Coq Require Import List NArith ZArith Lia Bool ZifyBool ZifyN.
From Verif Require Import Base RangeModel TableModel TableSpec TableProofs TableLemmas TablePiecewise TableTree Enums EnumFacts TableTypes
  TablesNormal TablesBidi TablesBinary TablesCategory TablesIdna UcdModel UcdSpec UcdProofs UcdLemmas
  HangulModel HangulSpec HangulProofs NormSpec NormModel NormTables NormIter NormRecomp NormAlgebra NormLemmas
  PunyModel PunySpec PunyProofs IdnaModel IdnaSpec IdnaTables IdnaProofs IdnaProcess IdnaLemmas IdnaEquiv DerivedSpec Derived IdnaCleanSpec.
Import ListNotations.
Open Scope N_scope.

Definition perm (std3 : bool) (m : option Mapping) : bool :=
  match m with
  | Some IM_Valid | Some (IM_Deviation _) => true
  | Some IM_DisallowedStd3Valid => negb std3
  | _ => false
  end.
Lemma permitted_perm std3 c : permitted std3 c -> perm std3 (lookup MAPPING c) = true.
Proof.
  unfold permitted. rewrite mapping_lookup. destruct (lookup MAPPING c) as [m|].
  - intros [H|[[s H]|[E H]]]; injection H as ->; [reflexivity|reflexivity|]. cbn [perm]. now rewrite E.
  - intros [H|[[s H]|[E H]]]; discriminate.
Qed.
Lemma perm_weaken m : perm true m = true -> perm false m = true.
Proof. destruct m as [[]|]; cbn; congruence. Qed.
Lemma perm_any std3 m : perm std3 m = true -> perm false m = true.
Proof. destruct std3; [apply perm_weaken|auto]. Qed.

Definition joiners : list (N * N) := [(0x200C, 0x200D)].
Definition ascii_range : list (N * N) := [(0, 0x7F)].
Definition folding : list (N * N) := [(0xDF, 0xDF); (0x3C2, 0x3C2)].
Definition host_ranges : list (N * N) := [(0x2D, 0x2E); (0x30, 0x39); (0x61, 0x7A)].
Lemma wf_joiners : wf_table (rtab joiners). Proof. apply wf_entriesb_sound. vm_compute. reflexivity. Qed.
Lemma wf_ascii : wf_table (rtab ascii_range). Proof. apply wf_entriesb_sound. vm_compute. reflexivity. Qed.
Lemma wf_folding : wf_table (rtab folding). Proof. apply wf_entriesb_sound. vm_compute. reflexivity. Qed.
Lemma wf_host : wf_table (rtab host_ranges). Proof. apply wf_entriesb_sound. vm_compute. reflexivity. Qed.

Definition unwanted : list GeneralCategory :=
  [GC_Unassigned; GC_PrivateUse; GC_Surrogate; GC_LineSeparator; GC_ParagraphSeparator; GC_TitlecaseLetter].
Lemma category_check : check4 MAPPING GENERAL_CATEGORY (rtab joiners) (rtab ascii_range)
  (fun m g j a => imp (perm false m) (negb (gc_in unwanted (gcd g)) && imp (gc_in [GC_Format] (gcd g)) (has j) &&
     imp (gc_in [GC_Control; GC_SpaceSeparator] (gcd g)) (has a && negb (perm true m)))) = true.
Proof. vm_cast_no_check (eq_refl true). Qed.
Lemma fold_check : check4 MAPPING CHANGES_WHEN_CASEFOLDED BIDI_CONTROL (rtab folding)
  (fun m k b o => imp (perm false m) (negb (has b) && imp (has k) (has o))) = true.
Proof. vm_cast_no_check (eq_refl true). Qed.
Lemma ascii_char_check : check4 MAPPING WHITE_SPACE (rtab ascii_range) (rtab host_ranges)
  (fun m w a h => imp (perm false m) (imp (has w) (has a && negb (perm true m)) && imp (perm true m && has a) (has h))) = true.
Proof. vm_cast_no_check (eq_refl true). Qed.

Lemma gc_in_iff l g : gc_in l g = true <-> In g l.
Proof.
  unfold gc_in. rewrite existsb_exists. split.
  - intros (x & Hx & H). apply GC_eqb_eq in H. now subst.
  - intros H. exists g. split; [assumption|]. now apply GC_eqb_eq.
Qed.

Lemma permitted_clean std3 c : permitted std3 c -> clean_char std3 c.
Proof.
  intros P. apply permitted_perm in P. pose proof (perm_any _ _ P) as P0.
  pose proof (piecewise4 _ _ _ _ _ wf_MAPPING wf_GENERAL_CATEGORY wf_joiners wf_ascii category_check c) as A. cbv beta in A.
  pose proof (piecewise4 _ _ _ _ _ wf_MAPPING wf_CHANGES_WHEN_CASEFOLDED wf_BIDI_CONTROL wf_folding fold_check c) as B. cbv beta in B.
  pose proof (piecewise4 _ _ _ _ _ wf_MAPPING wf_WHITE_SPACE wf_ascii wf_host ascii_char_check c) as K. cbv beta in K.
  apply (fun h => imp_true _ _ h P0) in A. apply (fun h => imp_true _ _ h P0) in B. apply (fun h => imp_true _ _ h P0) in K.
  rewrite <- (rtab_in _ c wf_joiners), <- (rtab_in _ c wf_ascii) in A. rewrite <- (rtab_in _ c wf_folding) in B.
  rewrite <- (rtab_in _ c wf_ascii), <- (rtab_in _ c wf_host) in K.
  rewrite <- gc_lookup in A. rewrite <- !m_has in B by use_wf. rewrite <- m_has in K by use_wf.
  fold (is_bidi_control c) (changes_when_casefolded c) in B. fold (is_white_space c) in K.
  apply andb_true_iff in A as [A A3]. apply andb_true_iff in A as [A1 A2].
  apply andb_true_iff in B as [B1 B2]. apply andb_true_iff in K as [K1 K2].
  assert (forall x : bool, in_ranges ascii_range c && negb (perm true (lookup MAPPING c)) = true -> std3 = false /\ c < 128) as N.
  { intros _ H. apply andb_true_iff in H as [H1 H2]. apply negb_true_iff in H2. split; [destruct std3; [congruence|reflexivity]|].
    unfold in_ranges, ascii_range in H1. cbn [existsb fst snd] in H1. lia. }
  unfold clean_char. fold unwanted. repeat split.
  - intros H. apply gc_in_iff in H. rewrite H in A1. exact (Bool.diff_false_true A1).
  - intros H. assert (gc_in [GC_Format] (general_category c) = true) as G by (rewrite H; reflexivity).
    apply (imp_true _ _ A2) in G. unfold in_ranges, joiners in G. cbn [existsb fst snd] in G. lia.
  - now apply negb_true_iff.
  - intros H. apply (imp_true _ _ B2) in H. unfold in_ranges, folding in H. cbn [existsb fst snd] in H. lia.
  - apply gc_in_iff in H. apply (imp_true _ _ A3) in H. exact (proj1 (N true H)).
  - apply gc_in_iff in H. apply (imp_true _ _ A3) in H. exact (proj2 (N true H)).
  - apply (imp_true _ _ K1) in H. exact (proj1 (N true H)).
  - apply (imp_true _ _ K1) in H. exact (proj2 (N true H)).
  - intros Hs Ha. subst std3. rewrite P in K2. cbn [andb] in K2.
    assert (in_ranges ascii_range c = true) as R by (unfold in_ranges, ascii_range; cbn [existsb fst snd]; lia).
    apply (imp_true _ _ K2) in R. unfold in_ranges, host_ranges in R. cbn [existsb fst snd] in R. unfold host_char. lia.
Qed.

(** ** Compatibility decompositions *)
Lemma compat_none_check : check2 MAPPING COMPATIBILITY_DECOMPOSITION_MAPPING (fun m k => imp (perm false m) (negb (has k))) = true.
Proof. vm_cast_no_check (eq_refl true). Qed.
Definition plain_ok (c : N) : bool :=
  imp (perm false (fmap c)) (str_eqb (decg fcanon fcompat true c) (decg fcanon fcompat false c)).
Lemma plain_check : check_entries (entries CANONICAL_DECOMPOSITION_MAPPING) (fun c _ => plain_ok c) = true.
Proof. vm_cast_no_check (eq_refl true). Qed.
Lemma str_eqb_true a : forall b, str_eqb a b = true -> a = b.
Proof.
  induction a as [|x a IH]; intros [|y b]; cbn [str_eqb]; intros H; try discriminate; [reflexivity|].
  apply andb_true_iff in H as [H1 H2]. apply N.eqb_eq in H1. f_equal; auto.
Qed.
Lemma permitted_plain std3 c : permitted std3 c -> decompose true c = decompose false c.
Proof.
  intros P. apply permitted_perm, perm_any in P. destruct (is_syllable c) eqn:Es.
  - apply block_cover in Es as (l & v & t & Hb & ->). now rewrite !decompose_block_eq by assumption.
  - destruct (canonical_decomposition c) as [l|] eqn:Ec.
    + pose proof (check_entries_sound _ _ c l wf_CANONICAL_DECOMPOSITION_MAPPING plain_check Ec) as H. cbv beta in H.
      unfold plain_ok in H. rewrite fmap_ok in H. apply (fun h => imp_true _ _ h P) in H.
      rewrite !(decg_decompose _ _ fcanon_ok fcompat_ok) in H. now apply str_eqb_true.
    + pose proof (piecewise2 _ _ _ wf_MAPPING wf_COMPATIBILITY_DECOMPOSITION_MAPPING compat_none_check c) as H. cbv beta in H.
      apply (fun h => imp_true _ _ h P) in H.
      assert (compatibility_decomposition c = None) as Ek.
      { unfold compatibility_decomposition. destruct (lookup COMPATIBILITY_DECOMPOSITION_MAPPING c); [discriminate|reflexivity]. }
      rewrite !decompose_stable; [reflexivity| |]; (split; [assumption|]; split; [assumption|]); auto; discriminate.
Qed.

(** ** The theorems *)
Lemma labels_forall (Q : N -> Prop) s ls : labels_of s ls -> Q 0x2E -> Forall (Forall Q) ls -> Forall Q s.
Proof.
  intros H D. induction H as [l Hl|l s ls Hl Hls IH]; intros F; inversion F; subst; [assumption|].
  apply Forall_app. split; [assumption|]. constructor; [assumption|]. now apply IH.
Qed.
Lemma dot_permitted std3 : permitted std3 0x2E.
Proof. left. rewrite ascii_mapping by lia. reflexivity. Qed.
Lemma unicode_permitted d f u : Forall scalar d -> to_unicode d f = Ret (u, []) ->
  Forall (permitted (use_std3 f)) u /\ C false u = u.
Proof.
  intros W H. destruct (to_unicode_valid d f u W H) as (ls & L & V). split.
  - apply (labels_forall _ u ls L (dot_permitted _)). refine (Forall_impl _ _ V). intros l X. apply X.
  - apply (C_labels u ls L). refine (Forall_impl _ _ V). intros l (X & _). rewrite nfc_eq in X. congruence.
Qed.
Lemma unicode_clean d f u : Forall scalar d -> to_unicode d f = Ret (u, []) -> Forall (clean_char (use_std3 f)) u.
Proof.
  intros W H. destruct (unicode_permitted d f u W H) as [P _]. refine (Forall_impl _ _ P). exact (permitted_clean _).
Qed.
Lemma permitted_forms std3 u : Forall (permitted std3) u -> D true u = D false u.
Proof.
  intros P. assert (flat_map (decompose true) u = flat_map (decompose false) u) as E; [|unfold D; rewrite E; reflexivity].
  induction P as [|c u Pc P IH]; cbn [flat_map]; [reflexivity|]. rewrite (permitted_plain std3 c Pc), IH. reflexivity.
Qed.
Lemma unicode_nfkc d f u : Forall scalar d -> to_unicode d f = Ret (u, []) -> nfkc u = Some u.
Proof.
  intros W H. destruct (unicode_permitted d f u W H) as [P E]. rewrite nfkc_eq. unfold C in *.
  rewrite (permitted_forms _ _ P), E. reflexivity.
Qed.

(** *** [to_ascii] *)
Lemma insert_keeps i c l x : In x l -> In x (insert_at i c l).
Proof.
  intros H. unfold insert_at. rewrite <- (firstn_skipn (N.to_nat i) l) in H. apply in_app_iff in H. apply in_app_iff. cbn [In]. tauto.
Qed.
Lemma expands_keeps first bias n i out ds tr res : expands first bias n i out ds tr res -> forall x, In x out -> In x res.
Proof. induction 1; intros x Hx; [assumption|]. apply IHexpands. now apply insert_keeps. Qed.
Definition host_or_dot (c : N) : Prop := host_char c \/ c = 0x2E.
Lemma digits_host ds cs : Forall2 digit_char ds cs -> Forall host_or_dot cs.
Proof.
  induction 1 as [|d c ds cs H _ IH]; constructor; [|assumption]. left. unfold host_char. destruct H as [[H ->]|[H ->]]; lia.
Qed.
Lemma puny_host u p tr : (forall c, In c u -> c < 128 -> host_or_dot c) -> punycode digit_char u p tr -> Forall host_or_dot p.
Proof.
  intros H (b & ds & cs & Hb & He & Hd & ->). pose proof (digits_host _ _ Hd) as Hc.
  assert (Forall host_or_dot b) as B.
  { apply Forall_forall. intros c Hin. apply H; [exact (expands_keeps _ _ _ _ _ _ _ _ He c Hin)|].
    rewrite Forall_forall in Hb. now apply Hb. }
  destruct b; [assumption|]. apply Forall_app. split; [assumption|]. constructor; [|assumption]. left. unfold host_char. lia.
Qed.
Lemma a_label_host u a : Forall (permitted true) u -> a_label u a -> Forall host_or_dot a.
Proof.
  intros P H. assert (forall c, In c u -> c < 128 -> host_or_dot c) as K.
  { intros c Hc Ha. rewrite Forall_forall in P. destruct (permitted_clean true c (P c Hc)) as (_ & _ & _ & _ & _ & _ & X). exact (X eq_refl Ha). }
  destruct H as [[H ->]|[_ (p & tr & Hp & ->)]].
  - apply Forall_forall. intros c Hc. apply K; [assumption|]. rewrite Forall_forall in H. now apply H.
  - apply Forall_app. split; [|exact (puny_host u p tr K Hp)].
    repeat constructor; unfold host_char; lia.
Qed.
Lemma ascii_host checked d f a : Forall scalar d -> len d <= 13256071 -> use_std3 f = true ->
  to_ascii checked d f = Ret (inl a) -> Forall host_or_dot a.
Proof.
  intros W L S3 H. destruct (to_ascii_labels checked d f a W L H) as (us & xs & La & F2 & V & _). rewrite S3 in V.
  apply (labels_forall _ a xs La (or_intror eq_refl)). clear La H. induction F2 as [|u x us xs Hx F2 IH]; [constructor|].
  inversion V as [|? ? V1 V2]; subst. constructor; [|now apply IH]. apply (a_label_host u x); [apply V1|assumption].
Qed.

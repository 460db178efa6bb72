(** Identifiers and normalization: the sets XID and ID are closed under the forms. *)
From Coq Require Import List NArith ZArith Lia Bool ZifyBool ZifyN Permutation Relations.
From Verif Require Import Base RangeModel TableModel TableSpec TableProofs TableLemmas TableTypes TablesNormal TablesBinary
  UcdModel UcdSpec UcdProofs UcdLemmas TablePiecewise TableTree HangulModel HangulSpec HangulProofs
  NormSpec NormModel NormTables NormIter NormRecomp NormAlgebra NormLemmas NormFillerSpec NormFiller IdentSpec.
Import ListNotations.
Open Scope N_scope.

Definition full {V} (l : list (N * N * V)) (lo hi : N) : bool :=
  existsb (fun e => (fst (fst e) <=? lo) && (hi <=? snd (fst e))) l.
Lemma full_sound (t : CharDataTable unit) lo hi c : wf_table t ->
  full (entries t) lo hi = true -> lo <= c -> c <= hi -> member t c = true.
Proof.
  intros Hwf Hf H1 H2. apply existsb_exists in Hf as (e & He & Hr). apply andb_true_iff in Hr as [Ha Hb].
  rewrite member_lookup by assumption. rewrite lookup_scan by assumption.
  destruct (scan (entries t) c) eqn:E; [reflexivity|].
  exfalso. revert E He. induction (entries t) as [|[[x y] v] l IH]; intros E He; [exact He|]. cbn [scan] in E. destruct He as [<-|He].
  - cbn [fst snd] in *. replace ((x <=? c) && (c <=? y)) with true in E by lia. discriminate.
  - destruct ((x <=? c) && (c <=? y)); [discriminate|]. now apply IH.
Qed.

Definition hd_is (p : N -> bool) (l : list N) : bool := match l with x :: _ => p x | [] => false end.

Section Closed.
  Variables ST CT : CharDataTable unit.
  Hypothesis wfS : wf_table ST.
  Hypothesis wfC : wf_table CT.
  Hypothesis compS : tree_complete (entries ST) = true.
  Hypothesis compC : tree_complete (entries CT) = true.
  Hypothesis sub : subprop (member ST) (member CT).
  Hypothesis starters : check2 ST CANONICAL_COMBINING_CLASS_VALUES
    (fun a b => negb (isS a) || match b with Some v => v =? 0 | None => true end) = true.
  Hypothesis syl : full (entries ST) 0xAC00 0xD7A3 = true.
  Hypothesis jamo : full (entries ST) 0x1100 0x11C2 = true.

  Variables ts tc : tree unit.
  Hypothesis Ets : ts = tree_of (entries ST).
  Hypothesis Etc : tc = tree_of (entries CT).
  Let fS (c : N) : bool := isS (tree_find ts c).
  Let fC (c : N) : bool := isS (tree_find tc c).
  Definition canon_ok (ts tc : tree unit) (c : N) : bool :=
    let l := decg fcanon fcompat false c in
    let gS x := isS (tree_find ts x) in let gC x := isS (tree_find tc x) in
    eqb (gC c) (forallb gC l) && eqb (gS c) (hd_is gS l).
  Definition compat_ok (ts tc : tree unit) (c : N) : bool :=
    let l := decg fcanon fcompat true c in
    let gS x := isS (tree_find ts x) in let gC x := isS (tree_find tc x) in
    implb (gC c) (forallb gC l) && implb (gS c) (hd_is gS l).
  Hypothesis canon_check : check_entries (entries CANONICAL_DECOMPOSITION_MAPPING)
    (fun c _ => canon_ok ts tc c) = true.

  Lemma fS_ok c : fS c = member ST c.
  Proof. unfold fS. rewrite Ets, tree_lookup by assumption. now rewrite member_lookup by assumption. Qed.
  Lemma fC_ok c : fC c = member CT c.
  Proof. unfold fC. rewrite Etc, tree_lookup by assumption. now rewrite member_lookup by assumption. Qed.

  Lemma start_starter c : member ST c = true -> combining_class c = 0.
  Proof.
    rewrite member_lookup by assumption. intros H.
    pose proof (piecewise2 _ _ _ wfS wf_CANONICAL_COMBINING_CLASS_VALUES starters c) as P. cbv beta in P.
    fold (isS (lookup ST c)) in H. rewrite H in P. unfold combining_class.
    rewrite <- lookup_scan by use_wf. destruct (lookup CANONICAL_COMBINING_CLASS_VALUES c); [|reflexivity]. cbn in P. lia.
  Qed.

  Lemma fC_forall l : forallb fC l = forallb (member CT) l.
  Proof. induction l as [|x l IH]; cbn [forallb]; [reflexivity|]. now rewrite IH, fC_ok. Qed.
  Lemma fS_hd l : hd_is fS l = hd_is (member ST) l.
  Proof. destruct l; [reflexivity|apply fS_ok]. Qed.

  (** what every decomposition does to the two sets *)
  Lemma syllable_dec k c : is_syllable c = true ->
    member ST c = true /\ hd_is (member ST) (decompose k c) = true /\ forallb (member CT) (decompose k c) = true.
  Proof using wfS sub syl jamo fC fS ts tc.
    intros H. pose proof H as Hb. apply block_cover in Hb as (l & v & t & Hb & E).
    assert (forall x, 0x1100 <= x -> x <= 0x11C2 -> member ST x = true) as J
      by (intros x; exact (full_sound ST _ _ x wfS jamo)).
    assert (member ST c = true) as Hc.
    { unfold is_syllable in H. hconsts. apply (full_sound ST 0xAC00 0xD7A3); [assumption|assumption|lia|lia]. }
    split; [assumption|]. rewrite E, (decompose_block_eq k l v t Hb). destruct Hb as (Hl & Hv & Ht).
    assert (member ST (leading l) = true) as J1 by (apply J; unfold leading; lia).
    assert (member ST (vowel v) = true) as J2 by (apply J; unfold vowel; lia).
    assert (member ST (trailing t) = true) as J3 by (apply J; unfold trailing; lia).
    unfold jamo_of. destruct t; cbn [hd_is forallb]; rewrite J1, (sub _ J1), (sub _ J2), ?(sub _ J3); auto.
  Qed.

  Lemma canon_dec c : member CT c = forallb (member CT) (decompose false c) /\
    member ST c = hd_is (member ST) (decompose false c).
  Proof.
    destruct (is_syllable c) eqn:Es.
    - destruct (syllable_dec false c Es) as (H1 & H2 & H3). pose proof (sub c H1) as H0.
      split; [exact (eq_trans H0 (eq_sym H3))|exact (eq_trans H1 (eq_sym H2))].
    - destruct (canonical_decomposition c) as [l|] eqn:Ec.
      + pose proof (check_entries_sound _ _ c l wf_CANONICAL_DECOMPOSITION_MAPPING canon_check Ec) as H.
        unfold canon_ok in H. cbv zeta in H. rewrite (decg_decompose _ _ fcanon_ok fcompat_ok) in H.
        fold fS fC in H. change (fun x => isS (tree_find tc x)) with fC in H.
        change (fun x => isS (tree_find ts x)) with fS in H.
        fold (fS c) (fC c) in H. rewrite fC_forall, fS_hd, fS_ok, fC_ok in H.
        apply andb_true_iff in H as [H1 H2]. split; now apply eqb_prop.
      + rewrite decompose_stable; [cbn [forallb hd_is]; rewrite andb_true_r; auto|].
        split; [assumption|]. split; [assumption|discriminate].
  Qed.

  Section Compat.
    Hypothesis compat_check1 : check_entries (entries CANONICAL_DECOMPOSITION_MAPPING)
      (fun c _ => compat_ok ts tc c) = true.
    Hypothesis compat_check2 : check_entries (entries COMPATIBILITY_DECOMPOSITION_MAPPING)
      (fun c _ => compat_ok ts tc c) = true.

    Lemma compat_dec c : (member CT c = true -> forallb (member CT) (decompose true c) = true) /\
      (member ST c = true -> hd_is (member ST) (decompose true c) = true).
    Proof.
      assert (compat_ok ts tc c = true ->
        (member CT c = true -> forallb (member CT) (decompose true c) = true) /\
        (member ST c = true -> hd_is (member ST) (decompose true c) = true)) as K.
      { unfold compat_ok. cbv zeta. rewrite (decg_decompose _ _ fcanon_ok fcompat_ok).
        change (fun x => isS (tree_find tc x)) with fC.
        change (fun x => isS (tree_find ts x)) with fS.
        fold (fS c) (fC c). rewrite fC_forall, fS_hd, fS_ok, fC_ok.
        destruct (member CT c), (member ST c), (forallb (member CT) (decompose true c)), (hd_is (member ST) (decompose true c));
          cbn; auto; discriminate. }
      destruct (is_syllable c) eqn:Es; [destruct (syllable_dec true c Es) as (H1 & H2 & H3); auto|].
      destruct (canonical_decomposition c) as [l|] eqn:Ec.
      - apply K. exact (check_entries_sound _ _ c l wf_CANONICAL_DECOMPOSITION_MAPPING compat_check1 Ec).
      - destruct (compatibility_decomposition c) as [l|] eqn:Ek.
        + apply K. unfold compatibility_decomposition in Ek.
          destruct (lookup COMPATIBILITY_DECOMPOSITION_MAPPING c) as [[ty l']|] eqn:El; [|discriminate].
          exact (check_entries_sound _ _ c (ty, l') wf_COMPATIBILITY_DECOMPOSITION_MAPPING compat_check2 El).
        + rewrite decompose_stable; [|split; [assumption|split; [assumption|auto]]]. cbn [forallb hd_is].
          rewrite andb_true_r. auto.
    Qed.
  End Compat.

  Notation ident := (identifier (member ST) (member CT)).

  Lemma ident_iff l : ident l <-> hd_is (member ST) l = true /\ forallb (member CT) l = true.
  Proof using sub.
    split.
    - intros H. destruct H as [c l Hc Hl]. cbn [hd_is forallb]. rewrite Hc, (sub _ Hc). split; [reflexivity|].
      apply forallb_forall. now apply Forall_forall.
    - destruct l as [|c l]; cbn [hd_is forallb]; intros [H1 H2]; [discriminate|].
      apply andb_true_iff in H2 as [_ H2]. constructor; [assumption|]. apply Forall_forall. now apply forallb_forall.
  Qed.

  Lemma forallb_perm (p : N -> bool) l m : Permutation l m -> forallb p l = forallb p m.
  Proof using. intros H. induction H; cbn [forallb]; try congruence. rewrite !andb_assoc. f_equal. apply andb_comm. Qed.

  (** reordering keeps identifiers and makes none *)
  Lemma reorder_ident l m : Permutation l m ->
    (forall i c, combining_class c = 0 -> (nth_error l i = Some c <-> nth_error m i = Some c)) -> ident l <-> ident m.
  Proof.
    intros P Hn. rewrite !ident_iff, (forallb_perm _ _ _ P).
    assert (hd_is (member ST) l = true <-> hd_is (member ST) m = true) as E; [|tauto].
    split; intros H.
    - destruct l as [|c l]; [discriminate|]. cbn [hd_is] in H. pose proof (proj1 (Hn 0%nat c (start_starter c H)) eq_refl) as E.
      destruct m as [|x m]; [discriminate|]. cbn in E. injection E as ->. exact H.
    - destruct m as [|c m]; [discriminate|]. cbn [hd_is] in H. pose proof (proj2 (Hn 0%nat c (start_starter c H)) eq_refl) as E.
      destruct l as [|x l]; [discriminate|]. cbn in E. injection E as ->. exact H.
  Qed.

  Lemma flat_canon s : ident s <-> ident (flat false s).
  Proof.
    rewrite !ident_iff. destruct s as [|c s]; [tauto|]. change (hd_is (member ST) (c :: s)) with (member ST c). cbn [forallb flat_map].
    destruct (canon_dec c) as [H1 H2]. rewrite forallb_app, <- H1.
    assert (forall t, forallb (member CT) (flat_map (decompose false) t) = forallb (member CT) t) as F.
    { induction t as [|x t IH]; [reflexivity|]. cbn [flat_map forallb]. rewrite forallb_app, IH.
      now rewrite <- (proj1 (canon_dec x)). }
    rewrite F. assert (hd_is (member ST) (decompose false c ++ flat_map (decompose false) s) = member ST c) as ->; [|tauto].
    rewrite H2. destruct (decompose false c) eqn:E; [|reflexivity].
    exfalso. pose proof (decomposition_total false c) as (l & _ & Hd & Hl). apply decomposes_iff in Hd. rewrite <- Hd in E. subst l. cbn in Hl. lia.
  Qed.

  Lemma nfd_ident s a : nfd s = Some a -> (ident s <-> ident a).
  Proof.
    intros H. destruct (form_preserves false s a H) as (l & Hl & P & Hn & _).
    apply decomposes_all_iff in Hl. subst l. rewrite (flat_canon s). apply reorder_ident; assumption.
  Qed.

  Lemma absorb_ident l m : absorb l m -> (ident l <-> ident m).
  Proof using wfS sub jamo fC fS ts tc.
    intros H. destruct H as [p x v q Hx Hv]. rewrite !ident_iff, !forallb_app. cbn [forallb].
    assert (member CT 0x11A7 = true) as -> by (apply sub; apply (full_sound ST 0x1100 0x11C2); [assumption|assumption|lia|lia]).
    destruct p as [|y p]; cbn [app hd_is]; cbn [andb]; tauto.
  Qed.
  Lemma absorbs_ident l m : clos_refl_trans _ absorb l m -> (ident l <-> ident m).
  Proof using wfS sub jamo fC fS ts tc. intros H. induction H as [l m H| |]; [now apply absorb_ident|tauto|tauto]. Qed.

  Lemma nfc_ident s a : nfc s = Some a -> (ident s <-> ident a).
  Proof.
    intros H. destruct (forms_total s) as ((d & Hd) & _).
    destruct (cform_preserves_exact false s d a Hd H) as (e & He & Hw & _). cbn [form] in He.
    rewrite (nfd_ident s d Hd), (absorbs_ident d e Hw). symmetry. exact (nfd_ident a e He).
  Qed.

  Section Compat2.
    Hypothesis compat_check1 : check_entries (entries CANONICAL_DECOMPOSITION_MAPPING)
      (fun c _ => compat_ok ts tc c) = true.
    Hypothesis compat_check2 : check_entries (entries COMPATIBILITY_DECOMPOSITION_MAPPING)
      (fun c _ => compat_ok ts tc c) = true.

    Lemma nfkd_ident s a : nfkd s = Some a -> ident s -> ident a.
    Proof.
      intros H Hs. destruct (form_preserves true s a H) as (l & Hl & P & Hn & _).
      apply decomposes_all_iff in Hl. subst l. apply (reorder_ident _ _ P Hn).
      destruct Hs as [c s Hc Hs]. apply ident_iff. cbn [flat_map].
      destruct (compat_dec compat_check1 compat_check2 c) as [H1 H2]. split.
      - specialize (H2 Hc). destruct (decompose true c); [discriminate|exact H2].
      - rewrite forallb_app, (H1 (sub _ Hc)). cbn [andb]. clear H P Hn. induction Hs as [|x s Hx Hs IH]; [reflexivity|].
        cbn [flat_map]. rewrite forallb_app, IH, andb_true_r. now apply (compat_dec compat_check1 compat_check2 x).
    Qed.
    Lemma nfkc_ident s a : nfkc s = Some a -> ident s -> ident a.
    Proof.
      intros H Hs. assert (nfc (D true s) = Some a) as E.
      { rewrite nfkc_eq in H. rewrite nfc_eq. unfold C in *. now rewrite D_canon_compat. }
      apply (nfc_ident _ _ E). exact (nfkd_ident s _ (nfkd_eq s) Hs).
    Qed.
  End Compat2.
End Closed.

(** ** The two shipped pairs of sets *)
Definition xid := identifier is_xid_start is_xid_continue.
Definition idn := identifier is_id_start is_id_continue.

Definition xs_t := tree_of (entries XID_START).
Definition xc_t := tree_of (entries XID_CONTINUE).
Definition is_t := tree_of (entries ID_START).
Definition ic_t := tree_of (entries ID_CONTINUE).
Lemma xs_tree : tree_complete (entries XID_START) = true. Proof. vm_cast_no_check (eq_refl true). Qed.
Lemma xc_tree : tree_complete (entries XID_CONTINUE) = true. Proof. vm_cast_no_check (eq_refl true). Qed.
Lemma is_tree : tree_complete (entries ID_START) = true. Proof. vm_cast_no_check (eq_refl true). Qed.
Lemma ic_tree : tree_complete (entries ID_CONTINUE) = true. Proof. vm_cast_no_check (eq_refl true). Qed.
Lemma xid_starters : check2 XID_START CANONICAL_COMBINING_CLASS_VALUES
    (fun a b => negb (isS a) || match b with Some v => v =? 0 | None => true end) = true.
Proof. vm_cast_no_check (eq_refl true). Qed.
Lemma id_starters : check2 ID_START CANONICAL_COMBINING_CLASS_VALUES
    (fun a b => negb (isS a) || match b with Some v => v =? 0 | None => true end) = true.
Proof. vm_cast_no_check (eq_refl true). Qed.
Lemma xid_syl : full (entries XID_START) 0xAC00 0xD7A3 = true. Proof. vm_cast_no_check (eq_refl true). Qed.
Lemma xid_jamo : full (entries XID_START) 0x1100 0x11C2 = true. Proof. vm_cast_no_check (eq_refl true). Qed.
Lemma id_syl : full (entries ID_START) 0xAC00 0xD7A3 = true. Proof. vm_cast_no_check (eq_refl true). Qed.
Lemma id_jamo : full (entries ID_START) 0x1100 0x11C2 = true. Proof. vm_cast_no_check (eq_refl true). Qed.
Lemma xid_canon : check_entries (entries CANONICAL_DECOMPOSITION_MAPPING)
    (fun c _ => canon_ok xs_t xc_t c) = true.
Proof. vm_cast_no_check (eq_refl true). Qed.
Lemma id_canon : check_entries (entries CANONICAL_DECOMPOSITION_MAPPING)
    (fun c _ => canon_ok is_t ic_t c) = true.
Proof. vm_cast_no_check (eq_refl true). Qed.
Lemma xid_compat1 : check_entries (entries CANONICAL_DECOMPOSITION_MAPPING)
    (fun c _ => compat_ok xs_t xc_t c) = true.
Proof. vm_cast_no_check (eq_refl true). Qed.
Lemma xid_compat2 : check_entries (entries COMPATIBILITY_DECOMPOSITION_MAPPING)
    (fun c _ => compat_ok xs_t xc_t c) = true.
Proof. vm_cast_no_check (eq_refl true). Qed.

Lemma xid_forms s : xid s -> forall a,
  (nfd s = Some a \/ nfkd s = Some a \/ nfc s = Some a \/ nfkc s = Some a) -> xid a.
Proof.
  intros H a [E|[E|[E|E]]].
  - revert H. exact (proj1 (nfd_ident XID_START XID_CONTINUE wf_XID_START wf_XID_CONTINUE xs_tree xc_tree
      xid_start_xid_continue xid_starters xid_syl xid_jamo xs_t xc_t eq_refl eq_refl xid_canon s a E)).
  - revert H. exact (nfkd_ident XID_START XID_CONTINUE wf_XID_START wf_XID_CONTINUE xs_tree xc_tree
      xid_start_xid_continue xid_starters xid_syl xid_jamo xs_t xc_t eq_refl eq_refl xid_compat1 xid_compat2 s a E).
  - revert H. exact (proj1 (nfc_ident XID_START XID_CONTINUE wf_XID_START wf_XID_CONTINUE xs_tree xc_tree
      xid_start_xid_continue xid_starters xid_syl xid_jamo xs_t xc_t eq_refl eq_refl xid_canon s a E)).
  - revert H. exact (nfkc_ident XID_START XID_CONTINUE wf_XID_START wf_XID_CONTINUE xs_tree xc_tree
      xid_start_xid_continue xid_starters xid_syl xid_jamo xs_t xc_t eq_refl eq_refl xid_canon xid_compat1 xid_compat2 s a E).
Qed.

Lemma xid_canonical s a : nfd s = Some a \/ nfc s = Some a -> (xid s <-> xid a).
Proof.
  intros [E|E].
  - exact (nfd_ident XID_START XID_CONTINUE wf_XID_START wf_XID_CONTINUE xs_tree xc_tree
      xid_start_xid_continue xid_starters xid_syl xid_jamo xs_t xc_t eq_refl eq_refl xid_canon s a E).
  - exact (nfc_ident XID_START XID_CONTINUE wf_XID_START wf_XID_CONTINUE xs_tree xc_tree
      xid_start_xid_continue xid_starters xid_syl xid_jamo xs_t xc_t eq_refl eq_refl xid_canon s a E).
Qed.
Lemma id_canonical s a : nfd s = Some a \/ nfc s = Some a -> (idn s <-> idn a).
Proof.
  intros [E|E].
  - exact (nfd_ident ID_START ID_CONTINUE wf_ID_START wf_ID_CONTINUE is_tree ic_tree
      id_start_id_continue id_starters id_syl id_jamo is_t ic_t eq_refl eq_refl id_canon s a E).
  - exact (nfc_ident ID_START ID_CONTINUE wf_ID_START wf_ID_CONTINUE is_tree ic_tree
      id_start_id_continue id_starters id_syl id_jamo is_t ic_t eq_refl eq_refl id_canon s a E).
Qed.
Lemma xid_equivalent s t : nfd s = nfd t -> (xid s <-> xid t).
Proof.
  intros E. rewrite (xid_canonical s (D false s)) by (left; apply nfd_eq).
  rewrite (xid_canonical t (D false s)) by (left; rewrite <- E; apply nfd_eq). tauto.
Qed.
Lemma id_equivalent s t : nfd s = nfd t -> (idn s <-> idn t).
Proof.
  intros E. rewrite (id_canonical s (D false s)) by (left; apply nfd_eq).
  rewrite (id_canonical t (D false s)) by (left; rewrite <- E; apply nfd_eq). tauto.
Qed.
Lemma id_compat_fails : exists s a, idn s /\ nfkc s = Some a /\ ~ idn a.
Proof.
  exists [0x61; 0x37A], [0x61; 0x20; 0x345]. split; [|split].
  - constructor; [vm_compute; reflexivity|]. constructor; [vm_compute; reflexivity|constructor].
  - vm_compute. reflexivity.
  - intros H. inversion H as [c l _ Hl]; subst. inversion Hl as [|x m Hx _]; subst. vm_compute in Hx. discriminate.
Qed.

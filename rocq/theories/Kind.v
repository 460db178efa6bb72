(** Whether a text has a character of some kind, under canonical equivalence. *)
From Coq Require Import List NArith ZArith Lia Bool ZifyBool ZifyN Permutation Relations.
From Verif Require Import Base RangeModel TableModel TableSpec TableProofs TableLemmas TableTypes TablesNormal TablesBinary TablesBidi
  UcdModel UcdSpec UcdProofs UcdLemmas TablePiecewise TableTree HangulModel HangulSpec HangulProofs
  NormSpec NormModel NormTables NormIter NormRecomp NormAlgebra NormLemmas NormFillerSpec NormFiller IdentProofs KindSpec.
Import ListNotations.
Open Scope N_scope.

(** ** What is needed of a set of characters *)
Definition blind (P : N -> bool) : Prop :=
  (forall c, P c = existsb P (decompose false c)) /\
  exists b, forall c, 0x1100 <= c <= 0x11C2 -> P c = b.

Lemma existsb_perm {A} (P : A -> bool) l m : Permutation l m -> existsb P l = existsb P m.
Proof.
  intros H. induction H as [|x l m H IH|x y l|l m n H1 IH1 H2 IH2]; cbn [existsb]; [reflexivity|now rewrite IH| |congruence].
  destruct (P x), (P y); reflexivity.
Qed.
Lemma blind_flat P s : blind P -> existsb P (flat_map (decompose false) s) = existsb P s.
Proof.
  intros [H _]. induction s as [|c s IH]; [reflexivity|]. cbn [flat_map existsb]. rewrite existsb_app, IH. now rewrite <- (H c).
Qed.
Lemma blind_nfd P s a : blind P -> nfd s = Some a -> existsb P s = existsb P a.
Proof.
  intros B H. destruct (form_preserves false s a H) as (l & Hl & Q & _). apply decomposes_all_iff in Hl. subst l.
  rewrite <- (blind_flat P s B). now apply existsb_perm.
Qed.
Lemma blind_absorb P l m : blind P -> absorb l m -> existsb P l = existsb P m.
Proof.
  intros [_ [b B]] H. destruct H as [p x v q Hx Hv]. rewrite !existsb_app. cbn [existsb]. f_equal.
  rewrite (B (leading x)) by (unfold leading; lia). rewrite (B (vowel v)) by (unfold vowel; lia). rewrite (B 0x11A7) by lia.
  now destruct b.
Qed.
Lemma blind_absorbs P l m : blind P -> clos_refl_trans _ absorb l m -> existsb P l = existsb P m.
Proof. intros B H. induction H; [now apply blind_absorb|reflexivity|congruence]. Qed.
Lemma blind_nfc P s a : blind P -> nfc s = Some a -> existsb P s = existsb P a.
Proof.
  intros B H. destruct (forms_total s) as ((d & Hd) & _).
  destruct (cform_preserves_exact false s d a Hd H) as (e & He & Hw & _). cbn [form] in He.
  rewrite (blind_nfd P s d B Hd), (blind_absorbs P d e B Hw). symmetry. exact (blind_nfd P a e B He).
Qed.
Lemma blind_equivalent P s t : blind P -> nfd s = nfd t -> existsb P s = existsb P t.
Proof.
  intros B E. rewrite (blind_nfd P s (D false s) B (nfd_eq s)). symmetry. apply blind_nfd; [assumption|]. rewrite <- E. apply nfd_eq.
Qed.
Lemma forallb_negb {A} (P : A -> bool) l : forallb P l = negb (existsb (fun c => negb (P c)) l).
Proof. induction l as [|c l IH]; [reflexivity|]. cbn [forallb existsb]. rewrite IH. now destruct (P c). Qed.

(** ** The tables, [true] for the complement *)
Definition kinds : list (bool * CharDataTable unit) :=
  [(false, PATTERN_WHITE_SPACE); (false, NUMERIC); (false, CONTROL); (false, WHITE_SPACE); (false, BIDI_CONTROL);
   (false, EMOJI_MODIFIER_BASE); (false, EMOJI_MODIFIER); (false, EMOJI_COMPONENT); (false, EMOJI_PRESENTATION);
   (false, ALPHANUMERIC); (false, ALPHABETIC); (false, CASED); (false, CHANGES_WHEN_UPPERCASED); (false, CHANGES_WHEN_LOWERCASED);
   (false, CHANGES_WHEN_CASEMAPPED); (false, CHANGES_WHEN_CASEFOLDED); (false, XID_START); (false, ID_START);
   (true, PATTERN_WHITE_SPACE); (true, XID_CONTINUE); (true, ID_CONTINUE); (true, NUMERIC); (true, CONTROL); (true, WHITE_SPACE);
   (true, CASE_IGNORABLE); (true, BIDI_CONTROL); (true, GENERAL_CATEGORY_MARK); (true, EMOJI_MODIFIER_BASE); (true, EMOJI_MODIFIER);
   (true, EMOJI_COMPONENT); (true, EMOJI_PRESENTATION); (true, EMOJI)].
Definition trees : list (bool * tree unit) := map (fun p => (fst p, tree_of (entries (snd p)))) kinds.
Definition tree_in (p : bool * tree unit) (c : N) : bool := xorb (fst p) (isS (tree_find (snd p) c)).
Definition table_in (p : bool * CharDataTable unit) (c : N) : bool := xorb (fst p) (member (snd p) c).

Definition none {V} (l : list (N * N * V)) (lo hi : N) : bool := forallb (fun e => (snd (fst e) <? lo) || (hi <? fst (fst e))) l.
Lemma none_sound (t : CharDataTable unit) lo hi c : wf_table t ->
  none (entries t) lo hi = true -> lo <= c -> c <= hi -> member t c = false.
Proof.
  intros Hwf Hf H1 H2. rewrite member_lookup by assumption. rewrite lookup_scan by assumption.
  destruct (scan (entries t) c) eqn:E; [|reflexivity]. apply scan_some in E as (e & He & [Hc1 Hc2] & _).
  unfold none in Hf. rewrite forallb_forall in Hf. specialize (Hf e He). lia.
Qed.
Definition hangul_ok (t : CharDataTable unit) : bool :=
  (full (entries t) 0xAC00 0xD7A3 && full (entries t) 0x1100 0x11C2) || (none (entries t) 0xAC00 0xD7A3 && none (entries t) 0x1100 0x11C2).
Lemma hangul_uniform t : wf_table t -> hangul_ok t = true ->
  exists b, forall c, 0xAC00 <= c <= 0xD7A3 \/ 0x1100 <= c <= 0x11C2 -> member t c = b.
Proof.
  intros W H. apply orb_true_iff in H as [H|H]; apply andb_true_iff in H as [H1 H2].
  - exists true. intros c [[A B]|[A B]]; [exact (full_sound t _ _ c W H1 A B)|exact (full_sound t _ _ c W H2 A B)].
  - exists false. intros c [[A B]|[A B]]; [exact (none_sound t _ _ c W H1 A B)|exact (none_sound t _ _ c W H2 A B)].
Qed.

Lemma kinds_wf : Forall (fun p => wf_table (snd p)) kinds.
Proof. unfold kinds. repeat (apply Forall_cons; [cbn [snd]; use_wf|]). apply Forall_nil. Qed.
Lemma kinds_complete : forallb (fun p => tree_complete (entries (snd p))) kinds = true.
Proof. vm_cast_no_check (eq_refl true). Qed.
Lemma kinds_hangul : forallb (fun p => hangul_ok (snd p)) kinds = true.
Proof. vm_cast_no_check (eq_refl true). Qed.
Definition same_ok (ts : list (bool * tree unit)) (c : N) : bool :=
  let l := decg fcanon fcompat false c in forallb (fun p => eqb (tree_in p c) (existsb (tree_in p) l)) ts.
Lemma kinds_check : (let ts := trees in check_entries (entries CANONICAL_DECOMPOSITION_MAPPING) (fun c _ => same_ok ts c)) = true.
Proof. vm_cast_no_check (eq_refl true). Qed.

Lemma tree_in_ok p c : In p kinds -> tree_in (fst p, tree_of (entries (snd p))) c = table_in p c.
Proof.
  intros H. unfold tree_in, table_in. cbn [fst snd].
  pose proof (proj1 (Forall_forall _ _) kinds_wf p H) as W. pose proof (proj1 (forallb_forall _ _) kinds_complete p H) as K.
  cbv beta in W, K. rewrite tree_lookup by assumption. now rewrite member_lookup by assumption.
Qed.
Lemma existsb_ext_in {A} (P Q : A -> bool) l : (forall x, P x = Q x) -> existsb P l = existsb Q l.
Proof. intros H. induction l as [|x l IH]; [reflexivity|]. cbn [existsb]. now rewrite H, IH. Qed.

Lemma kind_blind p : In p kinds -> blind (table_in p).
Proof.
  intros Hp. pose proof (proj1 (Forall_forall _ _) kinds_wf p Hp) as W. pose proof (proj1 (forallb_forall _ _) kinds_hangul p Hp) as K.
  cbv beta in W, K. destruct (hangul_uniform _ W K) as [b U].
  assert (forall c, 0xAC00 <= c <= 0xD7A3 \/ 0x1100 <= c <= 0x11C2 -> table_in p c = xorb (fst p) b) as V
    by (intros c Hc; unfold table_in; now rewrite (U c Hc)).
  split; [|exists (xorb (fst p) b); intros c Hc; apply V; now right].
  intros c. destruct (is_syllable c) eqn:Es.
  - rewrite V by (left; unfold is_syllable in Es; hconsts; lia).
    apply block_cover in Es as (l & v & t & Hb & ->). rewrite decompose_block_eq by assumption. destruct Hb as (Hl & Hv & Ht).
    assert (table_in p (leading l) = xorb (fst p) b) as J1 by (apply V; right; unfold leading; lia).
    assert (table_in p (vowel v) = xorb (fst p) b) as J2 by (apply V; right; unfold vowel; lia).
    assert (table_in p (trailing t) = xorb (fst p) b) as J3 by (apply V; right; unfold trailing; lia).
    unfold jamo_of. destruct t; cbn [existsb]; rewrite J1, J2, ?J3; now destruct (xorb (fst p) b).
  - destruct (canonical_decomposition c) as [l|] eqn:Ec.
    + pose proof (check_entries_sound _ _ c l wf_CANONICAL_DECOMPOSITION_MAPPING kinds_check Ec) as H.
      cbv beta in H. unfold same_ok in H. cbv zeta in H. rewrite (decg_decompose _ _ fcanon_ok fcompat_ok) in H.
      rewrite forallb_forall in H. specialize (H (fst p, tree_of (entries (snd p)))).
      assert (In (fst p, tree_of (entries (snd p))) trees) as I by exact (in_map (fun p => (fst p, tree_of (entries (snd p)))) kinds p Hp).
      specialize (H I). apply eqb_prop in H. rewrite (tree_in_ok p c Hp) in H. rewrite H.
      apply existsb_ext_in. intros x. exact (tree_in_ok p x Hp).
    + rewrite decompose_stable; [cbn [existsb]; now rewrite orb_false_r|]. split; [assumption|]. split; [assumption|discriminate].
Qed.

Lemma blind_ext P Q : (forall c, P c = Q c) -> blind P -> blind Q.
Proof.
  intros H [A [b B]]. split.
  - intros c. rewrite <- H, A. apply existsb_ext_in. exact H.
  - exists b. intros c Hc. rewrite <- H. now apply B.
Qed.
Lemma some_blind : Forall blind some_same.
Proof.
  assert (forall t, In (false, t) kinds -> blind (member t)) as K.
  { intros t H. apply (blind_ext (table_in (false, t))); [intros c; apply xorb_false_l|now apply kind_blind]. }
  unfold some_same. repeat (apply Forall_cons; [apply K; unfold kinds; repeat (first [left; reflexivity|right])|]). apply Forall_nil.
Qed.
Lemma every_blind : Forall (fun P => blind (fun c => negb (P c))) every_same.
Proof.
  assert (forall t, In (true, t) kinds -> blind (fun c => negb (member t c))) as K.
  { intros t H. apply (blind_ext (table_in (true, t))); [intros c; apply xorb_true_l|now apply kind_blind]. }
  unfold every_same.
  assert (blind (fun c => negb (is_combining_mark_table c))) as M.
  { apply (blind_ext (fun c => negb (member GENERAL_CATEGORY_MARK c))).
    - intros c. rewrite member_lookup by use_wf. reflexivity.
    - apply K. unfold kinds. repeat (first [left; reflexivity|right]). }
  repeat (apply Forall_cons; [first [exact M | apply K; unfold kinds; repeat (first [left; reflexivity|right])]|]). apply Forall_nil.
Qed.

Lemma some_equivalent s t : nfd s = nfd t -> Forall (fun P => existsb P s = existsb P t) some_same.
Proof. intros E. refine (Forall_impl _ _ some_blind). intros P B. now apply blind_equivalent. Qed.
Lemma some_normal s a : nfd s = Some a \/ nfc s = Some a -> Forall (fun P => existsb P s = existsb P a) some_same.
Proof. intros E. refine (Forall_impl _ _ some_blind). intros P B. destruct E; [now apply blind_nfd|now apply blind_nfc]. Qed.
Lemma every_equivalent s t : nfd s = nfd t -> Forall (fun P => forallb P s = forallb P t) every_same.
Proof. intros E. refine (Forall_impl _ _ every_blind). intros P B. rewrite !forallb_negb. f_equal. now apply blind_equivalent. Qed.
Lemma every_normal s a : nfd s = Some a \/ nfc s = Some a -> Forall (fun P => forallb P s = forallb P a) every_same.
Proof.
  intros E. refine (Forall_impl _ _ every_blind). intros P B. rewrite !forallb_negb. f_equal.
  destruct E; [now apply (blind_nfd _ s a B)|now apply (blind_nfc _ s a B)].
Qed.

Ltac spelled a b := exists a, b; split; [vm_compute; reflexivity|vm_compute; discriminate].
Lemma some_fails : Forall (fun P => exists s t, nfd s = nfd t /\ existsb P s <> existsb P t) some_differs.
Proof.
  unfold some_differs. repeat apply Forall_cons; [..|apply Forall_nil].
  - spelled [0x385] [0xA8; 0x301].
  - spelled [0x385] [0xA8; 0x301].
  - spelled [0x37E] [0x3B].
  - spelled [0x1F88] [0x391; 0x313; 0x345].
  - spelled [0x1F88] [0x391; 0x313; 0x345].
  - spelled [0x1F88] [0x391; 0x313; 0x345].
  - spelled [0xC0] [0x41; 0x300].
  - spelled [0x2224] [0x2223; 0x338].
  - spelled [0x21AE] [0x2194; 0x338].
  - spelled [0xC0] [0x41; 0x300].
Qed.
Lemma every_fails : Forall (fun P => exists s t, nfd s = nfd t /\ forallb P s <> forallb P t) every_differs.
Proof.
  unfold every_differs. repeat apply Forall_cons; [..|apply Forall_nil].
  - spelled [0x37E] [0x3B].
  - spelled [0xC0] [0x41; 0x300].
  - spelled [0xC0] [0x41; 0x300].
  - spelled [0xC0] [0x41; 0x300].
  - spelled [0xC0] [0x41; 0x300].
  - spelled [0xC0] [0x41; 0x300].
  - spelled [0xE0] [0x61; 0x300].
  - spelled [0xC0] [0x41; 0x300].
  - spelled [0xE0] [0x61; 0x300].
  - spelled [0xC0] [0x41; 0x300].
  - spelled [0xC0] [0x41; 0x300].
  - spelled [0xE0] [0x61; 0x300].
  - spelled [0xC0] [0x41; 0x300].
  - spelled [0x2204] [0x2203; 0x338].
Qed.

(** Facts about the IDNA mapping table and bidi classes, for all characters. *)
From Coq Require Import List NArith ZArith Lia Bool ZifyBool ZifyN.
From Verif Require Import Base RangeModel TableModel TableSpec TableProofs TableLemmas Enums EnumFacts TableTypes
  TablesNormal TablesIdna TablesBidi UcdModel UcdSpec UcdProofs TablePiecewise TableTree
  HangulModel HangulSpec HangulProofs NormModel NormTables PunyModel IdnaModel.
Import ListNotations.
Open Scope N_scope.

Lemma mapping_lookup c : mapping_of c = match lookup MAPPING c with Some m => Ret m | None => Panic end.
Proof. unfold mapping_of. rewrite find_lookup by use_wf. now destruct (lookup MAPPING c). Qed.

Definition all_scalars : CharDataTable unit := Range [(mkRange 0 0xD7FF, tt); (mkRange 0xE000 0x10FFFF, tt)].
Lemma wf_all_scalars : wf_table all_scalars.
Proof. apply wf_entriesb_sound. vm_compute. reflexivity. Qed.
Lemma all_scalars_iff c : scalar c -> lookup all_scalars c = Some tt.
Proof.
  intros H. rewrite lookup_scan by exact wf_all_scalars.
  destruct (scan (entries all_scalars) c) as [[]|] eqn:E; [reflexivity|].
  exfalso. pose proof (scan_none _ _ E) as Hn. cbn in Hn.
  destruct H as [H|H].
  - apply (Hn (0, 0xD7FF, tt)); [now left|]. unfold covers. cbn. lia.
  - apply (Hn (0xE000, 0x10FFFF, tt)); [right; now left|]. unfold covers. cbn. lia.
Qed.

Definition isSome {A} (o : option A) : bool := match o with Some _ => true | None => false end.
Definition text_of (m : Mapping) : str :=
  match m with IM_Mapped s | IM_Deviation s | IM_DisallowedStd3Mapped s => s | _ => [] end.

Lemma mapping_check : check2 MAPPING all_scalars (fun m s =>
  match s with None => true | Some _ =>
    match m with None => false | Some m => forallb scalarb (text_of m) && (N.of_nat (length (text_of m)) <=? 18) end end) = true.
Proof. vm_cast_no_check (eq_refl true). Qed.

Lemma mapping_total c : scalar c -> exists m, mapping_of c = Ret m.
Proof.
  intros H. rewrite mapping_lookup.
  pose proof (piecewise2 _ _ _ wf_MAPPING wf_all_scalars mapping_check c) as Hc. cbv beta in Hc.
  rewrite (all_scalars_iff c H) in Hc. destruct (lookup MAPPING c); [eauto|discriminate].
Qed.
Lemma mapping_text c m : scalar c -> mapping_of c = Ret m -> Forall scalar (text_of m) /\ (length (text_of m) <= 18)%nat.
Proof.
  intros H. rewrite mapping_lookup.
  pose proof (piecewise2 _ _ _ wf_MAPPING wf_all_scalars mapping_check c) as Hc. cbv beta in Hc.
  rewrite (all_scalars_iff c H) in Hc. destruct (lookup MAPPING c) as [m'|]; [|discriminate].
  intros [= ->]. apply andb_true_iff in Hc as [H1 H2]. split; [|lia].
  apply Forall_forall. intros x Hx. rewrite forallb_forall in H1. apply scalarb_spec. now apply H1.
Qed.

(** ** Right-to-left characters *)
Definition is_rtl (c : N) : bool := rtl_class (bidi_class c).
Definition bidi_tree := tree_of (entries BIDI_CLASS_TABLE).
Definition rtl_opt (o : option BidiClass) : bool := match o with Some b => rtl_class b | None => false end.
Definition frtl (c : N) : bool := rtl_opt (tree_find bidi_tree c).
Lemma bidi_tree_complete : tree_complete (entries BIDI_CLASS_TABLE) = true.
Proof. vm_cast_no_check (eq_refl true). Qed.
Lemma is_rtl_lookup c : is_rtl c = rtl_opt (lookup BIDI_CLASS_TABLE c).
Proof. unfold is_rtl, bidi_class. rewrite lookup_or_lookup by use_wf. destruct (lookup BIDI_CLASS_TABLE c); reflexivity. Qed.
Lemma frtl_ok c : frtl c = is_rtl c.
Proof.
  rewrite is_rtl_lookup. unfold frtl, bidi_tree.
  now rewrite (tree_lookup BIDI_CLASS_TABLE c wf_BIDI_CLASS_TABLE bidi_tree_complete).
Qed.

(** Only U+2135..U+2138 map to right-to-left text without being right-to-left themselves. *)
Definition alefs : CharDataTable unit := Range [(mkRange 0x2135 0x2138, tt)].
Lemma wf_alefs : wf_table alefs.
Proof. apply wf_entriesb_sound. vm_compute. reflexivity. Qed.
Lemma alefs_iff c : ~ (0x2135 <= c <= 0x2138) -> lookup alefs c = None.
Proof.
  intros H. rewrite lookup_scan by exact wf_alefs.
  destruct (scan (entries alefs) c) as [[]|] eqn:E; [|reflexivity].
  apply scan_some in E as (e & [<-|[]] & Hc & _). unfold covers in Hc. cbn in Hc. lia.
Qed.
Lemma rtl_mapping_check : check3 MAPPING BIDI_CLASS_TABLE alefs (fun m b a =>
  match m with
  | None => true
  | Some m => isSome a || rtl_opt b || negb (existsb frtl (text_of m))
  end) = true.
Proof. vm_cast_no_check (eq_refl true). Qed.
Lemma mapping_rtl c m x : mapping_of c = Ret m -> ~ (0x2135 <= c <= 0x2138) -> is_rtl c = false ->
  In x (text_of m) -> is_rtl x = false.
Proof.
  rewrite mapping_lookup. intros Hm Ha Hr Hx.
  pose proof (piecewise3 _ _ _ _ wf_MAPPING wf_BIDI_CLASS_TABLE wf_alefs rtl_mapping_check c) as Hc. cbv beta in Hc.
  rewrite (alefs_iff c Ha), <- is_rtl_lookup, Hr in Hc. destruct (lookup MAPPING c) as [m'|]; [|discriminate].
  injection Hm as ->. cbn [orb isSome] in Hc. apply negb_true_iff in Hc.
  destruct (is_rtl x) eqn:E; [|reflexivity]. exfalso.
  assert (existsb frtl (text_of m) = true) as H by (apply existsb_exists; exists x; split; [exact Hx|rewrite frtl_ok; exact E]).
  rewrite H in Hc. discriminate Hc.
Qed.

Definition hangul_area : CharDataTable unit := Range [(mkRange 0x1100 0x11C2, tt); (mkRange 0xAC00 0xD7A3, tt)].
Lemma wf_hangul_area : wf_table hangul_area.
Proof. apply wf_entriesb_sound. vm_compute. reflexivity. Qed.
Lemma hangul_check : check2 BIDI_CLASS_TABLE hangul_area (fun b h => negb (isSome h) || negb (rtl_opt b)) = true.
Proof. vm_cast_no_check (eq_refl true). Qed.
Lemma hangul_not_rtl c : (0x1100 <= c <= 0x11C2 \/ 0xAC00 <= c <= 0xD7A3) -> is_rtl c = false.
Proof.
  intros H. pose proof (piecewise2 _ _ _ wf_BIDI_CLASS_TABLE wf_hangul_area hangul_check c) as Hc. cbv beta in Hc.
  rewrite <- is_rtl_lookup in Hc. rewrite (lookup_scan hangul_area) in Hc by exact wf_hangul_area.
  destruct (scan (entries hangul_area) c) as [[]|] eqn:E.
  - cbn [isSome negb orb] in Hc. apply negb_true_iff in Hc. exact Hc.
  - exfalso. pose proof (scan_none _ _ E) as Hn. cbn in Hn. destruct H as [H|H].
    + apply (Hn (0x1100, 0x11C2, tt)); [now left|]. unfold covers. cbn. lia.
    + apply (Hn (0xAC00, 0xD7A3, tt)); [right; now left|]. unfold covers. cbn. lia.
Qed.

Lemma canon_rtl_check : check_entries (entries CANONICAL_DECOMPOSITION_MAPPING)
  (fun c _ => frtl c || negb (existsb frtl (decg fcanon fcompat false c))) = true.
Proof. vm_cast_no_check (eq_refl true). Qed.
Lemma decompose_rtl c x : is_rtl c = false -> In x (decompose false c) -> is_rtl x = false.
Proof.
  intros Hr. destruct (canonical_decomposition c) as [l|] eqn:E.
  - intros Hx. pose proof (check_entries_sound CANONICAL_DECOMPOSITION_MAPPING _ c l wf_CANONICAL_DECOMPOSITION_MAPPING canon_rtl_check E) as Hc.
    cbv beta in Hc. rewrite frtl_ok, Hr in Hc. cbn [orb] in Hc. rewrite (decg_decompose _ _ fcanon_ok fcompat_ok) in Hc.
    apply negb_true_iff in Hc. destruct (is_rtl x) eqn:Ex; [|reflexivity]. exfalso.
    assert (existsb frtl (decompose false c) = true) as H by (apply existsb_exists; exists x; split; [exact Hx|rewrite frtl_ok; exact Ex]).
    rewrite H in Hc. discriminate Hc.
  - destruct (is_syllable c) eqn:Es.
    + apply block_cover in Es as (l & v & t & Hb & ->). rewrite decompose_block_eq by assumption.
      intros Hx. apply (jamo_bounds l v t x Hb) in Hx. apply hangul_not_rtl. lia.
    + rewrite decompose_stable; [intros [<-|[]]; assumption|]. split; [assumption|]. split; [assumption|discriminate].
Qed.

Lemma triples_rtl : forallb (fun t => frtl (fst (fst t)) || frtl (snd (fst t)) || negb (frtl (snd t))) triples = true.
Proof. vm_cast_no_check (eq_refl true). Qed.
Lemma compose_rtl a b r : compose a b = Some r -> is_rtl a = false -> is_rtl b = false -> is_rtl r = false.
Proof.
  intros H Ha Hb. apply compose_cases in H as [H|[(l & v & _ & _ & _ & _ & ->)|H]].
  - apply hangul_not_rtl. right.
    assert (forall l v t, valid_block l v t -> 0xAC00 <= block l v t <= 0xD7A3) as G by (unfold valid_block, block; intros; lia).
    destruct H; apply G; [unfold valid_block; lia|assumption].
  - assumption.
  - pose proof triples_rtl as Hc. rewrite forallb_forall in Hc. specialize (Hc _ H). cbn [fst snd] in Hc.
    rewrite !frtl_ok, Ha, Hb in Hc. cbn [orb] in Hc. now apply negb_true_iff in Hc.
Qed.

(** ** ASCII *)
Definition ascii_list : list N := map N.of_nat (seq 0 128).
Lemma ascii_in c : c < 128 -> In c ascii_list.
Proof. intros H. apply in_map_iff. exists (N.to_nat c). split; [lia|]. apply in_seq. lia. Qed.

(** The status of an ASCII character: upper-case letters map to lower-case
    ones; letters, digits, hyphen and full stop are valid; others depend on
    the STD3 rules. *)
Definition ascii_status (c : N) : Mapping :=
  if (0x41 <=? c) && (c <=? 0x5A) then IM_Mapped [c + 32]
  else if ((0x61 <=? c) && (c <=? 0x7A)) || ((0x30 <=? c) && (c <=? 0x39)) || (c =? 0x2D) || (c =? 0x2E) then IM_Valid
  else IM_DisallowedStd3Valid.
Definition mapping_eqb (a b : Mapping) : bool :=
  match a, b with
  | IM_Valid, IM_Valid | IM_DisallowedStd3Valid, IM_DisallowedStd3Valid => true
  | IM_Mapped s, IM_Mapped t => leqb s t
  | _, _ => false
  end.
Lemma mapping_eqb_eq a b : mapping_eqb a b = true -> a = b.
Proof. destruct a, b; cbn; try discriminate; try reflexivity. intros H. apply leqb_eq in H. now subst. Qed.
Lemma ascii_check : forallb (fun c => match mapping_of c with Ret m => mapping_eqb m (ascii_status c) | Panic => false end
   && negb (is_rtl c)) ascii_list = true.
Proof. vm_cast_no_check (eq_refl true). Qed.
Lemma ascii_mapping c : c < 128 -> mapping_of c = Ret (ascii_status c).
Proof.
  intros H. pose proof ascii_check as Hc. rewrite forallb_forall in Hc. specialize (Hc c (ascii_in c H)).
  apply andb_true_iff in Hc as [Hc _]. destruct (mapping_of c); [|discriminate]. now apply mapping_eqb_eq in Hc as ->.
Qed.
Lemma ascii_not_rtl c : c < 128 -> is_rtl c = false.
Proof.
  intros H. pose proof ascii_check as Hc. rewrite forallb_forall in Hc. specialize (Hc c (ascii_in c H)).
  apply andb_true_iff in Hc as [_ Hc]. now apply negb_true_iff in Hc.
Qed.

(** Facts about the normalization tables, decided by evaluation over their entries. *)
From Coq Require Import List NArith ZArith Lia Bool ZifyBool ZifyN.
From Verif Require Import Base TableModel TableSpec TableProofs Enums TablesNormal UcdModel UcdProofs TablePiecewise TableTree
  HangulModel HangulSpec HangulProofs NormSpec NormModel.
Import ListNotations.
Open Scope N_scope.

Fixpoint leqb (s t : list N) : bool :=
  match s, t with
  | [], [] => true
  | a :: s', b :: t' => (a =? b) && leqb s' t'
  | _, _ => false
  end.
Lemma leqb_eq s t : leqb s t = true <-> s = t.
Proof.
  revert t. induction s as [|a s IH]; intros [|b t]; cbn [leqb]; split; try congruence; try discriminate.
  - intros H. apply andb_true_iff in H as [H1 H2]. apply N.eqb_eq in H1. apply IH in H2. congruence.
  - intros [= -> ->]. rewrite N.eqb_refl. now apply IH.
Qed.

Definition check_entries {V} (l : list (N * N * V)) (P : N -> V -> bool) : bool :=
  forallb (fun e => (fst (fst e) =? snd (fst e)) && P (fst (fst e)) (snd e)) l.

Lemma check_entries_sound {V} (t : CharDataTable V) P c v : wf_table t ->
  check_entries (entries t) P = true -> lookup t c = Some v -> P c v = true.
Proof.
  intros Hwf Hc Hl. rewrite lookup_scan in Hl by assumption.
  apply scan_some in Hl as (e & He & [H1 H2] & Hv). unfold check_entries in Hc. rewrite forallb_forall in Hc.
  specialize (Hc e He). apply andb_true_iff in Hc as [Heq HP]. apply N.eqb_eq in Heq.
  assert (fst (fst e) = c) as E by lia. rewrite E in HP. now rewrite Hv in HP.
Qed.

(** No entry covers a character in [lo..hi]. *)
Definition avoids {V} (l : list (N * N * V)) (lo hi : N) : bool :=
  forallb (fun e => (snd (fst e) <? lo) || (hi <? fst (fst e))) l.
Lemma avoids_sound {V} (t : CharDataTable V) lo hi c : wf_table t ->
  avoids (entries t) lo hi = true -> lo <= c -> c <= hi -> lookup t c = None.
Proof.
  intros Hwf Ha H1 H2. rewrite lookup_scan by assumption. destruct (scan (entries t) c) as [v|] eqn:E; [|reflexivity].
  apply scan_some in E as (e & He & [H3 H4] & _). unfold avoids in Ha. rewrite forallb_forall in Ha.
  specialize (Ha e He). lia.
Qed.

(** ** ASCII and Hangul syllables have no table entries *)
Lemma canon_ascii c : c <= 0x7F -> canonical_decomposition c = None.
Proof.
  intros H. unfold canonical_decomposition.
  apply (avoids_sound _ 0 0x7F); [use_wf|vm_cast_no_check (eq_refl true)|lia|assumption].
Qed.
Lemma compat_ascii c : c <= 0x7F -> compatibility_decomposition c = None.
Proof.
  intros H. unfold compatibility_decomposition.
  rewrite (avoids_sound _ 0 0x7F); [reflexivity|use_wf|vm_cast_no_check (eq_refl true)|lia|assumption].
Qed.
Lemma ccc_ascii c : c <= 0x7F -> ccc c = 0.
Proof.
  intros H. unfold ccc. rewrite lookup_or_lookup by use_wf.
  rewrite (avoids_sound _ 0 0x7F); [reflexivity|use_wf|vm_cast_no_check (eq_refl true)|lia|assumption].
Qed.
Lemma canon_hangul c : is_syllable c = true -> canonical_decomposition c = None.
Proof.
  intros H. unfold is_syllable in H. hconsts. unfold canonical_decomposition.
  apply (avoids_sound _ 0xAC00 0xD7A3); [use_wf|vm_cast_no_check (eq_refl true)|lia|lia].
Qed.
Lemma compat_hangul c : is_syllable c = true -> compatibility_decomposition c = None.
Proof.
  intros H. unfold is_syllable in H. hconsts. unfold compatibility_decomposition.
  rewrite (avoids_sound _ 0xAC00 0xD7A3); [reflexivity|use_wf|vm_cast_no_check (eq_refl true)|lia|lia].
Qed.
Lemma ccc_hangul c : is_syllable c = true -> ccc c = 0.
Proof.
  intros H. unfold is_syllable in H. hconsts. unfold ccc. rewrite lookup_or_lookup by use_wf.
  rewrite (avoids_sound _ 0xAC00 0xD7A3); [reflexivity|use_wf|vm_cast_no_check (eq_refl true)|lia|lia].
Qed.
(** ... nor do the conjoining jamo. *)
Lemma canon_jamo c : 0x1100 <= c -> c <= 0x11C2 -> canonical_decomposition c = None.
Proof.
  intros H1 H2. unfold canonical_decomposition.
  apply (avoids_sound _ 0x1100 0x11C2); [use_wf|vm_cast_no_check (eq_refl true)|assumption|assumption].
Qed.
Lemma compat_jamo c : 0x1100 <= c -> c <= 0x11C2 -> compatibility_decomposition c = None.
Proof.
  intros H1 H2. unfold compatibility_decomposition.
  rewrite (avoids_sound _ 0x1100 0x11C2); [reflexivity|use_wf|vm_cast_no_check (eq_refl true)|assumption|assumption].
Qed.
Lemma ccc_jamo c : 0x1100 <= c -> c <= 0x11C2 -> ccc c = 0.
Proof.
  intros H1 H2. unfold ccc. rewrite lookup_or_lookup by use_wf.
  rewrite (avoids_sound _ 0x1100 0x11C2); [reflexivity|use_wf|vm_cast_no_check (eq_refl true)|assumption|assumption].
Qed.

(** No character has both mappings. *)
Lemma disjoint_check : check2 CANONICAL_DECOMPOSITION_MAPPING COMPATIBILITY_DECOMPOSITION_MAPPING
  (fun a b => match a, b with Some _, Some _ => false | _, _ => true end) = true.
Proof. vm_cast_no_check (eq_refl true). Qed.
Lemma canon_compat_disjoint c l : canonical_decomposition c = Some l -> compatibility_decomposition c = None.
Proof.
  intros H. unfold canonical_decomposition, compatibility_decomposition in *.
  pose proof (piecewise2 _ _ _ wf_CANONICAL_DECOMPOSITION_MAPPING wf_COMPATIBILITY_DECOMPOSITION_MAPPING disjoint_check c) as Hc.
  cbv beta in Hc. rewrite H in Hc.
  destruct (lookup COMPATIBILITY_DECOMPOSITION_MAPPING c); [discriminate|reflexivity].
Qed.

(** ** The shape of [decompose] *)
Definition stable (k : bool) (c : N) : Prop :=
  is_syllable c = false /\ canonical_decomposition c = None /\
  (k = true -> compatibility_decomposition c = None).

Lemma d_step f k ch : d (S f) k ch =
  if ch <=? 0x7F then Some [ch]
  else if is_syllable ch then match decompose_syllable ch with Ret l => Some l | Panic => None end
  else match canonical_decomposition ch with
       | Some canon => concat_opt (map (d f k) canon)
       | None => if negb k then Some [ch]
                 else match compatibility_decomposition ch with
                      | Some cm => concat_opt (map (d f k) cm)
                      | None => Some [ch]
                      end
       end.
Proof. reflexivity. Qed.

Lemma decompose_stable k c : stable k c -> decompose k c = [c].
Proof.
  intros (H1 & H2 & H3). unfold decompose, d_fuel. rewrite d_step.
  destruct (c <=? 0x7F); [reflexivity|]. rewrite H1, H2. destruct k; [|reflexivity].
  cbn [negb]. now rewrite H3.
Qed.

Lemma decompose_hangul k c : is_syllable c = true -> decompose_syllable c = Ret (decompose k c) /\ d d_fuel k c = Some (decompose k c).
Proof.
  intros H. pose proof H as Hb. apply block_cover in Hb as (l & v & t & Hb & E).
  assert (c <=? 0x7F = false) as Hc by (unfold is_syllable in H; hconsts; lia).
  unfold decompose, d_fuel. rewrite d_step. rewrite Hc, H, E, (decompose_block l v t Hb). auto.
Qed.

Lemma decompose_block_eq k l v t : valid_block l v t -> decompose k (block l v t) = jamo_of l v t.
Proof.
  intros Hb. assert (is_syllable (block l v t) = true) as Hs by (apply block_cover; eauto).
  pose proof (proj1 (decompose_hangul k _ Hs)) as H.
  rewrite decompose_block in H by assumption. congruence.
Qed.

Lemma stable_jamo k c : 0x1100 <= c -> c <= 0x11C2 -> stable k c.
Proof.
  intros H1 H2. split; [|split].
  - unfold is_syllable. hconsts. lia.
  - now apply canon_jamo.
  - intros _. now apply compat_jamo.
Qed.

Lemma jamo_bounds l v t x : valid_block l v t -> In x (jamo_of l v t) -> 0x1100 <= x <= 0x11C2.
Proof.
  unfold valid_block, jamo_of, leading, vowel, trailing. intros (H1 & H2 & H3) Hx.
  destruct t; cbn [In] in Hx; lia.
Qed.

(** [d], [decompose] and [ccc] evaluated with search trees. *)
Section Fast.
  Variable canon : N -> option (list N).
  Variable compat : N -> option (DecompositionType * list N).
  Variable cls : N -> option N.

  Fixpoint dg (fuel : nat) (k : bool) (ch : N) : option (list N) :=
    match fuel with
    | O => None
    | S fuel' =>
        if ch <=? 0x7F then Some [ch]
        else if is_syllable ch then
          match decompose_syllable ch with Ret l => Some l | Panic => None end
        else
          match canon ch with
          | Some l => concat_opt (map (dg fuel' k) l)
          | None =>
              if negb k then Some [ch]
              else match compat ch with
                   | Some (_, l) => concat_opt (map (dg fuel' k) l)
                   | None => Some [ch]
                   end
          end
    end.
  Definition decg (k : bool) (c : N) : list N := match dg d_fuel k c with Some l => l | None => [] end.
  Definition cccg (c : N) : N := match cls c with Some v => v | None => 0 end.

  (** Everything we need about the decomposition of a character with a table entry. *)
  Definition good_g (k : bool) (c : N) : bool :=
    match dg d_fuel k c with
    | Some l =>
        (1 <=? N.of_nat (length l)) && (N.of_nat (length l) <=? 18)
        && forallb (fun x => match dg d_fuel k x with Some [y] => y =? x | _ => false end) l
        && (if cccg c =? 0 then true else forallb (fun x => cccg x =? cccg c) l)
        && forallb scalarb l
        && leqb (flat_map (decg true) (decg false c)) (decg true c)
        && forallb (fun x => negb (x =? 0x11A7)) l
        && negb (leqb l [c])
    | None => false
    end.
  Definition triple_g (t : N * N * N) : bool :=
    let '(a, b, r) := t in
    leqb (decg false r) (decg false a ++ decg false b)
    && leqb (decg true r) (decg true a ++ decg true b)
    && (negb (cccg a =? 0) || (cccg r =? 0)) && (0x80 <=? b) && scalarb r && negb (b =? 0x11A7)
    && match canon r with Some [x; y] => (x =? a) && (y =? b) | _ => false end.

  Hypothesis canon_ok : forall c, canon c = canonical_decomposition c.
  Hypothesis compat_ok : forall c, option_map snd (compat c) = compatibility_decomposition c.
  Hypothesis cls_ok : forall c, cccg c = ccc c.

  Lemma dg_d fuel : forall k c, dg fuel k c = d fuel k c.
  Proof.
    induction fuel as [|fuel IH]; intros k c; [reflexivity|]. cbn [dg d].
    destruct (c <=? 0x7F); [reflexivity|]. destruct (is_syllable c); [reflexivity|]. rewrite canon_ok.
    assert (forall l, map (dg fuel k) l = map (d fuel k) l) as Hm by (intros l; apply map_ext; intros; apply IH).
    destruct (canonical_decomposition c); [now rewrite Hm|]. destruct (negb k); [reflexivity|].
    rewrite <- compat_ok. destruct (compat c) as [[ty l]|]; cbn [option_map snd]; [now rewrite Hm|reflexivity].
  Qed.
  Lemma decg_decompose k c : decg k c = decompose k c.
  Proof. unfold decg, decompose. now rewrite dg_d. Qed.
End Fast.

Definition canon_tree := tree_of (entries CANONICAL_DECOMPOSITION_MAPPING).
Definition compat_tree := tree_of (entries COMPATIBILITY_DECOMPOSITION_MAPPING).
Definition ccc_tree := tree_of (entries CANONICAL_COMBINING_CLASS_VALUES).
Definition fcanon (c : N) := tree_find canon_tree c.
Definition fcompat (c : N) := tree_find compat_tree c.
Definition fccc (c : N) := tree_find ccc_tree c.

Lemma canon_tree_complete : tree_complete (entries CANONICAL_DECOMPOSITION_MAPPING) = true.
Proof. vm_cast_no_check (eq_refl true). Qed.
Lemma compat_tree_complete : tree_complete (entries COMPATIBILITY_DECOMPOSITION_MAPPING) = true.
Proof. vm_cast_no_check (eq_refl true). Qed.
Lemma ccc_tree_complete : tree_complete (entries CANONICAL_COMBINING_CLASS_VALUES) = true.
Proof. vm_cast_no_check (eq_refl true). Qed.

Lemma fcanon_ok c : fcanon c = canonical_decomposition c.
Proof.
  unfold fcanon, canon_tree, canonical_decomposition.
  exact (tree_lookup CANONICAL_DECOMPOSITION_MAPPING c wf_CANONICAL_DECOMPOSITION_MAPPING canon_tree_complete).
Qed.
Lemma fcompat_ok c : option_map snd (fcompat c) = compatibility_decomposition c.
Proof.
  unfold fcompat, compat_tree, compatibility_decomposition.
  rewrite (tree_lookup COMPATIBILITY_DECOMPOSITION_MAPPING c wf_COMPATIBILITY_DECOMPOSITION_MAPPING compat_tree_complete).
  reflexivity.
Qed.
Lemma fccc_ok c : cccg fccc c = ccc c.
Proof.
  unfold cccg, fccc, ccc_tree, ccc. rewrite lookup_or_lookup by use_wf.
  rewrite (tree_lookup CANONICAL_COMBINING_CLASS_VALUES c wf_CANONICAL_COMBINING_CLASS_VALUES ccc_tree_complete).
  reflexivity.
Qed.

Definition good_entry (k : bool) (c : N) : bool := good_g fcanon fcompat fccc k c.

Lemma canon_good_check k : check_entries (entries CANONICAL_DECOMPOSITION_MAPPING) (fun c _ => good_entry k c) = true.
Proof. destruct k; vm_cast_no_check (eq_refl true). Qed.
Lemma compat_good_check : check_entries (entries COMPATIBILITY_DECOMPOSITION_MAPPING) (fun c _ => good_entry true c) = true.
Proof. vm_cast_no_check (eq_refl true). Qed.

(** A character is stable, a syllable, or has a checked entry. *)
Lemma decompose_cases k c : stable k c \/ is_syllable c = true \/ good_entry k c = true.
Proof.
  destruct (is_syllable c) eqn:Es; [auto|].
  destruct (canonical_decomposition c) as [l|] eqn:Ec.
  - right. right.
    exact (check_entries_sound _ _ c l wf_CANONICAL_DECOMPOSITION_MAPPING (canon_good_check k) Ec).
  - destruct k.
    + destruct (compatibility_decomposition c) as [l|] eqn:Ek.
      * right. right. unfold compatibility_decomposition in Ek.
        destruct (lookup COMPATIBILITY_DECOMPOSITION_MAPPING c) as [[ty l']|] eqn:El; [|discriminate].
        exact (check_entries_sound _ _ c (ty, l') wf_COMPATIBILITY_DECOMPOSITION_MAPPING compat_good_check El).
      * left. split; [assumption|]. auto.
    + left. split; [assumption|]. split; [assumption|discriminate].
Qed.

Lemma good_entry_facts k c : good_entry k c = true ->
  d d_fuel k c = Some (decompose k c) /\
  (1 <= length (decompose k c) <= 18)%nat /\
  (forall x, In x (decompose k c) -> decompose k x = [x]) /\
  (ccc c <> 0 -> forall x, In x (decompose k c) -> ccc x = ccc c) /\
  Forall scalar (decompose k c) /\
  flat_map (decompose true) (decompose false c) = decompose true c /\
  ~ In 0x11A7 (decompose k c) /\ decompose k c <> [c].
Proof.
  unfold good_entry, good_g. intros H. rewrite (dg_d _ _ fcanon_ok fcompat_ok) in H.
  rewrite fccc_ok in H.
  destruct (d d_fuel k c) as [l|] eqn:E; [|discriminate].
  assert (decompose k c = l) as El by (unfold decompose; now rewrite E). rewrite El.
  apply andb_true_iff in H as [H H7]. apply andb_true_iff in H as [H H6].
  apply andb_true_iff in H as [H H5]. apply andb_true_iff in H as [H H4]. apply andb_true_iff in H as [H H3].
  apply andb_true_iff in H as [H H2]. apply andb_true_iff in H as [H0 H1].
  rewrite forallb_forall in H2.
  split; [reflexivity|]. split; [lia|]. split; [|split; [|split; [|split; [|split]]]].
  - intros x Hx. specialize (H2 x Hx). rewrite (dg_d _ _ fcanon_ok fcompat_ok) in H2. unfold decompose.
    destruct (d d_fuel k x) as [[|y [|]]|]; try discriminate.
    apply N.eqb_eq in H2. now subst.
  - intros Hc x Hx. destruct (N.eqb_spec (ccc c) 0); [contradiction|]. rewrite forallb_forall in H3.
    specialize (H3 x Hx). rewrite fccc_ok in H3. now apply N.eqb_eq.
  - rewrite Forall_forall. intros x Hx. rewrite forallb_forall in H4. apply scalarb_spec. now apply H4.
  - apply leqb_eq in H5. rewrite !(decg_decompose _ _ fcanon_ok fcompat_ok) in H5.
    rewrite <- H5. apply flat_map_ext. intros x. symmetry. apply (decg_decompose _ _ fcanon_ok fcompat_ok).
  - intros Hin. rewrite forallb_forall in H6. specialize (H6 _ Hin). discriminate.
  - intros ->. rewrite (proj2 (leqb_eq [c] [c]) eq_refl) in H7. discriminate.
Qed.

(** ** The facts for all characters *)
Lemma d_total k c : d d_fuel k c = Some (decompose k c).
Proof.
  destruct (decompose_cases k c) as [H|[H|H]].
  - pose proof H as (H1 & H2 & H3). rewrite (decompose_stable k c H). unfold d_fuel. rewrite d_step.
    destruct (c <=? 0x7F); [reflexivity|]. rewrite H1, H2. destruct k; [|reflexivity]. cbn [negb]. now rewrite H3.
  - now apply decompose_hangul.
  - destruct (good_entry_facts k c H) as (F1 & F2 & F3 & F4 & F5 & F6 & F7 & F8); auto.
Qed.

Lemma decompose_length k c : (1 <= length (decompose k c) <= 18)%nat.
Proof.
  destruct (decompose_cases k c) as [H|[H|H]].
  - rewrite decompose_stable by assumption. cbn. lia.
  - apply block_cover in H as (l & v & t & Hb & ->). rewrite decompose_block_eq by assumption.
    unfold jamo_of. destruct t; cbn; lia.
  - destruct (good_entry_facts k c H) as (F1 & F2 & F3 & F4 & F5 & F6 & F7 & F8); auto.
Qed.

Lemma decompose_fixed k c x : In x (decompose k c) -> decompose k x = [x].
Proof.
  destruct (decompose_cases k c) as [H|[H|H]].
  - rewrite decompose_stable by assumption. intros [<-|[]]. now apply decompose_stable.
  - apply block_cover in H as (l & v & t & Hb & ->). rewrite decompose_block_eq by assumption.
    intros Hx. apply (jamo_bounds l v t x Hb) in Hx. now apply decompose_stable, stable_jamo.
  - destruct (good_entry_facts k c H) as (F1 & F2 & F3 & F4 & F5 & F6 & F7 & F8); auto.
Qed.

Lemma decompose_class k c x : ccc c <> 0 -> In x (decompose k c) -> ccc x = ccc c.
Proof.
  destruct (decompose_cases k c) as [H|[H|H]].
  - rewrite decompose_stable by assumption. intros _ [<-|[]]. reflexivity.
  - intros Hc. exfalso. apply Hc. now apply ccc_hangul.
  - intros Hc Hx. destruct (good_entry_facts k c H) as (F1 & F2 & F3 & F4 & F5 & F6 & F7 & F8); auto.
Qed.

Lemma decompose_scalar k c : scalar c -> Forall scalar (decompose k c).
Proof.
  intros Hc. destruct (decompose_cases k c) as [H|[H|H]].
  - rewrite decompose_stable by assumption. now constructor.
  - apply block_cover in H as (l & v & t & Hb & ->). rewrite decompose_block_eq by assumption.
    rewrite Forall_forall. intros x Hx. apply (jamo_bounds l v t x Hb) in Hx. unfold scalar. lia.
  - destruct (good_entry_facts k c H) as (F1 & F2 & F3 & F4 & F5 & F6 & F7 & F8); auto.
Qed.

Lemma decompose_compat_canon c : flat_map (decompose true) (decompose false c) = decompose true c.
Proof.
  destruct (decompose_cases false c) as [H|[H|H]].
  - rewrite (decompose_stable false) by assumption. cbn [flat_map]. apply app_nil_r.
  - apply block_cover in H as (l & v & t & Hb & ->). rewrite !decompose_block_eq by assumption.
    assert (forall x, In x (jamo_of l v t) -> decompose true x = [x]) as Hx.
    { intros x Hx. apply (jamo_bounds l v t x Hb) in Hx. now apply decompose_stable, stable_jamo. }
    induction (jamo_of l v t) as [|a r IH]; [reflexivity|]. cbn [flat_map]. rewrite Hx by now left.
    cbn [app]. f_equal. apply IH. intros x Hin. apply Hx. now right.
  - destruct (good_entry_facts false c H) as (F1 & F2 & F3 & F4 & F5 & F6 & F7 & F8); auto.
Qed.

Lemma decompose_ascii k c : c <= 0x7F -> decompose k c = [c].
Proof.
  intros H. unfold decompose, d_fuel. rewrite d_step. destruct (N.leb_spec c 0x7F); [reflexivity|lia].
Qed.

(** ** Composition *)
Definition triples : list (N * N * N) :=
  flat_map (fun e => map (fun f => (fst (fst e), fst (fst f), snd f)) (entries (snd e)))
    (entries CANONICAL_COMPOSITION_MAPPING).

Definition singleton_entries {V} (l : list (N * N * V)) : bool :=
  forallb (fun e => fst (fst e) =? snd (fst e)) l.

Lemma triples_singleton : singleton_entries (entries CANONICAL_COMPOSITION_MAPPING) = true /\
  forallb (fun e => singleton_entries (entries (snd e))) (entries CANONICAL_COMPOSITION_MAPPING) = true.
Proof. split; vm_cast_no_check (eq_refl true). Qed.

Lemma table_triple a b r t : canonical_composition a = Some t -> lookup t b = Some r -> In (a, b, r) triples.
Proof.
  unfold canonical_composition. intros Ha Hb.
  rewrite lookup_scan in Ha by use_wf. apply scan_some in Ha as (e & He & [H1 H2] & Hv).
  pose proof composition_inner_wfb as Hw. rewrite forallb_forall in Hw. specialize (Hw e He).
  rewrite Hv in Hw. apply wf_entriesb_sound in Hw.
  rewrite lookup_scan in Hb by assumption. apply scan_some in Hb as (f & Hf & [H3 H4] & Hr).
  destruct triples_singleton as [Hs1 Hs2]. unfold singleton_entries in Hs1. rewrite forallb_forall in Hs1.
  specialize (Hs1 e He). rewrite forallb_forall in Hs2. specialize (Hs2 e He).
  unfold singleton_entries in Hs2. rewrite forallb_forall in Hs2. rewrite Hv in Hs2. specialize (Hs2 f Hf).
  apply N.eqb_eq in Hs1, Hs2.
  unfold triples. apply in_flat_map. exists e. split; [assumption|]. rewrite Hv.
  apply in_map_iff. exists f. split; [|assumption]. f_equal; [f_equal|]; [lia|lia|assumption].
Qed.

Definition good_triple (t : N * N * N) : bool := triple_g fcanon fcompat fccc t.
Lemma triples_good : forallb good_triple triples = true.
Proof. vm_cast_no_check (eq_refl true). Qed.

Lemma good_triple_in a b r : In (a, b, r) triples ->
  (forall k, decompose k r = decompose k a ++ decompose k b) /\ (ccc a = 0 -> ccc r = 0) /\ 0x80 <= b /\ scalar r /\
  b <> 0x11A7 /\ canonical_decomposition r = Some [a; b].
Proof.
  intros Hin. pose proof triples_good as H.
  rewrite forallb_forall in H. specialize (H _ Hin). unfold good_triple, triple_g in H.
  rewrite !(decg_decompose _ _ fcanon_ok fcompat_ok), !fccc_ok, fcanon_ok in H.
  apply andb_true_iff in H as [H H6].
  apply andb_true_iff in H as [H H5]. apply andb_true_iff in H as [H H4]. apply andb_true_iff in H as [H H3].
  apply andb_true_iff in H as [H H2]. apply andb_true_iff in H as [H0 H1].
  apply leqb_eq in H0, H1. repeat split.
  - intros []; assumption.
  - lia.
  - lia.
  - now apply scalarb_spec.
  - lia.
  - destruct (canonical_decomposition r) as [[|x [|y [|]]]|]; try discriminate.
    apply andb_true_iff in H6 as [E1 E2]. apply N.eqb_eq in E1, E2. now subst.
Qed.

Lemma compose_cases a b r : compose a b = Some r ->
  composes a b r \/ (exists l v, l < 19 /\ v < 21 /\ a = block l v 0 /\ b = 0x11A7 /\ r = a) \/ In (a, b, r) triples.
Proof.
  unfold compose. destruct (compose_syllable a b) as [x|] eqn:E.
  - intros H. apply some_inj in H. subst x. apply compose_syllable_iff in E as [H|H]; auto.
  - destruct (canonical_composition a) as [t|] eqn:Et; [|discriminate].
    intros H. right. right. now apply (table_triple a b r t).
Qed.

Lemma compose_decompose_eq k a b r : compose a b = Some r -> b <> 0x11A7 ->
  decompose k r = decompose k a ++ decompose k b.
Proof.
  intros H Hb. apply compose_cases in H as [H|[(l & v & _ & _ & _ & H & _)|H]].
  - destruct H as [l v Hl Hv|l v t Hv Ht].
    + rewrite decompose_block_eq by (unfold valid_block; lia).
      rewrite !decompose_stable by (apply stable_jamo; unfold leading, vowel; lia). reflexivity.
    + rewrite decompose_block_eq by assumption. destruct Hv as (H1 & H2 & H3).
      rewrite decompose_block_eq by (unfold valid_block; lia).
      rewrite decompose_stable by (apply stable_jamo; unfold trailing; lia).
      unfold jamo_of. destruct t; [lia|reflexivity].
  - contradiction.
  - destruct (good_triple_in _ _ _ H) as (F1 & F2 & F3 & F4 & F5 & F6); auto.
Qed.

Lemma compose_filler a r : compose a 0x11A7 = Some r -> r = a.
Proof.
  intros H. apply compose_cases in H as [H|[(l & v & _ & _ & _ & _ & H)|H]].
  - now apply composes_not_filler in H.
  - assumption.
  - apply good_triple_in in H as (_ & _ & _ & _ & H & _). contradiction.
Qed.

Lemma compose_starter a b r : compose a b = Some r -> ccc a = 0 -> ccc r = 0.
Proof.
  intros H. apply compose_cases in H as [H|[(l & v & _ & _ & _ & _ & ->)|H]].
  - intros _. apply ccc_hangul. apply block_cover. destruct H as [l v Hl Hv|l v t Hv Ht].
    + exists l, v, 0. split; [unfold valid_block; lia|reflexivity].
    + exists l, v, t. auto.
  - auto.
  - destruct (good_triple_in _ _ _ H) as (F1 & F2 & F3 & F4 & F5 & F6); auto.
Qed.

Lemma compose_ascii a b : b <= 0x7F -> compose a b = None.
Proof.
  intros Hb. destruct (compose a b) as [r|] eqn:E; [|reflexivity]. exfalso.
  apply compose_cases in E as [H|[(l & v & _ & _ & _ & H & _)|H]].
  - destruct H; unfold vowel, trailing in *; lia.
  - lia.
  - apply good_triple_in in H as (_ & _ & H & _). lia.
Qed.

Lemma compose_scalar a b r : compose a b = Some r -> scalar r.
Proof.
  intros H. apply compose_cases in H as [H|[(l & v & ? & ? & -> & _ & ->)|H]].
  - destruct H as [l v Hl Hv|l v t (H1 & H2 & H3) Ht]; unfold block, scalar; lia.
  - unfold block, scalar. lia.
  - destruct (good_triple_in _ _ _ H) as (F1 & F2 & F3 & F4 & F5 & F6); auto.
Qed.

Lemma filler_stable k : decompose k 0x11A7 = [0x11A7].
Proof. apply decompose_stable, stable_jamo; lia. Qed.
Lemma ccc_filler : ccc 0x11A7 = 0.
Proof. apply ccc_jamo; lia. Qed.

(** U+11A7 only arises from itself. *)
Lemma decompose_filler k c : In 0x11A7 (decompose k c) -> c = 0x11A7.
Proof.
  intros Hin. destruct (decompose_cases k c) as [H|[H|H]].
  - rewrite decompose_stable in Hin by assumption. destruct Hin as [H1|[]]. assumption.
  - apply block_cover in H as (l & v & t & Hb & E). rewrite E, decompose_block_eq in Hin by assumption.
    exfalso. destruct Hb as (H1 & H2 & H3). unfold jamo_of, leading, vowel, trailing in Hin.
    destruct t; cbn [In] in Hin; lia.
  - destruct (good_entry_facts k c H) as (F1 & F2 & F3 & F4 & F5 & F6 & F7 & F8). contradiction.
Qed.

(** A character that does not decompose compatibly does not decompose canonically. *)
Lemma fixed_true_false x : decompose true x = [x] -> decompose false x = [x].
Proof.
  intros H. destruct (decompose_cases true x) as [(H1 & H2 & H3)|[Hs|Hs]].
  - apply decompose_stable. split; [assumption|]. split; [assumption|discriminate].
  - exfalso. apply block_cover in Hs as (a & b & c & Hb & ->).
    rewrite decompose_block_eq in H by assumption. unfold jamo_of in H. destruct c; discriminate.
  - destruct (good_entry_facts true x Hs) as (F1 & F2 & F3 & F4 & F5 & F6 & F7 & F8). contradiction.
Qed.

(** Only an LV syllable composes with U+11A7; it was composed with a starter, if at all. *)
Lemma compose_then_filler a b r : compose a b = Some r -> compose r 0x11A7 <> None -> ccc b = 0.
Proof.
  intros H Hf. destruct (compose r 0x11A7) as [r'|] eqn:E; [clear Hf|contradiction].
  apply compose_cases in E as [E|[(l & v & Hl & Hv & Er & _ & _)|E]].
  - now apply composes_not_filler in E.
  - apply compose_cases in H as [H|[(l' & v' & _ & _ & _ & -> & _)|H]].
    + destruct H as [l' v' Hl' Hv'|l' v' t Hb Ht].
      * apply ccc_jamo; unfold vowel; lia.
      * apply ccc_jamo; unfold trailing; destruct Hb as (? & ? & ?); lia.
    + exact ccc_filler.
    + destruct (good_triple_in _ _ _ H) as (F1 & F2 & F3 & F4 & F5 & F6).
      assert (is_syllable r = true) as Hs.
      { apply block_cover. exists l, v, 0. split; [unfold valid_block; lia|assumption]. }
      apply canon_hangul in Hs. congruence.
  - destruct (good_triple_in _ _ _ E) as (F1 & F2 & F3 & F4 & F5 & F6). contradiction.
Qed.

(** The statements of properties C11-C18 and C55-C57. *)
From Coq Require Import List NArith ZArith Lia Bool Relations Permutation ZifyBool ZifyN.
From Verif Require Import Base TableModel TableSpec TableProofs TablesNormal UcdModel UcdProofs HangulModel HangulSpec HangulProofs
  NormSpec NormOrder NormModel NormTables NormBubble NormIter NormRecomp NormAlgebra.
Import ListNotations.
Open Scope N_scope.
Local Transparent ccc compose.

(** ** Character data *)
Lemma ccc_spec c : ccc c = combining_class c.
Proof. unfold ccc, combining_class. rewrite lookup_or_lookup by use_wf. rewrite lookup_scan by use_wf. reflexivity. Qed.

Lemma canonical_mapping_iff c l : canonical_mapping c l <-> canonical_decomposition c = Some l.
Proof. unfold canonical_mapping, canonical_decomposition. rewrite lookup_scan by use_wf. reflexivity. Qed.
Lemma compatibility_mapping_iff c l : compatibility_mapping c l <-> compatibility_decomposition c = Some l.
Proof.
  unfold compatibility_mapping, compatibility_decomposition. rewrite lookup_scan by use_wf.
  destruct (scan (entries COMPATIBILITY_DECOMPOSITION_MAPPING) c) as [[ty m]|]; cbn [option_map snd]; split.
  - intros (t & H). congruence.
  - intros H. exists ty. congruence.
  - intros (t & [=]).
  - discriminate.
Qed.
Lemma hangul_mapping_iff c l : hangul_mapping c l <-> is_syllable c = true /\ decompose_syllable c = Ret l.
Proof.
  unfold hangul_mapping. split.
  - intros (x & y & z & Hb & -> & ->). split; [apply block_cover; eauto|now apply decompose_block].
  - intros [Hs Hd]. apply block_cover in Hs as (x & y & z & Hb & ->). rewrite decompose_block in Hd by assumption.
    exists x, y, z. repeat split; congruence || apply Hb.
Qed.

(** [d] performs the standard's recursive decomposition. *)
Lemma d_sound : forall fuel k c out, d fuel k c = Some out -> decomposes k c out.
Proof.
  induction fuel as [|fuel IH]; intros k c out H; [discriminate|]. rewrite d_step in H.
  assert (forall l out, concat_opt (map (d fuel k) l) = Some out -> decomposes_all k l out) as Hall.
  { induction l as [|x l IHl]; intros o Ho; cbn [map concat_opt] in Ho.
    - injection Ho as <-. constructor.
    - destruct (d fuel k x) as [y|] eqn:E1; [|discriminate].
      destruct (concat_opt (map (d fuel k) l)) as [ys|] eqn:E2; [|discriminate]. injection Ho as <-.
      constructor; [now apply IH|now apply IHl]. }
  destruct (c <=? 0x7F) eqn:Ea.
  { injection H as <-. constructor. intros l [Hm|[Hm|[_ Hm]]].
    - apply canonical_mapping_iff in Hm. rewrite canon_ascii in Hm by lia. discriminate.
    - apply hangul_mapping_iff in Hm as [Hm _]. unfold is_syllable in Hm. hconsts. lia.
    - apply compatibility_mapping_iff in Hm. rewrite compat_ascii in Hm by lia. discriminate. }
  destruct (is_syllable c) eqn:Es.
  { destruct (decompose_syllable c) as [l|] eqn:Ed; [|discriminate]. injection H as <-.
    assert (hangul_mapping c l) as Hm by (apply hangul_mapping_iff; auto).
    apply (decomposes_step k c l l); [now right; left|].
    destruct Hm as (x & y & z & Hb & _ & ->).
    assert (forall m, (forall j, In j m -> 0x1100 <= j <= 0x11C2) -> decomposes_all k m m) as Hj.
    { induction m as [|j m IHm]; intros Hj; [constructor|].
      apply (decomposes_cons k j m [j] m).
      - constructor. pose proof (Hj j (or_introl eq_refl)) as [B1 B2]. intros l [Hx|[Hx|[_ Hx]]].
        + apply canonical_mapping_iff in Hx. rewrite canon_jamo in Hx by assumption. discriminate.
        + apply hangul_mapping_iff in Hx as [Hx _]. unfold is_syllable in Hx. hconsts. lia.
        + apply compatibility_mapping_iff in Hx. rewrite compat_jamo in Hx by assumption. discriminate.
      - apply IHm. intros i Hi. apply Hj. now right. }
    apply Hj. intros j. now apply jamo_bounds. }
  destruct (canonical_decomposition c) as [l|] eqn:Ec.
  { apply (decomposes_step k c l out); [left; now apply canonical_mapping_iff|now apply Hall]. }
  assert (forall l, ~ canonical_mapping c l) as N1 by (intros l Hm; apply canonical_mapping_iff in Hm; congruence).
  assert (forall l, ~ hangul_mapping c l) as N2 by (intros l Hm; apply hangul_mapping_iff in Hm as [Hm _]; congruence).
  destruct k; cbn [negb] in H.
  - destruct (compatibility_decomposition c) as [l|] eqn:Ek.
    + apply (decomposes_step true c l out); [|now apply Hall].
      right. right. split; [reflexivity|now apply compatibility_mapping_iff].
    + injection H as <-. constructor. intros l [Hm|[Hm|[_ Hm]]]; [now apply N1 in Hm|now apply N2 in Hm|].
      apply compatibility_mapping_iff in Hm. congruence.
  - injection H as <-. constructor. intros l [Hm|[Hm|[Hm _]]]; [now apply N1 in Hm|now apply N2 in Hm|discriminate].
Qed.

Lemma maps_to_fun k c l m : maps_to k c l -> maps_to k c m -> l = m.
Proof.
  unfold maps_to. rewrite !canonical_mapping_iff, !hangul_mapping_iff, !compatibility_mapping_iff.
  intros [H|[[H1 H2]|[_ H]]] [G|[[G1 G2]|[_ G]]]; try congruence.
  - apply canon_hangul in G1. congruence.
  - apply canon_compat_disjoint in H. congruence.
  - apply canon_hangul in H1. congruence.
  - apply compat_hangul in H1. congruence.
  - apply canon_compat_disjoint in G. congruence.
  - apply compat_hangul in G1. congruence.
Qed.

Scheme decomposes_mut := Minimality for decomposes Sort Prop
  with decomposes_all_mut := Minimality for decomposes_all Sort Prop.

Lemma decomposes_fun k c l : decomposes k c l -> forall m, decomposes k c m -> l = m.
Proof.
  intros H. revert c l H.
  apply (decomposes_mut k (fun c l => forall m, decomposes k c m -> l = m)
           (fun s l => forall m, decomposes_all k s m -> l = m)).
  - intros c Hn m Hm. destruct Hm as [c' _|c' l out Hmap _]; [reflexivity|now apply Hn in Hmap].
  - intros c l out Hmap _ IH m Hm. destruct Hm as [c' Hn|c' l' out' Hmap' Hall].
    + now apply Hn in Hmap.
    + apply IH. now rewrite (maps_to_fun k c' l l' Hmap Hmap').
  - intros m Hm. now inversion Hm.
  - intros c l out outs _ IH1 _ IH2 m Hm. inversion Hm as [|? ? o os H1 H2]; subst.
    rewrite (IH1 o H1), (IH2 os H2). reflexivity.
Qed.

Lemma decomposes_iff k c l : decomposes k c l <-> l = decompose k c.
Proof.
  pose proof (d_sound _ _ _ _ (d_total k c)) as H. split.
  - intros Hl. exact (decomposes_fun k c l Hl _ H).
  - now intros ->.
Qed.
Lemma decomposes_all_iff k s l : decomposes_all k s l <-> l = flat k s.
Proof.
  revert l. induction s as [|c s IH]; intros l; split.
  - intros H. now inversion H.
  - intros ->. constructor.
  - intros H. inversion H as [|? ? o os H1 H2]; subst. apply decomposes_iff in H1. apply IH in H2. now subst.
  - intros ->. cbn [flat_map]. constructor; [now apply decomposes_iff|now apply IH].
Qed.

(** Extensionality of the ordering specification. *)
Lemma exchange_ext f g l m : (forall c, f c = g c) -> exchange f l m -> exchange g l m.
Proof. intros E [p a b q [Ha Hb]]. constructor. split; now rewrite <- !E. Qed.
Lemma canonically_ordered_ext f g l out : (forall c, f c = g c) ->
  canonically_ordered f l out -> canonically_ordered g l out.
Proof.
  intros E [H1 H2]. split.
  - clear H2. induction H1; [apply rt_step; eapply exchange_ext; eassumption|apply rt_refl|eapply rt_trans; eassumption].
  - intros p a b q Hl [Ha Hb]. apply (H2 p a b q Hl). split; now rewrite !E.
Qed.

Definition form (k : bool) (s : str) : option str := if k then nfkd s else nfd s.
Definition cform (k : bool) (s : str) : option str := if k then nfkc s else nfc s.
Lemma form_eq k s : form k s = Some (D k s).
Proof. destruct k; [apply nfkd_eq|apply nfd_eq]. Qed.
Lemma cform_eq k s : cform k s = Some (C k s).
Proof. destruct k; [apply nfkc_eq|apply nfc_eq]. Qed.

Lemma form_iff k s out : form k s = Some out <->
  exists l, decomposes_all k s l /\ canonically_ordered combining_class l out.
Proof.
  rewrite form_eq. split.
  - intros [= <-]. exists (flat k s). split; [now apply decomposes_all_iff|].
    apply (canonically_ordered_ext ccc); [exact ccc_spec|]. now apply canonically_ordered_iff.
  - intros (l & Hl & Ho). apply decomposes_all_iff in Hl. subst l.
    apply (canonically_ordered_ext _ ccc) in Ho; [|intros c; symmetry; apply ccc_spec].
    apply canonically_ordered_iff in Ho. unfold D. now rewrite Ho.
Qed.
Lemma nfd_iff s out : nfd s = Some out <->
  exists l, decomposes_all false s l /\ canonically_ordered combining_class l out.
Proof. exact (form_iff false s out). Qed.
Lemma nfkd_iff s out : nfkd s = Some out <->
  exists l, decomposes_all true s l /\ canonically_ordered combining_class l out.
Proof. exact (form_iff true s out). Qed.
Lemma forms_total s : (exists a, nfd s = Some a) /\ (exists a, nfkd s = Some a) /\
  (exists a, nfc s = Some a) /\ (exists a, nfkc s = Some a).
Proof. rewrite nfd_eq, nfkd_eq, nfc_eq, nfkc_eq. eauto 10. Qed.

Lemma decomposition_total k c : exists l, d d_fuel k c = Some l /\ decomposes k c l /\
  (1 <= length l <= 18)%nat.
Proof.
  exists (decompose k c). split; [apply d_total|]. split; [now apply decomposes_iff|apply decompose_length].
Qed.

Lemma nfd_idempotent s a : nfd s = Some a -> nfd a = Some a.
Proof. rewrite !nfd_eq. intros [= <-]. now rewrite D_idem. Qed.
Lemma nfkd_idempotent s a : nfkd s = Some a -> nfkd a = Some a.
Proof. rewrite !nfkd_eq. intros [= <-]. now rewrite D_idem. Qed.
Lemma nfkd_after_nfd s a : nfd s = Some a -> nfkd a = nfkd s.
Proof. rewrite !nfd_eq, !nfkd_eq. intros [= <-]. now rewrite D_compat_canon. Qed.
Lemma nfd_after_nfkd s a : nfkd s = Some a -> nfd a = Some a.
Proof. rewrite !nfd_eq, !nfkd_eq. intros [= <-]. now rewrite D_canon_compat. Qed.

Lemma form_preserves k s out : form k s = Some out -> exists l, decomposes_all k s l /\
  Permutation l out /\
  (forall i c, combining_class c = 0 -> (nth_error l i = Some c <-> nth_error out i = Some c)) /\
  (forall i c, combining_class c = 0 -> nth_error l i = Some c -> Permutation (firstn i l) (firstn i out)) /\
  (forall n, filter (fun c => combining_class c =? n) l = filter (fun c => combining_class c =? n) out) /\
  (forall p a b q, out = p ++ a :: b :: q -> 0 < combining_class b -> combining_class a <= combining_class b).
Proof.
  intros H. apply form_iff in H as (l & Hl & [He Ho]). exists l. split; [assumption|].
  split; [eapply exchanges_perm; exact He|]. split; [|split; [|split]].
  - intros i c Hc. pose proof (exchanges_mask _ _ _ He) as Hm. split; intros Hn.
    + exact (mask_nth combining_class l out i c Hm Hn Hc).
    + exact (mask_nth combining_class out l i c (eq_sym Hm) Hn Hc).
  - intros i c Hc Hn. exact (exchanges_prefix combining_class l out i c He Hn Hc).
  - intros n. exact (exchanges_class combining_class n l out He).
  - intros p a b q E Hb. specialize (Ho p a b q E). unfold reorderable in Ho. lia.
Qed.

(** ** Composition *)
Lemma compose_primary a b r : b <> 0x11A7 -> (compose a b = Some r <-> primary_composite a b r).
Proof.
  intros Hb. split.
  - intros H. apply compose_cases in H as [H|[(l & v & _ & _ & _ & E & _)|H]]; [now left|contradiction|].
    right. destruct (good_triple_in _ _ _ H) as (F1 & F2 & F3 & F4 & F5 & F6).
    split; [now apply canonical_mapping_iff|].
    assert (forallb (fun t => (ccc (fst (fst t)) =? 0) && (ccc (snd t) =? 0)
      && negb (existsb (N.eqb (snd t)) composition_exclusions)) triples = true) as Hc by (vm_cast_no_check (eq_refl true)).
    rewrite forallb_forall in Hc. specialize (Hc _ H). cbn [fst snd] in Hc.
    apply andb_true_iff in Hc as [Hc Hx]. apply andb_true_iff in Hc as [Ha Hr].
    rewrite <- !ccc_spec. split; [lia|]. split; [lia|].
    intros Hin. apply negb_true_iff in Hx. assert (existsb (N.eqb r) composition_exclusions = true) as Hy.
    { apply existsb_exists. exists r. split; [assumption|apply N.eqb_refl]. }
    congruence.
  - intros [H|(Hm & Hr & Ha & Hx)].
    + unfold compose. rewrite (proj2 (compose_syllable_iff a b r)); [reflexivity|now left].
    + apply canonical_mapping_iff in Hm. rewrite <- ccc_spec in Hr, Ha.
      assert (check_entries (entries CANONICAL_DECOMPOSITION_MAPPING) (fun c l =>
        match l with
        | [x; y] => existsb (N.eqb c) composition_exclusions || negb (ccc c =? 0) || negb (ccc x =? 0)
                    || match compose x y with Some z => z =? c | None => false end
        | _ => true
        end) = true) as Hc by (vm_cast_no_check (eq_refl true)).
      pose proof (check_entries_sound _ _ r [a; b] wf_CANONICAL_DECOMPOSITION_MAPPING Hc Hm) as Hk. cbv beta in Hk.
      rewrite Hr, Ha in Hk. cbn [N.eqb negb orb] in Hk. rewrite !orb_false_r in Hk.
      apply orb_true_iff in Hk as [Hk|Hk].
      * exfalso. apply Hx. apply existsb_exists in Hk as (x & Hin & E). apply N.eqb_eq in E. now subst.
      * destruct (compose a b) as [z|]; [|discriminate]. apply N.eqb_eq in Hk. now subst.
Qed.

Lemma compose_primary_fails : exists a b r, compose a b = Some r /\ ~ primary_composite a b r.
Proof.
  exists 0xAC00, 0x11A7, 0xAC00. split; [vm_compute; reflexivity|].
  intros [H|(H & _)].
  - now apply composes_not_filler in H.
  - apply canonical_mapping_iff in H. rewrite canon_hangul in H; [discriminate|reflexivity].
Qed.

(** Extensionality of the composition specification. *)
Lemma last_starter_ext f g : (forall c, f c = g c) -> forall p, last_starter f p = last_starter g p.
Proof.
  intros E p. induction p as [|x p IH]; [reflexivity|]. cbn [last_starter]. now rewrite IH, E.
Qed.
Lemma blocked_ext f g m c : (forall c, f c = g c) -> blocked f m c = blocked g m c.
Proof.
  intros E. unfold blocked. induction m as [|x m IH]; [reflexivity|]. cbn [existsb]. now rewrite IH, !E.
Qed.
Lemma composition_ext f g P Q l : (forall c, f c = g c) -> (forall a b, In b l -> P a b = Q a b) ->
  canonical_composition_of f P l = canonical_composition_of g Q l.
Proof.
  intros E EP. unfold canonical_composition_of. generalize (@nil N) as p.
  induction l as [|c l IH]; intros p; [reflexivity|]. cbn [fold_left].
  rewrite IH by (intros a b Hb; apply EP; now right). f_equal.
  unfold compose_step. rewrite (last_starter_ext f g E). destruct (last_starter g p) as [[[a s] m]|]; [|reflexivity].
  rewrite (blocked_ext f g m c E). now rewrite (EP s c (or_introl eq_refl)).
Qed.

Lemma nfc_spec s a : nfd s = Some a -> nfc s = Some (canonical_composition_of combining_class compose a).
Proof.
  rewrite nfd_eq, nfc_eq. intros [= <-]. rewrite C_spec. f_equal.
  apply composition_ext; [exact ccc_spec|reflexivity].
Qed.
Lemma nfkc_spec s a : nfkd s = Some a -> nfkc s = Some (canonical_composition_of combining_class compose a).
Proof.
  rewrite nfkd_eq, nfkc_eq. intros [= <-]. rewrite C_spec. f_equal.
  apply composition_ext; [exact ccc_spec|reflexivity].
Qed.

Lemma cform_standard k s a pair : (forall x y r, pair x y = Some r <-> primary_composite x y r) -> ~ In 0x11A7 s ->
  form k s = Some a -> cform k s = Some (canonical_composition_of combining_class pair a).
Proof.
  intros Hp Hn. rewrite form_eq, cform_eq. intros [= <-]. rewrite C_spec. f_equal.
  apply composition_ext; [exact ccc_spec|]. intros x y Hy.
  assert (y <> 0x11A7) as Hne by (intros ->; apply Hn; now apply (D_filler k)).
  destruct (compose x y) as [r|] eqn:E1; destruct (pair x y) as [r'|] eqn:E2; try reflexivity.
  - apply compose_primary in E1; [|assumption]. apply Hp in E1. congruence.
  - apply compose_primary in E1; [|assumption]. apply Hp in E1. congruence.
  - apply Hp in E2. apply compose_primary in E2; [|assumption]. congruence.
Qed.

Lemma nfc_idempotent s a : nfc s = Some a -> nfc a = Some a.
Proof. rewrite !nfc_eq. intros [= <-]. now rewrite C_idem. Qed.
Lemma nfkc_idempotent s a : nfkc s = Some a -> nfkc a = Some a.
Proof. rewrite !nfkc_eq. intros [= <-]. now rewrite C_idem. Qed.

Lemma nfc_preserves s a : ~ In 0x11A7 s -> nfc s = Some a -> nfd a = nfd s.
Proof. rewrite nfc_eq, !nfd_eq. intros Hn [= <-]. now rewrite D_C. Qed.
Lemma nfkc_preserves s a : ~ In 0x11A7 s -> nfkc s = Some a -> nfkd a = nfkd s.
Proof. rewrite nfkc_eq, !nfkd_eq. intros Hn [= <-]. now rewrite D_C. Qed.

Lemma nfc_preserves_fails : exists s a, wf_str s /\ nfc s = Some a /\ nfd a <> nfd s.
Proof.
  exists [0xAC00; 0x11A7], [0xAC00]. split; [repeat constructor; unfold scalar; lia|].
  split; [vm_compute; reflexivity|]. vm_compute. discriminate.
Qed.
Lemma nfkc_preserves_fails : exists s a, wf_str s /\ nfkc s = Some a /\ nfkd a <> nfkd s.
Proof.
  exists [0xAC00; 0x11A7], [0xAC00]. split; [repeat constructor; unfold scalar; lia|].
  split; [vm_compute; reflexivity|]. vm_compute. discriminate.
Qed.

Lemma nfd_nfc_forward s t : nfd s = nfd t -> nfc s = nfc t.
Proof. rewrite !nfd_eq, !nfc_eq. intros [= H]. f_equal. now apply C_from_D. Qed.
Lemma nfkd_nfkc_forward s t : nfkd s = nfkd t -> nfkc s = nfkc t.
Proof. rewrite !nfkd_eq, !nfkc_eq. intros [= H]. f_equal. now apply C_from_D. Qed.
Lemma nfd_nfc_iff s t : ~ In 0x11A7 s -> ~ In 0x11A7 t -> (nfd s = nfd t <-> nfc s = nfc t).
Proof.
  intros Hs Ht. split; [apply nfd_nfc_forward|]. rewrite !nfd_eq, !nfc_eq. intros [= H].
  rewrite <- (D_C false s Hs), <- (D_C false t Ht). now rewrite H.
Qed.
Lemma nfkd_nfkc_iff s t : ~ In 0x11A7 s -> ~ In 0x11A7 t -> (nfkd s = nfkd t <-> nfkc s = nfkc t).
Proof.
  intros Hs Ht. split; [apply nfkd_nfkc_forward|]. rewrite !nfkd_eq, !nfkc_eq. intros [= H].
  rewrite <- (D_C true s Hs), <- (D_C true t Ht). now rewrite H.
Qed.
Lemma nfd_nfc_iff_fails : exists s t, wf_str s /\ wf_str t /\ nfc s = nfc t /\ nfd s <> nfd t.
Proof.
  exists [0xAC00; 0x11A7], [0xAC00]. split; [repeat constructor; unfold scalar; lia|].
  split; [repeat constructor; unfold scalar; lia|].
  split; [vm_compute; reflexivity|]. vm_compute. discriminate.
Qed.

Lemma ascii_unchanged s : Forall (fun c => c < 128) s ->
  nfd s = Some s /\ nfkd s = Some s /\ nfc s = Some s /\ nfkc s = Some s.
Proof.
  intros H. rewrite nfd_eq, nfkd_eq, nfc_eq, nfkc_eq. now rewrite !D_ascii, !C_ascii.
Qed.

(** ** Further laws *)
Lemma nfkd_after_nfc s a : ~ In 0x11A7 s -> nfc s = Some a -> nfkd a = nfkd s /\ nfkc a = nfkc s.
Proof.
  intros Hn. rewrite nfc_eq, !nfkd_eq, !nfkc_eq. intros [= <-].
  pose proof (C_true_false_filler s Hn) as E. split; [now rewrite E|]. f_equal. now apply C_from_D.
Qed.
Lemma nfkd_after_nfc_fails : exists s a, wf_str s /\ nfc s = Some a /\ nfkd a <> nfkd s.
Proof.
  exists [0xAC00; 0x11A7], [0xAC00]. split; [repeat constructor; unfold scalar; lia|].
  split; [vm_compute; reflexivity|]. vm_compute. discriminate.
Qed.
Lemma nfc_after_nfd s a : nfd s = Some a -> nfc a = nfc s.
Proof. rewrite nfd_eq, !nfc_eq. intros [= <-]. now rewrite C_D. Qed.
Lemma nfkc_after_nfkd s a : nfkd s = Some a -> nfkc a = nfkc s.
Proof. rewrite nfkd_eq, !nfkc_eq. intros [= <-]. now rewrite C_D. Qed.

Lemma nfd_concat s t a b : nfd s = Some a -> nfd t = Some b -> nfd (a ++ b) = nfd (s ++ t).
Proof. rewrite !nfd_eq. intros [= <-] [= <-]. now rewrite <- D_app. Qed.
Lemma nfkd_concat s t a b : nfkd s = Some a -> nfkd t = Some b -> nfkd (a ++ b) = nfkd (s ++ t).
Proof. rewrite !nfkd_eq. intros [= <-] [= <-]. now rewrite <- D_app. Qed.
Lemma nfc_concat s t a b : ~ In 0x11A7 s -> ~ In 0x11A7 t -> nfc s = Some a -> nfc t = Some b ->
  nfc (a ++ b) = nfc (s ++ t).
Proof. intros Hs Ht. rewrite !nfc_eq. intros [= <-] [= <-]. now rewrite <- C_app. Qed.
Lemma nfkc_concat s t a b : ~ In 0x11A7 s -> ~ In 0x11A7 t -> nfkc s = Some a -> nfkc t = Some b ->
  nfkc (a ++ b) = nfkc (s ++ t).
Proof. intros Hs Ht. rewrite !nfkc_eq. intros [= <-] [= <-]. now rewrite <- C_app. Qed.

Lemma form_boundary k s c t a b : combining_class c = 0 -> (forall l, ~ maps_to k c l) ->
  form k s = Some a -> form k (c :: t) = Some b -> form k (s ++ c :: t) = Some (a ++ b).
Proof.
  intros Hc Hm. rewrite !form_eq. intros [= <-] [= <-]. f_equal. apply D_app_starter.
  assert (decomposes k c [c]) as H by now constructor. apply decomposes_iff in H. rewrite <- H.
  now rewrite ccc_spec.
Qed.

Lemma form_fixed_iff k s : form k s = Some s <->
  (forall c l, In c s -> ~ maps_to k c l) /\ in_canonical_order combining_class s.
Proof.
  rewrite form_eq. transitivity (D k s = s).
  { split; [now intros [= H]|intros H; now rewrite H]. }
  rewrite D_fixed_iff.
  assert (ordered ccc s <-> in_canonical_order combining_class s) as Ho.
  { rewrite ordered_spec. unfold in_canonical_order, reorderable. split; intros H p a b q E [H1 H2].
    - apply (H p a b q E). now rewrite !ccc_spec.
    - apply (H p a b q E). now rewrite !ccc_spec in *. }
  rewrite Ho. split; intros [H1 H2]; (split; [|assumption]).
  - intros c l Hin Hmap. unfold fixed in H1. rewrite Forall_forall in H1. specialize (H1 c Hin).
    pose proof (proj2 (decomposes_iff k c (decompose k c)) eq_refl) as Hd. rewrite H1 in Hd.
    (* a mapped character never decomposes to itself *)
    assert (good_entry k c = true \/ is_syllable c = true) as [Hg|Hs].
    { destruct (decompose_cases k c) as [(S1 & S2 & S3)|[H|H]]; auto. exfalso.
      destruct Hmap as [Hx|[Hx|[Hk Hx]]].
      - apply canonical_mapping_iff in Hx. congruence.
      - apply hangul_mapping_iff in Hx as [Hx _]. congruence.
      - apply compatibility_mapping_iff in Hx. rewrite (S3 Hk) in Hx. discriminate. }
    + destruct (good_entry_facts k c Hg) as (F1 & F2 & F3 & F4 & F5 & F6 & F7 & F8). contradiction.
    + apply block_cover in Hs as (x & y & z & Hb & ->). rewrite decompose_block_eq in H1 by assumption.
      unfold jamo_of in H1. destruct z; discriminate.
  - apply Forall_forall. intros c Hin. symmetry. apply decomposes_iff. constructor. intros l. now apply H1.
Qed.

Lemma forms_scalar s : wf_str s -> forall a,
  (nfd s = Some a \/ nfkd s = Some a \/ nfc s = Some a \/ nfkc s = Some a) -> wf_str a.
Proof.
  intros H a. rewrite nfd_eq, nfkd_eq, nfc_eq, nfkc_eq.
  intros [[= <-]|[[= <-]|[[= <-]|[= <-]]]]; [now apply D_scalar|now apply D_scalar|now apply C_scalar|now apply C_scalar].
Qed.

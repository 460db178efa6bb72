(** Properties C11-C18 and C55-C58: Unicode normalization. *)
From Coq Require Import List NArith Permutation.
From Verif Require Import Base TableSpec UcdModel HangulSpec NormSpec NormModel NormLemmas NormFillerSpec NormFiller.
Import ListNotations.
Open Scope N_scope.

(** ** C11 *)
Theorem C11_nfd : forall s out, nfd s = Some out <->
  exists l, decomposes_all false s l /\ canonically_ordered combining_class l out.
Proof. exact nfd_iff. Qed.
Print Assumptions C11_nfd.
Theorem C11_nfkd : forall s out, nfkd s = Some out <->
  exists l, decomposes_all true s l /\ canonically_ordered combining_class l out.
Proof. exact nfkd_iff. Qed.
Print Assumptions C11_nfkd.
(** Every iterator ends normally, so the characterisations above always apply. *)
Theorem C11_forms_total : forall s, (exists a, nfd s = Some a) /\ (exists a, nfkd s = Some a) /\
  (exists a, nfc s = Some a) /\ (exists a, nfkc s = Some a).
Proof. exact forms_total. Qed.
Print Assumptions C11_forms_total.
(** The recursion of [d] ends for every character, with 1 to 18 characters. *)
Theorem C11_decomposition_total : forall k c,
  exists l, d d_fuel k c = Some l /\ decomposes k c l /\ (1 <= length l <= 18)%nat.
Proof. exact decomposition_total. Qed.
Print Assumptions C11_decomposition_total.
Example C11_ex : nfd [0x1E69; 0x323; 0xD55C] = Some [0x73; 0x323; 0x323; 0x307; 0x1112; 0x1161; 0x11AB] /\
  nfkd [0xFB01; 0x2460] = Some [0x66; 0x69; 0x31].
Proof. split; vm_compute; reflexivity. Qed.

(** ** C12 *)
Theorem C12_nfd_idempotent : forall s a, nfd s = Some a -> nfd a = Some a.
Proof. exact nfd_idempotent. Qed.
Print Assumptions C12_nfd_idempotent.
Theorem C12_nfkd_idempotent : forall s a, nfkd s = Some a -> nfkd a = Some a.
Proof. exact nfkd_idempotent. Qed.
Print Assumptions C12_nfkd_idempotent.
Theorem C12_nfkd_after_nfd : forall s a, nfd s = Some a -> nfkd a = nfkd s.
Proof. exact nfkd_after_nfd. Qed.
Print Assumptions C12_nfkd_after_nfd.
Example C12_ex : nfd [0x212B; 0x316; 0x2163] = Some [0x41; 0x316; 0x30A; 0x2163] /\
  nfkd [0x41; 0x316; 0x30A; 0x2163] = Some [0x41; 0x316; 0x30A; 0x49; 0x56].
Proof. split; vm_compute; reflexivity. Qed.

(** ** C13 *)
Theorem C13_decomposition_preserves_text : forall (k : bool) s out,
  (if k then nfkd s else nfd s) = Some out -> exists l, decomposes_all k s l /\
  Permutation l out /\
  (forall i c, combining_class c = 0 -> (nth_error l i = Some c <-> nth_error out i = Some c)) /\
  (forall i c, combining_class c = 0 -> nth_error l i = Some c -> Permutation (firstn i l) (firstn i out)) /\
  (forall n, filter (fun c => combining_class c =? n) l = filter (fun c => combining_class c =? n) out) /\
  (forall p a b q, out = p ++ a :: b :: q -> 0 < combining_class b -> combining_class a <= combining_class b).
Proof. exact form_preserves. Qed.
Print Assumptions C13_decomposition_preserves_text.
Example C13_ex : nfd [0x61; 0x345; 0x301; 0x300; 0x316; 0x62; 0x301] =
  Some [0x61; 0x316; 0x301; 0x300; 0x345; 0x62; 0x301].
Proof. vm_compute. reflexivity. Qed.

(** ** C14 *)
Theorem C14_nfc : forall s a, nfd s = Some a ->
  nfc s = Some (canonical_composition_of combining_class compose a).
Proof. exact nfc_spec. Qed.
Print Assumptions C14_nfc.
Theorem C14_nfkc : forall s a, nfkd s = Some a ->
  nfkc s = Some (canonical_composition_of combining_class compose a).
Proof. exact nfkc_spec. Qed.
Print Assumptions C14_nfkc.
(** With the standard's primary composites in place of the library's pairwise composition
    the result is the same exactly if the decomposition has no U+11A7 directly after a leading
    consonant and a vowel. *)
Theorem C14_standard_composites_partial : forall (k : bool) s a (pair : N -> N -> option N),
  (forall x y r, pair x y = Some r <-> primary_composite x y r) ->
  (if k then nfkd s else nfd s) = Some a ->
  ((if k then nfkc s else nfc s) = Some (canonical_composition_of combining_class pair a) <-> no_filler a).
Proof. exact cform_standard_iff. Qed.
Print Assumptions C14_standard_composites_partial.
Example C14_ex_filler : nfd [0xAC00; 0x11A8; 0x11A7; 0xAC01; 0x11A7] =
    Some [0x1100; 0x1161; 0x11A8; 0x11A7; 0x1100; 0x1161; 0x11A8; 0x11A7] /\
  nfc [0xAC00; 0x11A8; 0x11A7; 0xAC01; 0x11A7] = Some [0xAC01; 0x11A7; 0xAC01; 0x11A7] /\
  nfc [0xAC00; 0x11A7; 0x11A8] = Some [0xAC01].
Proof. vm_compute. auto. Qed.
Example C14_ex : nfc [0x73; 0x307; 0x323; 0x61; 0x315; 0x300; 0x5AE; 0x300; 0x1112; 0x1161; 0x11AB] =
  Some [0x1E69; 0xE0; 0x5AE; 0x300; 0x315; 0xD55C].
Proof. vm_compute. reflexivity. Qed.

(** ** C15 *)
Theorem C15_nfc_idempotent : forall s a, nfc s = Some a -> nfc a = Some a.
Proof. exact nfc_idempotent. Qed.
Print Assumptions C15_nfc_idempotent.
Theorem C15_nfkc_idempotent : forall s a, nfkc s = Some a -> nfkc a = Some a.
Proof. exact nfkc_idempotent. Qed.
Print Assumptions C15_nfkc_idempotent.
Example C15_ex : nfc [0x958; 0x212B] = Some [0x915; 0x93C; 0xC5] /\ nfc [0x915; 0x93C; 0xC5] = Some [0x915; 0x93C; 0xC5].
Proof. split; vm_compute; reflexivity. Qed.

(** ** C16: fails exactly because of U+11A7, which Hangul composition drops. *)
Theorem C16_nfc_preserves_partial : forall s d a, nfd s = Some d -> nfc s = Some a -> (nfd a = Some d <-> no_filler d).
Proof. exact (cform_preserves_iff false). Qed.
Print Assumptions C16_nfc_preserves_partial.
Theorem C16_nfkc_preserves_partial : forall s d a, nfkd s = Some d -> nfkc s = Some a -> (nfkd a = Some d <-> no_filler d).
Proof. exact (cform_preserves_iff true). Qed.
Print Assumptions C16_nfkc_preserves_partial.
(** All that is ever lost are the U+11A7 directly after a leading consonant and a vowel. *)
Theorem C16_lost_partial : forall (k : bool) s d a,
  (if k then nfkd s else nfd s) = Some d -> (if k then nfkc s else nfc s) = Some a ->
  exists e, (if k then nfkd a else nfd a) = Some e /\ without_fillers d e.
Proof. exact cform_preserves_exact. Qed.
Print Assumptions C16_lost_partial.
(** In particular nothing is lost from a text without U+11A7. *)
Theorem C16_nfc_plain_partial : forall s a, ~ In 0x11A7 s -> nfc s = Some a -> nfd a = nfd s.
Proof. exact nfc_preserves. Qed.
Print Assumptions C16_nfc_plain_partial.
Theorem C16_nfkc_plain_partial : forall s a, ~ In 0x11A7 s -> nfkc s = Some a -> nfkd a = nfkd s.
Proof. exact nfkc_preserves. Qed.
Print Assumptions C16_nfkc_plain_partial.
Theorem C16_nfc_preserves_refuted : exists s a, wf_str s /\ nfc s = Some a /\ nfd a <> nfd s.
Proof. exact nfc_preserves_fails. Qed.
Print Assumptions C16_nfc_preserves_refuted.
Theorem C16_nfkc_preserves_refuted : exists s a, wf_str s /\ nfkc s = Some a /\ nfkd a <> nfkd s.
Proof. exact nfkc_preserves_fails. Qed.
Print Assumptions C16_nfkc_preserves_refuted.
Example C16_ex : nfc [0x1100; 0x1161; 0x11A8; 0x915; 0x93C] = Some [0xAC01; 0x915; 0x93C] /\
  nfd [0xAC01; 0x915; 0x93C] = nfd [0x1100; 0x1161; 0x11A8; 0x958].
Proof. split; vm_compute; reflexivity. Qed.

(** ** C17 *)
Theorem C17_nfd_equal_nfc_equal : forall s t, nfd s = nfd t -> nfc s = nfc t.
Proof. exact nfd_nfc_forward. Qed.
Print Assumptions C17_nfd_equal_nfc_equal.
Theorem C17_nfkd_equal_nfkc_equal : forall s t, nfkd s = nfkd t -> nfkc s = nfkc t.
Proof. exact nfkd_nfkc_forward. Qed.
Print Assumptions C17_nfkd_equal_nfkc_equal.
(** The converse up to the U+11A7 that are absorbed. *)
Theorem C17_composed_equal_partial : forall (k : bool) s t d d',
  (if k then nfkd s else nfd s) = Some d -> (if k then nfkd t else nfd t) = Some d' ->
  ((if k then nfkc s else nfc s) = (if k then nfkc t else nfc t) <->
   exists e, without_fillers d e /\ without_fillers d' e).
Proof. exact cform_equal_iff. Qed.
Print Assumptions C17_composed_equal_partial.
Theorem C17_nfd_nfc_partial : forall s t, ~ In 0x11A7 s -> ~ In 0x11A7 t -> (nfd s = nfd t <-> nfc s = nfc t).
Proof. exact nfd_nfc_iff. Qed.
Print Assumptions C17_nfd_nfc_partial.
Theorem C17_nfkd_nfkc_partial : forall s t, ~ In 0x11A7 s -> ~ In 0x11A7 t -> (nfkd s = nfkd t <-> nfkc s = nfkc t).
Proof. exact nfkd_nfkc_iff. Qed.
Print Assumptions C17_nfkd_nfkc_partial.
Theorem C17_nfd_nfc_refuted : exists s t, wf_str s /\ wf_str t /\ nfc s = nfc t /\ nfd s <> nfd t.
Proof. exact nfd_nfc_iff_fails. Qed.
Print Assumptions C17_nfd_nfc_refuted.
Example C17_ex : nfd [0x1E69] = nfd [0x1E61; 0x323] /\ nfc [0x1E69] = nfc [0x1E61; 0x323] /\
  nfc [0x1E69] <> nfc [0x1E61].
Proof. vm_compute. split; [reflexivity|split; [reflexivity|discriminate]]. Qed.

(** ** C18 *)
Theorem C18_ascii : forall s, Forall (fun c => c < 128) s ->
  nfd s = Some s /\ nfkd s = Some s /\ nfc s = Some s /\ nfkc s = Some s.
Proof. exact ascii_unchanged. Qed.
Print Assumptions C18_ascii.
Example C18_ex : nfkc [0x41; 0x60; 0x7F; 0] = Some [0x41; 0x60; 0x7F; 0] /\ nfkc [0xA0] = Some [0x20].
Proof. split; vm_compute; reflexivity. Qed.

(** ** C55 pairwise composition *)
Theorem C55_compose_primary_partial : forall a b r, compose a b = Some r <->
  primary_composite a b r \/ (exists l v, l < 19 /\ v < 21 /\ a = block l v 0 /\ b = 0x11A7 /\ r = a).
Proof. exact compose_exact. Qed.
Print Assumptions C55_compose_primary_partial.
Theorem C55_compose_primary_refuted : exists a b r, compose a b = Some r /\ ~ primary_composite a b r.
Proof. exact compose_primary_fails. Qed.
Print Assumptions C55_compose_primary_refuted.
Example C55_ex : compose 0x41 0x30A = Some 0xC5 /\ compose 0x915 0x93C = None /\ compose 0x308 0x301 = None /\
  compose 0x1100 0x1161 = Some 0xAC00.
Proof. vm_compute. auto. Qed.

(** ** C56 how the forms absorb each other *)
Theorem C56_nfd_after_nfkd : forall s a, nfkd s = Some a -> nfd a = Some a.
Proof. exact nfd_after_nfkd. Qed.
Print Assumptions C56_nfd_after_nfkd.
Theorem C56_nfc_after_nfd : forall s a, nfd s = Some a -> nfc a = nfc s.
Proof. exact nfc_after_nfd. Qed.
Print Assumptions C56_nfc_after_nfd.
Theorem C56_nfkc_after_nfkd : forall s a, nfkd s = Some a -> nfkc a = nfkc s.
Proof. exact nfkc_after_nfkd. Qed.
Print Assumptions C56_nfkc_after_nfkd.
Theorem C56_nfkc_after_nfc : forall s a, nfc s = Some a -> nfkc a = nfkc s.
Proof. exact nfkc_after_nfc_all. Qed.
Print Assumptions C56_nfkc_after_nfc.
Theorem C56_nfkd_after_nfc_partial : forall s d a, nfd s = Some d -> nfc s = Some a ->
  (nfkd a = nfkd s <-> no_filler d).
Proof. exact nfkd_after_nfc_iff. Qed.
Print Assumptions C56_nfkd_after_nfc_partial.
Theorem C56_compat_after_nfc_refuted : exists s a, wf_str s /\ nfc s = Some a /\ nfkd a <> nfkd s.
Proof. exact nfkd_after_nfc_fails. Qed.
Print Assumptions C56_compat_after_nfc_refuted.
Example C56_ex : nfc [0xFB01; 0x41; 0x30A] = Some [0xFB01; 0xC5] /\
  nfkd [0xFB01; 0xC5] = Some [0x66; 0x69; 0x41; 0x30A].
Proof. split; vm_compute; reflexivity. Qed.

(** ** C57 concatenation *)
Theorem C57_nfd_concat : forall s t a b, nfd s = Some a -> nfd t = Some b -> nfd (a ++ b) = nfd (s ++ t).
Proof. exact nfd_concat. Qed.
Print Assumptions C57_nfd_concat.
Theorem C57_nfkd_concat : forall s t a b, nfkd s = Some a -> nfkd t = Some b -> nfkd (a ++ b) = nfkd (s ++ t).
Proof. exact nfkd_concat. Qed.
Print Assumptions C57_nfkd_concat.
Theorem C57_nfc_concat : forall s t a b, nfc s = Some a -> nfc t = Some b -> nfc (a ++ b) = nfc (s ++ t).
Proof. exact nfc_concat_all. Qed.
Print Assumptions C57_nfc_concat.
Theorem C57_nfkc_concat : forall s t a b, nfkc s = Some a -> nfkc t = Some b -> nfkc (a ++ b) = nfkc (s ++ t).
Proof. exact nfkc_concat_all. Qed.
Print Assumptions C57_nfkc_concat.
(** A starter without decomposition is a boundary: both sides can be
    decomposed separately. *)
Theorem C57_starter_boundary : forall (k : bool) s c t a b,
  combining_class c = 0 -> (forall l, ~ maps_to k c l) ->
  (if k then nfkd s else nfd s) = Some a -> (if k then nfkd (c :: t) else nfd (c :: t)) = Some b ->
  (if k then nfkd (s ++ c :: t) else nfd (s ++ c :: t)) = Some (a ++ b).
Proof. exact form_boundary. Qed.
Print Assumptions C57_starter_boundary.
Example C57_ex : nfc [0x61; 0x323] = Some [0x1EA1] /\ nfc [0x302] = Some [0x302] /\
  nfc ([0x1EA1] ++ [0x302]) = Some [0x1EAD] /\ nfc ([0x61; 0x323] ++ [0x302]) = Some [0x1EAD].
Proof. vm_compute. auto. Qed.

Example C57_ex_filler : nfc [0xAC00; 0x11A7] = Some [0xAC00] /\ nfc [0x11A8] = Some [0x11A8] /\
  nfc ([0xAC00] ++ [0x11A8]) = Some [0xAC01] /\ nfc ([0xAC00; 0x11A7] ++ [0x11A8]) = Some [0xAC01].
Proof. vm_compute. auto. Qed.

(** ** C58 what a decomposed string looks like *)
Theorem C58_fixed_points : forall (k : bool) s, (if k then nfkd s else nfd s) = Some s <->
  (forall c l, In c s -> ~ maps_to k c l) /\ in_canonical_order combining_class s.
Proof. exact form_fixed_iff. Qed.
Print Assumptions C58_fixed_points.
Theorem C58_scalar_values : forall s, wf_str s -> forall a,
  (nfd s = Some a \/ nfkd s = Some a \/ nfc s = Some a \/ nfkc s = Some a) -> wf_str a.
Proof. exact forms_scalar. Qed.
Print Assumptions C58_scalar_values.
Example C58_ex : nfd [0x61; 0x316; 0x301] = Some [0x61; 0x316; 0x301] /\
  nfd [0x61; 0x301; 0x316] = Some [0x61; 0x316; 0x301].
Proof. split; vm_compute; reflexivity. Qed.

(** C110: how much longer or shorter normalization makes a text. *)
From Coq Require Import List NArith.
From Verif Require Import Base NormModel NormFillerSpec TextModel SizeSpec Size.
Import ListNotations.
Open Scope N_scope.

(** The three measures. *)
Theorem C110_measures : forall s, size characters s = N.of_nat (length s) /\ size bytes_utf8 s = str_bytes s /\
  size units_utf16 s = N.of_nat (length (flat_map encode_utf16 s)).
Proof. exact (fun s => conj (size_characters s) (conj (size_bytes s) (size_units s))). Qed.
Print Assumptions C110_measures.

(** The decomposed forms: at most 4 (18) characters for one, 3 (11) times the bytes,
    4 (18) times the code units; never fewer characters, at least a third (a quarter)
    of the bytes and half of the code units. *)
Theorem C110_nfd : forall m s a, nfd s = Some a ->
  size m a <= growth false m * size m s /\ size m s <= shrinkage false m * size m a.
Proof. exact (form_size false). Qed.
Print Assumptions C110_nfd.
Theorem C110_nfkd : forall m s a, nfkd s = Some a ->
  size m a <= growth true m * size m s /\ size m s <= shrinkage true m * size m a.
Proof. exact (form_size true). Qed.
Print Assumptions C110_nfkd.

(** The composed forms are never longer than the decomposed ones, *)
Theorem C110_composed : forall m s,
  (forall d a, nfd s = Some d -> nfc s = Some a -> size m a <= size m d) /\
  (forall d a, nfkd s = Some d -> nfkc s = Some a -> size m a <= size m d).
Proof. exact (fun m s => conj (cform_form false m s) (cform_form true m s)). Qed.
Print Assumptions C110_composed.
(** and NFC is at most three times the text in every measure. *)
Theorem C110_nfc : forall m s a, nfc s = Some a -> size m a <= growth_composed false m * size m s.
Proof. exact nfc_size. Qed.
Print Assumptions C110_nfc.
Theorem C110_nfkc : forall m s a, nfkc s = Some a -> size m a <= growth_composed true m * size m s.
Proof. exact (cform_size true). Qed.
Print Assumptions C110_nfkc.

(** How much shorter the composed forms can be: there is a bound for texts without U+11A7 to
    drop, and none for others. *)
Theorem C110_nfc_shrinks_partial : forall m s d a, nfd s = Some d -> nfc s = Some a -> no_filler d ->
  at_most (size m s) (shrinkage_composed false m) (size m a).
Proof. exact (cform_shrink false). Qed.
Print Assumptions C110_nfc_shrinks_partial.
Theorem C110_nfkc_shrinks_partial : forall m s d a, nfkd s = Some d -> nfkc s = Some a -> no_filler d ->
  at_most (size m s) (shrinkage_composed true m) (size m a).
Proof. exact (cform_shrink true). Qed.
Print Assumptions C110_nfkc_shrinks_partial.
Theorem C110_nfc_shrinks_refuted : forall m q, exists s a, wf_str s /\ nfc s = Some a /\ q * size m a < size m s.
Proof. exact nfc_vanishes. Qed.
Print Assumptions C110_nfc_shrinks_refuted.

(** Every bound is reached. *)
Theorem C110_tight : forall m,
  (exists s a, s <> [] /\ nfd s = Some a /\ size m a = growth false m * size m s) /\
  (exists s a, s <> [] /\ nfkd s = Some a /\ size m a = growth true m * size m s) /\
  (exists s a, s <> [] /\ nfc s = Some a /\ size m a = growth_composed false m * size m s) /\
  (exists s a, s <> [] /\ nfkc s = Some a /\ size m a = growth_composed true m * size m s).
Proof. exact growth_tight. Qed.
Print Assumptions C110_tight.
Theorem C110_tight_shrinking : forall m,
  (exists s a, s <> [] /\ nfd s = Some a /\ size m s = shrinkage false m * size m a) /\
  (exists s a, s <> [] /\ nfkd s = Some a /\ size m s = shrinkage true m * size m a) /\
  (exists s d a, s <> [] /\ nfd s = Some d /\ no_filler d /\ nfc s = Some a /\
     snd (shrinkage_composed false m) * size m s = fst (shrinkage_composed false m) * size m a) /\
  (exists s d a, s <> [] /\ nfkd s = Some d /\ no_filler d /\ nfkc s = Some a /\
     snd (shrinkage_composed true m) * size m s = fst (shrinkage_composed true m) * size m a).
Proof. exact shrinkage_tight. Qed.
Print Assumptions C110_tight_shrinking.

Example C110_ex : nfd [0x1F82] = Some [0x3B1; 0x313; 0x300; 0x345] /\ nfc [0x1F82] = Some [0x1F82] /\
  nfc [0xFB2C] = Some [0x5E9; 0x5BC; 0x5C1] /\ nfc [0x3B1; 0x345; 0x323; 0x313; 0x300] = Some [0x1F82; 0x323].
Proof. vm_compute. auto. Qed.
Example C110_ex_bytes : nfc [0x1FBE; 0x308; 0x301] = Some [0x390] /\ size bytes_utf8 [0x1FBE; 0x308; 0x301] = 7 /\ size bytes_utf8 [0x390] = 2.
Proof. vm_compute. auto. Qed.

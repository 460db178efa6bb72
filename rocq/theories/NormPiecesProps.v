(** Property C99: normalizing a text piece by piece. *)
From Coq Require Import List NArith Bool.
From Verif Require Import Base Enums TableTypes UcdModel BidiModel NormModel GraphModel GraphSpec WordModel NormPiecesSpec NormPieces.
Import ListNotations.
Open Scope N_scope.

(** ** Extended grapheme clusters: NFD, NFKD and NFC of any text are those of its clusters *)
Theorem C99_clusters_nfd : forall s ps, grapheme_indices true s = Ret (Some (indexed 0 ps)) -> nfd s = each nfd ps.
Proof. exact clusters_nfd. Qed.
Print Assumptions C99_clusters_nfd.
Theorem C99_clusters_nfkd : forall s ps, grapheme_indices true s = Ret (Some (indexed 0 ps)) -> nfkd s = each nfkd ps.
Proof. exact clusters_nfkd. Qed.
Print Assumptions C99_clusters_nfkd.
Theorem C99_clusters_nfc : forall s ps, grapheme_indices true s = Ret (Some (indexed 0 ps)) -> nfc s = each nfc ps.
Proof. exact clusters_nfc. Qed.
Print Assumptions C99_clusters_nfc.

(** NFKC joins the Hangul letters of the compatibility blocks across clusters *)
Theorem C99_clusters_nfkc_refuted : exists s ps, grapheme_indices true s = Ret (Some (indexed 0 ps)) /\ nfkc s <> each nfkc ps.
Proof. exact clusters_nfkc_fails. Qed.
Print Assumptions C99_clusters_nfkc_refuted.
(** and nothing else *)
Theorem C99_clusters_nfkc_partial : forall s ps, Forall (fun c => ~ compat_letter c /\ ~ circled_letter c) s ->
  grapheme_indices true s = Ret (Some (indexed 0 ps)) -> nfkc s = each nfkc ps.
Proof. exact clusters_nfkc. Qed.
Print Assumptions C99_clusters_nfkc_partial.

(** ** Legacy clusters are cut before spacing marks, which may combine *)
Theorem C99_legacy_refuted : (exists s ps, grapheme_indices false s = Ret (Some (indexed 0 ps)) /\ nfc s <> each nfc ps) /\
  (exists s ps, grapheme_indices false s = Ret (Some (indexed 0 ps)) /\ nfd s <> each nfd ps).
Proof. exact (conj legacy_fails legacy_fails_nfd). Qed.
Print Assumptions C99_legacy_refuted.
Theorem C99_legacy_partial : forall s ps, Forall (fun c => ~ spacing_mark c) s -> grapheme_indices false s = Ret (Some (indexed 0 ps)) ->
  nfd s = each nfd ps /\ nfkd s = each nfkd ps /\ nfc s = each nfc ps.
Proof. exact legacy_nfd. Qed.
Print Assumptions C99_legacy_partial.
Theorem C99_legacy_nfkc_partial : forall s ps, Forall (fun c => ~ spacing_mark c /\ ~ compat_letter c /\ ~ circled_letter c) s ->
  grapheme_indices false s = Ret (Some (indexed 0 ps)) -> nfkc s = each nfkc ps.
Proof. exact legacy_nfkc. Qed.
Print Assumptions C99_legacy_nfkc_partial.

(** ** Words, on any text, also where the iterator does not follow the rules *)
Theorem C99_words : forall s ps, word_bound_indices s = Ret (Some (indexed 0 ps)) ->
  nfd s = each nfd ps /\ nfkd s = each nfkd ps /\ nfc s = each nfc ps.
Proof. exact words_forms. Qed.
Print Assumptions C99_words.
Theorem C99_words_nfkc_refuted : exists s ps, word_bound_indices s = Ret (Some (indexed 0 ps)) /\ nfkc s <> each nfkc ps.
Proof. exact words_nfkc_fails. Qed.
Print Assumptions C99_words_nfkc_refuted.
(** the circled Hangul letters are the only ones to blame *)
Theorem C99_words_nfkc_partial : forall s ps, Forall (fun c => ~ circled_letter c) s ->
  word_bound_indices s = Ret (Some (indexed 0 ps)) -> nfkc s = each nfkc ps.
Proof. exact words_nfkc. Qed.
Print Assumptions C99_words_nfkc_partial.

(** "a" with two marks out of order, a space, three jamo, and a line feed that a mark follows *)
Example C99_ex :
  grapheme_indices true [0x61; 0x301; 0x316; 0x20; 0x1100; 0x1161; 0x11A8; 0xA; 0x301] =
    Ret (Some (indexed 0 [[0x61; 0x301; 0x316]; [0x20]; [0x1100; 0x1161; 0x11A8]; [0xA]; [0x301]])) /\
  word_bound_indices [0x61; 0x301; 0x316; 0x20; 0x1100; 0x1161; 0x11A8; 0xA; 0x301] =
    Ret (Some (indexed 0 [[0x61; 0x301; 0x316]; [0x20]; [0x1100; 0x1161; 0x11A8]; [0xA]; [0x301]])) /\
  nfc [0x61; 0x301; 0x316; 0x20; 0x1100; 0x1161; 0x11A8; 0xA; 0x301] = Some [0xE1; 0x316; 0x20; 0xAC01; 0xA; 0x301] /\
  each nfc [[0x61; 0x301; 0x316]; [0x20]; [0x1100; 0x1161; 0x11A8]; [0xA]; [0x301]] = Some [0xE1; 0x316; 0x20; 0xAC01; 0xA; 0x301] /\
  each nfc [[0x61]; [0x301]] <> nfc [0x61; 0x301].
Proof. vm_compute. repeat split; try reflexivity. discriminate. Qed.

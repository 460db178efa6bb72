(** Property C100: canonical equivalence and grapheme clusters. *)
From Coq Require Import List NArith Bool.
From Verif Require Import Base Enums TableTypes UcdModel BidiModel NormModel GraphModel GraphSpec NormPiecesSpec ClusterEquivSpec ClusterEquiv.
Import ListNotations.
Open Scope N_scope.

(** ** The clusters of canonically equivalent texts *)
(** U+1F44D, a Kannada vowel sign and a skin tone: two clusters, but the sign decomposes into two Extend characters *)
Theorem C100_modifier_refuted : exists s t ps qs, nfd s = nfd t /\
  grapheme_indices true s = Ret (Some (indexed 0 ps)) /\ grapheme_indices true t = Ret (Some (indexed 0 qs)) /\ length ps <> length qs.
Proof.
  exists [0x1F44D; 0xCC0; 0x1F3FB], [0x1F44D; 0xCBF; 0xCD5; 0x1F3FB], [[0x1F44D; 0xCC0]; [0x1F3FB]], [[0x1F44D; 0xCBF; 0xCD5; 0x1F3FB]].
  vm_compute. repeat split; try reflexivity. discriminate.
Qed.
Print Assumptions C100_modifier_refuted.

(** nothing else goes wrong: the clusters are pairwise canonically equivalent *)
Theorem C100_equivalent_partial : forall s t ps qs, nfd s = nfd t -> ~ modifier_after_spacing_mark s -> ~ modifier_after_spacing_mark t ->
  grapheme_indices true s = Ret (Some (indexed 0 ps)) -> grapheme_indices true t = Ret (Some (indexed 0 qs)) ->
  Forall2 (fun p q => nfd p = nfd q) ps qs.
Proof. exact canonical_clusters. Qed.
Print Assumptions C100_equivalent_partial.

(** ** Normalizing a text normalizes its clusters *)
Theorem C100_nfd_partial : forall s ps, ~ modifier_after_spacing_mark s -> grapheme_indices true s = Ret (Some (indexed 0 ps)) ->
  exists d qs, nfd s = Some d /\ Forall2 (fun p q => nfd p = Some q) ps qs /\ grapheme_indices true d = Ret (Some (indexed 0 qs)).
Proof. exact nfd_clusters. Qed.
Print Assumptions C100_nfd_partial.
Theorem C100_nfc_partial : forall s t ps qs, nfc s = Some t -> ~ modifier_after_spacing_mark s -> ~ modifier_after_spacing_mark t ->
  grapheme_indices true s = Ret (Some (indexed 0 ps)) -> grapheme_indices true t = Ret (Some (indexed 0 qs)) ->
  Forall2 (fun p q => nfc p = Some q) ps qs.
Proof. exact nfc_clusters. Qed.
Print Assumptions C100_nfc_partial.

(** ** Legacy clusters are cut before spacing marks, and U+1B06 decomposes into a letter and one *)
Theorem C100_legacy_refuted : exists s t ps qs, nfd s = nfd t /\
  grapheme_indices false s = Ret (Some (indexed 0 ps)) /\ grapheme_indices false t = Ret (Some (indexed 0 qs)) /\ length ps <> length qs.
Proof. exists [0x1B06], [0x1B05; 0x1B35], [[0x1B06]], [[0x1B05]; [0x1B35]]. vm_compute. repeat split; try reflexivity. discriminate. Qed.
Print Assumptions C100_legacy_refuted.
Theorem C100_legacy_partial : forall s ps d, nfd s = Some d -> Forall (fun c => ~ spacing_mark c) (s ++ d) ->
  grapheme_indices false s = Ret (Some (indexed 0 ps)) ->
  exists qs, Forall2 (fun p q => nfd p = Some q) ps qs /\ grapheme_indices false d = Ret (Some (indexed 0 qs)).
Proof. exact legacy_clusters. Qed.
Print Assumptions C100_legacy_partial.

(** "a" with two marks and its composed spelling, a Hangul syllable and its jamo, a skin tone after an emoji *)
Example C100_ex :
  nfd [0x61; 0x316; 0x301; 0xAC01; 0x1F44D; 0x1F3FB] = nfd [0xE1; 0x316; 0x1100; 0x1161; 0x11A8; 0x1F44D; 0x1F3FB] /\
  grapheme_indices true [0x61; 0x316; 0x301; 0xAC01; 0x1F44D; 0x1F3FB] =
    Ret (Some (indexed 0 [[0x61; 0x316; 0x301]; [0xAC01]; [0x1F44D; 0x1F3FB]])) /\
  grapheme_indices true [0xE1; 0x316; 0x1100; 0x1161; 0x11A8; 0x1F44D; 0x1F3FB] =
    Ret (Some (indexed 0 [[0xE1; 0x316]; [0x1100; 0x1161; 0x11A8]; [0x1F44D; 0x1F3FB]])).
Proof. vm_compute. repeat split; reflexivity. Qed.
(** the hypotheses hold for that text *)
Example C100_ex_hyp : ~ modifier_after_spacing_mark [0xE1; 0x316; 0x1100; 0x1161; 0x11A8; 0x1F44D; 0x1F3FB].
Proof.
  intros (pre & b & m1 & x & m2 & e & post & E & _ & _ & X & _).
  assert (I : In x [0xE1; 0x316; 0x1100; 0x1161; 0x11A8; 0x1F44D; 0x1F3FB]).
  { rewrite E. apply in_or_app. right. right. apply in_or_app. right. now left. }
  cbn in I. repeat (destruct I as [<-|I]; [vm_compute in X; discriminate X|]). destruct I.
Qed.

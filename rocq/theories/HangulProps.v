(** Property C10. *)
From Coq Require Import List NArith.
From Verif Require Import Base HangulModel HangulSpec HangulLemmas.
Import ListNotations.
Open Scope N_scope.

(** The precomposed syllables are exactly the standard's blocks. *)
Theorem C10_syllables_are_blocks : forall c,
  is_syllable c = true <-> exists l v t, valid_block l v t /\ c = block l v t.
Proof. exact syllables_are_blocks. Qed.
Print Assumptions C10_syllables_are_blocks.
Example C10_syllables_are_blocks_ex : is_syllable 0xD55C = true /\ is_syllable 0xD7A4 = false.
Proof. vm_compute. auto. Qed.

(** Decomposition gives the jamo the standard prescribes. *)
Theorem C10_decompose : forall l v t, valid_block l v t ->
  decompose_syllable (block l v t) = Ret (jamo_of l v t).
Proof. exact HangulProofs.decompose_block. Qed.
Print Assumptions C10_decompose.
Example C10_decompose_ex : decompose_syllable 0xD55C = Ret [0x1112; 0x1161; 0x11AB].
Proof. vm_compute. reflexivity. Qed.

(** Every syllable decomposes into two or three jamo which compose back to it. *)
Theorem C10_round_trip : forall c, is_syllable c = true ->
  exists j js, decompose_syllable c = Ret (j :: js) /\ (length js = 1 \/ length js = 2)%nat /\
    Forall scalar (j :: js) /\ compose_all compose_syllable j js = Some c.
Proof. exact syllable_round_trip. Qed.
Print Assumptions C10_round_trip.
Example C10_round_trip_ex : compose_all compose_syllable 0x1112 [0x1161; 0x11AB] = Some 0xD55C.
Proof. vm_compute. reflexivity. Qed.

(** A pair composes exactly when the standard says so ... unless the second
    character is U+11A7. *)
Theorem C10_compose_exact_partial : forall a b r, b <> 0x11A7 ->
  (compose_syllable a b = Some r <-> composes a b r).
Proof. exact compose_exact. Qed.
Print Assumptions C10_compose_exact_partial.
Example C10_compose_exact_ex : composes 0xAC00 0x11A8 0xAC01 /\ compose_syllable 0xAC01 0x11A8 = None.
Proof. split; [exact (composes_lvt 0 0 1 ltac:(repeat split) eq_refl)|reflexivity]. Qed.

(** Finding: U+11A7 is accepted as a trailing consonant. *)
Theorem C10_compose_exact_refuted : exists a b r, compose_syllable a b = Some r /\ ~ composes a b r.
Proof. exact compose_exact_fails. Qed.
Print Assumptions C10_compose_exact_refuted.

(** Decomposing a composed pair gives back the pair's own decomposition,
    again unless the second character is U+11A7. *)
Theorem C10_compose_decompose_partial : forall a b r, b <> 0x11A7 -> compose_syllable a b = Some r ->
  decompose_syllable r = Ret (pair_decomposition a b).
Proof. exact compose_decompose. Qed.
Print Assumptions C10_compose_decompose_partial.
Example C10_compose_decompose_ex :
  compose_syllable 0xAC00 0x11A8 = Some 0xAC01 /\ pair_decomposition 0xAC00 0x11A8 = [0x1100; 0x1161; 0x11A8].
Proof. vm_compute. auto. Qed.

(** Finding: with U+11A7 the second character is silently dropped. *)
Theorem C10_compose_decompose_refuted : exists a b r, scalar a /\ scalar b /\
  compose_syllable a b = Some r /\ decompose_syllable r <> Ret (pair_decomposition a b).
Proof. exact filler_dropped. Qed.
Print Assumptions C10_compose_decompose_refuted.

From Coq Require Import List NArith ZArith Lia Bool ZifyBool ZifyN.
From Verif Require Import Base HangulModel HangulSpec HangulProofs.
Import ListNotations.
Open Scope N_scope.

Lemma syllables_are_blocks c : is_syllable c = true <-> exists l v t, valid_block l v t /\ c = block l v t.
Proof. exact (block_cover c). Qed.

Lemma syllable_round_trip c : is_syllable c = true ->
  exists j js, decompose_syllable c = Ret (j :: js) /\ (length js = 1 \/ length js = 2)%nat /\
    Forall scalar (j :: js) /\ compose_all compose_syllable j js = Some c.
Proof.
  intros H. apply block_cover in H as (l & v & t & Hb & ->).
  exists (leading l), (tl (jamo_of l v t)).
  rewrite decompose_block by assumption. split; [|split; [|split]].
  - unfold jamo_of. destruct t; reflexivity.
  - unfold jamo_of. destruct t; cbn; auto.
  - destruct Hb as (? & ? & ?). unfold jamo_of, leading, vowel, trailing, scalar.
    destruct t; cbn [tl]; repeat apply Forall_cons; try apply Forall_nil; lia.
  - now apply compose_decomposition.
Qed.

Lemma compose_exact a b r : b <> 0x11A7 -> (compose_syllable a b = Some r <-> composes a b r).
Proof.
  intros Hb. rewrite compose_syllable_iff. split; [|auto].
  intros [H|(l & v & _ & _ & _ & H & _)]; [assumption|contradiction].
Qed.

Lemma compose_exact_fails : exists a b r, compose_syllable a b = Some r /\ ~ composes a b r.
Proof.
  exists 0xAC00, 0x11A7, 0xAC00. split; [reflexivity|apply composes_not_filler].
Qed.

(** The pair's own decomposition: a syllable decomposes, a jamo stays. *)
Definition pair_decomposition (a b : N) : list N :=
  match decompose_syllable a with
  | Ret l => if is_syllable a then l ++ [b] else [a; b]
  | Panic => [a; b]
  end.

Lemma compose_decompose a b r : b <> 0x11A7 -> compose_syllable a b = Some r ->
  decompose_syllable r = Ret (pair_decomposition a b).
Proof.
  intros Hb H. apply compose_exact in H; [|assumption].
  destruct H as [l v Hl Hv|l v t Hv Ht].
  - rewrite decompose_block by (unfold valid_block; lia).
    unfold pair_decomposition, jamo_of. unfold decompose_syllable. hconsts. unfold leading.
    assert (0x1100 + l <? 0xAC00 = true) as -> by lia. reflexivity.
  - rewrite decompose_block by assumption. unfold pair_decomposition.
    pose proof Hv as (Hl & Hvv & Ht').
    assert (valid_block l v 0) as Hv0 by (unfold valid_block; lia).
    rewrite decompose_block by assumption.
    assert (is_syllable (block l v 0) = true) as -> by (apply block_cover; eauto).
    unfold jamo_of. destruct t; [lia|reflexivity].
Qed.

Lemma filler_dropped : exists a b r, scalar a /\ scalar b /\ compose_syllable a b = Some r /\
  decompose_syllable r <> Ret (pair_decomposition a b).
Proof.
  exists 0xAC00, 0x11A7, 0xAC00. unfold scalar. repeat split; try lia. discriminate.
Qed.

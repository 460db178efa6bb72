From Coq Require Import List NArith ZArith Lia Bool ZifyBool ZifyN.
From Verif Require Import Base HangulModel HangulSpec.
Import ListNotations.
Open Scope N_scope.

Ltac hconsts := unfold S_COUNT, N_COUNT, S_BASE, L_BASE, V_BASE, T_BASE, L_COUNT, V_COUNT, T_COUNT in *;
  change (21 * 28) with 588 in *; change (19 * 588) with 11172 in *.

Ltac ifcase E := match goal with |- context [if ?x then _ else _] => destruct x eqn:E end.

Lemma some_inj {A} (x y : A) : Some x = Some y -> x = y.
Proof. congruence. Qed.

Lemma block_cover c : is_syllable c = true <-> exists l v t, valid_block l v t /\ c = block l v t.
Proof.
  unfold is_syllable, valid_block, block. hconsts. split.
  - intros H. assert (exists x, c = 0xAC00 + x /\ x < 11172) as (x & -> & Hx) by (exists (c - 0xAC00); lia).
    clear H. exists (x / 588), ((x mod 588) / 28), (x mod 28).
    assert (x mod 28 = (x mod 588) mod 28) as -> by lia.
    pose proof (N.div_mod' x 588). pose proof (N.div_mod' (x mod 588) 28). repeat split; lia.
  - intros (l & v & t & ? & ->). lia.
Qed.

Lemma block_inj l v t l' v' t' : valid_block l v t -> valid_block l' v' t' ->
  block l v t = block l' v' t' -> l = l' /\ v = v' /\ t = t'.
Proof. unfold valid_block, block. lia. Qed.

Lemma decompose_block l v t : valid_block l v t -> decompose_syllable (block l v t) = Ret (jamo_of l v t).
Proof.
  intros (Hl & Hv & Ht). unfold decompose_syllable. hconsts. unfold block.
  replace (0xAC00 + (l * 21 + v) * 28 + t - 0xAC00) with (l * 588 + v * 28 + t) by lia.
  destruct (N.ltb_spec (0xAC00 + (l * 21 + v) * 28 + t) 0xAC00); [lia|].
  assert ((l * 588 + v * 28 + t) / 588 = l) as -> by lia.
  assert (((l * 588 + v * 28 + t) mod 588) / 28 = v) as -> by lia.
  assert ((l * 588 + v * 28 + t) mod 28 = t) as -> by lia.
  unfold jamo_of, leading, vowel, trailing. destruct t; reflexivity.
Qed.

Lemma compose_syllable_iff a b r : compose_syllable a b = Some r <->
  composes a b r \/ (exists l v, l < 19 /\ v < 21 /\ a = block l v 0 /\ b = 0x11A7 /\ r = a).
Proof.
  unfold compose_syllable. hconsts. split.
  - ifcase E1.
    + intros H. apply some_inj in H. subst r. left.
      assert (exists l v, l < 19 /\ v < 21 /\ a = leading l /\ b = vowel v) as (l & v & Hl & Hv & -> & ->).
      { exists (a - 0x1100), (b - 0x1161). unfold leading, vowel. lia. }
      unfold leading, vowel.
      replace (0xAC00 + (0x1100 + l - 0x1100) * 588 + (0x1161 + v - 0x1161) * 28) with (block l v 0)
        by (unfold block; lia).
      now constructor.
    + ifcase E2; [|discriminate]. intros H. apply some_inj in H. subst r.
      assert (exists l v t, valid_block l v t /\ a = block l v 0 /\ b = trailing t) as (l & v & t & Hb & -> & ->).
      { exists ((a - 0xAC00) / 588), (((a - 0xAC00) mod 588) / 28), (b - 0x11A7).
        unfold valid_block, block, trailing. clear E1. lia. }
      destruct (N.eq_dec t 0) as [->|Ht].
      * right. destruct Hb as (? & ? & ?). exists l, v. unfold trailing. repeat split; try assumption; lia.
      * left. replace (block l v 0 + (trailing t - 0x11A7)) with (block l v t)
          by (unfold block, trailing; lia).
        constructor; [assumption|lia].
  - intros [H|(l & v & Hl & Hv & -> & -> & ->)].
    + destruct H as [l v Hl Hv|l v t (Hl & Hv & Ht) Hpos].
      * unfold leading, vowel, block. ifcase E; [|lia]. f_equal. lia.
      * unfold block, trailing. ifcase E1; [lia|].
        ifcase E2; [|lia]. f_equal. lia.
    + unfold block. ifcase E1; [lia|].
      ifcase E2; [|lia]. f_equal. lia.
Qed.

Lemma composes_not_filler a r : ~ composes a 0x11A7 r.
Proof.
  intros H. inversion H as [l v ? ? Ha Hv|l v t ? ? Ha Ht]; unfold vowel, trailing in *; lia.
Qed.

Lemma compose_decomposition l v t : valid_block l v t ->
  compose_all compose_syllable (leading l) (tl (jamo_of l v t)) = Some (block l v t).
Proof.
  intros Hb. pose proof Hb as (Hl & Hv & Ht). unfold jamo_of.
  assert (compose_syllable (leading l) (vowel v) = Some (block l v 0)) as E1
    by (apply compose_syllable_iff; left; now constructor).
  destruct t as [|p]; cbn [tl compose_all]; rewrite E1; [reflexivity|].
  assert (compose_syllable (block l v 0) (trailing (N.pos p)) = Some (block l v (N.pos p))) as ->
    by (apply compose_syllable_iff; left; constructor; [assumption|lia]).
  reflexivity.
Qed.

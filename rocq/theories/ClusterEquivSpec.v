(** Canonical equivalence and clusters. *)
From Coq Require Import List NArith Bool.
From Verif Require Import Base Enums UcdModel.
Import ListNotations.
Open Scope N_scope.

Definition emoji_base (c : N) : Prop := grapheme_cluster_break c = GCB_EBase \/ grapheme_cluster_break c = GCB_EBaseGAZ.
Definition emoji_modifier (c : N) : Prop := grapheme_cluster_break c = GCB_EModifier.
Definition combining_mark (c : N) : Prop := grapheme_cluster_break c = GCB_Extend \/ grapheme_cluster_break c = GCB_SpacingMark.

(** an emoji, a spacing mark among other marks, and an emoji modifier *)
Definition modifier_after_spacing_mark (s : str) : Prop := exists pre b m1 x m2 e post,
  s = pre ++ b :: m1 ++ x :: m2 ++ e :: post /\ emoji_base b /\ Forall combining_mark m1 /\
  grapheme_cluster_break x = GCB_SpacingMark /\ Forall combining_mark m2 /\ emoji_modifier e.

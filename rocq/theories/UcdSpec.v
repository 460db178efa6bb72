(** Specification vocabulary for cross-property statements. *)
From Coq Require Import List NArith.
From Verif Require Import Enums.
Import ListNotations.
Open Scope N_scope.

(** [f] is a sub-property of [g]. *)
Definition subprop (f g : N -> bool) : Prop := forall c, f c = true -> g c = true.
Definition disjoint (f g : N -> bool) : Prop := forall c, ~ (f c = true /\ g c = true).

(** Directional classes (UAX #9, table 4 and rules P2, X2-X8): the right-to-left ones, and
    the four groups *)
Definition ltr_classes : list BidiClass :=
  [BC_LeftToRight; BC_LeftToRightEmbedding; BC_LeftToRightOverride; BC_LeftToRightIsolate].
Definition rtl_classes : list BidiClass :=
  [BC_RightToLeft; BC_ArabicLetter; BC_RightToLeftEmbedding; BC_RightToLeftOverride; BC_RightToLeftIsolate].
Definition strong_classes : list BidiClass := [BC_LeftToRight; BC_RightToLeft; BC_ArabicLetter].
Definition weak_classes : list BidiClass :=
  [BC_EuropeanNumber; BC_EuropeanSeparator; BC_EuropeanTerminator; BC_ArabicNumber; BC_CommonSeparator;
   BC_NonspacingMark; BC_BoundaryNeutral].
Definition neutral_classes : list BidiClass :=
  [BC_ParagraphSeparator; BC_SegmentSeparator; BC_WhiteSpace; BC_OtherNeutral].
Definition explicit_classes : list BidiClass :=
  [BC_LeftToRightEmbedding; BC_LeftToRightOverride; BC_RightToLeftEmbedding; BC_RightToLeftOverride;
   BC_PopDirectionalFormat; BC_LeftToRightIsolate; BC_RightToLeftIsolate; BC_FirstStrongIsolate;
   BC_PopDirectionalIsolate].

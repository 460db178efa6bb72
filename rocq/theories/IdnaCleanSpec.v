(** What a user expects of the characters of an accepted domain name. *)
From Coq Require Import List NArith Bool.
From Verif Require Import Base Enums UcdModel.
Import ListNotations.
Open Scope N_scope.

(** the characters of host names (RFC 952, RFC 1123), in lower case *)
Definition host_char (c : N) : Prop := 0x61 <= c <= 0x7A \/ 0x30 <= c <= 0x39 \/ c = 0x2D.

(** assigned and public; visible, but for the two joiners; not a directional control;
    case folded, but for sharp s and final sigma; no controls and spaces outside ASCII;
    with the STD3 rules no controls and spaces at all, and of ASCII only host name
    characters and the full stop *)
Definition clean_char (std3 : bool) (c : N) : Prop :=
  ~ In (general_category c) [GC_Unassigned; GC_PrivateUse; GC_Surrogate; GC_LineSeparator; GC_ParagraphSeparator; GC_TitlecaseLetter] /\
  (general_category c = GC_Format -> c = 0x200C \/ c = 0x200D) /\
  is_bidi_control c = false /\
  (changes_when_casefolded c = true -> c = 0xDF \/ c = 0x3C2) /\
  (In (general_category c) [GC_Control; GC_SpaceSeparator] -> std3 = false /\ c < 128) /\
  (is_white_space c = true -> std3 = false /\ c < 128) /\
  (std3 = true -> c < 128 -> host_char c \/ c = 0x2E).

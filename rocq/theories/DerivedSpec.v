(** The character lists in the definitions of derived properties
    (PropList.txt, UAX #29, UAX #31, UAX #44). *)
From Coq Require Import List NArith Bool.
From Verif Require Import Base Enums.
Import ListNotations.
Open Scope N_scope.

Definition in_ranges (l : list (N * N)) (c : N) : bool := existsb (fun p => (fst p <=? c) && (c <=? snd p)) l.

(** Other_ID_Start, Other_ID_Continue *)
Definition other_id_start : list (N * N) := [(0x1885, 0x1886); (0x2118, 0x2118); (0x212E, 0x212E); (0x309B, 0x309C)].
Definition other_id_continue : list (N * N) := [(0xB7, 0xB7); (0x387, 0x387); (0x1369, 0x1371); (0x19DA, 0x19DA)].
(** the white space among the control characters *)
Definition control_space : list (N * N) := [(0x9, 0xD); (0x85, 0x85)].
Definition pattern_space : list (N * N) := [(0x9, 0xD); (0x20, 0x20); (0x85, 0x85); (0x200E, 0x200F); (0x2028, 0x2029)].
(** ARABIC LETTER MARK, LEFT-TO-RIGHT MARK, RIGHT-TO-LEFT MARK *)
Definition implicit_marks : list (N * N) := [(0x61C, 0x61C); (0x200E, 0x200F)].
(** Bidi_Class of these nonspacing marks is L *)
Definition ltr_marks : list (N * N) := [(0xCBF, 0xCBF); (0xCC6, 0xCC6); (0x11C3F, 0x11C3F)].
Definition indicators : list (N * N) := [(0x1F1E6, 0x1F1FF)].
(** number sign, asterisk, digits, regional indicators, modifiers *)
Definition components : list (N * N) := [(0x23, 0x23); (0x2A, 0x2A); (0x30, 0x39); (0x1F1E6, 0x1F1FF); (0x1F3FB, 0x1F3FF)].
(** Hangul_Syllable_Type *)
Definition type_l : list (N * N) := [(0x1100, 0x115F); (0xA960, 0xA97C)].
Definition type_v : list (N * N) := [(0x1160, 0x11A7); (0xD7B0, 0xD7C6)].
Definition type_t : list (N * N) := [(0x11A8, 0x11FF); (0xD7CB, 0xD7FB)].
Definition syllable (c : N) : bool := (0xAC00 <=? c) && (c <=? 0xD7A3).
Definition lv_syllable (c : N) : bool := syllable c && ((c - 0xAC00) mod 28 =? 0).

Definition gc_in (l : list GeneralCategory) (g : GeneralCategory) : bool := existsb (GC_eqb g) l.
(** L and Nl; Mn and Me; explicit formatting, override and isolate classes (UAX #9, table 4) *)
Definition letters : list GeneralCategory := [GC_UppercaseLetter; GC_LowercaseLetter; GC_TitlecaseLetter; GC_ModifierLetter; GC_OtherLetter; GC_LetterNumber].
Definition nonspacing : list GeneralCategory := [GC_NonspacingMark; GC_EnclosingMark].
Definition explicit_classes : list BidiClass := [BC_LeftToRightEmbedding; BC_RightToLeftEmbedding; BC_LeftToRightOverride; BC_RightToLeftOverride;
  BC_PopDirectionalFormat; BC_LeftToRightIsolate; BC_RightToLeftIsolate; BC_FirstStrongIsolate; BC_PopDirectionalIsolate].

(** Specification vocabulary for names that UTS #46 processing reports errors for. *)
From Coq Require Import List NArith Bool.
From Verif Require Import Base Enums TableTypes UcdModel NormModel PunyModel IdnaModel IdnaSpec.
Import ListNotations.
Open Scope N_scope.

(** ** The standard *)
(** UTS #46 section 4, step 1: disallowed characters stay; with
    UseSTD3ASCIIRules (section 5) the two STD3 statuses are disallowed too. *)
Definition std_char_text (std3 transitional : bool) (c : N) (t : str) : Prop :=
  match mapping_of c with
  | Ret IM_Valid | Ret IM_Disallowed | Ret IM_DisallowedStd3Valid => t = [c]
  | Ret IM_Ignored => t = []
  | Ret (IM_Mapped s) => t = s
  | Ret (IM_DisallowedStd3Mapped s) => t = if std3 then [c] else s
  | Ret (IM_Deviation s) => t = if transitional then s else [c]
  | Panic => False
  end.
(** Step 4: a label that cannot be decoded stays as it is. *)
Definition std_label_text (l u : str) : Prop :=
  label_converts l u \/ (exists p, l = [0x78; 0x6E; 0x2D; 0x2D] ++ p /\ decode p = Ret None /\ u = l).
Definition std_text (std3 transitional : bool) (d u : str) : Prop :=
  exists ts n ls us, Forall2 (std_char_text std3 transitional) d ts /\ nfc (concat ts) = Some n /\
    labels_of n ls /\ Forall2 std_label_text ls us /\ labels_of u us.

(** ** The library *)
(** What each character becomes, whatever is said about it. *)
Definition char_text (transitional : bool) (c : N) (t : str) : Prop :=
  match mapping_of c with
  | Ret IM_Valid | Ret IM_Disallowed | Ret IM_DisallowedStd3Valid => t = [c]
  | Ret IM_Ignored => t = []
  | Ret (IM_Mapped s) | Ret (IM_DisallowedStd3Mapped s) => t = s
  | Ret (IM_Deviation s) => t = if transitional then s else [c]
  | Panic => False
  end.
(** The labels [ls] of the mapped and normalized name. *)
Definition mapped_labels (transitional : bool) (d : str) (ls : list str) : Prop :=
  exists ts n, Forall2 (char_text transitional) d ts /\ nfc (concat ts) = Some n /\ labels_of n ls.
(** A label that cannot be decoded becomes empty. *)
Definition label_text (l u : str) : Prop :=
  label_converts l u \/ (exists p, l = [0x78; 0x6E; 0x2D; 0x2D] ++ p /\ decode p = Ret None /\ u = []).
(** The labels [us] of the result. *)
Definition unicode_labels (transitional : bool) (d : str) (us : list str) : Prop :=
  exists ls, mapped_labels transitional d ls /\ Forall2 label_text ls us.

(** The Bidi rule applies: the given text or a decoded label has a
    right-to-left character, or a label cannot be decoded. *)
Definition bidi_name (d : str) (ls : list str) : Prop :=
  Exists rtl_char d \/
  exists p, In ([0x78; 0x6E; 0x2D; 0x2D] ++ p) ls /\
    (decode p = Ret None \/ exists u, decode p = Ret (Some u) /\ Exists rtl_char u).
(** Section 4.1 for the text [u] of the label [l] *)
Definition label_fine (std3 transitional : bool) (d : str) (ls : list str) (l u : str) : Prop :=
  valid_label std3 u /\
  ((forall p, l <> [0x78; 0x6E; 0x2D; 0x2D] ++ p) -> transitional = true ->
   forall c s, In c u -> mapping_of c <> Ret (IM_Deviation s)) /\
  (bidi_name d ls -> u = [] \/ bidi_rule u).
(** The errors of the processing. *)
Inductive name_error (std3 transitional : bool) (d : str) : Error -> Prop :=
| err_disallowed c : In c d -> mapping_of c = Ret IM_Disallowed -> name_error std3 transitional d DisallowedCharacter
| err_std3 c : std3 = true -> In c d -> mapping_of c = Ret IM_DisallowedStd3Valid ->
    name_error std3 transitional d DisallowedByStd3AsciiRules
| err_std3_mapped c s : std3 = true -> In c d -> mapping_of c = Ret (IM_DisallowedStd3Mapped s) ->
    name_error std3 transitional d DisallowedMappedInStd3
| err_punycode ls p : mapped_labels transitional d ls -> In ([0x78; 0x6E; 0x2D; 0x2D] ++ p) ls -> decode p = Ret None ->
    name_error std3 transitional d PunycodeError
| err_validity ls l u : mapped_labels transitional d ls -> In l ls -> label_converts l u ->
    ~ label_fine std3 transitional d ls l u -> name_error std3 transitional d ValidityCriteria.

(** The ASCII form of a label; empty if it cannot be encoded. *)
Definition ascii_text (checked : bool) (u x : str) : Prop :=
  (Forall (fun c => c < 128) u /\ x = u) \/
  (~ Forall (fun c => c < 128) u /\
   ((exists p, encode checked u = Ret (Some p) /\ x = [0x78; 0x6E; 0x2D; 0x2D] ++ p) \/
    (encode checked u = Ret None /\ x = []))).
(** The name without the full stop of the root *)
Definition rootless (a a' : str) : Prop := a = a' ++ [0x2E] \/ (a = a' /\ forall b, a <> b ++ [0x2E]).
Inductive dns_error (a : str) : Error -> Prop :=
| err_short a' ls : rootless a a' -> labels_of a' ls -> In [] ls -> dns_error a TooShortForDns
| err_long_name a' : rootless a a' -> 253 < N.of_nat (length a') -> dns_error a TooLongForDns
| err_long_label a' ls l : rootless a a' -> labels_of a' ls -> In l ls -> 63 < N.of_nat (length l) -> dns_error a TooLongForDns.

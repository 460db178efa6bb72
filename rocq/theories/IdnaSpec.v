(** Specification vocabulary for UTS #46 processing. *)
From Coq Require Import List NArith Bool.
From Verif Require Import Base Enums TableTypes UcdModel NormModel PunyModel PunySpec.
Import ListNotations.
Open Scope N_scope.

(** The labels of a domain name, separated by full stops. *)
Inductive labels_of : str -> list str -> Prop :=
| labels_one l : ~ In 0x2E l -> labels_of l [l]
| labels_more l s ls : ~ In 0x2E l -> labels_of s ls -> labels_of (l ++ 0x2E :: s) (l :: ls).

(** ASCII case folding *)
Definition fold_case (c : N) : N := if (0x41 <=? c) && (c <=? 0x5A) then c + 32 else c.

(** A character belongs to right-to-left text (RFC 5893 section 1.4) *)
Definition rtl_char (c : N) : Prop :=
  In (bidi_class c) [BC_RightToLeft; BC_ArabicLetter; BC_ArabicNumber].

(** RFC 5893 section 2, rules 1 to 6 *)
Definition classes_in (cs : list BidiClass) (l : str) : Prop := Forall (fun c => In (bidi_class c) cs) l.
Definition ends_in (cs : list BidiClass) (l : str) : Prop :=
  exists a c marks, l = a ++ c :: marks /\ In (bidi_class c) cs /\ classes_in [BC_NonspacingMark] marks.
Definition bidi_rule (l : str) : Prop :=
  exists c0 r, l = c0 :: r /\
  ((In (bidi_class c0) [BC_RightToLeft; BC_ArabicLetter] /\
    classes_in [BC_RightToLeft; BC_ArabicLetter; BC_ArabicNumber; BC_EuropeanNumber; BC_EuropeanSeparator;
                BC_CommonSeparator; BC_EuropeanTerminator; BC_OtherNeutral; BC_BoundaryNeutral; BC_NonspacingMark] l /\
    ends_in [BC_RightToLeft; BC_ArabicLetter; BC_EuropeanNumber; BC_ArabicNumber] l /\
    ~ (Exists (fun c => bidi_class c = BC_EuropeanNumber) l /\ Exists (fun c => bidi_class c = BC_ArabicNumber) l)) \/
   (bidi_class c0 = BC_LeftToRight /\
    classes_in [BC_LeftToRight; BC_EuropeanNumber; BC_EuropeanSeparator; BC_CommonSeparator; BC_EuropeanTerminator;
                BC_OtherNeutral; BC_BoundaryNeutral; BC_NonspacingMark] l /\
    ends_in [BC_LeftToRight; BC_EuropeanNumber] l)).

(** UTS #46 section 4.1 for a label, as far as the library implements it:
    normalized, no hyphen at either end, no leading mark, only permitted
    characters. *)
Definition permitted (std3 : bool) (c : N) : Prop :=
  mapping_of c = Ret IM_Valid \/ (exists s, mapping_of c = Ret (IM_Deviation s)) \/
  (std3 = false /\ mapping_of c = Ret IM_DisallowedStd3Valid).
Definition valid_label (std3 : bool) (l : str) : Prop :=
  nfc l = Some l /\ hd_error l <> Some 0x2D /\ (forall a, l <> a ++ [0x2D]) /\
  (forall c r, l = c :: r -> gc_is_mark (general_category c) = false) /\
  Forall (permitted std3) l /\ ~ In 0x2E l.

(** The ASCII form of a label: itself if ASCII, otherwise "xn--" and its Punycode. *)
Definition a_label (u a : str) : Prop :=
  (Forall (fun c => c < 128) u /\ a = u) \/
  (~ Forall (fun c => c < 128) u /\ exists p tr, punycode digit_char u p tr /\ a = [0x78; 0x6E; 0x2D; 0x2D] ++ p).

(** Lengths the DNS allows, a final full stop (the root) not counted. *)
Definition dns_ok (a : str) : Prop :=
  exists a' ls, (a = a' \/ a = a' ++ [0x2E]) /\ labels_of a' ls /\ 1 <= N.of_nat (length a') <= 253 /\
    Forall (fun l => 1 <= N.of_nat (length l) <= 63) ls.

(** The text has none of U+2135 to U+2138 (the letterlike Hebrew letters,
    which are left-to-right but mapped to right-to-left letters). *)
Definition no_alef (d : str) : Prop := forall c, In c d -> ~ (0x2135 <= c <= 0x2138).

(** ** UTS #46 section 4: processing that records no error *)
(** Step 1 *)
Definition char_maps (std3 transitional : bool) (c : N) (t : str) : Prop :=
  match mapping_of c with
  | Ret IM_Valid => t = [c]
  | Ret IM_Ignored => t = []
  | Ret (IM_Mapped s) => t = s
  | Ret (IM_Deviation s) => t = if transitional then s else [c]
  | Ret IM_DisallowedStd3Valid => std3 = false /\ t = [c]
  | Ret (IM_DisallowedStd3Mapped s) => std3 = false /\ t = s
  | Ret IM_Disallowed | Panic => False
  end.
(** Step 4, first bullet: labels with the prefix "xn--" are decoded. *)
Definition label_converts (l u : str) : Prop :=
  (exists p, l = [0x78; 0x6E; 0x2D; 0x2D] ++ p /\ decode p = Ret (Some u)) \/
  ((forall p, l <> [0x78; 0x6E; 0x2D; 0x2D] ++ p) /\ u = l).
(** The labels [us] of the result.  A domain name is taken to be a Bidi domain
    name when the given text or a decoded label has a right-to-left character. *)
Definition uts46 (std3 transitional : bool) (d : str) (us : list str) : Prop :=
  exists ts n ls,
    Forall2 (char_maps std3 transitional) d ts /\ nfc (concat ts) = Some n /\ labels_of n ls /\
    Forall2 (fun l u => label_converts l u /\ valid_label std3 u /\
      ((forall p, l <> [0x78; 0x6E; 0x2D; 0x2D] ++ p) -> transitional = true ->
       forall c s, In c u -> mapping_of c <> Ret (IM_Deviation s))) ls us /\
    (Exists rtl_char d \/
     (exists l p u, In l ls /\ l = [0x78; 0x6E; 0x2D; 0x2D] ++ p /\ decode p = Ret (Some u) /\ Exists rtl_char u) ->
     Forall (fun u => u = [] \/ bidi_rule u) us).

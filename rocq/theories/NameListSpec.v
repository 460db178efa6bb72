(** Specification vocabulary for character names: the Unicode Standard 10.0,
    section 4.8 (which code points have a name, the shape of names). *)
From Coq Require Import List NArith String.
From Verif Require Import Base Enums NameSpec.
Import ListNotations.
Open Scope N_scope.

Definition letter (c : N) : Prop := 0x41 <= c <= 0x5A.
Definition digit (c : N) : Prop := 0x30 <= c <= 0x39.
Definition space : N := 0x20.
Definition hyphen : N := 0x2D.

(** Rules R1-R4 of section 4.8: capital letters, digits, hyphens and spaces
    only; a letter first; a letter or digit last; a digit never directly after
    a space; no two spaces and no two hyphens in a row; no hyphen between two
    spaces. *)
Record proper_name (s : list N) : Prop := {
  only : forall c, In c s -> letter c \/ digit c \/ c = space \/ c = hyphen;
  first : exists c r, s = c :: r /\ letter c;
  last : exists r c, s = r ++ [c] /\ (letter c \/ digit c);
  no_space_digit : forall u d v, digit d -> s <> u ++ [space; d] ++ v;
  no_two_spaces : forall u v, s <> u ++ [space; space] ++ v;
  no_two_hyphens : forall u v, s <> u ++ [hyphen; hyphen] ++ v;
  no_lone_hyphen : forall u v, s <> u ++ [space; hyphen; space] ++ v
}.

(** Graphic and format characters: everything but unassigned, control,
    surrogate and private-use code points. *)
Definition graphic_or_format (g : GeneralCategory) : Prop :=
  g <> GC_Unassigned /\ g <> GC_Control /\ g <> GC_Surrogate /\ g <> GC_PrivateUse.

(** [w] is the first word of [s]. *)
Definition first_word (s w : list N) : Prop :=
  ~ In space w /\ (s = w \/ exists r, s = w ++ space :: r).

Definition starts_with (p s : list N) : Prop := exists r, s = p ++ r.

(** The pairs of a listed name [s] (of [c]) and a derived name [t] whose order
    in /repo is not that of the printed names: "CJK STROKE T" and the like
    against "CJK COMPATIBILITY IDEOGRAPH-F900" and the like, and the two
    iteration marks U+16FE0, U+16FE1 against the ideographs of their script. *)
Definition exceptional (c : N) (s t : list N) : Prop :=
  starts_with (text "CJK ") s /\ starts_with (text "CJK COMPATIBILITY IDEOGRAPH-") t \/
  c = 0x16FE0 /\ starts_with (text "TANGUT IDEOGRAPH-") t \/
  c = 0x16FE1 /\ starts_with (text "NUSHU CHARACTER-") t.

(** Neither string begins the other. *)
Definition disjoint_words (s t : list N) : Prop := ~ starts_with s t /\ ~ starts_with t s.

(** [P] holds of the short names of the first of leading consonant and vowel
    in which two syllables differ (if they differ there). *)
Definition first_difference (P : list N -> list N -> Prop) (l v t l' v' t' : nat) : Prop :=
  if Nat.eqb l l' then
    if Nat.eqb v v' then True
    else P (text (nth v vowel_names ""%string)) (text (nth v' vowel_names ""%string))
  else P (text (nth l leading_names ""%string)) (text (nth l' leading_names ""%string)).


From Coq Require Import List NArith.
From Verif Require Import Base.
Import ListNotations.
Open Scope N_scope.

(** Two characters are equal up to ASCII case: equal, or an ASCII letter and its
    other-case form. *)
Definition same_letter (a b : N) : Prop :=
  a = b
  \/ (0x41 <= a <= 0x5A /\ b = a + 0x20)
  \/ (0x41 <= b <= 0x5A /\ a = b + 0x20).

Definition same_ci (s t : str) : Prop := Forall2 same_letter s t.

(** The parser accepts exactly the short and long names, up to ASCII case. *)
Definition parses_exactly {V} (parse : str -> option V) (abbr long : V -> str) : Prop :=
  (forall s v, parse s = Some v <-> same_ci s (abbr v) \/ same_ci s (long v)).

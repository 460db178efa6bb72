(** Identifiers after UAX #31 (R1, default identifiers): one start character
    and then any number of continue characters. *)
From Coq Require Import List NArith Bool.
Import ListNotations.
Open Scope N_scope.

Section Ident.
  Variable start continue : N -> bool.

  Inductive identifier : list N -> Prop :=
  | identifier_intro c l : start c = true -> Forall (fun x => continue x = true) l -> identifier (c :: l).
End Ident.

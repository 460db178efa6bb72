(** Sizes of texts: characters, bytes in UTF-8, code units in UTF-16. *)
From Coq Require Import List NArith.
From Verif Require Import Base.
Import ListNotations.
Open Scope N_scope.

Inductive measure := characters | bytes_utf8 | units_utf16.
Definition width (m : measure) (c : N) : N :=
  match m with
  | characters => 1
  | bytes_utf8 => if c <? 0x80 then 1 else if c <? 0x800 then 2 else if c <? 0x10000 then 3 else 4
  | units_utf16 => if c <? 0x10000 then 1 else 2
  end.
Fixpoint size (m : measure) (s : str) : N := match s with [] => 0 | c :: s => width m c + size m s end.

(** UAX #15, section 3 and the FAQ on normalization: how much longer the decomposed forms
    can be, [true] for the compatibility form. *)
Definition growth (compat : bool) (m : measure) : N :=
  match compat, m with
  | false, characters => 4 | false, bytes_utf8 => 3 | false, units_utf16 => 4
  | true, characters => 18 | true, bytes_utf8 => 11 | true, units_utf16 => 18
  end.
(** How much shorter. *)
Definition shrinkage (compat : bool) (m : measure) : N :=
  match compat, m with
  | _, characters => 1
  | false, bytes_utf8 => 3 | true, bytes_utf8 => 4
  | false, units_utf16 => 2 | true, units_utf16 => 2
  end.
(** How much longer and shorter the composed forms can be (U+11A7 after LV syllables aside). *)
Definition growth_composed (compat : bool) (m : measure) : N := if compat then growth true m else 3.
Definition shrinkage_composed (compat : bool) (m : measure) : N * N :=
  match compat, m with
  | _, characters => (4, 1)
  | false, bytes_utf8 => (7, 2) | true, bytes_utf8 => (4, 1)
  | false, units_utf16 => (4, 1) | true, units_utf16 => (5, 1)
  end.
(** [a] is at most the given fraction of [b]. *)
Definition at_most (a : N) (q : N * N) (b : N) : Prop := snd q * a <= fst q * b.

(** Model of unic/ucd/hangul/src/hangul.rs. *)
From Coq Require Import List NArith Bool.
From Verif Require Import Base.
Import ListNotations.
Open Scope N_scope.

(** hangul.rs:19-27 *)
Definition S_BASE : N := 0xAC00.
Definition L_BASE : N := 0x1100.
Definition V_BASE : N := 0x1161.
Definition T_BASE : N := 0x11A7.
Definition L_COUNT : N := 19.
Definition V_COUNT : N := 21.
Definition T_COUNT : N := 28.
Definition N_COUNT : N := V_COUNT * T_COUNT.
Definition S_COUNT : N := L_COUNT * N_COUNT.

(** hangul.rs:30-33 *)
Definition is_syllable (ch : N) : bool := (S_BASE <=? ch) && (ch <? S_BASE + S_COUNT).

(** hangul.rs:39-57; the callback is replaced by the list of characters it
    receives.  The subtraction underflows (a panic in a checked build) below
    [S_BASE].  [char::from_u32_unchecked] is the identity. *)
Definition decompose_syllable (syllable : N) : outcome (list N) :=
  if syllable <? S_BASE then Panic else
  let si := syllable - S_BASE in
  let li := si / N_COUNT in
  let vi := (si mod N_COUNT) / T_COUNT in
  let ti := si mod T_COUNT in
  Ret ((L_BASE + li) :: (V_BASE + vi) :: (if 0 <? ti then [T_BASE + ti] else [])).

(** hangul.rs:62-83 *)
Definition compose_syllable (jamo1 jamo2 : N) : option N :=
  let l := jamo1 in
  let v := jamo2 in
  if (L_BASE <=? l) && (l <? L_BASE + L_COUNT) && (V_BASE <=? v) && (v <? V_BASE + V_COUNT)
  then Some (S_BASE + (l - L_BASE) * N_COUNT + (v - V_BASE) * T_COUNT)
  else if (S_BASE <=? l) && (l <=? S_BASE + S_COUNT - T_COUNT)
          && (T_BASE <=? v) && (v <? T_BASE + T_COUNT)
          && ((l - S_BASE) mod T_COUNT =? 0)
  then Some (l + (v - T_BASE))
  else None.

(** What makes reordering a line fail. *)
From Coq Require Import List NArith.
Import ListNotations.
From Verif Require Import Base BidiModel.
Open Scope nat_scope.

(** some character of the line, which begins at offset [from], has bytes of different levels *)
Definition torn (levels : list N) (from : nat) (line : str) : Prop := exists p c q k,
  line = p ++ c :: q /\ k < clen c /\ nth (from + slen p + k) levels 0%N <> nth (from + slen p) levels 0%N.
(** some byte of it has an odd level *)
Definition some_odd (levels : list N) (from : nat) (line : str) : Prop := exists i,
  from <= i < from + slen line /\ N.odd (nth i levels 0%N) = true.
(** some byte of it has a level below the highest *)
Definition some_low (levels : list N) (from : nat) (line : str) : Prop := exists i,
  from <= i < from + slen line /\ (nth i levels 0 <= 125)%N.

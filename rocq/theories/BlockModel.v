(** Model of the block iterator of [unic-ucd-block] and of the version constant. *)
From Coq Require Import List NArith.
From Verif Require Import Base RangeModel TableModel TableTypes TablesMisc UcdModel.
Import ListNotations.
Open Scope N_scope.

(** unic/ucd/block/src/block.rs:21-28 [struct Block]: the range and the name. *)
Definition Block : Type := CharRange * str.

(** unic/ucd/block/src/block.rs:50-69: the state is that of the table iterator, the index. *)
Definition block_iter_new : nat := 0.
(** unic/ucd/block/src/block.rs:71-80 *)
Definition block_next (i : nat) : option Block * nat :=
  match table_iter_next BLOCKS i with
  | (None, j) => (None, j)
  | (Some (range, name), j) => (Some (range, name), j)
  end.

(** A client (not code of /repo): calling [next] until it answers [None]. *)
Inductive block_collects : nat -> list Block -> nat -> Prop :=
| bc_nil i j : block_next i = (None, j) -> block_collects i [] j
| bc_cons i j b l k : block_next i = (Some b, j) -> block_collects j l k -> block_collects i (b :: l) k.

(** unic/ucd/version/tables/unicode_version.rsv, included by
    unic/ucd/version/src/unicode_version.rs:15. *)
Definition UNICODE_VERSION : UnicodeVersion := mkVersion 10 0 0.

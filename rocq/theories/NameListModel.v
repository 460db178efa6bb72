(** Model of [Name::of] with the shipped table of listed names. *)
From Coq Require Import List NArith.
From Verif Require Import Base TableModel TablesNames UcdModel NameModel.
Import ListNotations.
Open Scope N_scope.

(** unic/ucd/name/src/name.rs:70 and 228-229: [data::NAMES.find(ch)] *)
Definition listed_names (ch : N) : option (list str) := lookup NAMES ch.

(** unic/ucd/name/src/name.rs:55-72 [Name::of] *)
Definition Name_of (ch : N) : option Name := name_of listed_names ch.

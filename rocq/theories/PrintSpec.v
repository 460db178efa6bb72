(** What is said of the generated files, read as Rust. *)
From Coq Require Import String List NArith Bool.
From Verif Require Import Base TableModel GenSpec GenDataSpec GenIdnaSpec.
From Verif Require Import RustSpec PrintModel.
Import ListNotations.
Open Scope list_scope.
Open Scope N_scope.

(** The table that is made is printed in a file that is exactly one expression,
    a table that has a value just where [P] holds, or the values [m]. *)
Definition prints_set (o : outcome (CharDataTable unit)) (P : N -> Prop) : Prop :=
  exists t, o = Ret t /\ says (file_of (table_text unit_text t)) (fun c x => P c /\ x = Tuple []).
Definition prints_map {V} (o : outcome (CharDataTable V)) (display : V -> str) (m : N -> expr -> Prop) : Prop :=
  exists t, o = Ret t /\ says (file_of (table_text display t)) m.

(** No word of a name is a hyphen or starts with a digit (Unicode, section 4.8). *)
Definition pronounceable (f : list item) : Prop :=
  forall c ws w, scalar c -> name_of f c = Some (joined 0x20 ws) ->
    Forall (fun w => w <> [] /\ Forall name_char w) ws -> In w ws ->
    w <> [0x2D] /\ forall d r, w = d :: r -> ~ is_digit d.

(** A mapping of UTS #46: the status, applied to the text of the mapping if there is one. *)
Definition mapping_expr (v : string * option str) : expr :=
  match snd v with Some m => Call [chars_of (fst v)] [Text m] | None => Name [chars_of (fst v)] end.

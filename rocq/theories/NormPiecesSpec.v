(** Normalizing a text piece by piece. *)
From Coq Require Import List NArith Bool.
From Verif Require Import Base Enums UcdModel.
Import ListNotations.
Open Scope N_scope.

(** the forms of the pieces, put together *)
Fixpoint each (f : str -> option (list N)) (pieces : list str) : option (list N) :=
  match pieces with
  | [] => Some []
  | p :: ps => match f p, each f ps with Some a, Some b => Some (a ++ b) | _, _ => None end
  end.

(** the Hangul letters of the compatibility and half-width blocks, and the
    circled ones *)
Definition compat_letter (c : N) : Prop := 0x3131 <= c <= 0x318E \/ 0xFFA0 <= c <= 0xFFDC.
Definition circled_letter (c : N) : Prop := 0x3260 <= c <= 0x327E.
Definition spacing_mark (c : N) : Prop := grapheme_cluster_break c = GCB_SpacingMark.

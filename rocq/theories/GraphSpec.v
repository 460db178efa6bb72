(** UAX #29 (Unicode 10), section 3.1: grapheme cluster boundary rules, and
    what it means to cut a text at its boundaries.  Independent of the model of
    the cursor. *)
From Coq Require Import List NArith Lia Bool Arith.
Import ListNotations.
From Verif Require Import Base Enums UcdModel.
Open Scope nat_scope.

(** ** The rules

    A position in a text splits its characters in those before and those
    after.  [before] lists the classes before the position with the nearest
    first, [after] those after it.  A rule applies or not, and if it applies
    it says whether the position is a boundary; the first rule that applies
    decides. *)

Definition any_of (l : list GraphemeClusterBreak) (g : GraphemeClusterBreak) : bool :=
  existsb (GCB_eqb g) l.

(** the class next to the position is in [l] *)
Definition next_to (side l : list GraphemeClusterBreak) : bool :=
  match side with [] => false | g :: _ => any_of l g end.

(** (E_Base | EBG) Extend* before the position *)
Fixpoint emoji_base_extend (before : list GraphemeClusterBreak) : bool :=
  match before with
  | [] => false
  | g :: r => any_of [GCB_EBase; GCB_EBaseGAZ] g || (any_of [GCB_Extend] g && emoji_base_extend r)
  end.

(** the number of regional indicators directly before the position *)
Fixpoint ri_run (before : list GraphemeClusterBreak) : nat :=
  match before with
  | [] => 0
  | g :: r => if any_of [GCB_RegionalIndicator] g then S (ri_run r) else 0
  end.

Definition gb_rules (extended : bool) (before after : list GraphemeClusterBreak) : list (bool * bool) :=
  [ (* GB1  sot ÷ Any *)                        (match before with [] => true | _ => false end, true);
    (* GB2  Any ÷ eot *)                        (match after with [] => true | _ => false end, true);
    (* GB3  CR × LF *)                          (next_to before [GCB_CR] && next_to after [GCB_LF], false);
    (* GB4  (Control | CR | LF) ÷ *)            (next_to before [GCB_Control; GCB_CR; GCB_LF], true);
    (* GB5  ÷ (Control | CR | LF) *)            (next_to after [GCB_Control; GCB_CR; GCB_LF], true);
    (* GB6  L × (L | V | LV | LVT) *)           (next_to before [GCB_L] && next_to after [GCB_L; GCB_V; GCB_LV; GCB_LVT], false);
    (* GB7  (LV | V) × (V | T) *)               (next_to before [GCB_LV; GCB_V] && next_to after [GCB_V; GCB_T], false);
    (* GB8  (LVT | T) × T *)                    (next_to before [GCB_LVT; GCB_T] && next_to after [GCB_T], false);
    (* GB9  × (Extend | ZWJ) *)                 (next_to after [GCB_Extend; GCB_ZWJ], false);
    (* GB9a × SpacingMark (extended only) *)    (extended && next_to after [GCB_SpacingMark], false);
    (* GB9b Prepend × (extended only) *)        (extended && next_to before [GCB_Prepend], false);
    (* GB10 (E_Base | EBG) Extend* × E_Modifier *) (emoji_base_extend before && next_to after [GCB_EModifier], false);
    (* GB11 ZWJ × (Glue_After_Zwj | EBG) *)     (next_to before [GCB_ZWJ] && next_to after [GCB_GlueAfterZwj; GCB_EBaseGAZ], false);
    (* GB12, GB13 an odd number of RI × RI *)   (Nat.odd (ri_run before) && next_to after [GCB_RegionalIndicator], false);
    (* GB999 Any ÷ Any *)                       (true, true) ].

Definition first_rule (l : list (bool * bool)) : bool :=
  match find fst l with Some (_, v) => v | None => true end.

Definition gb_boundary (extended : bool) (before after : list GraphemeClusterBreak) : bool :=
  first_rule (gb_rules extended before after).

(** Is the position between [pre] and [post] a boundary of the text [pre ++ post]? *)
Definition grapheme_boundary (extended : bool) (pre post : str) : bool :=
  gb_boundary extended (rev (map grapheme_cluster_break pre)) (map grapheme_cluster_break post).

(** ** Cutting a text at its boundaries *)

Section Cutting.
Context (boundary : str -> str -> bool).

(** [pieces] are the non-empty pieces of the text between two boundaries *)
Definition segments (text : str) (pieces : list str) : Prop :=
  concat pieces = text /\ Forall (fun p => p <> []) pieces /\
  forall pre post, text = pre ++ post ->
    (boundary pre post = true <-> exists before after, pieces = before ++ after /\ pre = concat before).

(** [q] is the first boundary of the text after position [pre | post]: the
    text between is [mid] *)
Definition next_bound (pre post mid rest : str) : Prop :=
  post = mid ++ rest /\ mid <> [] /\ boundary (pre ++ mid) rest = true /\
  forall m1 m2, mid = m1 ++ m2 -> m1 <> [] -> m2 <> [] -> boundary (pre ++ m1) (m2 ++ rest) = false.

(** and the last boundary before it *)
Definition prev_bound (pre post start mid : str) : Prop :=
  pre = start ++ mid /\ mid <> [] /\ boundary start (mid ++ post) = true /\
  forall m1 m2, mid = m1 ++ m2 -> m1 <> [] -> m2 <> [] -> boundary (start ++ m1) (m2 ++ post) = false.
End Cutting.

(** the length in bytes *)
Definition bytes (t : str) : nat := fold_right (fun c n => N.to_nat (utf8_len c) + n) 0 t.

(** the pieces with their byte offsets *)
Fixpoint indexed (o : nat) (pieces : list str) : list (nat * str) :=
  match pieces with
  | [] => []
  | p :: ps => (o, p) :: indexed (o + bytes p) ps
  end.

(** ** What an iterator from both ends gives

    [true] asks for the next item from the front, [false] for one from the
    back. *)
Fixpoint deque {A} (items : list A) (asks : list bool) : list (option A) :=
  match asks with
  | [] => []
  | true :: q => match items with
                 | [] => None :: deque [] q
                 | x :: r => Some x :: deque r q
                 end
  | false :: q => match rev items with
                  | [] => None :: deque [] q
                  | x :: r => Some x :: deque (rev r) q
                  end
  end.

(** what is left after the asks *)
Fixpoint deque_rest {A} (items : list A) (asks : list bool) : list A :=
  match asks with
  | [] => items
  | true :: q => deque_rest (tl items) q
  | false :: q => deque_rest (rev (tl (rev items))) q
  end.

(** ** A cursor on a text *)
Inductive cursor_op := OpSet (offset : nat) | OpIsBoundary | OpNext | OpPrev.
Inductive cursor_answer := AUnit | ABool (b : bool) | AOffset (o : option nat).

Section CursorSpec.
Context (boundary : str -> str -> bool).

(** the answer to an operation at a position of the text, and the new position *)
Inductive op_spec : str * str -> cursor_op -> str * str -> cursor_answer -> Prop :=
| op_is pre post : op_spec (pre, post) OpIsBoundary (pre, post) (ABool (boundary pre post))
| op_set pre post p q : pre ++ post = p ++ q -> op_spec (pre, post) (OpSet (bytes p)) (p, q) AUnit
| op_next pre post mid rest : next_bound boundary pre post mid rest ->
    op_spec (pre, post) OpNext (pre ++ mid, rest) (AOffset (Some (bytes (pre ++ mid))))
| op_next_end pre : op_spec (pre, []) OpNext (pre, []) (AOffset None)
| op_prev pre post start mid : prev_bound boundary pre post start mid ->
    op_spec (pre, post) OpPrev (start, mid ++ post) (AOffset (Some (bytes start)))
| op_prev_start post : op_spec ([], post) OpPrev ([], post) (AOffset None).

Inductive ops_spec : str * str -> list cursor_op -> list cursor_answer -> Prop :=
| ops_nil p : ops_spec p [] []
| ops_cons p o q a os l : op_spec p o q a -> ops_spec q os l -> ops_spec p (o :: os) (a :: l).
End CursorSpec.

(** ** Chunks of a text *)

(** the decision before [x], with [m] before it in the chunk, depends on the
    text before the chunk: the regional indicators (GB12, GB13) or the Extend
    characters (GB10) reach back to the start of the chunk *)
Definition looks_before_chunk (m : str) (x : N) : Prop :=
  (grapheme_cluster_break x = GCB_RegionalIndicator /\ Forall (fun c => grapheme_cluster_break c = GCB_RegionalIndicator) m) \/
  (grapheme_cluster_break x = GCB_EModifier /\ Forall (fun c => grapheme_cluster_break c = GCB_Extend) m).

(** a chunk in which no decision does: it does not begin with a regional
    indicator, or with Extend* E_Modifier *)
Definition self_contained (chunk : str) : Prop :=
  chunk <> [] /\ forall m x r, chunk = m ++ x :: r -> ~ looks_before_chunk m x.

(** where the pieces end and start *)
Fixpoint piece_ends (o : nat) (pieces : list str) : list nat :=
  match pieces with [] => [] | p :: ps => (o + bytes p) :: piece_ends (o + bytes p) ps end.
Definition piece_starts (pieces : list str) : list nat := map fst (indexed 0 pieces).

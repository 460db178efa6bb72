(** Specification vocabulary for character ranges, independent of the model. *)
From Coq Require Import List NArith Sorted.
From Verif Require Import Base RangeModel.
Import ListNotations.
Open Scope N_scope.

(** [l] lists, in increasing order and without repetition, exactly the scalar
    values satisfying [P]. *)
Definition enumerates (P : N -> Prop) (l : list N) : Prop :=
  StronglySorted N.lt l /\ forall c, In c l <-> scalar c /\ P c.

(** What a consumer of a double-ended iterator over the list [l] observes for a
    schedule of calls ([true]: from the front, [false]: from the back), and what
    is left afterwards. *)
Fixpoint deque_run (l : list N) (sched : list bool) : list (option N) * list N :=
  match sched with
  | [] => ([], l)
  | true :: s =>
      match l with
      | [] => let '(o, r) := deque_run [] s in (None :: o, r)
      | c :: l' => let '(o, r) := deque_run l' s in (Some c :: o, r)
      end
  | false :: s =>
      match rev l with
      | [] => let '(o, r) := deque_run [] s in (None :: o, r)
      | c :: l' => let '(o, r) := deque_run (rev l') s in (Some c :: o, r)
      end
  end.

(** Specification of bounds: is [c] inside? *)
Definition inside (start stop : Bound) (c : N) : Prop :=
  match start with Included a => a <= c | Excluded a => a < c | Unbounded => True end /\
  match stop with Included b => c <= b | Excluded b => c < b | Unbounded => True end.

Definition bound_ok (b : Bound) : Prop :=
  match b with Included c | Excluded c => scalar c | Unbounded => True end.

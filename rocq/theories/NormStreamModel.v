(** Model of the normalization iterators as Rust iterators: [size_hint], [Display], and
    clients that call [next] a number of times. *)
From Coq Require Import List NArith.
From Verif Require Import Base NormModel.
Import ListNotations.
Open Scope N_scope.

(** unic/normal/src/decompose.rs:134-137; [hint] is the lower bound the underlying iterator
    gives for what it has left. *)
Definition d_size_hint (hint : str -> nat) (st : Decompositions) : nat * option nat := (hint (d_iter st), None).

(** Rust core [Chars::size_hint] (library code, not in /repo), the lower bound: a quarter
    of the bytes left, rounded up. *)
Definition chars_hint (t : str) : nat := Nat.div (N.to_nat (str_bytes t) + 3) 4.

(** unic/normal/src/decompose.rs:140-147 [Display]: the characters of a clone; the iterator
    itself is not advanced.  At most [fuel] characters, [None] = out of fuel. *)
Definition d_display (fuel : nat) (st : Decompositions) : option str := d_collect fuel st.
(** unic/normal/src/recompose.rs:138-145 [Display] *)
Definition r_display (fuel : nat) (st : Recompositions) : option str := r_collect fuel st.

(** Clients (not code of /repo): [n] calls of [next], the answers and the iterator after them. *)
Fixpoint d_calls (n : nat) (st : Decompositions) : list (option N) * Decompositions :=
  match n with
  | O => ([], st)
  | S n' => let '(a, st1) := d_next st in let '(l, st2) := d_calls n' st1 in (a :: l, st2)
  end.
Fixpoint r_calls (fuel n : nat) (st : Recompositions) : option (list (option N) * Recompositions) :=
  match n with
  | O => Some ([], st)
  | S n' =>
      match r_next fuel st with
      | None => None
      | Some (a, st1) => option_map (fun p => (a :: fst p, snd p)) (r_calls fuel n' st1)
      end
  end.

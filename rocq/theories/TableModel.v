(** Model of the character data tables of [unic-char-property]. *)
From Coq Require Import List NArith Bool PeanoNat.
From Verif Require Import Base RangeModel.
Import ListNotations.
Open Scope N_scope.

(** Rust core [slice::binary_search_by] (library code, not in /repo), as
    implemented in the 2018-2021 standard library: bisection keeping [base] and
    [size].  [inl i] is [Ok(i)], [inr i] is [Err(i)].  A comparator that panics
    makes the search panic. *)
Section BinarySearch.
  Context {A : Type} (f : A -> outcome comparison) (s : list A).

  Fixpoint bs_loop (fuel base size : nat) : outcome nat :=
    match fuel with
    | O => Panic
    | S fuel' =>
        if (size <=? 1)%nat then Ret base
        else
          let half := Nat.div2 size in
          let mid := (base + half)%nat in
          match nth_error s mid with
          | None => Panic
          | Some x =>
              match f x with
              | Panic => Panic
              | Ret Gt => bs_loop fuel' base (size - half)
              | Ret _ => bs_loop fuel' mid (size - half)
              end
          end
    end.

  Definition binary_search_by : outcome (nat + nat) :=
    match s with
    | [] => Ret (inr 0%nat)
    | _ =>
        match bs_loop (S (length s)) 0 (length s) with
        | Panic => Panic
        | Ret base =>
            match nth_error s base with
            | None => Panic
            | Some x =>
                match f x with
                | Panic => Panic
                | Ret Eq => Ret (inl base)
                | Ret Lt => Ret (inr (S base))
                | Ret Gt => Ret (inr base)
                end
            end
        end
    end.
End BinarySearch.

(** unic/char/property/src/tables.rs:19-24 [enum CharDataTable]. *)
Inductive CharDataTable (V : Type) : Type :=
| Direct (table : list (N * V))
| Range (table : list (CharRange * V)).
Arguments Direct {V} table.
Arguments Range {V} table.

Section Table.
  Context {V : Type}.

  (** [binary_search_by_key(&needle, |&(k, _)| k)]: compares the key with the
      needle. *)
  Definition search_direct (table : list (N * V)) (needle : N) : outcome (nat + nat) :=
    binary_search_by (fun kv => Ret (N.compare (fst kv) needle)) table.

  (** [binary_search_by(|&(range, _)| range.cmp_char(needle))]. *)
  Definition search_range (table : list (CharRange * V)) (needle : N) : outcome (nat + nat) :=
    binary_search_by (fun rv => cmp_char (fst rv) needle) table.

  Definition is_ok (r : outcome (nat + nat)) : outcome bool :=
    match r with
    | Panic => Panic
    | Ret (inl _) => Ret true
    | Ret (inr _) => Ret false
    end.

  (** [.map(|idx| table[idx]).ok()]. *)
  Definition index_ok {B} (table : list B) (r : outcome (nat + nat)) : outcome (option B) :=
    match r with
    | Panic => Panic
    | Ret (inr _) => Ret None
    | Ret (inl i) => match nth_error table i with Some x => Ret (Some x) | None => Panic end
    end.

  (** unic/char/property/src/tables.rs:34-43 *)
  Definition tcontains (t : CharDataTable V) (needle : N) : outcome bool :=
    match t with
    | Direct table => is_ok (search_direct table needle)
    | Range table => is_ok (search_range table needle)
    end.

  (** unic/char/property/src/tables.rs:48-59 *)
  Definition find (t : CharDataTable V) (needle : N) : outcome (option V) :=
    match t with
    | Direct table =>
        obind (index_ok table (search_direct table needle)) (fun o => Ret (option_map snd o))
    | Range table =>
        obind (index_ok table (search_range table needle)) (fun o => Ret (option_map snd o))
    end.

  (** unic/char/property/src/tables.rs:62-70 *)
  Definition find_with_range (t : CharDataTable V) (needle : N) : outcome (option (CharRange * V)) :=
    match t with
    | Direct _ => Ret None
    | Range table => index_ok table (search_range table needle)
    end.

  (** unic/char/property/src/tables.rs:75-77; [dflt] is [V::default()]. *)
  Definition find_or_default (dflt : V) (t : CharDataTable V) (needle : N) : outcome V :=
    obind (find t needle) (fun o => Ret (match o with Some v => v | None => dflt end)).

  (** unic/char/property/src/tables.rs:82-110 [CharDataTableIter::next]: the
      iterator state is the index. *)
  Definition table_iter_next (t : CharDataTable V) (idx : nat) : option (CharRange * V) * nat :=
    match t with
    | Direct arr =>
        match nth_error arr idx with
        | None => (None, idx)
        | Some (ch, v) => (Some (mkRange ch ch, v), S idx)
        end
    | Range arr =>
        match nth_error arr idx with
        | None => (None, idx)
        | Some e => (Some e, S idx)
        end
    end.

  (** A client (not code of /repo): collecting the table iterator. *)
  Inductive table_collects (t : CharDataTable V) : nat -> list (CharRange * V) -> Prop :=
  | tc_nil i i' : table_iter_next t i = (None, i') -> table_collects t i []
  | tc_cons i i' e l : table_iter_next t i = (Some e, i') -> table_collects t i' l ->
      table_collects t i (e :: l).
End Table.

(** Model of the table generator (crate [gen]).  The generator prints Rust
    source text; this model keeps the list of printed entries (for the text see
    PrintModel). *)
From Coq Require Import List NArith Bool.
From Verif Require Import Base RangeModel TableModel.
Import ListNotations.
Open Scope N_scope.

(** A [BTreeMap<char, T>] is iterated in increasing key order: an association
    list with strictly increasing keys (see [sorted_map] in TableGenSpec). *)
Section Gen.
  Context {T : Type} (teqb : T -> T -> bool).

  (** gen/src/writer/utils/tables/range.rs:47-60, the [for] loop and the final
      [append_entry]; the failing [assert_eq!] is [Panic]. *)
  Fixpoint range_loop (rest : list (N * T)) (low high : N) (value : T)
    : outcome (list (CharRange * T)) :=
    match rest with
    | [] => Ret [(mkRange low high, value)]
    | (char, property) :: rest' =>
        if negb (teqb property value) || (high + 1 <? char) then
          obind (range_loop rest' char char property)
                (fun out => Ret ((mkRange low high, value) :: out))
        else if char =? high + 1 then range_loop rest' low char value
        else Panic
    end.

  (** gen/src/writer/utils/tables/range.rs:25-66 [to_range_char_table]. *)
  Definition to_range_char_table (m : list (N * T)) : outcome (CharDataTable T) :=
    match m with
    | [] => Ret (Range [])
    | (low, value) :: entries =>
        obind (range_loop entries low low value) (fun out => Ret (Range out))
    end.

  (** gen/src/writer/utils/tables/direct.rs:25-45 [to_direct_char_table]. *)
  Definition to_direct_char_table (m : list (N * T)) : CharDataTable T := Direct m.
End Gen.

(** gen/src/writer/utils/tables/set.rs:38-49. *)
Fixpoint set_loop (rest : list N) (low high : N) : outcome (list (CharRange * unit)) :=
  match rest with
  | [] => Ret [(mkRange low high, tt)]
  | char :: rest' =>
      if high + 1 <? char then
        obind (set_loop rest' char char) (fun out => Ret ((mkRange low high, tt) :: out))
      else if char =? high + 1 then set_loop rest' low char
      else Panic
  end.

(** gen/src/writer/utils/tables/set.rs:21-55 [to_range_char_set]. *)
Definition to_range_char_set (s : list N) : outcome (CharDataTable unit) :=
  match s with
  | [] => Ret (Range [])
  | low :: entries => obind (set_loop entries low low) (fun out => Ret (Range out))
  end.

(** Specification vocabulary for character tables. *)
From Coq Require Import List NArith Sorted Bool.
From Verif Require Import Base RangeModel TableModel.
Import ListNotations.
Open Scope N_scope.

Section Spec.
  Context {V : Type}.

  (** The entries of a table as (first, last, value). *)
  Definition entries (t : CharDataTable V) : list (N * N * V) :=
    match t with
    | Direct l => map (fun kv => (fst kv, fst kv, snd kv)) l
    | Range l => map (fun rv => (r_low (fst rv), r_high (fst rv), snd rv)) l
    end.

  Definition entry_lt (a b : N * N * V) : Prop := snd (fst a) < fst (fst b).
  Definition entry_ok (a : N * N * V) : Prop :=
    fst (fst a) <= snd (fst a) /\ scalar (fst (fst a)) /\ scalar (snd (fst a)).

  (** Every entry is a non-empty interval with scalar end points, and the
      entries are in increasing order without overlap. *)
  Definition wf_table (t : CharDataTable V) : Prop :=
    StronglySorted entry_lt (entries t) /\ Forall entry_ok (entries t).

  (** The entry [e] of the table covers the character. *)
  Definition covers (e : N * N * V) (c : N) : Prop := fst (fst e) <= c /\ c <= snd (fst e).

  (** The obvious linear scan. *)
  Fixpoint scan (l : list (N * N * V)) (c : N) : option V :=
    match l with
    | [] => None
    | (lo, hi, v) :: l' => if (lo <=? c) && (c <=? hi) then Some v else scan l' c
    end.

  (** Boolean well-formedness check, for evaluation on concrete tables. *)
  Fixpoint wf_entriesb (l : list (N * N * V)) : bool :=
    match l with
    | [] => true
    | (lo, hi, _) :: l' =>
        (lo <=? hi) && scalarb lo && scalarb hi &&
        (match l' with [] => true | (lo', _, _) :: _ => hi <? lo' end) &&
        wf_entriesb l'
    end.
End Spec.

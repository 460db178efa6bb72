(** Specification of normalization after UAX #15 and chapter 3 of the Unicode
    Standard, independent of the iterators. *)
From Coq Require Import List NArith Bool Relations Permutation.
From Verif Require Import Base TableModel TableSpec TablesNormal HangulSpec.
Import ListNotations.
Open Scope N_scope.

(** * Character data, read off the table entries *)

(** Canonical combining class: 0 unless an entry covers the character. *)
Definition combining_class (c : N) : N :=
  match scan (entries CANONICAL_COMBINING_CLASS_VALUES) c with Some v => v | None => 0 end.

Definition canonical_mapping (c : N) (l : list N) : Prop :=
  scan (entries CANONICAL_DECOMPOSITION_MAPPING) c = Some l.
Definition compatibility_mapping (c : N) (l : list N) : Prop :=
  exists ty, scan (entries COMPATIBILITY_DECOMPOSITION_MAPPING) c = Some (ty, l).
Definition hangul_mapping (c : N) (l : list N) : Prop :=
  exists x y z, valid_block x y z /\ c = block x y z /\ l = jamo_of x y z.

(** One decomposition step: canonical ones always, compatibility ones only
    when [compat]. *)
Definition maps_to (compat : bool) (c : N) (l : list N) : Prop :=
  canonical_mapping c l \/ hangul_mapping c l \/ (compat = true /\ compatibility_mapping c l).

(** D64/D68: full (compatibility) decomposition by recursive application. *)
Inductive decomposes (compat : bool) : N -> list N -> Prop :=
| decomposes_stop c : (forall l, ~ maps_to compat c l) -> decomposes compat c [c]
| decomposes_step c l out : maps_to compat c l -> decomposes_all compat l out -> decomposes compat c out
with decomposes_all (compat : bool) : list N -> list N -> Prop :=
| decomposes_nil : decomposes_all compat [] []
| decomposes_cons c l out outs : decomposes compat c out -> decomposes_all compat l outs ->
    decomposes_all compat (c :: l) (out ++ outs).

(** CompositionExclusions.txt: the 81 script specific and post composition
    version characters that are never composed. *)
Definition composition_exclusions : list N :=
  [
    0x958; 0x959; 0x95a; 0x95b; 0x95c; 0x95d; 0x95e; 0x95f; 0x9dc; 0x9dd; 0x9df; 0xa33; 0xa36;
    0xa59; 0xa5a; 0xa5b; 0xa5e; 0xb5c; 0xb5d; 0xf43; 0xf4d; 0xf52; 0xf57; 0xf5c; 0xf69; 0xf76;
    0xf78; 0xf93; 0xf9d; 0xfa2; 0xfa7; 0xfac; 0xfb9; 0x2adc; 0xfb1d; 0xfb1f; 0xfb2a; 0xfb2b; 0xfb2c;
    0xfb2d; 0xfb2e; 0xfb2f; 0xfb30; 0xfb31; 0xfb32; 0xfb33; 0xfb34; 0xfb35; 0xfb36; 0xfb38; 0xfb39;
    0xfb3a; 0xfb3b; 0xfb3c; 0xfb3e; 0xfb40; 0xfb41; 0xfb43; 0xfb44; 0xfb46; 0xfb47; 0xfb48; 0xfb49;
    0xfb4a; 0xfb4b; 0xfb4c; 0xfb4d; 0xfb4e; 0x1d15e; 0x1d15f; 0x1d160; 0x1d161; 0x1d162; 0x1d163;
    0x1d164; 0x1d1bb; 0x1d1bc; 0x1d1bd; 0x1d1be; 0x1d1bf; 0x1d1c0 ].

(** D114: [r] is the primary composite of the pair.  Besides the exclusions,
    characters that are not starters or whose decomposition does not begin
    with a starter are not composed. *)
Definition primary_composite (a b r : N) : Prop :=
  composes a b r \/
  (canonical_mapping r [a; b] /\ combining_class r = 0 /\ combining_class a = 0 /\
   ~ In r composition_exclusions).

(** * Canonical ordering (D108-D109) for a class function *)
Section Ordering.
  Variable cls : N -> N.

  Definition reorderable (a b : N) : Prop := cls b < cls a /\ 0 < cls b.

  (** Exchange one adjacent reorderable pair. *)
  Inductive exchange : list N -> list N -> Prop :=
  | exchange_intro p a b q : reorderable a b -> exchange (p ++ a :: b :: q) (p ++ b :: a :: q).

  Definition in_canonical_order (l : list N) : Prop :=
    forall p a b q, l = p ++ a :: b :: q -> ~ reorderable a b.

  (** [out] results from [l] by exchanging reorderable pairs until none is left. *)
  Definition canonically_ordered (l out : list N) : Prop :=
    clos_refl_trans _ exchange l out /\ in_canonical_order out.

  (** Canonical composition (D115-D117): the characters are added one by one to
      the text [p] built so far.  [last_starter] splits it at the last starter. *)
  Fixpoint last_starter (p : list N) : option (list N * N * list N) :=
    match p with
    | [] => None
    | x :: p' =>
        match last_starter p' with
        | Some (a, s, m) => Some (x :: a, s, m)
        | None => if cls x =? 0 then Some ([], x, p') else None
        end
    end.

  (** D115, given that [between] holds what stands between the starter and [c]. *)
  Definition blocked (between : list N) (c : N) : bool :=
    existsb (fun b => (cls b =? 0) || (cls c <=? cls b)) between.

  Variable pair : N -> N -> option N.

  Definition compose_step (p : list N) (c : N) : list N :=
    match last_starter p with
    | Some (a, s, m) =>
        if blocked m c then p ++ [c]
        else match pair s c with
             | Some r => a ++ r :: m
             | None => p ++ [c]
             end
    | None => p ++ [c]
    end.

  Definition canonical_composition_of (l : list N) : list N := fold_left compose_step l [].
End Ordering.

(** Property theorems for character ranges (C01-C05). *)
From Coq Require Import List NArith Lia Bool Sorted.
From Verif Require Import Base RangeModel RangeSpec RangeProofs RangeLemmas.
Import ListNotations.
Open Scope N_scope.

(** C01.  Whatever the kind of bounds, collecting a range lists exactly the
    scalar values inside the bounds, in increasing order. *)
Theorem C01_range_iteration_exact :
  forall (start stop : Bound) (r : CharRange),
    bound_ok start -> bound_ok stop -> bound start stop = Ret r ->
    exists l, collects (iter_of r) l /\ collects_back (iter_of r) (rev l) /\
      enumerates (inside start stop) l.
Proof. exact range_iteration_exact. Qed.
Print Assumptions C01_range_iteration_exact.

Theorem C01_bound_total :
  forall start stop : Bound, exists r, bound start stop = Ret r.
Proof. exact bound_total. Qed.
Print Assumptions C01_bound_total.

(** The direct constructors and macro forms. *)
Theorem C01_constructors_exact :
  forall a b : N, scalar a -> scalar b ->
    (exists l, collects (iter_of (closed a b)) l /\ enumerates (fun c => a <= c /\ c <= b) l) /\
    (exists l, collects (iter_of (open_right a b)) l /\ enumerates (fun c => a <= c /\ c < b) l) /\
    (exists l, collects (iter_of (open_left a b)) l /\ enumerates (fun c => a < c /\ c <= b) l) /\
    (exists l, collects (iter_of (open a b)) l /\ enumerates (fun c => a < c /\ c < b) l) /\
    (exists l, collects (iter_of all) l /\ enumerates (fun c => True) l) /\
    (exists l, collects (iter_of assigned_normal_planes) l /\ enumerates (fun c => c <= 0x2FFFF) l).
Proof. exact constructors_exact. Qed.
Print Assumptions C01_constructors_exact.

(** A range crossing the surrogate gap. *)
Example C01_example :
  bound (Excluded 0xD7FE) (Excluded 0xE002) = Ret (mkRange 0xD7FF 0xE001) /\
  bound_ok (Excluded 0xD7FE) /\ bound_ok (Excluded 0xE002) /\
  fst (iter_run (iter_of (mkRange 0xD7FF 0xE001)) [true; true; true; true]) =
    [Some 0xD7FF; Some 0xE000; Some 0xE001; None].
Proof. repeat split; vm_compute; (reflexivity || tauto || (right; split; discriminate)). Qed.

(** C02.  Any interleaving of front and back calls behaves like a deque holding
    the range's characters in increasing order. *)
Theorem C02_double_ended :
  forall (r : CharRange) (l : list N) (sched : list bool),
    scalar (r_low r) -> scalar (r_high r) ->
    enumerates (fun c => r_low r <= c /\ c <= r_high r) l ->
    fst (iter_run (iter_of r) sched) = fst (deque_run l sched).
Proof. exact double_ended. Qed.
Print Assumptions C02_double_ended.

(** Every range built through the public constructors meets the hypotheses. *)
Theorem C02_constructed_ranges_ok :
  forall start stop r, bound_ok start -> bound_ok stop -> bound start stop = Ret r ->
    scalar (r_low r) /\ scalar (r_high r) /\
    exists l, enumerates (fun c => r_low r <= c /\ c <= r_high r) l.
Proof. exact constructed_ranges_ok. Qed.
Print Assumptions C02_constructed_ranges_ok.

Example C02_example :
  fst (iter_run (iter_of (closed 0xD7FE 0xE001)) [true; false; false; true; true; false]) =
  [Some 0xD7FE; Some 0xE001; Some 0xE000; Some 0xD7FF; None; None] /\
  fst (deque_run [0xD7FE; 0xD7FF; 0xE000; 0xE001] [true; false; false; true; true; false]) =
  [Some 0xD7FE; Some 0xE001; Some 0xE000; Some 0xD7FF; None; None].
Proof. split; reflexivity. Qed.

(** C03.  After any schedule, the reported length is the number of characters
    left; so is the range's own length, and emptiness is exact. *)
Theorem C03_exact_size :
  forall (r : CharRange) (l : list N) (sched : list bool),
    scalar (r_low r) -> scalar (r_high r) ->
    enumerates (fun c => r_low r <= c /\ c <= r_high r) l ->
    let i := snd (iter_run (iter_of r) sched) in
    let rest := snd (deque_run l sched) in
    iter_len i = N.of_nat (length rest) /\
    size_hint i = (N.of_nat (length rest), Some (N.of_nat (length rest))) /\
    collects i rest /\ iter_min i = hd_error rest /\ iter_max i = hd_error (rev rest) /\
    len r = N.of_nat (length l) /\ (is_empty r = true <-> l = []).
Proof. exact exact_size. Qed.
Print Assumptions C03_exact_size.

Example C03_example : len all = 0x110000 - 0x800 /\ len (closed 0xE000 0xD7FF) = 0 /\
  iter_len (snd (iter_run (iter_of (closed 0xD7FE 0xE001)) [true; true])) = 2.
Proof. repeat split. Qed.

(** C04.  Membership, comparison and equality are those of the set of characters. *)
Theorem C04_contains_iff_iterated :
  forall r l c, scalar (r_low r) -> scalar (r_high r) -> scalar c ->
    collects (iter_of r) l -> (contains r c = true <-> In c l).
Proof. exact contains_iff_iterated. Qed.
Print Assumptions C04_contains_iff_iterated.

Theorem C04_cmp_char :
  forall r l c, scalar (r_low r) -> scalar (r_high r) -> scalar c ->
    collects (iter_of r) l ->
    match cmp_char r c with
    | Panic => l = []
    | Ret Eq => In c l
    | Ret Lt => l <> [] /\ forall x, In x l -> x < c
    | Ret Gt => l <> [] /\ forall x, In x l -> c < x
    end.
Proof. exact cmp_char_spec. Qed.
Print Assumptions C04_cmp_char.

Theorem C04_equality_is_extensional :
  forall a b la lb, scalar (r_low a) -> scalar (r_high a) -> scalar (r_low b) -> scalar (r_high b) ->
    collects (iter_of a) la -> collects (iter_of b) lb ->
    (range_eq a b = true <-> la = lb).
Proof. exact range_eq_spec. Qed.
Print Assumptions C04_equality_is_extensional.

Example C04_example :
  contains (closed 0xD7FF 0xE000) 0xE000 = true /\ range_eq (closed 5 4) (open 7 8) = true /\
  cmp_char (closed 97 103) 122 = Ret Lt /\ cmp_char (closed 5 4) 5 = Panic.
Proof. repeat split. Qed.

(** C05.  The full statement - parallel and sequential iteration agree on every
    range - is false of the code: *)
Theorem C05_par_iter_refuted :
  exists r l, scalar (r_low r) /\ scalar (r_high r) /\
    collects (iter_of r) l /\ par_items r <> l.
Proof. exact par_iter_refuted. Qed.
Print Assumptions C05_par_iter_refuted.

(** They agree exactly when the range is empty or starts below the surrogate
    gap.  (Missing from the full claim: the other ranges, where it is false.) *)
Theorem C05_par_iter_exact_partial :
  forall r l, scalar (r_low r) -> scalar (r_high r) -> collects (iter_of r) l ->
    (par_items r = l <-> (is_empty r = true \/ r_low r < 0xE000)).
Proof. exact par_iter_exact. Qed.
Print Assumptions C05_par_iter_exact_partial.

Example C05_example : par_items (closed 0xD7FE 0xE001) = [0xD7FE; 0xD7FF; 0xE000; 0xE001] /\
  par_items (closed 0xE000 0xE001) = [].
Proof. split; reflexivity. Qed.

(** Model of the [unic-char-range] crate. *)
From Coq Require Import List NArith Bool.
From Verif Require Import Base.
Import ListNotations.
Open Scope N_scope.

(** unic/char/range/src/range.rs:30-45 [struct CharRange]. *)
Record CharRange := mkRange { r_low : N; r_high : N }.

(** unic/char/range/src/iter.rs:21-31 [struct CharIter]. *)
Record CharIter := mkIter { i_low : N; i_high : N }.

(** unic/char/range/src/step.rs:13-14 *)
Definition BEFORE_SURROGATE : N := 0xD7FF.
Definition AFTER_SURROGATE : N := 0xE000.

(** unic/char/range/src/step.rs:23-29 [forward]; [from_u32_unchecked] is the
    identity on code points. *)
Definition forward (ch : N) : N :=
  if ch =? BEFORE_SURROGATE then AFTER_SURROGATE else ch + 1.

(** unic/char/range/src/step.rs:39-45 [backward]; never called on ['\0']. *)
Definition backward (ch : N) : N :=
  if ch =? AFTER_SURROGATE then BEFORE_SURROGATE else ch - 1.

(** unic/char/range/src/iter.rs:33-49 conversions between range and iterator. *)
Definition iter_of (r : CharRange) : CharIter := mkIter (r_low r) (r_high r).
Definition range_of (i : CharIter) : CharRange := mkRange (i_low i) (i_high i).

(** unic/char/range/src/iter.rs:57-63 *)
Definition step_forward (i : CharIter) : CharIter :=
  if i_low i =? MAX_CHAR then mkIter (i_low i) 0
  else mkIter (forward (i_low i)) (i_high i).

(** unic/char/range/src/iter.rs:70-76 *)
Definition step_backward (i : CharIter) : CharIter :=
  if i_high i =? 0 then mkIter MAX_CHAR (i_high i)
  else mkIter (i_low i) (backward (i_high i)).

(** unic/char/range/src/iter.rs:80-82 *)
Definition is_finished (i : CharIter) : bool := i_high i <? i_low i.

(** unic/char/range/src/iter.rs:89-97 *)
Definition next (i : CharIter) : option N * CharIter :=
  if is_finished i then (None, i) else (Some (i_low i), step_forward i).

(** unic/char/range/src/iter.rs:123-131 *)
Definition next_back (i : CharIter) : option N * CharIter :=
  if is_finished i then (None, i) else (Some (i_high i), step_backward i).

(** unic/char/range/src/iter.rs:15, 135-145.  [naive_range] is
    [low..high+1]; its [len()] is [high + 1 - low]. *)
Definition iter_len (i : CharIter) : N :=
  if is_finished i then 0
  else
    let start := i_low i in
    let stop := i_high i + 1 in
    if (start <=? 0xD800) && (0xE000 <=? stop)
    then (stop - start) - (0xE000 - 0xD800)
    else stop - start.

(** unic/char/range/src/iter.rs:99-102 *)
Definition size_hint (i : CharIter) : N * option N := (iter_len i, Some (iter_len i)).

(** unic/char/range/src/iter.rs:104-118 *)
Definition iter_last (i : CharIter) : option N :=
  if is_finished i then None else Some (i_high i).
Definition iter_max (i : CharIter) : option N := iter_last i.
Definition iter_min (i : CharIter) : option N := fst (next i).

(** unic/char/range/src/range.rs:61-118 constructors. *)
Definition closed (start stop : N) : CharRange := mkRange start stop.
Definition open_right (start stop : N) : CharRange :=
  range_of (snd (next_back (iter_of (closed start stop)))).
Definition open_left (start stop : N) : CharRange :=
  range_of (snd (next (iter_of (closed start stop)))).
Definition open (start stop : N) : CharRange :=
  range_of (snd (next_back (snd (next (iter_of (closed start stop)))))).

(** [core::ops::Bound]. *)
Inductive Bound := Included (c : N) | Excluded (c : N) | Unbounded.

(** unic/char/range/src/range.rs:122-140; the [unreachable!()] arm is [Panic]. *)
Definition bound (start stop : Bound) : outcome CharRange :=
  let start := match start with Unbounded => Included 0 | b => b end in
  let stop := match stop with Unbounded => Included MAX_CHAR | b => b end in
  match start, stop with
  | Included a, Included b => Ret (closed a b)
  | Excluded a, Excluded b => Ret (open a b)
  | Included a, Excluded b => Ret (open_right a b)
  | Excluded a, Included b => Ret (open_left a b)
  | Unbounded, _ | _, Unbounded => Panic
  end.

(** unic/char/range/src/range.rs:143-163 *)
Definition all : CharRange := closed 0 MAX_CHAR.
Definition assigned_normal_planes : CharRange := closed 0 0x2FFFF.

(** unic/char/range/src/range.rs:180-182 *)
Definition contains (r : CharRange) (ch : N) : bool :=
  (r_low r <=? ch) && (ch <=? r_high r).

(** unic/char/range/src/range.rs:208-210 *)
Definition is_empty (r : CharRange) : bool := r_high r <? r_low r.

(** unic/char/range/src/range.rs:190-200; the assertion failure is [Panic]. *)
Definition cmp_char (r : CharRange) (ch : N) : outcome comparison :=
  if is_empty r then Panic
  else if r_high r <? ch then Ret Lt
  else if ch <? r_low r then Ret Gt
  else Ret Eq.

(** unic/char/range/src/range.rs:203-205 *)
Definition len (r : CharRange) : N := iter_len (iter_of r).

(** unic/char/range/src/range.rs:227-231 *)
Definition range_eq (a b : CharRange) : bool :=
  (is_empty a && is_empty b) || ((r_low a =? r_low b) && (r_high a =? r_high b)).

(** unic/char/range/src/par_iter.rs:20-21 *)
Definition SKIP_LENGTH : N := AFTER_SURROGATE - BEFORE_SURROGATE - 1.

(** unic/char/range/src/par_iter.rs:52-60: a half-open [u32] range. *)
Definition compact_range (r : CharRange) : N * N :=
  let low := r_low r in
  let high := r_high r + 1 in
  (low, if AFTER_SURROGATE <=? r_high r then high - SKIP_LENGTH else high).

(** unic/char/range/src/par_iter.rs:68-80: the mapping closure (the debug
    assertions are not modelled: the result is what a release build yields). *)
Definition par_map (c : N) : N :=
  if BEFORE_SURROGATE <? c then c + SKIP_LENGTH else c.

(** unic/char/range/src/par_iter.rs:67-81: the items of the parallel iterator,
    in index order: [par_map] of every [u32] in the compacted range.  Rayon's
    scheduling is not modelled; an indexed parallel iterator delivers exactly
    these items. *)
Definition par_items (r : CharRange) : list N :=
  let '(lo, hi) := compact_range r in
  map (fun k => par_map (lo + N.of_nat k)) (seq 0 (N.to_nat (hi - lo))).

(** A client of the iterator (not code of /repo): performs a schedule of calls
    ([true]: [next], [false]: [next_back]) and records what they return. *)
Fixpoint iter_run (i : CharIter) (sched : list bool) : list (option N) * CharIter :=
  match sched with
  | [] => ([], i)
  | b :: s =>
      let '(o, i') := if b then next i else next_back i in
      let '(os, i'') := iter_run i' s in
      (o :: os, i'')
  end.

(** A client (not code of /repo): [collect()], i.e. calling [next] until it
    returns [None]; the relation holds only if iteration does end. *)
Inductive collects : CharIter -> list N -> Prop :=
| collects_nil i i' : next i = (None, i') -> collects i []
| collects_cons i c i' l : next i = (Some c, i') -> collects i' l -> collects i (c :: l).

(** A client (not code of /repo): [rev().collect()]. *)
Inductive collects_back : CharIter -> list N -> Prop :=
| collects_back_nil i i' : next_back i = (None, i') -> collects_back i []
| collects_back_cons i c i' l :
    next_back i = (Some c, i') -> collects_back i' l -> collects_back i (c :: l).

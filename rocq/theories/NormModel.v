(** Model of unic/ucd/normal/src/{decomposition,lib}.rs and
    unic/normal/src/{decompose,recompose,lib}.rs. *)
From Coq Require Import List NArith Bool.
From Verif Require Import Base UcdModel TableModel HangulModel.
Import ListNotations.
Open Scope N_scope.

(** * Pairwise tables *)

(** Concatenate optional lists (out of fuel in one part is out of fuel). *)
Fixpoint concat_opt (l : list (option (list N))) : option (list N) :=
  match l with
  | [] => Some []
  | o :: l' =>
      match o, concat_opt l' with Some x, Some y => Some (x ++ y) | _, _ => None end
  end.

(** unic/ucd/normal/src/decomposition.rs:39-79 [d]; the callback is replaced by
    the list of characters it receives.  The recursion of the code follows the
    tables and has no bound in the text; here it runs on fuel, [None] meaning
    out of fuel.  [compat] is the parameter [k]. *)
Fixpoint d (fuel : nat) (compat : bool) (ch : N) : option (list N) :=
  match fuel with
  | O => None
  | S fuel' =>
      if ch <=? 0x7F then Some [ch]
      else if is_syllable ch then
        match decompose_syllable ch with Ret l => Some l | Panic => None end
      else
        match canonical_decomposition ch with
        | Some canon => concat_opt (map (d fuel' compat) canon)
        | None =>
            if negb compat then Some [ch]
            else match compatibility_decomposition ch with
                 | Some cm => concat_opt (map (d fuel' compat) cm)
                 | None => Some [ch]
                 end
        end
  end.

(** Enough for the shipped tables (theorem [C11_decomposition_total]). *)
Definition d_fuel : nat := 10.

(** decomposition.rs:21-36 [decompose_canonical], [decompose_compatible] *)
Definition decompose (compat : bool) (ch : N) : list N :=
  match d d_fuel compat ch with Some l => l | None => [] end.

(** unic/ucd/normal/src/lib.rs:69-71 *)
Definition compose (a b : N) : option N :=
  match compose_syllable a b with
  | Some r => Some r
  | None => match canonical_composition a with
            | Some table => lookup table b
            | None => None
            end
  end.

(** * NFD, NFKD: the iterator [Decompositions] *)

(** unic/normal/src/decompose.rs:23-25: the test inside the loop. *)
Definition must_swap (a b : N * N) : bool :=
  (negb (snd a =? 0)) && (negb (snd b =? 0)) && (snd b <? snd a).

(** decompose.rs:22-29: the inner loop with [m] = [len - i - 1] comparisons;
    also tells whether anything was swapped. *)
Fixpoint sort_pass (m : nat) (l : list (N * N)) : list (N * N) * bool :=
  match m, l with
  | S m', a :: b :: r =>
      if must_swap a b
      then let '(r', _) := sort_pass m' (a :: r) in (b :: r', true)
      else let '(r', s) := sort_pass m' (b :: r) in (a :: r', s)
  | _, _ => (l, false)
  end.

(** decompose.rs:20-33: the outer loop; [n] = [len - i]. *)
Fixpoint sort_passes (n : nat) (l : list (N * N)) : list (N * N) :=
  match n with
  | O => l
  | S n' => let '(l', swapped) := sort_pass n' l in
            if swapped then sort_passes n' l' else l'
  end.

(** decompose.rs:18-34 *)
Definition canonical_sort (comb : list (N * N)) : list (N * N) :=
  sort_passes (length comb) comb.

(** decompose.rs:42-48.  [kind]: false = Canonical, true = Compatible. *)
Record Decompositions := mkD {
  d_kind : bool;
  d_iter : str;
  d_buffer : list (N * N);
  d_sorted : bool }.

(** decompose.rs:50-68 *)
Definition new_decompositions (kind : bool) (s : str) : Decompositions := mkD kind s [] false.

(** decompose.rs:95-102: the callback *)
Definition d_callback (bs : list (N * N) * bool) (c : N) : list (N * N) * bool :=
  let '(buffer, sorted) := bs in
  let k := ccc c in
  let '(buffer, sorted) :=
    if (k =? 0) && negb sorted then (canonical_sort buffer, true) else (buffer, sorted) in
  (buffer ++ [(c, k)], sorted).

(** decompose.rs:91-110: the [for] loop *)
Fixpoint d_pull (kind : bool) (iter : str) (buffer : list (N * N)) (sorted : bool)
  : str * list (N * N) * bool :=
  match iter with
  | [] => ([], buffer, sorted)
  | ch :: rest =>
      let '(buffer, sorted) := fold_left d_callback (decompose kind ch) (buffer, sorted) in
      if sorted then (rest, buffer, sorted) else d_pull kind rest buffer sorted
  end.

(** decompose.rs:75-132 [next] *)
Definition d_next (st : Decompositions) : option N * Decompositions :=
  let '(mkD kind iter buffer sorted) := st in
  let read :=
    let '(iter, buffer, sorted) := d_pull kind iter buffer false in
    let '(buffer, sorted) := if sorted then (buffer, sorted) else (canonical_sort buffer, true) in
    match buffer with
    | [] => (None, mkD kind iter [] sorted)
    | (c, k) :: rest => if k =? 0 then (Some c, mkD kind iter rest false)
                        else (Some c, mkD kind iter rest sorted)
    end in
  match buffer with
  | (c, k) :: rest =>
      if k =? 0 then (Some c, mkD kind iter rest false)
      else if sorted then (Some c, mkD kind iter rest sorted)
      else read
  | [] => read
  end.

(** [collect] on an iterator with at most [fuel] calls of [next]; [None] = out of fuel. *)
Fixpoint d_collect (fuel : nat) (st : Decompositions) : option str :=
  match fuel with
  | O => None
  | S fuel' =>
      match d_next st with
      | (None, _) => Some []
      | (Some c, st') => option_map (cons c) (d_collect fuel' st')
      end
  end.

(** * NFC, NFKC: the iterator [Recompositions] *)

(** unic/normal/src/recompose.rs:19-24 *)
Inductive RecompositionState := Composing | Purging | Finished.

(** recompose.rs:27-34 *)
Record Recompositions := mkR {
  r_iter : Decompositions;
  r_state : RecompositionState;
  r_buffer : list N;
  r_composee : option N;
  r_last_ccc : option N }.

(** recompose.rs:36-56 *)
Definition new_recompositions (kind : bool) (s : str) : Recompositions :=
  mkR (new_decompositions kind s) Composing [] None None.

(** recompose.rs:62-135 [next].  One unit of fuel per turn of the outer [loop]
    or of the inner [for]; the outer [None] means out of fuel. *)
Fixpoint r_next (fuel : nat) (st : Recompositions) : option (option N * Recompositions) :=
  match fuel with
  | O => None
  | S fuel' =>
      let '(mkR iter state buffer composee last_ccc) := st in
      match state with
      | Composing =>
          match d_next iter with
          | (Some ch, iter) =>
              let ch_ccc := ccc ch in
              match composee with
              | None =>
                  if negb (ch_ccc =? 0)
                  then Some (Some ch, mkR iter Composing buffer None last_ccc)
                  else r_next fuel' (mkR iter Composing buffer (Some ch) last_ccc)
              | Some k =>
                  match last_ccc with
                  | None =>
                      match compose k ch with
                      | Some r => r_next fuel' (mkR iter Composing buffer (Some r) last_ccc)
                      | None =>
                          if ch_ccc =? 0
                          then Some (Some k, mkR iter Composing buffer (Some ch) last_ccc)
                          else r_next fuel' (mkR iter Composing (buffer ++ [ch]) composee (Some ch_ccc))
                      end
                  | Some lc =>
                      if ch_ccc <=? lc
                      then if ch_ccc =? 0
                           then Some (Some k, mkR iter Purging buffer (Some ch) None)
                           else r_next fuel' (mkR iter Composing (buffer ++ [ch]) composee (Some ch_ccc))
                      else match compose k ch with
                           | Some r => r_next fuel' (mkR iter Composing buffer (Some r) last_ccc)
                           | None => r_next fuel' (mkR iter Composing (buffer ++ [ch]) composee (Some ch_ccc))
                           end
                  end
              end
          | (None, iter) =>
              match composee with
              | Some k => Some (Some k, mkR iter Finished buffer None last_ccc)
              | None => r_next fuel' (mkR iter Finished buffer None last_ccc)
              end
          end
      | Purging =>
          match buffer with
          | [] => r_next fuel' (mkR iter Composing [] composee last_ccc)
          | c :: rest => Some (Some c, mkR iter Purging rest composee last_ccc)
          end
      | Finished =>
          match buffer with
          | [] => Some (composee, mkR iter Finished [] None last_ccc)
          | c :: rest => Some (Some c, mkR iter Finished rest composee last_ccc)
          end
      end
  end.

(** [collect] *)
Fixpoint r_collect (fuel : nat) (st : Recompositions) : option str :=
  match fuel with
  | O => None
  | S fuel' =>
      match r_next fuel st with
      | None => None
      | Some (None, _) => Some []
      | Some (Some c, st') => option_map (cons c) (r_collect fuel' st')
      end
  end.

(** * unic/normal/src/lib.rs:72-117: [s.nfd().collect()] and so on.  The fuel
    given is ample: no character decomposes into more than 18. *)
Definition n_fuel (s : str) : nat := 20 * length s + 4.
Definition nfd (s : str) : option str := d_collect (n_fuel s) (new_decompositions false s).
Definition nfkd (s : str) : option str := d_collect (n_fuel s) (new_decompositions true s).
Definition nfc (s : str) : option str := r_collect (n_fuel s) (new_recompositions false s).
Definition nfkc (s : str) : option str := r_collect (n_fuel s) (new_recompositions true s).

(** Model of unic/idna/punycode/src/lib.rs (RFC 3492). *)
From Coq Require Import List NArith Bool.
From Verif Require Import Base.
Import ListNotations.
Open Scope N_scope.

(** Arithmetic on [u32] in a build with overflow checks: a result outside the
    type is a panic.  (Theorems show that, except for the one addition marked
    below, no operation ever overflows, so that release builds agree.) *)
Definition U32_MAX : N := 0xFFFFFFFF.
Definition chk (x : N) : outcome N := if x <=? U32_MAX then Ret x else Panic.
Definition sub32 (a b : N) : outcome N := if b <=? a then Ret (a - b) else Panic.
(** [usize as u32] truncates. *)
Definition as_u32 (n : N) : N := n mod 0x100000000.
Notation "'let*' x ':=' e 'in' f" := (obind e (fun x => f))
  (at level 200, x pattern, e at level 200, f at level 200).

(** lib.rs:38-45 *)
Definition BASE : N := 36.
Definition T_MIN : N := 1.
Definition T_MAX : N := 26.
Definition SKEW : N := 38.
Definition DAMP : N := 700.
Definition INITIAL_BIAS : N := 72.
Definition INITIAL_N : N := 0x80.
Definition DELIMITER : N := 0x2D.

(** lib.rs:52-55: the [while] loop on fuel; running out of fuel is [Panic]
    (excluded by the theorems). *)
Fixpoint adapt_loop (fuel : nat) (delta k : N) : outcome (N * N) :=
  match fuel with
  | O => Panic
  | S fuel' =>
      if ((BASE - T_MIN) * T_MAX) / 2 <? delta
      then let* k := chk (k + BASE) in adapt_loop fuel' (delta / (BASE - T_MIN)) k
      else Ret (delta, k)
  end.

(** lib.rs:48-57; [num_points] = 0 would be a division by zero. *)
Definition adapt (delta num_points : N) (first_time : bool) : outcome N :=
  let delta := delta / (if first_time then DAMP else 2) in
  if num_points =? 0 then Panic else
  let* delta := chk (delta + delta / num_points) in
  let* (delta, k) := adapt_loop 8 delta 0 in
  let* prod := chk ((BASE - T_MIN + 1) * delta) in
  let* sum := chk (delta + SKEW) in
  chk (k + prod / sum).

(** lib.rs:110-116 and 203-209 *)
Definition threshold (k bias : N) : outcome N :=
  if k <=? bias then Ret T_MIN
  else let* top := chk (bias + T_MAX) in
       if top <=? k then Ret T_MAX else sub32 k bias.

(** ** Decoding *)

(** lib.rs:100-105; [None] is the [return None] arm. *)
Definition decode_digit (byte : N) : option N :=
  if (0x30 <=? byte) && (byte <=? 0x39) then Some (byte - 0x30 + 26)
  else if (0x41 <=? byte) && (byte <=? 0x5A) then Some (byte - 0x41)
  else if (0x61 <=? byte) && (byte <=? 0x7A) then Some (byte - 0x61)
  else None.

(** lib.rs:99-125: the inner loop, returning the new [i] and the rest of the
    input; [None] is [return None]. *)
Fixpoint decode_delta (byte : N) (iter : list N) (bias i weight k : N) {struct iter}
  : outcome (option (N * list N)) :=
  match decode_digit byte with
  | None => Ret None
  | Some digit =>
      if weight =? 0 then Panic else
      if (U32_MAX - i) / weight <? digit then Ret None else
      let* step := chk (digit * weight) in
      let* i := chk (i + step) in
      let* t := threshold k bias in
      if digit <? t then Ret (Some (i, iter)) else
      let* r := sub32 BASE t in
      if r =? 0 then Panic else
      if U32_MAX / r <? weight then Ret None else
      let* weight := chk (weight * r) in
      let* k := chk (k + BASE) in
      match iter with
      | [] => Ret None
      | byte :: iter => decode_delta byte iter bias i weight k
      end
  end.

(** [Vec::insert]: panics when the index is past the end. *)
Definition vec_insert (l : list N) (i : N) (c : N) : outcome (list N) :=
  if i <=? N.of_nat (length l)
  then Ret (firstn (N.to_nat i) l ++ c :: skipn (N.to_nat i) l)
  else Panic.

(** lib.rs:89-147: the outer loop; every turn consumes input, so fuel
    [S (length iter)] is enough. *)
Fixpoint decode_loop (fuel : nat) (iter : list N) (output : list N) (code_point bias i : N)
  : outcome (option (list N)) :=
  match fuel with
  | O => Panic
  | S fuel' =>
      match iter with
      | [] => Ret (Some output)
      | byte :: iter =>
          let previous_i := i in
          let* o := decode_delta byte iter bias i 1 BASE in
          match o with
          | None => Ret None
          | Some (i, iter) =>
              let* len1 := chk (as_u32 (N.of_nat (length output)) + 1) in
              let* d := sub32 i previous_i in
              let* bias := adapt d len1 (previous_i =? 0) in
              if U32_MAX - code_point <? i / len1 then Ret None else
              let* code_point := chk (code_point + i / len1) in
              let i := i mod len1 in
              if scalarb code_point then
                let* output := vec_insert output i code_point in
                let* i := chk (i + 1) in
                decode_loop fuel' iter output code_point bias i
              else Ret None
          end
      end
  end.

(** [str::rfind] of the delimiter with the two slices around it: the text
    before the last delimiter and the text after it. *)
Fixpoint rsplit (s : str) : option (str * str) :=
  match s with
  | [] => None
  | c :: s' =>
      match rsplit s' with
      | Some (a, b) => Some (c :: a, b)
      | None => if c =? DELIMITER then Some ([], s') else None
      end
  end.

(** lib.rs:73-149.  Characters stand for the bytes of the input: the loops stop
    with [None] at the first byte of a non-ASCII character just as at the
    character. *)
Definition decode (input : str) : outcome (option (list N)) :=
  let '(output, iter) :=
    match rsplit input with
    | None => ([], input)
    | Some ([], _) => ([], input)
    | Some (basic, rest) => (basic, rest)
    end in
  decode_loop (S (length iter)) iter output INITIAL_N INITIAL_BIAS 0.

(** ** Encoding *)

(** lib.rs:236-242 *)
Definition value_to_digit (value : N) : outcome N :=
  if value <=? 25 then Ret (value + 0x61)
  else if value <=? 35 then Ret (value - 26 + 0x30)
  else Panic.

(** lib.rs:200-219: the digits pushed for [q] starting at [k]; fuel as above. *)
Fixpoint encode_delta (fuel : nat) (q k bias : N) : outcome str :=
  match fuel with
  | O => Panic
  | S fuel' =>
      let* t := threshold k bias in
      if q <? t then let* c := value_to_digit q in Ret [c] else
      let* r := sub32 BASE t in
      if r =? 0 then Panic else
      let* c := value_to_digit (t + (q - t) mod r) in
      let* k := chk (k + BASE) in
      let* cs := encode_delta fuel' ((q - t) / r) k bias in
      Ret (c :: cs)
  end.

(** The variables of the encoder's loops. *)
Record enc := mkEnc { e_delta : N; e_bias : N; e_processed : N }.

(** lib.rs:193 [delta += 1]: the only addition that can overflow.  With
    overflow checks ([checked]) it panics, without it wraps to 0. *)
Definition incr_delta (checked : bool) (delta : N) : outcome N :=
  if delta + 1 <=? U32_MAX then Ret (delta + 1) else if checked then Panic else Ret 0.

(** lib.rs:190-225: the [for] loop over the rest of the input, returning the
    pushed digits and the variables. *)
Fixpoint encode_for (checked : bool) (input : list N) (code_point basic_length : N) (st : enc)
  : outcome (option (str * enc)) :=
  match input with
  | [] => Ret (Some ([], st))
  | c :: input' =>
      let '(mkEnc delta bias processed) := st in
      if c <? code_point then
        let* delta := incr_delta checked delta in
        if delta =? 0 then Ret None
        else encode_for checked input' code_point basic_length (mkEnc delta bias processed)
      else if c =? code_point then
        let* ds := encode_delta 12 delta BASE bias in
        let* p1 := chk (processed + 1) in
        let* bias := adapt delta p1 (processed =? basic_length) in
        let* o := encode_for checked input' code_point basic_length (mkEnc 0 bias p1) in
        match o with
        | None => Ret None
        | Some (ds', st') => Ret (Some (ds ++ ds', st'))
        end
      else encode_for checked input' code_point basic_length st
  end.

(** lib.rs:178-183: [.filter(..).min().unwrap()] *)
Definition min_from (code_point : N) (input : list N) : option N :=
  fold_left (fun acc c =>
    if code_point <=? c then match acc with None => Some c | Some m => Some (N.min m c) end else acc)
    input None.

(** lib.rs:175-230: the [while] loop; every turn processes at least one
    character. *)
Fixpoint encode_while (fuel : nat) (checked : bool) (input : list N)
    (code_point basic_length input_length : N) (st : enc) : outcome (option str) :=
  match fuel with
  | O => Panic
  | S fuel' =>
      let '(mkEnc delta bias processed) := st in
      if processed <? input_length then
        match min_from code_point input with
        | None => Panic
        | Some m =>
            let* p1 := chk (processed + 1) in
            if (U32_MAX - delta) / p1 <? m - code_point then Ret None else
            let* prod := chk ((m - code_point) * p1) in
            let* delta := chk (delta + prod) in
            let* o := encode_for checked input m basic_length (mkEnc delta bias processed) in
            match o with
            | None => Ret None
            | Some (ds, mkEnc delta bias processed) =>
                let* delta := chk (delta + 1) in
                let* cp := chk (m + 1) in
                let* o := encode_while fuel' checked input cp basic_length input_length
                            (mkEnc delta bias processed) in
                match o with
                | None => Ret None
                | Some ds' => Ret (Some (ds ++ ds'))
                end
            end
        end
      else Ret (Some [])
  end.

(** lib.rs:164-233 *)
Definition encode (checked : bool) (input : list N) : outcome (option str) :=
  let basic := filter is_ascii input in
  let basic_length := as_u32 (N.of_nat (length basic)) in
  let output := if 0 <? basic_length then basic ++ [DELIMITER] else basic in
  let* o := encode_while (S (length input)) checked input INITIAL_N basic_length
              (as_u32 (N.of_nat (length input))) (mkEnc 0 INITIAL_BIAS basic_length) in
  Ret (option_map (app output) o).

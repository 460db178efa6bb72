(** Model of the Rust standard-library text primitives used by the modelled
    code: hexadecimal formatting and parsing, UTF-8, UTF-16, string order.
    (Language and library definitions, not code of /repo.) *)
From Coq Require Import List NArith Bool.
From Verif Require Import Base.
Import ListNotations.
Open Scope N_scope.

Definition upper_hex_digit (d : N) : N := if d <? 10 then 0x30 + d else 0x37 + d.
Definition lower_hex_digit (d : N) : N := if d <? 10 then 0x30 + d else 0x57 + d.

(** The digits of [n], most significant first, prepended to [acc]; at least
    one digit.  Eight steps suffice for 32-bit values. *)
Fixpoint hex_loop (digit : N -> N) (fuel : nat) (n : N) (acc : str) : str :=
  match fuel with
  | O => acc
  | S f =>
      let acc' := digit (n mod 16) :: acc in
      if n / 16 =? 0 then acc' else hex_loop digit f (n / 16) acc'
  end.

(** [format!("{:X}", n)] for [n : u32] *)
Definition fmt_upper_hex (n : N) : str := hex_loop upper_hex_digit 8 n [].
(** [format!("{:x}", n)] *)
Definition fmt_lower_hex (n : N) : str := hex_loop lower_hex_digit 8 n [].

(** [format!("{:0wX}", n)]: zero padding to width [w] *)
Definition pad_zero (w : nat) (s : str) : str := repeat 0x30 (w - length s) ++ s.
Definition fmt_upper_hex_w (w : nat) (n : N) : str := pad_zero w (fmt_upper_hex n).

(** [char::to_digit(16)] *)
Definition to_digit16 (c : N) : option N :=
  if (0x30 <=? c) && (c <=? 0x39) then Some (c - 0x30)
  else if (0x61 <=? c) && (c <=? 0x66) then Some (c - 0x57)
  else if (0x41 <=? c) && (c <=? 0x46) then Some (c - 0x37)
  else None.

Fixpoint radix_loop (max acc : N) (s : str) : option N :=
  match s with
  | [] => Some acc
  | c :: s' =>
      match to_digit16 c with
      | None => None
      | Some d => if acc * 16 + d <=? max then radix_loop max (acc * 16 + d) s' else None
      end
  end.

(** [uN::from_str_radix(s, 16)] with [max = uN::MAX]: no empty string, one
    leading '+' allowed if something follows, overflow is an error. *)
Definition from_str_radix16 (max : N) (s : str) : option N :=
  match s with
  | [] => None
  | 0x2B :: [] => None
  | 0x2B :: s' => radix_loop max 0 s'
  | _ => radix_loop max 0 s
  end.

(** [char::from_u32] *)
Definition char_from_u32 (n : N) : option N := if scalarb n then Some n else None.

(** [char::encode_utf8] *)
Definition encode_utf8 (c : N) : list N :=
  if c <? 0x80 then [c]
  else if c <? 0x800 then [0xC0 + c / 0x40; 0x80 + c mod 0x40]
  else if c <? 0x10000 then [0xE0 + c / 0x1000; 0x80 + (c / 0x40) mod 0x40; 0x80 + c mod 0x40]
  else [0xF0 + c / 0x40000; 0x80 + (c / 0x1000) mod 0x40; 0x80 + (c / 0x40) mod 0x40; 0x80 + c mod 0x40].

Definition contb (b : N) : bool := (0x80 <=? b) && (b <=? 0xBF).

(** [String::from_utf8]: decoding with rejection of every ill-formed sequence
    (overlong forms, surrogates, values beyond U+10FFFF, truncation). *)
Fixpoint from_utf8 (bs : list N) : option str :=
  match bs with
  | [] => Some []
  | b0 :: r0 =>
      if b0 <? 0x80 then option_map (cons b0) (from_utf8 r0)
      else if (0xC2 <=? b0) && (b0 <=? 0xDF) then
        match r0 with
        | b1 :: r1 =>
            if contb b1 then option_map (cons ((b0 - 0xC0) * 0x40 + (b1 - 0x80))) (from_utf8 r1) else None
        | _ => None
        end
      else if (0xE0 <=? b0) && (b0 <=? 0xEF) then
        match r0 with
        | b1 :: b2 :: r2 =>
            let c := (b0 - 0xE0) * 0x1000 + (b1 - 0x80) * 0x40 + (b2 - 0x80) in
            if contb b1 && contb b2 && (0x800 <=? c) && scalarb c
            then option_map (cons c) (from_utf8 r2) else None
        | _ => None
        end
      else if (0xF0 <=? b0) && (b0 <=? 0xF4) then
        match r0 with
        | b1 :: b2 :: b3 :: r3 =>
            let c := (b0 - 0xF0) * 0x40000 + (b1 - 0x80) * 0x1000 + (b2 - 0x80) * 0x40 + (b3 - 0x80) in
            if contb b1 && contb b2 && contb b3 && (0x10000 <=? c) && scalarb c
            then option_map (cons c) (from_utf8 r3) else None
        | _ => None
        end
      else None
  end.

(** [char::encode_utf16] *)
Definition encode_utf16 (c : N) : list N :=
  if c <? 0x10000 then [c]
  else [0xD800 + (c - 0x10000) / 0x400; 0xDC00 + (c - 0x10000) mod 0x400].

(** [char::decode_utf16] followed by [expect] on every item: [None] on an
    unpaired surrogate *)
Fixpoint from_utf16 (us : list N) : option str :=
  match us with
  | [] => Some []
  | u :: r =>
      if (u <? 0xD800) || (0xDFFF <? u) then option_map (cons u) (from_utf16 r)
      else if 0xDC00 <=? u then None
      else match r with
           | v :: r' =>
               if (0xDC00 <=? v) && (v <=? 0xDFFF)
               then option_map (cons (0x10000 + (u - 0xD800) * 0x400 + (v - 0xDC00))) (from_utf16 r')
               else None
           | [] => None
           end
  end.

(** [str::cmp]: byte order, which for UTF-8 is code point order. *)
Fixpoint str_cmp (s t : str) : comparison :=
  match s, t with
  | [], [] => Eq
  | [], _ => Lt
  | _, [] => Gt
  | a :: s', b :: t' => match a ?= b with Eq => str_cmp s' t' | o => o end
  end.

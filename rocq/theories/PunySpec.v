(** Punycode as RFC 3492 defines it, over unbounded integers and as relations:
    a string is obtained from its basic (ASCII) characters by a sequence of
    insertions, each coded as a generalized variable-length integer. *)
From Coq Require Import List NArith Bool.
From Verif Require Import Base.
Import ListNotations.
Open Scope N_scope.

(** Section 3.3 with base 36, tmin 1, tmax 26: the threshold of the digit
    number [j] (from 0). *)
Definition thr (bias j : N) : N := N.min 26 (N.max 1 (36 * (j + 1) - bias)).

(** The digit values [ds], starting as digit number [j], code the number. *)
Inductive varint (bias : N) : N -> list N -> N -> Prop :=
| varint_last j d : d < thr bias j -> varint bias j [d] d
| varint_more j d ds v : thr bias j <= d -> d < 36 -> varint bias (j + 1) ds v ->
    varint bias j (d :: ds) (d + v * (36 - thr bias j)).

(** Section 6.1: repeated division by 35 until at most 455. *)
Inductive settle : N -> N -> N -> Prop :=
| settle_stop delta : delta <= 455 -> settle delta delta 0
| settle_step delta d k : 455 < delta -> settle (delta / 35) d k -> settle delta d (k + 36).

(** Bias adaptation with skew 38 and damp 700. *)
Definition adapts (first : bool) (delta numpoints bias : N) : Prop :=
  exists d k,
    (let delta := if first then delta / 700 else delta / 2 in settle (delta + delta / numpoints) d k) /\
    bias = k + 36 * d / (d + 38).

Definition insert_at (i : N) (c : N) (l : list N) : list N :=
  firstn (N.to_nat i) l ++ c :: skipn (N.to_nat i) l.

(** Section 6.2: from the state [n], [i] and the text [out] the digits [ds]
    lead to [res].  [tr] records the pairs (i, delta) met on the way. *)
Inductive expands : bool -> N -> N -> N -> list N -> list N -> list (N * N) -> list N -> Prop :=
| expands_nil first bias n i out : expands first bias n i out [] [] out
| expands_step first bias n i out ds delta bias' rest tr res :
    varint bias 0 ds delta ->
    let len1 := N.of_nat (length out) + 1 in
    let n' := n + (i + delta) / len1 in
    let i' := (i + delta) mod len1 in
    scalar n' ->
    adapts first delta len1 bias' ->
    expands false bias' n' (i' + 1) (insert_at i' n' out) rest tr res ->
    expands first bias n i out (ds ++ rest) ((i, delta) :: tr) res.

(** Section 5: digits are written a-z for 0-25 and 0-9 for 26-35; upper-case
    letters are accepted. *)
Definition digit_char (d c : N) : Prop :=
  (d < 26 /\ c = 0x61 + d) \/ (26 <= d < 36 /\ c = 0x30 + (d - 26)).
Definition digit_char_ci (d c : N) : Prop :=
  digit_char d c \/ (d < 26 /\ c = 0x41 + d).

(** [s] has the Punycode form [p] = basic characters, delimiter if there are
    any, digits; [digit] says how digits are written. *)
Definition punycode (digit : N -> N -> Prop) (s p : str) (tr : list (N * N)) : Prop :=
  exists b ds cs,
    Forall (fun c => c < 128) b /\
    expands true 72 128 0 b ds tr s /\
    Forall2 digit ds cs /\
    p = match b with [] => cs | _ => b ++ 0x2D :: cs end.

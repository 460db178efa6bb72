(** Hangul syllables as the Unicode Standard describes them (section 3.12): a
    syllable block is given by a leading consonant (19 of them, from U+1100), a
    vowel (21, from U+1161) and optionally a trailing consonant (27, U+11A8 to
    U+11C2); the 11172 blocks are laid out in lexicographic order from U+AC00. *)
From Coq Require Import List NArith.
Import ListNotations.
Open Scope N_scope.

Definition block (l v t : N) : N := 0xAC00 + (l * 21 + v) * 28 + t.

Definition valid_block (l v t : N) : Prop := l < 19 /\ v < 21 /\ t < 28.

Definition leading (l : N) : N := 0x1100 + l.
Definition vowel (v : N) : N := 0x1161 + v.
(** [t] = 1 .. 27; there is no trailing consonant number 0. *)
Definition trailing (t : N) : N := 0x11A7 + t.

Definition jamo_of (l v t : N) : list N :=
  match t with 0 => [leading l; vowel v] | _ => [leading l; vowel v; trailing t] end.

(** The pairs that compose, and to what. *)
Inductive composes : N -> N -> N -> Prop :=
| composes_lv l v : l < 19 -> v < 21 -> composes (leading l) (vowel v) (block l v 0)
| composes_lvt l v t : valid_block l v t -> 0 < t -> composes (block l v 0) (trailing t) (block l v t).

(** Left-to-right pairwise composition of a jamo sequence by a pair function. *)
Fixpoint compose_all (f : N -> N -> option N) (acc : N) (l : list N) : option N :=
  match l with
  | [] => Some acc
  | x :: l' => match f acc x with Some r => compose_all f r l' | None => None end
  end.

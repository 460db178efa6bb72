(** Model of unic/ucd/name/src/name.rs, of the comparison operators of
    unic/ucd/age/src/age.rs, and of unic/char/basics. *)
From Coq Require Import List NArith Bool String Ascii.
From Verif Require Import Base TableModel TableTypes TablesMisc UcdModel HangulModel TextModel.
Import ListNotations.
Open Scope N_scope.

(** Rust string literals. *)
Fixpoint lit (s : string) : str :=
  match s with EmptyString => [] | String a r => N_of_ascii a :: lit r end.
Arguments lit s%string.

(** name.rs:15-19 *)
Definition PREFIX_HANGUL_SYLLABLE : str := lit "HANGUL SYLLABLE ".
Definition PREFIX_CJK_UNIFIED_IDEOGRAPH : str := lit "CJK UNIFIED IDEOGRAPH-".
Definition PREFIX_TANGUT_IDEOGRAPH : str := lit "TANGUT IDEOGRAPH-".
Definition PREFIX_NUSHU_CHARACTER : str := lit "NUSHU CHARACTER-".
Definition PREFIX_CJK_COMPATIBILITY_IDEOGRAPH : str := lit "CJK COMPATIBILITY IDEOGRAPH-".

(** name.rs:31-50 *)
Inductive Name : Type :=
| NR1 (ch : N)
| NR2 (prefix : str) (ch : N)
| NR3 (pieces : list str).

Definition within (a b ch : N) : bool := (a <=? ch) && (ch <=? b).

(** name.rs:55-72; [NAMES.find] is a parameter, so that everything holds of any
    table of explicitly listed names. *)
Definition name_of (names : N -> option (list str)) (ch : N) : option Name :=
  if within 0xAC00 0xD7A3 ch then Some (NR1 ch)
  else if within 0x3400 0x4DB5 ch || within 0x4E00 0x9FEA ch || within 0x20000 0x2A6D6 ch
       || within 0x2A700 0x2B734 ch || within 0x2B740 0x2B81D ch || within 0x2B820 0x2CEA1 ch
       || within 0x2CEB0 0x2EBE0 ch
  then Some (NR2 PREFIX_CJK_UNIFIED_IDEOGRAPH ch)
  else if within 0x17000 0x187EC ch then Some (NR2 PREFIX_TANGUT_IDEOGRAPH ch)
  else if within 0x1B170 0x1B2FB ch then Some (NR2 PREFIX_NUSHU_CHARACTER ch)
  else if within 0xF900 0xFA6D ch || within 0xFA70 0xFAD9 ch || within 0x2F800 0x2FA1D ch
  then Some (NR2 PREFIX_CJK_COMPATIBILITY_IDEOGRAPH ch)
  else option_map NR3 (names ch).

(** name.rs:110-114 *)
Definition jamo_short_name (ch : N) : outcome str :=
  match lookup JAMO ch with Some s => Ret s | None => Panic end.

(** The callback of [decompose_syllable] run over the jamos. *)
Fixpoint jamo_names (jamos : list N) : outcome (list str) :=
  match jamos with
  | [] => Ret []
  | j :: js => obind (jamo_short_name j) (fun n => obind (jamo_names js) (fun ns => Ret (n :: ns)))
  end.
Definition syllable_jamo_names (ch : N) : outcome (list str) :=
  obind (decompose_syllable ch) jamo_names.

(** name.rs:106-108; [32 - leading_zeros] is the bit length. *)
Definition number_of_hex_digits (ch : N) : N := (N.size ch + 3) / 4.

Definition sum_bytes (ss : list str) : N := fold_right (fun s n => str_bytes s + n) 0 ss.

(** name.rs:75-102 *)
Definition name_len (n : Name) : outcome N :=
  match n with
  | NR1 ch => obind (syllable_jamo_names ch) (fun ns => Ret (str_bytes PREFIX_HANGUL_SYLLABLE + sum_bytes ns))
  | NR2 prefix ch => Ret (str_bytes prefix + number_of_hex_digits ch)
  | NR3 pieces => Ret (N.of_nat (List.length pieces) - 1 + sum_bytes pieces)
  end.

(** name.rs:134-166 [Display]; [split_first().unwrap()] panics on no pieces. *)
Definition name_fmt (n : Name) : outcome str :=
  match n with
  | NR1 ch => obind (syllable_jamo_names ch) (fun ns => Ret (PREFIX_HANGUL_SYLLABLE ++ List.concat ns))
  | NR2 prefix ch => Ret (prefix ++ fmt_upper_hex ch)
  | NR3 [] => Panic
  | NR3 (first :: rest) => Ret (first ++ flat_map (fun piece => 0x20 :: piece) rest)
  end.

(** name.rs:116-131: the array, padded with [None] *)
Definition collect_jamo_short_names (ch : N) : outcome (list (option str)) :=
  obind (syllable_jamo_names ch)
    (fun ns => Ret (map Some ns ++ repeat None (3 - List.length ns))).

(** [Option<&str>::cmp] and slice comparison (Rust core) *)
Definition opt_cmp (a b : option str) : comparison :=
  match a, b with
  | None, None => Eq
  | None, Some _ => Lt
  | Some _, None => Gt
  | Some x, Some y => str_cmp x y
  end.
Fixpoint slice_cmp {A} (cmp : A -> A -> comparison) (l m : list A) : comparison :=
  match l, m with
  | [], [] => Eq
  | [], _ => Lt
  | _, [] => Gt
  | a :: l', b :: m' => match cmp a b with Eq => slice_cmp cmp l' m' | o => o end
  end.

Definition first_piece (pieces : list str) : outcome str :=
  match pieces with [] => Panic | p :: _ => Ret p end.

Fixpoint str_eqb (s t : str) : bool :=
  match s, t with
  | [], [] => true
  | a :: s', b :: t' => (a =? b) && str_eqb s' t'
  | _, _ => false
  end.

(** name.rs:168-207 [Ord for Name] *)
Definition name_cmp (n m : Name) : outcome comparison :=
  match n, m with
  | NR1 ch, NR1 other_ch =>
      obind (collect_jamo_short_names ch) (fun jamos =>
      obind (collect_jamo_short_names other_ch) (fun other_jamos =>
      Ret (slice_cmp opt_cmp jamos other_jamos)))
  | NR1 _, NR2 other_prefix _ => Ret (str_cmp PREFIX_HANGUL_SYLLABLE other_prefix)
  | NR1 _, NR3 other_pieces =>
      obind (first_piece other_pieces) (fun first => Ret (str_cmp PREFIX_HANGUL_SYLLABLE first))
  | NR2 prefix _, NR1 _ => Ret (str_cmp prefix PREFIX_HANGUL_SYLLABLE)
  | NR2 prefix ch, NR2 other_prefix other_ch =>
      Ret (if str_eqb prefix other_prefix then ch ?= other_ch else str_cmp prefix other_prefix)
  | NR2 prefix _, NR3 other_pieces =>
      obind (first_piece other_pieces) (fun first => Ret (str_cmp prefix first))
  | NR3 pieces, NR1 _ =>
      obind (first_piece pieces) (fun first => Ret (str_cmp first PREFIX_HANGUL_SYLLABLE))
  | NR3 pieces, NR2 other_prefix _ =>
      obind (first_piece pieces) (fun first => Ret (str_cmp first other_prefix))
  | NR3 pieces, NR3 other_pieces =>
      obind (first_piece pieces) (fun _ => Ret (slice_cmp str_cmp pieces other_pieces))
  end.

(** * Ages *)
(** unic/common/src/version.rs:24: derived [Ord] of [UnicodeVersion] *)
Definition version_cmp (a b : UnicodeVersion) : comparison :=
  match major a ?= major b with
  | Eq => match minor a ?= minor b with Eq => micro a ?= micro b | o => o end
  | o => o
  end.

(** unic/ucd/age/src/age.rs:38-39: [Age(UnicodeVersion)] with derived [Ord] *)
Definition age_cmp (a b : UnicodeVersion) : comparison := version_cmp a b.

(** unic/ucd/age/src/age.rs:86-94: hand-written [PartialOrd] *)
Definition age_partial_cmp (a b : UnicodeVersion) : option comparison :=
  match version_cmp a b with Gt => Some Lt | Lt => Some Gt | Eq => Some Eq end.

(** The operators [<] and [>] go through [partial_cmp] (Rust core). *)
Definition age_lt (a b : UnicodeVersion) : bool :=
  match age_partial_cmp a b with Some Lt => true | _ => false end.
Definition age_gt (a b : UnicodeVersion) : bool :=
  match age_partial_cmp a b with Some Gt => true | _ => false end.
(** [Ord::max] goes through [cmp] (Rust core): the second argument on ties. *)
Definition age_max (a b : UnicodeVersion) : UnicodeVersion :=
  match age_cmp a b with Gt => a | _ => b end.

(** * unic/char/basics *)
(** notation.rs:31-35 *)
Definition unicode_notation (codepoint : N) : str := [0x55; 0x2B] ++ fmt_upper_hex_w 4 codepoint.

(** noncharacter.rs:27-49 *)
Definition is_noncharacter (c : N) : bool :=
  within 0xfdd0 0xfdef c || within 0xfffe 0xffff c || within 0x1fffe 0x1ffff c
  || within 0x2fffe 0x2ffff c || within 0x3fffe 0x3ffff c || within 0x4fffe 0x4ffff c
  || within 0x5fffe 0x5ffff c || within 0x6fffe 0x6ffff c || within 0x7fffe 0x7ffff c
  || within 0x8fffe 0x8ffff c || within 0x9fffe 0x9ffff c || within 0xafffe 0xaffff c
  || within 0xbfffe 0xbffff c || within 0xcfffe 0xcffff c || within 0xdfffe 0xdffff c
  || within 0xefffe 0xeffff c || within 0xffffe 0xfffff c || within 0x10fffe 0x10ffff c.

(** private_use.rs:27-37 *)
Definition is_private_use (c : N) : bool :=
  within 0xe000 0xf8ff c || within 0xf0000 0xffffd c || within 0x100000 0x10fffd c.

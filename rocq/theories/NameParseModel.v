(** Model of the [FromStr] implementations generated by [char_property!]. *)
From Coq Require Import List NArith Bool.
From Verif Require Import Base Enums.
Import ListNotations.
Open Scope N_scope.

(** [char::to_ascii_lowercase] / [u8::to_ascii_lowercase] (Rust core). *)
Definition to_ascii_lowercase (c : N) : N :=
  if (0x41 <=? c) && (c <=? 0x5A) then c + 32 else c.

Fixpoint str_eqb (s t : str) : bool :=
  match s, t with
  | [], [] => true
  | a :: s', b :: t' => (a =? b) && str_eqb s' t'
  | _, _ => false
  end.

(** [str::eq_ignore_ascii_case] (Rust core).  Core compares bytes; bytes of
    non-ASCII characters are not changed by lower-casing, so comparing
    characters is the same. *)
Fixpoint eq_ignore_ascii_case (s t : str) : bool :=
  match s, t with
  | [], [] => true
  | a :: s', b :: t' =>
      (to_ascii_lowercase a =? to_ascii_lowercase b) && eq_ignore_ascii_case s' t'
  | _, _ => false
  end.

Section FromStr.
  Context {V : Type}.

  (** one block of match arms: the first identifier accepted by [eqv] wins *)
  Fixpoint first_match (eqv : str -> str -> bool) (ids : list (str * V)) (s : str) : option V :=
    match ids with
    | [] => None
    | (id, v) :: ids' => if eqv s id then Some v else first_match eqv ids' s
    end.

  (** unic/char/property/src/macros.rs:269-284 [from_str]; [None] is [Err(())]. *)
  Definition from_str (ids : list (str * V)) (s : str) : option V :=
    match first_match str_eqb ids s with
    | Some v => Some v
    | None => first_match eq_ignore_ascii_case ids s
    end.
End FromStr.

(** unic/char/property/src/macros.rs:135-141: the identifiers of an enumerated
    property, short name then long name for each variant in order. *)
Definition enum_ids {V} (all : list V) (abbr long : V -> str) : list (str * V) :=
  flat_map (fun v => [(abbr v, v); (long v, v)]) all.

(** unic/char/property/src/macros.rs:216-228: the identifiers of a binary property. *)
Definition binary_ids : list (str * bool) :=
  [([0x79], true); ([0x79; 0x65; 0x73], true); ([0x74], true); ([0x74; 0x72; 0x75; 0x65], true);
   ([0x6e], false); ([0x6e; 0x6f], false); ([0x66], false); ([0x66; 0x61; 0x6c; 0x73; 0x65], false)].

Definition GC_from_str := from_str (enum_ids GC_all GC_abbr GC_long).
Definition BC_from_str := from_str (enum_ids BC_all BC_abbr BC_long).
Definition GCB_from_str := from_str (enum_ids GCB_all GCB_abbr GCB_long).
Definition WB_from_str := from_str (enum_ids WB_all WB_abbr WB_long).
Definition SB_from_str := from_str (enum_ids SB_all SB_abbr SB_long).
Definition DT_from_str := from_str (enum_ids DT_all DT_abbr DT_long).
Definition binary_from_str := from_str binary_ids.

(** What printed values should be. *)
From Coq Require Import List NArith.
From Verif Require Import Base TableTypes NameParseSpec RustSpec.
Import ListNotations.
Open Scope N_scope.

(** [values] lists every value, once. *)
Definition lists_all {V} (values : list V) : Prop := NoDup values /\ forall v, In v values.

(** Different values are shown differently, whatever the case of the letters. *)
Definition shown_apart {V} (show : V -> str) : Prop := forall v w, same_ci (show v) (show w) -> v = w.

(** A shown value is not read as another value. *)
Definition never_misread {V} (read : str -> option V) (show : V -> str) : Prop :=
  forall v w, read (show v) = Some w -> w = v.

(** A shown value is readable: it begins with a letter and is made of letters, spaces,
    hyphens, slashes and parentheses (no underscores). *)
Definition letter (c : N) : Prop := 0x41 <= c <= 0x5A \/ 0x61 <= c <= 0x7A.
Definition readable (s : str) : Prop :=
  (exists c r, s = c :: r /\ letter c) /\
  forall c, In c s -> letter c \/ c = 0x20 \/ c = 0x28 \/ c = 0x29 \/ c = 0x2D \/ c = 0x2F.

(** [n] as it is written in decimal: without leading zeros. *)
Definition written (s : str) (n : N) : Prop := decimal_of s n /\ forall r, s = 0x30 :: r -> r = [].

(** The fields of a version are [u8]. *)
Definition u8_version (v : UnicodeVersion) : Prop := major v <= 255 /\ minor v <= 255 /\ micro v <= 255.

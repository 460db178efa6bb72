(** Characters on which IDNA processing of canonically equivalent names may differ. *)
From Coq Require Import List NArith.
From Verif Require Import Base NormModel.
Import ListNotations.
Open Scope N_scope.

(** COMBINING GREEK YPOGEGRAMMENI, a combining character that maps to a letter *)
Definition ypogegrammeni : N := 0x345.
(** CJK compatibility ideographs that are disallowed, while the ideographs
    they decompose to are valid *)
Definition dropped : list N := [0x2F868; 0x2F874; 0x2F91F; 0x2F95F; 0x2F9BF].
(** GREEK QUESTION MARK and GREEK VARIA: disallowed as mapped characters, the
    characters they decompose to as ASCII characters *)
Definition other_kind : list N := [0x37E; 0x1FEF].

(** Canonically equivalent texts: the same NFD. *)
Definition equivalent (a b : str) : Prop := nfd a = nfd b.

(** Shared vocabulary: Unicode scalar values, panics, UTF-8 lengths. *)
From Coq Require Import List NArith ZArith Lia Bool ZifyBool ZifyNat ZifyN.
Import ListNotations.
Open Scope N_scope.

Ltac Zify.zify_post_hook ::= Z.div_mod_to_equations.

(** Rust [char]: a Unicode scalar value, i.e. any code point except the
    surrogates.  (Language definition, not code of /repo.) *)
Definition MAX_CHAR : N := 0x10FFFF.

Definition scalarb (c : N) : bool :=
  (c <? 0xD800) || ((0xE000 <=? c) && (c <=? 0x10FFFF)).

Definition scalar (c : N) : Prop :=
  c < 0xD800 \/ (0xE000 <= c /\ c <= 0x10FFFF).

Lemma scalarb_spec c : scalarb c = true <-> scalar c.
Proof. unfold scalarb, scalar. lia. Qed.

Definition is_ascii (c : N) : bool := c <? 128.

(** A Rust string seen through [chars()]. *)
Definition str := list N.

Definition wf_str (s : str) : Prop := Forall scalar s.

(** The outcome of an operation that may panic. *)
Inductive outcome (A : Type) : Type :=
| Ret (a : A)
| Panic.
Arguments Ret {A} a.
Arguments Panic {A}.

Definition obind {A B} (x : outcome A) (f : A -> outcome B) : outcome B :=
  match x with Ret a => f a | Panic => Panic end.

(** [char::len_utf8] (Rust core). *)
Definition utf8_len (c : N) : N :=
  if c <? 0x80 then 1 else if c <? 0x800 then 2 else if c <? 0x10000 then 3 else 4.

Definition str_bytes (s : str) : N := fold_right (fun c n => utf8_len c + n) 0 s.

Lemma utf8_len_pos c : 1 <= utf8_len c <= 4.
Proof. unfold utf8_len. repeat destruct (_ <? _); lia. Qed.

Lemma str_bytes_app s t : str_bytes (s ++ t) = str_bytes s + str_bytes t.
Proof. induction s; cbn [str_bytes fold_right app] in *; fold str_bytes in *; [reflexivity|].
  unfold str_bytes in *. cbn. rewrite IHs. lia. Qed.

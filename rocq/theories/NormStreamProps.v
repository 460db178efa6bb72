(** Property C93: the normalization iterators call by call. *)
From Coq Require Import List NArith.
From Verif Require Import Base NormModel NormStreamModel NormStream.
Import ListNotations.
Open Scope N_scope.

(** [n] calls of [next] give the first [n] characters of the form and then [None] for ever;
    whatever has been taken, [size_hint] promises no more than what is left, and [Display]
    shows exactly that. *)
Theorem C93_decompositions : forall (k : bool) s out hint n, (forall t, (hint t <= length t)%nat) ->
  (if k then nfkd s else nfd s) = Some out ->
  exists st, d_calls n (new_decompositions k s) = (map (nth_error out) (seq 0 n), st) /\
    (fst (d_size_hint hint st) <= length (skipn n out))%nat /\ snd (d_size_hint hint st) = None /\
    (forall fuel, (length out < fuel)%nat -> d_display fuel st = Some (skipn n out)).
Proof. exact d_stream. Qed.
Print Assumptions C93_decompositions.

(** the hint of [str::chars] is such a hint *)
Theorem C93_chars_hint : forall t, (chars_hint t <= length t)%nat.
Proof. exact chars_hint_honest. Qed.
Print Assumptions C93_chars_hint.

Theorem C93_recompositions : forall (k : bool) s out n fuel, (n_fuel s <= fuel)%nat ->
  (if k then nfkc s else nfc s) = Some out ->
  exists st, r_calls fuel n (new_recompositions k s) = Some (map (nth_error out) (seq 0 n), st) /\
    r_display fuel st = Some (skipn n out).
Proof. exact r_stream. Qed.
Print Assumptions C93_recompositions.

(** e with two marks in the wrong order, then a letter; the hint counts what is not yet read *)
Example C93_ex :
  fst (d_calls 6 (new_decompositions false [0xE9; 0x316; 0x62])) = [Some 0x65; Some 0x316; Some 0x301; Some 0x62; None; None] /\
  map (fun n => fst (d_size_hint chars_hint (snd (d_calls n (new_decompositions false [0xE9; 0x316; 0x62]))))) [0; 1; 2; 3; 4]%nat
    = [2; 1; 0; 0; 0]%nat /\
  option_map fst (r_calls 64 4 (new_recompositions false [0x65; 0x301; 0x316; 0x62])) = Some [Some 0xE9; Some 0x316; Some 0x62; None].
Proof. vm_compute. auto. Qed.

(** C108: the kinds of characters in a text do not depend on its spelling. *)
From Coq Require Import List NArith Bool.
From Verif Require Import Base UcdModel NormModel KindSpec Kind.
Import ListNotations.
Open Scope N_scope.

(** Whether some character of a text has the property: the same for canonically
    equivalent texts for eighteen properties, *)
Theorem C108_some_partial : forall s t, nfd s = nfd t -> Forall (fun P => existsb P s = existsb P t) some_same.
Proof. exact some_equivalent. Qed.
Print Assumptions C108_some_partial.
(** and different for some equivalent texts for each of the others. *)
Theorem C108_some_refuted : Forall (fun P => exists s t, nfd s = nfd t /\ existsb P s <> existsb P t) some_differs.
Proof. exact some_fails. Qed.
Print Assumptions C108_some_refuted.
(** A text and its forms NFD and NFC; here also where NFC drops U+11A7. *)
Theorem C108_some_normal_partial : forall s a, nfd s = Some a \/ nfc s = Some a ->
  Forall (fun P => existsb P s = existsb P a) some_same.
Proof. exact some_normal. Qed.
Print Assumptions C108_some_normal_partial.
Example C108_some_ex : nfd [0x2000; 0xC4] = nfd [0x2002; 0x41; 0x308] /\ existsb is_white_space [0x2000; 0xC4] = true /\
  existsb changes_when_lowercased [0x2000; 0xC4] = true /\ existsb is_numeric [0x2000; 0xC4] = false /\
  length some_same = 18%nat /\ length some_differs = 10%nat.
Proof. vm_compute. repeat split. Qed.

(** Whether every character of a text has the property. *)
Theorem C108_every_partial : forall s t, nfd s = nfd t -> Forall (fun P => forallb P s = forallb P t) every_same.
Proof. exact every_equivalent. Qed.
Print Assumptions C108_every_partial.
Theorem C108_every_refuted : Forall (fun P => exists s t, nfd s = nfd t /\ forallb P s <> forallb P t) every_differs.
Proof. exact every_fails. Qed.
Print Assumptions C108_every_refuted.
Theorem C108_every_normal_partial : forall s a, nfd s = Some a \/ nfc s = Some a ->
  Forall (fun P => forallb P s = forallb P a) every_same.
Proof. exact every_normal. Qed.
Print Assumptions C108_every_normal_partial.
Example C108_every_ex : nfd [0x344; 0x340] = nfd [0x308; 0x301; 0x300] /\ forallb is_combining_mark_table [0x344; 0x340] = true /\
  forallb is_white_space [0x344; 0x340] = false /\ forallb is_white_space [0x2001; 0x20] = true /\
  nfd [0x2001; 0x20] = nfd [0x2003; 0x20] /\ length every_same = 14%nat /\ length every_differs = 14%nat.
Proof. vm_compute. repeat split. Qed.

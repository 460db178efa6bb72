(** Property C91: identifiers and normalization. *)
From Coq Require Import List NArith Bool.
From Verif Require Import Base UcdModel NormModel IdentSpec IdentProofs.
Import ListNotations.
Open Scope N_scope.

(** XID identifiers stay identifiers under each of the four forms *)
Theorem C91_xid_closed : forall s, identifier is_xid_start is_xid_continue s -> forall a,
  (nfd s = Some a \/ nfkd s = Some a \/ nfc s = Some a \/ nfkc s = Some a) -> identifier is_xid_start is_xid_continue a.
Proof. exact xid_forms. Qed.
Print Assumptions C91_xid_closed.

(** canonically equivalent strings are identifiers together or not at all *)
Theorem C91_xid_equivalent : forall s t, nfd s = nfd t ->
  (identifier is_xid_start is_xid_continue s <-> identifier is_xid_start is_xid_continue t).
Proof. exact xid_equivalent. Qed.
Print Assumptions C91_xid_equivalent.
Theorem C91_id_equivalent : forall s t, nfd s = nfd t ->
  (identifier is_id_start is_id_continue s <-> identifier is_id_start is_id_continue t).
Proof. exact id_equivalent. Qed.
Print Assumptions C91_id_equivalent.
Theorem C91_xid_canonical : forall s a, nfd s = Some a \/ nfc s = Some a ->
  (identifier is_xid_start is_xid_continue s <-> identifier is_xid_start is_xid_continue a).
Proof. exact xid_canonical. Qed.
Print Assumptions C91_xid_canonical.
Theorem C91_id_canonical : forall s a, nfd s = Some a \/ nfc s = Some a ->
  (identifier is_id_start is_id_continue s <-> identifier is_id_start is_id_continue a).
Proof. exact id_canonical. Qed.
Print Assumptions C91_id_canonical.

(** the compatibility forms do not keep ID identifiers: that is what XID is for *)
Theorem C91_id_not_closed : exists s a, identifier is_id_start is_id_continue s /\ nfkc s = Some a /\
  ~ identifier is_id_start is_id_continue a.
Proof. exact id_compat_fails. Qed.
Print Assumptions C91_id_not_closed.

(** "fi" ligature, a letter with two marks in the wrong order, a Hangul syllable *)
Example C91_ex : identifier is_xid_start is_xid_continue [0xFB01; 0x61; 0x301; 0x316; 0xAC01] /\
  nfkc [0xFB01; 0x61; 0x301; 0x316; 0xAC01] = Some [0x66; 0x69; 0xE1; 0x316; 0xAC01] /\
  nfkd [0xFB01; 0x61; 0x301; 0x316; 0xAC01] = Some [0x66; 0x69; 0x61; 0x316; 0x301; 0x1100; 0x1161; 0x11A8] /\
  is_xid_start 0x301 = false /\ is_xid_continue 0x37A = false /\ is_id_continue 0x37A = true.
Proof.
  split; [constructor; [vm_compute; reflexivity|repeat (constructor; [vm_compute; reflexivity|]); constructor]|].
  vm_compute. auto 6.
Qed.

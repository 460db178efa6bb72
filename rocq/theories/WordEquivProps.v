(** Property C101: canonical equivalence and words. *)
From Coq Require Import List NArith Bool.
From Verif Require Import Base Enums TableTypes UcdModel BidiModel NormModel GraphSpec WordModel WordEquiv.
Import ListNotations.
Open Scope N_scope.

(** ** Normalizing any text normalizes each of its words *)
Theorem C101_nfd : forall s ps, word_bound_indices s = Ret (Some (indexed 0 ps)) ->
  exists d qs, nfd s = Some d /\ Forall2 (fun p q => nfd p = Some q) ps qs /\ word_bound_indices d = Ret (Some (indexed 0 qs)).
Proof. exact nfd_words. Qed.
Print Assumptions C101_nfd.
Theorem C101_nfc : forall s ps, word_bound_indices s = Ret (Some (indexed 0 ps)) ->
  exists d qs, nfc s = Some d /\ Forall2 (fun p q => nfc p = Some q) ps qs /\ word_bound_indices d = Ret (Some (indexed 0 qs)).
Proof. exact nfc_words. Qed.
Print Assumptions C101_nfc.

(** ** The words of equivalent texts are equivalent *)
Theorem C101_equivalent : forall s t ps qs, nfd s = nfd t ->
  word_bound_indices s = Ret (Some (indexed 0 ps)) -> word_bound_indices t = Ret (Some (indexed 0 qs)) ->
  Forall2 (fun p q => nfd p = nfd q) ps qs.
Proof. exact canonical_words. Qed.
Print Assumptions C101_equivalent.

(** ** Words picked by a filter that does not see the spelling *)
Theorem C101_filter : forall f s ws, words f s = Ret (Some ws) ->
  ((forall p q, nfd p = Some q -> f p = f q) ->
   exists d qs, nfd s = Some d /\ Forall2 (fun p q => nfd p = Some q) ws qs /\ words f d = Ret (Some qs)) /\
  ((forall p q, nfc p = Some q -> f p = f q) ->
   exists d qs, nfc s = Some d /\ Forall2 (fun p q => nfc p = Some q) ws qs /\ words f d = Ret (Some qs)).
Proof. exact filtered_words. Qed.
Print Assumptions C101_filter.

(** "cá", a space, a syllable with the U+11A7 that composition drops, and "3,2" with a mark *)
Example C101_ex :
  nfc [0x63; 0x61; 0x301; 0x20; 0x1100; 0x1161; 0x11A7; 0x2C; 0x33; 0x316; 0x2C; 0x32] =
    Some [0x63; 0xE1; 0x20; 0xAC00; 0x2C; 0x33; 0x316; 0x2C; 0x32] /\
  word_bound_indices [0x63; 0x61; 0x301; 0x20; 0x1100; 0x1161; 0x11A7; 0x2C; 0x33; 0x316; 0x2C; 0x32] =
    Ret (Some (indexed 0 [[0x63; 0x61; 0x301]; [0x20]; [0x1100; 0x1161; 0x11A7]; [0x2C]; [0x33; 0x316; 0x2C; 0x32]])) /\
  word_bound_indices [0x63; 0xE1; 0x20; 0xAC00; 0x2C; 0x33; 0x316; 0x2C; 0x32] =
    Ret (Some (indexed 0 [[0x63; 0xE1]; [0x20]; [0xAC00]; [0x2C]; [0x33; 0x316; 0x2C; 0x32]])).
Proof. vm_compute. repeat split; reflexivity. Qed.
(** a filter as in [C101_filter] *)
Example C101_filter_ex :
  (forall p q, nfd p = Some q -> has_letter p = has_letter q) /\ (forall p q, nfc p = Some q -> has_letter p = has_letter q) /\
  words has_letter [0x63; 0xE1; 0x20; 0xAC00; 0x2C; 0x33] = Ret (Some [[0x63; 0xE1]; [0xAC00]]).
Proof. split; [exact has_letter_nfd|]. split; [exact has_letter_nfc|]. vm_compute. reflexivity. Qed.

(** C87: the program [unic-inspector]. *)
From Coq Require Import String List NArith Bool.
From Verif Require Import Base CliSpec Enums UcdModel EchoModel EchoSpec InspectSpec InspectProofs.
Import ListNotations.
Open Scope list_scope.
Open Scope N_scope.

(** It ends without a panic and prints one row for every character, in order. *)
Theorem C87_rows : forall args t, given args t -> Forall scalar t ->
  exists rows, inspect args = Ret rows /\ Forall2 row_of t rows.
Proof. exact inspect_shows. Qed.
Print Assumptions C87_rows.

(** The name column tells characters apart, *)
Theorem C87_names_identify : forall c d s, shown_name c s -> shown_name d s -> c = d \/ s = ident "<none>".
Proof. exact shown_names_identify. Qed.
Print Assumptions C87_names_identify.

(** apart from those for which no name can be given. *)
Theorem C87_none_iff : forall c, shown_name c (ident "<none>") <->
  general_category c = GC_Unassigned \/ general_category c = GC_Surrogate \/ general_category c = GC_PrivateUse.
Proof. exact shown_none_iff. Qed.
Print Assumptions C87_none_iff.

Example C87_example : exists r1 r2 r3 r4, inspect [[0x41]; [0x7; 0xE000]] = Ret [r1; r2; r3; r4] /\
  r_code r1 = ident "U+0041" /\ r_name r1 = ident "LATIN CAPITAL LETTER A" /\ r_category r1 = ident "Uppercase_Letter" /\
  r_name r2 = ident "SPACE" /\
  r_code r3 = ident "U+0007" /\ r_name r3 = ident "BEL" /\ r_category r3 = ident "Control" /\
  r_name r4 = ident "<none>".
Proof. do 4 eexists. split; [vm_compute; reflexivity|]. vm_compute. auto 10. Qed.

(** C09: parsing property values. *)
From Coq Require Import List NArith.
From Verif Require Import Base Enums NameParseModel NameParseSpec NameParseProofs.
Import ListNotations.
Open Scope N_scope.

Theorem C09_general_category : parses_exactly GC_from_str GC_abbr GC_long.
Proof. exact GC_parses. Qed.
Print Assumptions C09_general_category.

Theorem C09_bidi_class : parses_exactly BC_from_str BC_abbr BC_long.
Proof. exact BC_parses. Qed.
Print Assumptions C09_bidi_class.

Theorem C09_grapheme_cluster_break : parses_exactly GCB_from_str GCB_abbr GCB_long.
Proof. exact GCB_parses. Qed.
Print Assumptions C09_grapheme_cluster_break.

Theorem C09_word_break : parses_exactly WB_from_str WB_abbr WB_long.
Proof. exact WB_parses. Qed.
Print Assumptions C09_word_break.

Theorem C09_sentence_break : parses_exactly SB_from_str SB_abbr SB_long.
Proof. exact SB_parses. Qed.
Print Assumptions C09_sentence_break.

Theorem C09_decomposition_type : parses_exactly DT_from_str DT_abbr DT_long.
Proof. exact DT_parses. Qed.
Print Assumptions C09_decomposition_type.

Theorem C09_binary : forall s b,
  binary_from_str s = Some b <->
  exists name, same_ci s name /\
    In name (if b then [[0x79]; [0x79; 0x65; 0x73]; [0x74]; [0x74; 0x72; 0x75; 0x65]]
             else [[0x6e]; [0x6e; 0x6f]; [0x66]; [0x66; 0x61; 0x6c; 0x73; 0x65]]).
Proof. exact binary_parses. Qed.
Print Assumptions C09_binary.

(** Printing a value's short or long name and parsing it gives the value back. *)
Theorem C09_names_round_trip : forall V (parse : str -> option V) abbr long,
  parses_exactly parse abbr long ->
  forall v, parse (abbr v) = Some v /\ parse (long v) = Some v.
Proof. exact (@names_round_trip). Qed.
Print Assumptions C09_names_round_trip.

(** "uppercase_LETTER" parses as Uppercase_Letter; "Lx" does not parse. *)
Example C09_example :
  GC_from_str [0x75;0x70;0x70;0x65;0x72;0x63;0x61;0x73;0x65;0x5f;0x4c;0x45;0x54;0x54;0x45;0x52]
    = Some GC_UppercaseLetter /\
  GC_from_str [0x4c; 0x78] = None /\
  binary_from_str [0x59; 0x45; 0x53] = Some true.
Proof. vm_compute. auto. Qed.

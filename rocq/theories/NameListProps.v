(** C07, C46, C47, C67, C71, C72: character names with the shipped table of
    listed names. *)
From Coq Require Import List NArith Bool String.
From Verif Require Import Base TableModel TableSpec Enums TablesNames UcdModel TextModel NameModel NameSpec NameProofs
  NameListModel NameListSpec NameListProofs NameOrder.
Import ListNotations.
Open Scope N_scope.

(** ** C07 *)
Theorem C07_listed_names_well_formed : wf_table NAMES.
Proof. exact wf_NAMES. Qed.
Print Assumptions C07_listed_names_well_formed.

Example C07_listed_example : listed_names 0x41 = Some [text "LATIN"; text "CAPITAL"; text "LETTER"; text "A"].
Proof. vm_compute. reflexivity. Qed.

(** ** C46 *)
Theorem C46_shipped : forall c n, Name_of c = Some n ->
  exists s, name_fmt n = Ret s /\ name_len n = Ret (str_bytes s).
Proof. exact names_length. Qed.
Print Assumptions C46_shipped.

Example C46_shipped_example : exists n, Name_of 0xF0A = Some n /\
  name_fmt n = Ret (text "TIBETAN MARK BKA- SHOG YIG MGO") /\ name_len n = Ret 30.
Proof. exists (NR3 (map (fun s => text s) ["TIBETAN"; "MARK"; "BKA-"; "SHOG"; "YIG"; "MGO"]%string)). vm_compute. auto. Qed.

(** ** C47 *)
(** Names with different first words compare as printed, *)
Theorem C47_first_words_partial : forall c d n m s t w v, Name_of c = Some n -> Name_of d = Some m ->
  name_fmt n = Ret s -> name_fmt m = Ret t -> first_word s w -> first_word t v -> w <> v ->
  exists o, name_cmp n m = Ret o /\ orders o s t.
Proof. exact first_words_order. Qed.
Print Assumptions C47_first_words_partial.

(** a listed name compares with a derived one as printed in all but exactly
    the [exceptional] cases, *)
Theorem C47_listed_derived_partial : forall c d ps m s t, Name_of c = Some (NR3 ps) -> Name_of d = Some m ->
  derived_name m -> name_fmt (NR3 ps) = Ret s -> name_fmt m = Ret t ->
  exists o, name_cmp (NR3 ps) m = Ret o /\ (orders o s t <-> ~ exceptional c s t).
Proof. exact listed_derived_order. Qed.
Print Assumptions C47_listed_derived_partial.

(** and two syllables do if, at the first jamo in which they differ, neither
    short name begins the other. *)
Theorem C47_hangul_partial : forall l v t l' v' t', valid l v t -> valid l' v' t' ->
  first_difference disjoint_words l v t l' v' t' ->
  exists o, name_cmp (NR1 (syl l v t)) (NR1 (syl l' v' t')) = Ret o /\
    orders o (syllable_name l v t) (syllable_name l' v' t').
Proof. exact hangul_order. Qed.
Print Assumptions C47_hangul_partial.

Example C47_listed_example : exists n m,
  Name_of 0x31C0 = Some n /\ name_fmt n = Ret (text "CJK STROKE T") /\
  Name_of 0xF900 = Some m /\ name_fmt m = Ret (text "CJK COMPATIBILITY IDEOGRAPH-F900") /\
  name_cmp n m = Ret Lt /\ lex_lt (text "CJK COMPATIBILITY IDEOGRAPH-F900") (text "CJK STROKE T").
Proof.
  exists (NR3 [text "CJK"; text "STROKE"; text "T"]), (NR2 PREFIX_CJK_COMPATIBILITY_IDEOGRAPH 0xF900).
  repeat (split; [vm_compute; reflexivity|]). do 4 apply lex_tail. apply lex_head. reflexivity.
Qed.

(** ** C67 *)
Theorem C67_shipped : forall a b c n m k,
  Name_of a = Some n -> Name_of b = Some m -> Name_of c = Some k ->
  (exists o, name_cmp n m = Ret o /\ name_cmp m n = Ret (CompOpp o) /\ (o = Eq <-> a = b)) /\
  (forall o, name_cmp n m = Ret o -> name_cmp m k = Ret o -> name_cmp n k = Ret o).
Proof. exact shipped_total_order. Qed.
Print Assumptions C67_shipped.

Example C67_shipped_example : exists n m, Name_of 0x41 = Some n /\ Name_of 0x4E00 = Some m /\ name_cmp n m = Ret Gt.
Proof.
  exists (NR3 [text "LATIN"; text "CAPITAL"; text "LETTER"; text "A"]), (NR2 PREFIX_CJK_UNIFIED_IDEOGRAPH 0x4E00).
  vm_compute. auto.
Qed.

(** ** C71 *)
Theorem C71_named_iff : forall c, (exists n, Name_of c = Some n) <-> graphic_or_format (general_category c).
Proof. exact named_iff. Qed.
Print Assumptions C71_named_iff.

Example C71_example : general_category 0xAD = GC_Format /\
  Name_of 0xAD = Some (NR3 [text "SOFT"; text "HYPHEN"]) /\
  general_category 0x9FEB = GC_Unassigned /\ Name_of 0x9FEB = None /\ Name_of 0x0A = None /\ Name_of 0xE000 = None.
Proof. vm_compute. auto 10. Qed.

(** ** C72 *)
Theorem C72_distinct : forall c d n m s, Name_of c = Some n -> Name_of d = Some m ->
  name_fmt n = Ret s -> name_fmt m = Ret s -> c = d.
Proof. exact names_distinct. Qed.
Print Assumptions C72_distinct.

Theorem C72_shape : forall c n s, Name_of c = Some n -> name_fmt n = Ret s -> proper_name s.
Proof. exact names_proper. Qed.
Print Assumptions C72_shape.

Example C72_example : exists n m, Name_of 0x116C = Some n /\ Name_of 0x1180 = Some m /\
  name_fmt n = Ret (text "HANGUL JUNGSEONG OE") /\ name_fmt m = Ret (text "HANGUL JUNGSEONG O-E").
Proof.
  exists (NR3 [text "HANGUL"; text "JUNGSEONG"; text "OE"]), (NR3 [text "HANGUL"; text "JUNGSEONG"; text "O-E"]).
  vm_compute. auto.
Qed.

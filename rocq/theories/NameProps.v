(** C46-C50, C66, C67: character names, ages, U+ notation, noncharacters and
    private use.  [names] is any table of explicitly listed names. *)
From Coq Require Import List NArith String.
From Verif Require Import Base TableTypes TextModel NameModel NameSpec NameProofs.
Import ListNotations.
Open Scope N_scope.

(** ** C46 *)
Theorem C46_length : forall names ch n, (forall c l, names c = Some l -> l <> []) -> name_of names ch = Some n ->
  exists s, name_fmt n = Ret s /\ name_len n = Ret (str_bytes s).
Proof. exact name_len_fmt. Qed.
Print Assumptions C46_length.

Example C46_example : (* U+D4DB HANGUL SYLLABLE PWILH *)
  name_of no_names 0xD4DB = Some (NR1 0xD4DB) /\
  name_fmt (NR1 0xD4DB) = Ret (text "HANGUL SYLLABLE PWILH") /\ name_len (NR1 0xD4DB) = Ret 21 /\
  name_fmt (NR3 [text "LATIN"; text "SMALL"]) = Ret (text "LATIN SMALL").
Proof. vm_compute. auto. Qed.

(** ** C47 *)
(** False: U+3400 compares less than U+20000, but their printed names compare
    the other way round; among Hangul syllables and between listed and derived
    names it also fails. *)
Theorem C47_order_refuted : exists c d n m s t o,
  name_of no_names c = Some n /\ name_of no_names d = Some m /\ name_fmt n = Ret s /\ name_fmt m = Ret t /\
  name_cmp n m = Ret o /\ ~ orders o s t.
Proof. exact name_order_refuted. Qed.
Print Assumptions C47_order_refuted.

Theorem C47_hangul_order_refuted : exists n m s t,
  name_of no_names 0xAC01 = Some n /\ name_of no_names 0xAC1C = Some m /\ name_fmt n = Ret s /\ name_fmt m = Ret t /\
  name_cmp n m = Ret Lt /\ lex_lt t s.
Proof. exact hangul_order_refuted. Qed.
Print Assumptions C47_hangul_order_refuted.

Theorem C47_listed_order_refuted : exists s t,
  name_fmt (NR3 [lit "TANGUT"; lit "ITERATION"; lit "MARK"]) = Ret s /\
  name_fmt (NR2 PREFIX_TANGUT_IDEOGRAPH 0x17000) = Ret t /\
  name_cmp (NR3 [lit "TANGUT"; lit "ITERATION"; lit "MARK"]) (NR2 PREFIX_TANGUT_IDEOGRAPH 0x17000) = Ret Lt /\
  lex_lt t s.
Proof. exact listed_order_refuted. Qed.
Print Assumptions C47_listed_order_refuted.

(** True for ideographs unless two code points of the same kind have different
    numbers of hexadecimal digits, *)
Theorem C47_ideographs_partial : forall names c d p q, derived_prefix p c -> derived_prefix q d ->
  (p = q -> (c < 0x10000 <-> d < 0x10000)) ->
  exists n m s t o, name_of names c = Some n /\ name_of names d = Some m /\ name_fmt n = Ret s /\ name_fmt m = Ret t /\
    name_cmp n m = Ret o /\ orders o s t.
Proof. exact ideograph_order. Qed.
Print Assumptions C47_ideographs_partial.

(** and for two listed names. *)
Theorem C47_listed_partial : forall ps qs, Forall plain_piece ps -> Forall plain_piece qs -> ps <> [] -> qs <> [] ->
  exists s t o, name_fmt (NR3 ps) = Ret s /\ name_fmt (NR3 qs) = Ret t /\ name_cmp (NR3 ps) (NR3 qs) = Ret o /\
    orders o s t.
Proof. exact listed_order. Qed.
Print Assumptions C47_listed_partial.

Example C47_example :
  derived_prefix PREFIX_CJK_UNIFIED_IDEOGRAPH 0x4E00 /\ derived_prefix PREFIX_TANGUT_IDEOGRAPH 0x17000 /\
  name_cmp (NR2 PREFIX_CJK_UNIFIED_IDEOGRAPH 0x4E00) (NR2 PREFIX_TANGUT_IDEOGRAPH 0x17000) = Ret Lt.
Proof.
  split; [left; split; [reflexivity|right; left; split; discriminate]|].
  split; [right; left; split; [reflexivity|split; discriminate]|]. vm_compute. reflexivity.
Qed.

(** ** C48 *)
(** The hand-written partial order is the documented one, *)
Theorem C48_partial_order_partial : forall a b,
  (age_gt a b = true <-> version_cmp a b = Lt) /\ (age_lt a b = true <-> version_cmp a b = Gt) /\
  (age_partial_cmp a b = Some Eq <-> a = b).
Proof. exact age_partial_reversed. Qed.
Print Assumptions C48_partial_order_partial.

(** but the derived total order contradicts it on every pair of different
    ages. *)
Theorem C48_orders_contradict_partial : forall a b, a <> b ->
  age_partial_cmp a b = Some (CompOpp (age_cmp a b)) /\ age_cmp a b <> Eq.
Proof. exact age_orders_contradict. Qed.
Print Assumptions C48_orders_contradict_partial.

Theorem C48_agree_refuted : exists a b, age_gt a b = true /\ age_cmp a b = Lt /\ age_max a b = b.
Proof. exact (ex_intro _ (mkVersion 1 1 0) (ex_intro _ (mkVersion 10 0 0) (conj eq_refl (conj eq_refl eq_refl)))). Qed.
Print Assumptions C48_agree_refuted.

Example C48_example : age_gt (mkVersion 1 1 0) (mkVersion 10 0 0) = true /\
  age_lt (mkVersion 1 1 0) (mkVersion 10 0 0) = false.
Proof. vm_compute. auto. Qed.

(** ** C49 *)
Theorem C49_shape : forall c, scalar c -> exists digits,
  unicode_notation c = 0x55 :: 0x2B :: digits /\ upper_hex digits c /\ (4 <= List.length digits <= 6)%nat /\
  ((4 < List.length digits)%nat -> exists d r, digits = d :: r /\ d <> 0x30).
Proof. exact notation_shape. Qed.
Print Assumptions C49_shape.

Theorem C49_injective : forall c d, scalar c -> scalar d -> unicode_notation c = unicode_notation d -> c = d.
Proof. exact notation_injective. Qed.
Print Assumptions C49_injective.

Example C49_example : unicode_notation 0xE9 = text "U+00E9" /\ unicode_notation 0x1F600 = text "U+1F600".
Proof. vm_compute. auto. Qed.

(** ** C50 *)
Theorem C50_noncharacter : forall c, scalar c -> (is_noncharacter c = true <-> noncharacter c).
Proof. exact noncharacter_iff. Qed.
Print Assumptions C50_noncharacter.

Theorem C50_sixty_six : List.length noncharacters = 66%nat /\ NoDup noncharacters /\
  forall c, scalar c -> (is_noncharacter c = true <-> In c noncharacters).
Proof. exact noncharacters_counted. Qed.
Print Assumptions C50_sixty_six.

Theorem C50_private_use : forall c, is_private_use c = true <-> private_use c.
Proof. exact private_use_iff. Qed.
Print Assumptions C50_private_use.

Theorem C50_never_both : forall c, scalar c -> ~ (is_noncharacter c = true /\ is_private_use c = true).
Proof. exact never_both. Qed.
Print Assumptions C50_never_both.

Example C50_example : is_noncharacter 0x10FFFF = true /\ is_private_use 0x10FFFD = true /\
  is_noncharacter 0x10FFFD = false /\ is_private_use 0x10FFFF = false.
Proof. vm_compute. auto. Qed.

(** ** C66 *)
Theorem C66_hangul : forall names l v t, valid l v t -> exists n,
  name_of names (0xAC00 + (N.of_nat l * 21 + N.of_nat v) * 28 + N.of_nat t) = Some n /\
  name_fmt n = Ret (syllable_name l v t).
Proof. exact hangul_names. Qed.
Print Assumptions C66_hangul.

Theorem C66_ideographs : forall names p ch, derived_prefix p ch -> exists n digits,
  name_of names ch = Some n /\ name_fmt n = Ret (p ++ digits) /\ upper_hex digits ch /\
  (4 <= List.length digits <= 6)%nat.
Proof. exact ideograph_names. Qed.
Print Assumptions C66_ideographs.

Theorem C66_distinct : forall names c d n m s,
  name_of names c = Some n -> name_of names d = Some m -> derived_name n -> derived_name m ->
  name_fmt n = Ret s -> name_fmt m = Ret s -> c = d.
Proof. exact derived_names_distinct. Qed.
Print Assumptions C66_distinct.

Example C66_example : valid 17 16 15 /\ syllable_name 17 16 15 = text "HANGUL SYLLABLE PWILH" /\
  derived_prefix PREFIX_NUSHU_CHARACTER 0x1B170 /\
  name_fmt (NR2 PREFIX_NUSHU_CHARACTER 0x1B170) = Ret (text "NUSHU CHARACTER-1B170").
Proof.
  split; [repeat constructor|]. split; [vm_compute; reflexivity|].
  split; [right; right; left; split; [reflexivity|split; discriminate]|vm_compute; reflexivity].
Qed.

(** ** C67 *)
Theorem C67_total_order : forall names a b c n m k,
  (forall c l, names c = Some l -> l <> [] /\ Forall plain_piece l) ->
  name_of names a = Some n -> name_of names b = Some m -> name_of names c = Some k ->
  (exists o, name_cmp n m = Ret o /\ name_cmp m n = Ret (CompOpp o) /\ (o = Eq <-> n = m)) /\
  (forall o, name_cmp n m = Ret o -> name_cmp m k = Ret o -> name_cmp n k = Ret o).
Proof. exact name_total_order. Qed.
Print Assumptions C67_total_order.

Example C67_example :
  name_cmp (NR1 0xAC00) (NR1 0xAC01) = Ret Lt /\ name_cmp (NR1 0xAC01) (NR1 0xAC00) = Ret Gt /\
  name_cmp (NR1 0xAC00) (NR3 [lit "LATIN"]) = Ret Lt.
Proof. vm_compute. auto. Qed.

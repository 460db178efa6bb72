(** C103: IDNA processing of canonically equivalent names. *)
From Coq Require Import List NArith Bool.
From Verif Require Import Base Enums TableTypes UcdModel NormModel PunyModel IdnaModel IdnaEquivSpec IdnaEquiv.
Import ListNotations.
Open Scope N_scope.

(** Canonically equivalent names give the same result (text and errors), in any build and
    with any options, unless U+0345 or one of seven characters occurs. *)
Theorem C103_same_partial : forall a b d f, wf_str a -> wf_str b -> equivalent a b -> nfd a = Some d -> ~ In ypogegrammeni d ->
  (forall c, In c a \/ In c b -> ~ In c other_kind /\ ~ In c dropped) ->
  to_unicode a f = to_unicode b f /\ forall checked, to_ascii checked a f = to_ascii checked b f.
Proof. exact same_results. Qed.
Print Assumptions C103_same_partial.
(** U-diaeresis k, composed and decomposed *)
Example C103_ex : equivalent [0xDC; 0x6B] [0x55; 0x308; 0x6B] /\
  to_ascii true [0xDC; 0x6B] (mkFlags true false true) = Ret (inl [0x78; 0x6E; 0x2D; 0x2D; 0x6B; 0x2D; 0x64; 0x68; 0x61]) /\
  to_ascii true [0x55; 0x308; 0x6B] (mkFlags true false true) = Ret (inl [0x78; 0x6E; 0x2D; 0x2D; 0x6B; 0x2D; 0x64; 0x68; 0x61]).
Proof. vm_compute. auto. Qed.

(** With U+037E and U+1FEF the names are still accepted alike, with the same result. *)
Theorem C103_accepted_partial : forall a b d f, wf_str a -> wf_str b -> equivalent a b -> nfd a = Some d -> ~ In ypogegrammeni d ->
  (forall c, In c a \/ In c b -> ~ In c dropped) -> forall t,
  (to_unicode a f = Ret (t, []) <-> to_unicode b f = Ret (t, [])) /\
  forall checked, (to_ascii checked a f = Ret (inl t) <-> to_ascii checked b f = Ret (inl t)).
Proof. exact accepted_alike. Qed.
Print Assumptions C103_accepted_partial.
Theorem C103_kind_refuted : forall c, In c other_kind -> exists b t e e', equivalent [c] b /\
  to_unicode [c] (mkFlags true false false) = Ret (t, e) /\ to_unicode b (mkFlags true false false) = Ret (t, e') /\ e <> e'.
Proof. exact kind_differs. Qed.
Print Assumptions C103_kind_refuted.

(** With the five disallowed ideographs the text is still the same, but not the errors. *)
Theorem C103_text_partial : forall a b d f t e, wf_str a -> wf_str b -> equivalent a b -> nfd a = Some d -> ~ In ypogegrammeni d ->
  to_unicode a f = Ret (t, e) -> exists e', to_unicode b f = Ret (t, e').
Proof. exact unicode_text_alike. Qed.
Print Assumptions C103_text_partial.
Theorem C103_accepted_refuted : forall c, In c dropped -> exists b t e, equivalent [c] b /\
  to_unicode [c] (mkFlags true false false) = Ret (t, e) /\ e <> [] /\ to_unicode b (mkFlags true false false) = Ret (t, []).
Proof. exact acceptance_differs. Qed.
Print Assumptions C103_accepted_refuted.

(** With U+0345, two different names. *)
Theorem C103_text_refuted : exists a b t u, equivalent a b /\ to_unicode a (mkFlags true false false) = Ret (t, []) /\
  to_unicode b (mkFlags true false false) = Ret (u, []) /\ t <> u.
Proof. exact texts_differ. Qed.
Print Assumptions C103_text_refuted.
(** alpha with ypogegrammeni and a grave accent below, in NFC and in NFD *)
Example C103_ex_text : nfc [0x3B1; 0x316; 0x345] = Some [0x1FB3; 0x316] /\
  to_unicode [0x1FB3; 0x316] (mkFlags true false false) = Ret ([0x3B1; 0x3B9; 0x316], []) /\
  to_unicode [0x3B1; 0x316; 0x345] (mkFlags true false false) = Ret ([0x3B1; 0x316; 0x3B9], []).
Proof. vm_compute. auto. Qed.

(** A name may be normalized before it is processed. *)
Theorem C103_nfd_partial : forall s d f, wf_str s -> nfd s = Some d -> ~ In ypogegrammeni d ->
  (forall c, In c s -> ~ In c other_kind /\ ~ In c dropped) ->
  to_unicode d f = to_unicode s f /\ forall checked, to_ascii checked d f = to_ascii checked s f.
Proof. exact nfd_results. Qed.
Print Assumptions C103_nfd_partial.
Theorem C103_nfc_partial : forall s d n f, wf_str s -> nfd s = Some d -> ~ In ypogegrammeni d -> nfc s = Some n ->
  (forall c, In c s -> ~ In c other_kind /\ ~ In c dropped) ->
  to_unicode n f = to_unicode s f /\ forall checked, to_ascii checked n f = to_ascii checked s f.
Proof. exact nfc_results. Qed.
Print Assumptions C103_nfc_partial.

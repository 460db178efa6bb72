(** C106: IDNA processing of compatibility equivalent names. *)
From Coq Require Import List NArith Bool.
From Verif Require Import Base Enums TableTypes UcdModel NormModel PunyModel IdnaModel IdnaEquivSpec IdnaCompatSpec IdnaCompat.
Import ListNotations.
Open Scope N_scope.

(** Compatibility equivalent names are accepted alike, with the same result, in any
    build and with any options, unless U+0345 or one of sixty characters occurs. *)
Theorem C106_accepted_partial : forall a b d f, wf_str a -> wf_str b -> compatible a b -> nfkd a = Some d -> ~ In ypogegrammeni d ->
  (forall c, In c a \/ In c b -> ~ In c apart) -> forall t,
  (to_unicode a f = Ret (t, []) <-> to_unicode b f = Ret (t, [])) /\
  forall checked, (to_ascii checked a f = Ret (inl t) <-> to_ascii checked b f = Ret (inl t)).
Proof. exact compatible_accepted. Qed.
Print Assumptions C106_accepted_partial.
(** fullwidth A, fi ligature, circled 2, fullwidth full stop, mathematical bold B *)
Example C106_ex : let a := [0xFF21; 0xFB01; 0x2461; 0xFF0E; 0x1D401] in let b := [0x41; 0x66; 0x69; 0x32; 0x2E; 0x42] in
  compatible a b /\ (forall c, In c a \/ In c b -> ~ In c apart) /\
  to_ascii true a (mkFlags true false true) = Ret (inl [0x61; 0x66; 0x69; 0x32; 0x2E; 0x62]) /\
  to_ascii true b (mkFlags true false true) = Ret (inl [0x61; 0x66; 0x69; 0x32; 0x2E; 0x62]).
Proof.
  split; [vm_compute; reflexivity|]. split; [|split; vm_compute; reflexivity].
  intros c Hc. assert (H : forallb (fun c => negb (existsb (N.eqb c) apart)) [0xFF21; 0xFB01; 0x2461; 0xFF0E; 0x1D401; 0x41; 0x66; 0x69; 0x32; 0x2E; 0x42] = true)
    by (vm_compute; reflexivity).
  rewrite forallb_forall in H. specialize (H c ltac:(cbn [In] in *; tauto)). intros Hi.
  apply negb_true_iff in H. assert (existsb (N.eqb c) apart = true) by (apply existsb_exists; exists c; split; [assumption|apply N.eqb_refl]). congruence.
Qed.
(** Each of the sixty characters makes a difference. *)
Theorem C106_accepted_refuted : forall c, In c apart -> exists b, compatible [0x30; c] b /\
  ~ (forall t, to_unicode [0x30; c] (mkFlags false false false) = Ret (t, []) <-> to_unicode b (mkFlags false false false) = Ret (t, [])).
Proof. exact acceptance_apart. Qed.
Print Assumptions C106_accepted_refuted.

(** The text of names that are not accepted is the same, too, unless a character with a
    full stop, a final sigma or a filler occurs. *)
Theorem C106_text_partial : forall a b d f t u e e', wf_str a -> wf_str b -> compatible a b -> nfkd a = Some d -> ~ In ypogegrammeni d ->
  (forall c, In c a \/ In c b -> ~ In c (dotted ++ sigmas ++ fillers)) ->
  to_unicode a f = Ret (t, e) -> to_unicode b f = Ret (u, e') -> t = u.
Proof. exact compatible_text. Qed.
Print Assumptions C106_text_partial.
(** U+2F868 and U+36FC: rejected and accepted, with the same text *)
Example C106_ex_text : compatible [0x2F868] [0x36FC] /\
  to_unicode [0x2F868] (mkFlags true false false) = Ret ([0x36FC], [DisallowedCharacter]) /\
  to_unicode [0x36FC] (mkFlags true false false) = Ret ([0x36FC], []).
Proof. vm_compute. auto. Qed.
Theorem C106_text_refuted : forall c, In c fillers -> exists b t u e e', compatible [c] b /\
  to_unicode [c] (mkFlags true false false) = Ret (t, e) /\ to_unicode b (mkFlags true false false) = Ret (u, e') /\ t <> u.
Proof. exact filler_text. Qed.
Print Assumptions C106_text_refuted.

(** A name may be brought into NFKD or NFKC before it is processed. *)
Theorem C106_nfkd_partial : forall s d f, wf_str s -> nfkd s = Some d -> ~ In ypogegrammeni d -> (forall c, In c s -> ~ In c apart) -> forall t,
  (to_unicode d f = Ret (t, []) <-> to_unicode s f = Ret (t, [])) /\
  forall checked, (to_ascii checked d f = Ret (inl t) <-> to_ascii checked s f = Ret (inl t)).
Proof. exact nfkd_accepted. Qed.
Print Assumptions C106_nfkd_partial.
Theorem C106_nfkc_partial : forall s d n f, wf_str s -> nfkd s = Some d -> ~ In ypogegrammeni d -> nfkc s = Some n -> (forall c, In c s -> ~ In c apart) -> forall t,
  (to_unicode n f = Ret (t, []) <-> to_unicode s f = Ret (t, [])) /\
  forall checked, (to_ascii checked n f = Ret (inl t) <-> to_ascii checked s f = Ret (inl t)).
Proof. exact nfkc_accepted. Qed.
Print Assumptions C106_nfkc_partial.

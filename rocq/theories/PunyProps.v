(** C19 to C22, C59, C60: Punycode.

    Throughout a text is a list of Unicode scalars with fewer than 2^32
    characters (the code keeps lengths in 32 bits).  [checked] says whether
    the program was compiled with overflow checks. *)
From Coq Require Import List NArith.
From Verif Require Import Base PunyModel PunySpec PunyProofs PunyDecode PunyEncode PunyLemmas.
Import ListNotations.
Open Scope N_scope.

(** ** C19 *)
(** The full statement is false: encoding can succeed although decoding then
    overflows. *)
Theorem C19_roundtrip_refuted : exists s p,
  Forall scalar s /\ encode true s = Ret (Some p) /\ encode false s = Ret (Some p) /\ decode p = Ret None.
Proof. exact roundtrip_refuted. Qed.
Print Assumptions C19_roundtrip_refuted.

(** Texts of at most 3855 characters always make the round trip. *)
Theorem C19_roundtrip_partial : forall s, Forall scalar s -> len s <= 3855 ->
  exists p, (forall checked, encode checked s = Ret (Some p)) /\ decode p = Ret (Some s).
Proof. exact roundtrip_short. Qed.
Print Assumptions C19_roundtrip_partial.

(** Of any length: decoding gives the text back or nothing, never another
    text; and exactly when the numbers of the decoder fit in 32 bits it gives
    it back. *)
Theorem C19_never_wrong_partial : forall checked s p, Forall scalar s -> len s <= U32_MAX -> len p <= U32_MAX ->
  encode checked s = Ret (Some p) -> decode p = Ret (Some s) \/ decode p = Ret None.
Proof. exact roundtrip_never_wrong. Qed.
Print Assumptions C19_never_wrong_partial.

Theorem C19_roundtrip_iff_partial : forall checked s p, Forall scalar s -> len s <= U32_MAX -> len p <= U32_MAX ->
  encode checked s = Ret (Some p) ->
  (decode p = Ret (Some s) <->
   exists tr, punycode digit_char s p tr /\ Forall (fun q => fst q + snd q <= U32_MAX) tr).
Proof. exact roundtrip_iff. Qed.
Print Assumptions C19_roundtrip_iff_partial.

Example C19_example : (* "bücher" *)
  encode true [0x62; 0xFC; 0x63; 0x68; 0x65; 0x72] = Ret (Some [0x62; 0x63; 0x68; 0x65; 0x72; 0x2D; 0x6B; 0x76; 0x61]) /\
  decode [0x62; 0x63; 0x68; 0x65; 0x72; 0x2D; 0x6B; 0x76; 0x61] = Ret (Some [0x62; 0xFC; 0x63; 0x68; 0x65; 0x72]).
Proof. split; vm_compute; reflexivity. Qed.

(** ** C20 *)
Theorem C20_total : forall s, Forall scalar s -> len s <= U32_MAX -> exists o, encode false s = Ret o.
Proof. exact encode_total. Qed.
Print Assumptions C20_total.

Theorem C20_shape : forall checked s p, Forall scalar s -> len s <= U32_MAX -> encode checked s = Ret (Some p) ->
  exists ext, Forall (fun c => 0x61 <= c <= 0x7A \/ 0x30 <= c <= 0x39) ext /\
    p = filter is_ascii s ++ (if existsb is_ascii s then [0x2D] else []) ++ ext.
Proof. exact encode_shape. Qed.
Print Assumptions C20_shape.

(** With overflow checks compiled in, the encoder can panic. *)
Theorem C20_no_panic_refuted : exists s, Forall scalar s /\ encode true s = Panic /\ encode false s = Ret None.
Proof. exact encode_panics. Qed.
Print Assumptions C20_no_panic_refuted.

(** It can only do so where the unchecked program reports overflow, and never
    on at most 3855 characters. *)
Theorem C20_checked_partial : forall s, Forall scalar s -> len s <= U32_MAX ->
  encode true s = encode false s \/ (encode true s = Panic /\ encode false s = Ret None).
Proof. exact encode_checked. Qed.
Print Assumptions C20_checked_partial.

Theorem C20_short_partial : forall s checked, Forall scalar s -> len s <= 3855 -> exists p, encode checked s = Ret (Some p).
Proof. exact encode_short. Qed.
Print Assumptions C20_short_partial.

Example C20_example : (* "é" has no ASCII part *)
  encode true [0xE9] = Ret (Some [0x39; 0x63; 0x61]) /\ encode true [0x61; 0x62] = Ret (Some [0x61; 0x62; 0x2D]).
Proof. split; vm_compute; reflexivity. Qed.

(** ** C21 *)
Theorem C21_decode_total : forall p, Forall scalar p -> len p <= U32_MAX ->
  exists o, decode p = Ret o /\ match o with Some s => Forall scalar s | None => True end.
Proof. exact decode_safe. Qed.
Print Assumptions C21_decode_total.

Example C21_example : (* "99999999" overflows; "b-" has no extension; "a-!" has a bad digit *)
  decode (repeat 0x39 8) = Ret None /\ decode [0x62; 0x2D] = Ret (Some [0x62]) /\ decode [0x61; 0x2D; 0x21] = Ret None.
Proof. repeat split; vm_compute; reflexivity. Qed.

(** ** C22 *)
Theorem C22_decode_injective : forall p p' s, Forall (fun c => c < 128) p -> Forall (fun c => c < 128) p' ->
  len p <= U32_MAX -> len p' <= U32_MAX -> decode p = Ret (Some s) -> decode p' = Ret (Some s) ->
  exists b cs cs', p = b ++ cs /\ p' = b ++ cs' /\ ~ In 0x2D cs /\ map lower cs = map lower cs'.
Proof. exact decode_inj. Qed.
Print Assumptions C22_decode_injective.

Example C22_example : (* "bcher-kva" and "bcher-KVA" *)
  decode [0x62; 0x63; 0x68; 0x65; 0x72; 0x2D; 0x4B; 0x56; 0x41] = Ret (Some [0x62; 0xFC; 0x63; 0x68; 0x65; 0x72]).
Proof. vm_compute. reflexivity. Qed.

(** ** C59 *)
Theorem C59_decode_rfc_partial : forall p s, Forall (fun c => c < 128) p -> len p <= U32_MAX ->
  (decode p = Ret (Some s) <->
   exists tr, punycode digit_char_ci s p tr /\ Forall (fun q => fst q + snd q <= U32_MAX) tr).
Proof. exact decode_iff. Qed.
Print Assumptions C59_decode_rfc_partial.

(** Missing above: inputs that are not ASCII.  RFC 3492 has no such Punycode
    strings, but the decoder copies the literal part unchecked. *)
Theorem C59_decode_rfc_refuted : exists p s, decode p = Ret (Some s) /\ forall tr, ~ punycode digit_char_ci s p tr.
Proof. exact (ex_intro _ [0xE9; 0x2D] (ex_intro _ [0xE9] decode_ascii_only)). Qed.
Print Assumptions C59_decode_rfc_refuted.

Example C59_example : exists tr, punycode digit_char_ci [0x62; 0xFC; 0x63] [0x62; 0x63; 0x2D; 0x58; 0x4B; 0x61] tr.
Proof. exact rfc_example. Qed.

(** ** C60 *)
Theorem C60_encode_rfc : forall s, Forall scalar s -> len s <= U32_MAX ->
  exists p tr, punycode digit_char s p tr /\
    (forall p' tr', punycode digit_char s p' tr' -> p' = p /\ tr' = tr) /\
    (Forall (fun q => snd q <= U32_MAX) tr -> forall checked, encode checked s = Ret (Some p)) /\
    (~ Forall (fun q => snd q <= U32_MAX) tr -> encode false s = Ret None).
Proof. exact encode_rfc. Qed.
Print Assumptions C60_encode_rfc.

(** The Punycode form determines the text. *)
Theorem C60_form_determines_text : forall s s' p tr tr',
  punycode digit_char_ci s p tr -> punycode digit_char_ci s' p tr' -> s = s'.
Proof. exact (fun s s' p tr tr' H H' => proj1 (punycode_inv s s' p tr tr' H H')). Qed.
Print Assumptions C60_form_determines_text.

Example C60_example : exists s p tr, encode true s = Ret (Some p) /\ punycode digit_char s p tr /\ length tr = 1%nat.
Proof. exact encode_rfc_example. Qed.

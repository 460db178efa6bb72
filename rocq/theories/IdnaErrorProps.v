(** IDNA names that are not accepted: C90. *)
From Coq Require Import List NArith ZArith Lia Bool.
From Verif Require Import Base Enums TableTypes UcdModel NormModel PunyModel IdnaModel IdnaSpec IdnaErrorSpec IdnaErrors.
Import ListNotations.
Open Scope N_scope.

(** The text returned by [to_unicode], with or without errors. *)
Theorem C90_text : forall d f u es, Forall scalar d -> to_unicode d f = Ret (u, es) ->
  exists us, unicode_labels false d us /\ labels_of u us.
Proof. intros d f u es Hd H. exact (proj1 (to_unicode_text d f u es Hd H)). Qed.
Print Assumptions C90_text.

(** There is exactly one such text, so it does not depend on the flags. *)
Theorem C90_text_unique : forall d us us', unicode_labels false d us -> unicode_labels false d us' -> us = us'.
Proof. exact (unicode_labels_fun false). Qed.
Print Assumptions C90_text_unique.
Theorem C90_flags : forall d f f' u es u' es', Forall scalar d ->
  to_unicode d f = Ret (u, es) -> to_unicode d f' = Ret (u', es') -> u = u'.
Proof. exact to_unicode_flags. Qed.
Print Assumptions C90_flags.

(** Each error is reported exactly for its reason. *)
Theorem C90_errors : forall d f u es, Forall scalar d -> to_unicode d f = Ret (u, es) ->
  forall e, In e es <-> name_error (use_std3 f) false d e.
Proof. intros d f u es Hd H. exact (proj2 (to_unicode_text d f u es Hd H)). Qed.
Print Assumptions C90_errors.

(** The errors of [to_ascii]: those of the processing (now possibly
    transitional), a label that cannot be encoded, and the DNS lengths of the
    resulting text [a]. *)
Theorem C90_ascii_errors : forall checked d f es, Forall scalar d -> to_ascii checked d f = Ret (inr es) ->
  es <> [] /\ exists us xs a, unicode_labels (transitional f) d us /\ Forall2 (ascii_text checked) us xs /\ labels_of a xs /\
  forall e, In e es <-> name_error (use_std3 f) (transitional f) d e \/
    (e = PunycodeError /\ exists u, In u us /\ ~ Forall (fun c => c < 128) u /\ encode checked u = Ret None) \/
    (verify_dns f = true /\ dns_error a e).
Proof. exact to_ascii_errors. Qed.
Print Assumptions C90_ascii_errors.

(** The standard's text, unless one of two errors is reported. *)
Theorem C90_standard_partial : forall d f u es, Forall scalar d -> to_unicode d f = Ret (u, es) ->
  ~ In PunycodeError es -> ~ In DisallowedMappedInStd3 es -> std_text (use_std3 f) false d u.
Proof. exact to_unicode_std. Qed.
Print Assumptions C90_standard_partial.

(** "xn--é" is dropped, though the standard leaves it as it is. *)
Theorem C90_undecodable_refuted : exists d f u es, Forall scalar d /\ to_unicode d f = Ret (u, es) /\
  ~ std_text (use_std3 f) false d u.
Proof. exact to_unicode_std_puny. Qed.
Print Assumptions C90_undecodable_refuted.

(** U+2474 is replaced by "(1)" under the STD3 rules, though the standard
    leaves a character disallowed by them as it is. *)
Theorem C90_std3_refuted : exists d f u es, Forall scalar d /\ to_unicode d f = Ret (u, es) /\
  ~ In PunycodeError es /\ ~ std_text (use_std3 f) false d u.
Proof. exact to_unicode_std_std3. Qed.
Print Assumptions C90_std3_refuted.

(** "A", a disallowed U+0080, "." and a hyphen: the text is "a", U+0080, ".-". *)
Example C90_ex : to_unicode [0x41; 0x80; 0x2E; 0x2D] (mkFlags true false true) =
    Ret ([0x61; 0x80; 0x2E; 0x2D], [DisallowedCharacter; ValidityCriteria; ValidityCriteria]) /\
  to_ascii true [0x41; 0x80; 0x2E] (mkFlags true false true) = Ret (inr [DisallowedCharacter; ValidityCriteria]) /\
  to_ascii true [0x61; 0x2E; 0x2E; 0x62] (mkFlags true false true) = Ret (inr [TooShortForDns]).
Proof. split; [vm_compute; reflexivity|]. split; vm_compute; reflexivity. Qed.
Example C90_ex_undecodable : to_unicode [0x78; 0x6E; 0x2D; 0x2D; 0xE9; 0x2E; 0x61] (mkFlags true false true) = Ret ([0x2E; 0x61], [PunycodeError]).
Proof. vm_compute; reflexivity. Qed.

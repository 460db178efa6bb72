(** Property C102: canonical equivalence and directions. *)
From Coq Require Import List NArith Bool Permutation.
From Verif Require Import Base Enums TableTypes UcdModel NormModel BidiModel BidiSpec BidiEquiv.
Import ListNotations.
Open Scope N_scope.

(** ** Paragraphs *)
Theorem C102_paragraphs : forall s t ps qs, nfd s = nfd t -> paragraphs_of s ps -> paragraphs_of t qs ->
  Forall2 (fun p q => nfd p = nfd q) ps qs.
Proof. exact canonical_paragraphs. Qed.
Print Assumptions C102_paragraphs.
Theorem C102_paragraphs_nfd : forall s ps, paragraphs_of s ps ->
  exists d qs, nfd s = Some d /\ Forall2 (fun p q => nfd p = Some q) ps qs /\ paragraphs_of d qs.
Proof. exact nfd_paragraphs. Qed.
Print Assumptions C102_paragraphs_nfd.
Theorem C102_paragraphs_nfc : forall s ps, paragraphs_of s ps ->
  exists d qs, nfc s = Some d /\ Forall2 (fun p q => nfc p = Some q) ps qs /\ paragraphs_of d qs.
Proof. exact nfc_paragraphs. Qed.
Print Assumptions C102_paragraphs_nfc.

(** ** Paragraph levels *)
Theorem C102_paragraph_levels : forall s t d b b', nfd s = nfd t -> bidi_new s d = Ret b -> bidi_new t d = Ret b' ->
  map p_level (b_paras b) = map p_level (b_paras b').
Proof. exact canonical_levels. Qed.
Print Assumptions C102_paragraph_levels.
Theorem C102_paragraph_levels_nfc : forall s t d b b', nfc s = Some t -> bidi_new s d = Ret b -> bidi_new t d = Ret b' ->
  map p_level (b_paras b') = map p_level (b_paras b).
Proof. exact nfc_levels. Qed.
Print Assumptions C102_paragraph_levels_nfc.

(** ** Tests on strings *)
Theorem C102_has_rtl_and_explicit : forall s t, nfd s = nfd t -> has_rtl s = has_rtl t /\ has_bidi_explicit s = has_bidi_explicit t.
Proof. exact equivalent_classes. Qed.
Print Assumptions C102_has_rtl_and_explicit.
Theorem C102_forms : forall s d, nfd s = Some d \/ nfc s = Some d -> has_rtl d = has_rtl s /\ has_bidi_explicit d = has_bidi_explicit s.
Proof. exact forms_classes. Qed.
Print Assumptions C102_forms.

(** ** Resolved levels differ: alef, a Hangul tone mark (left-to-right) and a cedilla (taking the direction before it), in either order *)
Theorem C102_levels_refuted : exists s t b b', nfd s = nfd t /\ bidi_new s None = Ret b /\ bidi_new t None = Ret b' /\
  Permutation s t /\ ~ Permutation (b_levels b) (b_levels b').
Proof.
  exists [0x5D0; 0x302E; 0x327], [0x5D0; 0x327; 0x302E].
  eexists. eexists. split; [vm_compute; reflexivity|]. split; [vm_compute; reflexivity|]. split; [vm_compute; reflexivity|]. split; [constructor; constructor|].
  intros P. apply (Permutation_count_occ N.eq_dec) with (x := 1) in P. vm_compute in P. discriminate.
Qed.
Print Assumptions C102_levels_refuted.

(** they agree at least where nothing is right-to-left *)
Theorem C102_left_to_right_partial : forall s t, nfd s = nfd t ->
  (forall c, In c s -> ~ In (bidi_class c) [cR; cAL; cAN; cLRE; cLRO; cRLE; cRLO; cPDF; cLRI; cRLI; cFSI; cPDI]) ->
  exists b b', bidi_new s None = Ret b /\ bidi_new t None = Ret b' /\
    (forall i, level_at (b_levels b) i = 0) /\ (forall i, level_at (b_levels b') i = 0).
Proof. exact equivalent_ltr_levels. Qed.
Print Assumptions C102_left_to_right_partial.

(** two paragraphs, the first beginning with a composed letter, the second with marks and alef *)
Example C102_ex : exists b b', nfd [0xE9; 0x5D0; 0xA; 0x301; 0x316; 0xFB2E; 0x61] = Some [0x65; 0x301; 0x5D0; 0xA; 0x316; 0x301; 0x5D0; 0x5B7; 0x61] /\
  bidi_new [0xE9; 0x5D0; 0xA; 0x301; 0x316; 0xFB2E; 0x61] None = Ret b /\
  bidi_new [0x65; 0x301; 0x5D0; 0xA; 0x316; 0x301; 0x5D0; 0x5B7; 0x61] None = Ret b' /\
  map p_level (b_paras b) = [0; 1] /\ map p_level (b_paras b') = [0; 1].
Proof. eexists. eexists. split; [vm_compute; reflexivity|]. split; [vm_compute; reflexivity|]. split; [vm_compute; reflexivity|]. split; vm_compute; reflexivity. Qed.
Example C102_ex_paragraphs : paragraphs_of [0xE9; 0xA; 0x301] [[0xE9; 0xA]; [0x301]].
Proof.
  split; [reflexivity|]. split; [intros p [<-|[<-|[]]]; discriminate|]. split.
  - intros p a c b [<-|[<-|[]]] E B.
    + destruct a as [|? [|? [|? ?]]]; try discriminate E; injection E as; subst; [vm_compute in B; discriminate B|reflexivity].
    + destruct a as [|? [|? ?]]; try discriminate E; injection E as; subst; reflexivity.
  - intros [|? [|? [|? ?]]] p rest E N; try discriminate E; injection E as; subst; [|contradiction]. exists [0xE9], 0xA. split; [reflexivity|vm_compute; reflexivity].
Qed.

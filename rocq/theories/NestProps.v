(** Properties C104 and C105: clusters, words and paragraphs within each other. *)
From Coq Require Import List NArith Bool Arith.
From Verif Require Import Base RangeModel Enums TableTypes UcdModel BidiModel BidiSpec GraphModel GraphSpec WordModel WordSpec NestSpec WordCuts Nest.
Import ListNotations.
Open Scope nat_scope.

(** ** C104 *)
(** The full statement: a text cut into words and the words into clusters gives
    the clusters of the text.  It is false, see the refutations.  In the rules,
    a word boundary is a cluster boundary, with these exceptions: *)
Theorem C104_rules : forall ext pre post, word_boundary pre post = true -> grapheme_boundary ext pre post = true \/
  ext = true /\ (exists p z, pre = p ++ [z] /\ prepended z) \/
  ext = true /\ (exists y q, post = y :: q /\ sara_am y) \/
  marked_flag pre /\ (exists y q, post = y :: q /\ indicator y).
Proof. exact rules_nest. Qed.
Print Assumptions C104_rules.

(** the iterator cuts only at boundaries of the rules, also where it joins what the rules do not *)
Theorem C104_cuts_partial : forall s ps qs, no_glued_flag s -> word_bound_indices s = Ret (Some (indexed 0 (ps ++ qs))) ->
  word_boundary (concat ps) (concat qs) = true.
Proof. exact word_cuts. Qed.
Print Assumptions C104_cuts_partial.
(** a flag half, ZWJ, heart and a flag: the heart is forgotten and the flag is cut *)
Theorem C104_cuts_refuted : exists s ps qs, word_bound_indices s = Ret (Some (indexed 0 (ps ++ qs))) /\ word_boundary (concat ps) (concat qs) = false.
Proof. exact glued_cut. Qed.
Print Assumptions C104_cuts_refuted.

(** cut into words, then into clusters *)
Theorem C104_forward_partial : forall ext s, (ext = true -> no_hanging s) -> no_marked_flag s -> refines words_fwd (clusters ext) s.
Proof. exact clusters_in_words. Qed.
Print Assumptions C104_forward_partial.
Theorem C104_backward_partial : forall ext s, (ext = true -> no_hanging s) -> no_marked_flag s -> no_zwj_base_modifier s -> refines words_bwd (clusters ext) s.
Proof. exact clusters_in_words_back. Qed.
Print Assumptions C104_backward_partial.

(** Thai "kam": the vowel is in the cluster of the consonant, but the two are two words *)
Theorem C104_vowel_refuted : exists s, no_marked_flag s /\ ~ refines words_fwd (clusters true) s /\ ~ refines words_bwd (clusters true) s.
Proof. exact vowel_cut. Qed.
Print Assumptions C104_vowel_refuted.
(** Arabic number sign and space *)
Theorem C104_sign_refuted : exists s, no_marked_flag s /\ ~ In 0x0E33%N s /\ ~ In 0x0EB3%N s /\ ~ refines words_fwd (clusters true) s /\ ~ refines words_bwd (clusters true) s.
Proof. exact sign_cut. Qed.
Print Assumptions C104_sign_refuted.
(** a flag half with an accent before a flag *)
Theorem C104_flag_refuted : forall ext, exists s, no_hanging s /\ ~ refines words_fwd (clusters ext) s /\ ~ refines words_bwd (clusters ext) s.
Proof. exact flag_cut. Qed.
Print Assumptions C104_flag_refuted.

(** a text to which C104_forward_partial applies, with marks, a flag, Hangul jamo and two skin tones: words, clusters *)
Definition C104_text : str := [0x61; 0x301; 0x62; 0x20; 0x1F1FA; 0x1F1F8; 0x1100; 0x1161; 0x1F385; 0x1F3FB; 0x1F3FC]%N.
Example C104_ex :
  word_bound_indices C104_text = Ret (Some (indexed 0 [[0x61; 0x301; 0x62]; [0x20]; [0x1F1FA; 0x1F1F8]; [0x1100; 0x1161]; [0x1F385; 0x1F3FB; 0x1F3FC]]%N)) /\
  grapheme_indices true C104_text = Ret (Some (indexed 0 [[0x61; 0x301]; [0x62]; [0x20]; [0x1F1FA; 0x1F1F8]; [0x1100; 0x1161]; [0x1F385; 0x1F3FB]; [0x1F3FC]]%N)) /\
  grapheme_indices true [0x61; 0x301; 0x62]%N = Ret (Some (indexed 0 [[0x61; 0x301]; [0x62]]%N)).
Proof. vm_compute. auto. Qed.
Example C104_refuted_ex :
  word_bound_indices [0x0E01; 0x0E33]%N = Ret (Some [(0, [0x0E01%N]); (3, [0x0E33%N])]) /\
  grapheme_indices true [0x0E01; 0x0E33]%N = Ret (Some [(0, [0x0E01; 0x0E33]%N)]).
Proof. vm_compute. auto. Qed.

(** ** C105 *)
(** The full statement: a text cut into paragraphs, and these into clusters or
    words, gives the clusters or words of the text.  False for CR LF, which
    are two paragraph separators but one cluster and one word, and for words
    for the information separators with marks. *)
Theorem C105_clusters_partial : forall ext s, no_line_end s -> refines paragraphs_of (clusters ext) s.
Proof. exact clusters_in_paragraphs. Qed.
Print Assumptions C105_clusters_partial.
Theorem C105_words_partial : forall s, no_line_end s -> no_marked_separator s -> no_double_modifier s -> glue_alone s -> refines paragraphs_of words_fwd s.
Proof. exact words_in_paragraphs. Qed.
Print Assumptions C105_words_partial.
Theorem C105_words_back_partial : forall s, no_line_end s -> no_marked_separator s -> no_zwj_base_modifier s -> refines paragraphs_of words_bwd s.
Proof. exact words_in_paragraphs_back. Qed.
Print Assumptions C105_words_back_partial.
Theorem C105_line_end_refuted : exists s, no_marked_separator s /\ (forall ext, ~ refines paragraphs_of (clusters ext) s) /\
  ~ refines paragraphs_of words_fwd s /\ ~ refines paragraphs_of words_bwd s.
Proof. exact line_end_cut. Qed.
Print Assumptions C105_line_end_refuted.
Theorem C105_separator_refuted : exists s, no_line_end s /\ ~ refines paragraphs_of words_fwd s /\ ~ refines paragraphs_of words_bwd s.
Proof. exact separator_cut. Qed.
Print Assumptions C105_separator_refuted.

(** "a" LF U+0301: the accent does not cross; CR LF are two paragraphs in the code as well *)
Example C105_ex :
  grapheme_indices true [0x61; 0xA; 0x301]%N = Ret (Some (indexed 0 [[0x61]; [0xA]; [0x301]]%N)) /\
  word_bound_indices [0x61; 0xA; 0x301]%N = Ret (Some (indexed 0 [[0x61]; [0xA]; [0x301]]%N)) /\
  (match bidi_new [0x61; 0xA; 0x301]%N None with Ret b => map (fun p => (p_start p, p_end p)) (b_paras b) | Panic => [] end) = [(0, 2); (2, 4)] /\
  (match bidi_new [0xD; 0xA]%N None with Ret b => map (fun p => (p_start p, p_end p)) (b_paras b) | Panic => [] end) = [(0, 1); (1, 2)].
Proof. vm_compute. auto. Qed.

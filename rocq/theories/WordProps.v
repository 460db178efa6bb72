(** Properties C42-C44: words. *)
From Coq Require Import List NArith Bool Arith.
From Verif Require Import Base Enums UcdModel BidiModel GraphSpec WordModel WordSpec WordIter WordWitness.
Import ListNotations.
Open Scope nat_scope.

(** ** C42 *)
Theorem C42_forward : forall s, exists ps,
  word_bound_indices s = Ret (Some (indexed 0 ps)) /\ concat ps = s /\ Forall (fun p => p <> []) ps.
Proof. exact words_lossless. Qed.
Print Assumptions C42_forward.
Theorem C42_backward : forall s, exists ps,
  word_bound_indices_rev s = Ret (Some (rev (indexed 0 ps))) /\ concat ps = s /\ Forall (fun p => p <> []) ps.
Proof. exact words_lossless_rev. Qed.
Print Assumptions C42_backward.

(** calls of [next] and [next_back] in any order cut up the string, and
    [as_str] and [size_hint] are right about what is left *)
Theorem C42_both_ends : forall s asks, exists ps w, concat ps = s /\ Forall (fun p => p <> []) ps /\
  run_word_asks (word_bounds_new s) asks = Ret (w, deque (indexed 0 ps) asks) /\
  let left := deque_rest (indexed 0 ps) asks in
  word_bounds_as_str w = concat (map snd left) /\
  word_bounds_size_hint w = (Nat.min (bytes (concat (map snd left))) 1, bytes (concat (map snd left))).
Proof. exact words_any_order. Qed.
Print Assumptions C42_both_ends.
(** the number of pieces left is between the two numbers of [size_hint] *)
Theorem C42_size_hint : forall w ps, concat ps = word_bounds_as_str w -> Forall (fun p => p <> []) ps ->
  let (lo, hi) := word_bounds_size_hint w in lo <= length ps /\ length ps <= hi.
Proof. exact size_hint_bounds. Qed.
Print Assumptions C42_size_hint.

(** [Words] gives the pieces that pass the filter, in order *)
Theorem C42_words : forall f s, exists ps, concat ps = s /\ Forall (fun p => p <> []) ps /\
  word_bound_indices s = Ret (Some (indexed 0 ps)) /\ words f s = Ret (Some (filter f ps)).
Proof. exact words_filter. Qed.
Print Assumptions C42_words.

(** "can't, 3.4a." CR LF: the full stop after a is looked at, and given back *)
Definition C42_text : str := [0x63; 0x61; 0x6E; 0x27; 0x74; 0x2C; 0x20; 0x33; 0x2E; 0x34; 0x61; 0x2E; 0xD; 0xA]%N.
Example C42_ex : word_bound_indices C42_text =
  Ret (Some [(0, [0x63; 0x61; 0x6E; 0x27; 0x74]%N); (5, [0x2C]%N); (6, [0x20]%N); (7, [0x33; 0x2E; 0x34; 0x61]%N); (11, [0x2E]%N); (12, [0xD; 0xA]%N)]).
Proof. vm_compute. reflexivity. Qed.
Example C42_both_ends_ex :
  match run_word_asks (word_bounds_new C42_text) [false; true; false; false; true; true; true] with
  | Ret (_, l) => l = [Some (12, [0xD; 0xA]%N); Some (0, [0x63; 0x61; 0x6E; 0x27; 0x74]%N); Some (11, [0x2E]%N); Some (7, [0x33; 0x2E; 0x34; 0x61]%N);
                       Some (5, [0x2C]%N); Some (6, [0x20]%N); None]
  | Panic => False
  end.
Proof. vm_compute. reflexivity. Qed.
Example C42_words_ex : words (existsb (fun c => N.leb 0x61 c)) C42_text = Ret (Some [[0x63; 0x61; 0x6E; 0x27; 0x74]%N; [0x33; 0x2E; 0x34; 0x61]%N]).
Proof. vm_compute. reflexivity. Qed.

(** ** C43 *)
(** The full statement: for every string the pieces are those between the
    boundaries of the rules.  It is false, see the refutations below.  What
    holds: *)
Theorem C43_forward_partial : forall s, no_double_modifier s -> glue_alone s ->
  exists ps, segments word_boundary s ps /\ word_bound_indices s = Ret (Some (indexed 0 ps)).
Proof. exact words_forward. Qed.
Print Assumptions C43_forward_partial.
Theorem C43_backward_partial : forall s, no_zwj_base_modifier s ->
  exists ps, segments word_boundary s ps /\ word_bound_indices_rev s = Ret (Some (rev (indexed 0 ps))).
Proof. exact words_backward. Qed.
Print Assumptions C43_backward_partial.

(** the rules alone on the text of C42, with a thumbs up and its skin tone, and a ZWJ sequence *)
Example C43_ex :
  map (fun n => word_boundary (firstn n C42_text) (skipn n C42_text)) (seq 0 15) =
    [true; false; false; false; false; true; true; true; false; false; false; true; true; false; true] /\
  word_boundary [0x1F44D; 0xFE0F]%N [0x1F3FB]%N = false /\
  word_boundary [0x61; 0x200D]%N [0x2764]%N = false /\
  word_boundary [0x61; 0x200D; 0x2764]%N [0x61]%N = true /\
  word_boundary [0x5D0; 0x308]%N [0x22; 0x308; 0x5D0]%N = false /\
  word_boundary [0x5D0; 0x308]%N [0x22; 0x308; 0x61]%N = true.
Proof. vm_compute. repeat split; reflexivity. Qed.

(** two skin tones after a thumbs up stay in one piece, against WB14 *)
Theorem C43_double_modifier_refuted : exists s, glue_alone s /\
  forall ps, segments word_boundary s ps -> word_bound_indices s <> Ret (Some (indexed 0 ps)).
Proof. exact words_double_modifier. Qed.
Print Assumptions C43_double_modifier_refuted.
(** "a" ZWJ heart "b" stays in one piece, against WB999 *)
Theorem C43_glue_refuted : exists s, no_double_modifier s /\ no_zwj_base_modifier s /\
  forall ps, segments word_boundary s ps -> word_bound_indices s <> Ret (Some (indexed 0 ps)).
Proof. exact words_glue. Qed.
Print Assumptions C43_glue_refuted.
(** "a:" ZWJ woman: the colon stays with the letter although no letter follows, against WB6 *)
Theorem C43_punctuation_refuted : exists s, no_double_modifier s /\ no_zwj_base_modifier s /\
  forall ps, segments word_boundary s ps -> word_bound_indices s <> Ret (Some (indexed 0 ps)).
Proof. exact words_punctuation. Qed.
Print Assumptions C43_punctuation_refuted.
Example C43_refuted_ex :
  word_bound_indices [0x1F44D; 0x1F3FB; 0x1F3FB]%N = Ret (Some [(0, [0x1F44D; 0x1F3FB; 0x1F3FB]%N)]) /\
  word_bound_indices [0x61; 0x200D; 0x2764; 0x62]%N = Ret (Some [(0, [0x61; 0x200D; 0x2764; 0x62]%N)]) /\
  word_bound_indices [0x61; 0x3A; 0x200D; 0x1F469]%N = Ret (Some [(0, [0x61; 0x3A; 0x200D; 0x1F469]%N)]).
Proof. vm_compute. repeat split; reflexivity. Qed.

(** ** C44 *)
(** The full statement: for every string the two directions agree.  False, see
    below.  What holds: *)
Theorem C44_agree_partial : forall s, no_double_modifier s -> glue_alone s -> no_zwj_base_modifier s ->
  exists l, word_bound_indices s = Ret (Some l) /\ word_bound_indices_rev s = Ret (Some (rev l)).
Proof. exact words_agree. Qed.
Print Assumptions C44_agree_partial.
(** then calls in any order take the pieces of the rules from the two ends *)
Theorem C44_both_ends_partial : forall s ps asks, no_double_modifier s -> glue_alone s -> no_zwj_base_modifier s ->
  segments word_boundary s ps ->
  exists w, run_word_asks (word_bounds_new s) asks = Ret (w, deque (indexed 0 ps) asks).
Proof. exact words_mixed. Qed.
Print Assumptions C44_both_ends_partial.
Example C44_ex : word_bound_indices_rev C42_text =
  Ret (Some [(12, [0xD; 0xA]%N); (11, [0x2E]%N); (7, [0x33; 0x2E; 0x34; 0x61]%N); (6, [0x20]%N); (5, [0x2C]%N); (0, [0x63; 0x61; 0x6E; 0x27; 0x74]%N)]).
Proof. vm_compute. reflexivity. Qed.
(** the three conditions hold of C42_text and of the texts without ZWJ and E_Modifier in general *)
Theorem C44_plain : forall s, Forall (fun c => is_in [WB_ZWJ; WB_EModifier] (word_break c) = false) s ->
  no_double_modifier s /\ glue_alone s /\ no_zwj_base_modifier s.
Proof. exact plain_text. Qed.
Print Assumptions C44_plain.

(** "a" ZWJ heart "b": backwards there are two pieces *)
Theorem C44_glue_refuted : exists s l l', word_bound_indices s = Ret (Some l) /\ word_bound_indices_rev s = Ret (Some l') /\ l' <> rev l.
Proof. exact words_glue_rev. Qed.
Print Assumptions C44_glue_refuted.
(** ZWJ, thumbs up, skin tone: forwards two pieces as in the rules, backwards one *)
Theorem C44_zwj_base_modifier_refuted : exists s l l', word_bound_indices s = Ret (Some l) /\ word_bound_indices_rev s = Ret (Some l') /\
  l' <> rev l /\ (exists ps, segments word_boundary s ps /\ l = indexed 0 ps).
Proof. exact words_zwj_base. Qed.
Print Assumptions C44_zwj_base_modifier_refuted.

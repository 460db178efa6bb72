(** Properties C94 and C95: cutting a text where the iterators cut it. *)
From Coq Require Import List NArith Bool Arith.
From Verif Require Import Base Enums UcdModel BidiModel GraphModel GraphSpec GraphConcat WordModel WordConcat WordConcatBack.
Import ListNotations.
Open Scope nat_scope.

(** ** C94 *)
(** the clusters of two texts put together are the clusters of the two, exactly
    if the rules have a boundary where they meet *)
Theorem C94_concat : forall ext a b ps qs,
  grapheme_indices ext a = Ret (Some (indexed 0 ps)) -> grapheme_indices ext b = Ret (Some (indexed 0 qs)) ->
  (grapheme_indices ext (a ++ b) = Ret (Some (indexed 0 (ps ++ qs))) <-> grapheme_boundary ext a b = true).
Proof. exact graphemes_app. Qed.
Print Assumptions C94_concat.

(** a text cut between two of its clusters has the same clusters on both sides *)
Theorem C94_cut : forall ext s ps qs, grapheme_indices ext s = Ret (Some (indexed 0 (ps ++ qs))) ->
  grapheme_indices ext (concat ps) = Ret (Some (indexed 0 ps)) /\ grapheme_indices ext (concat qs) = Ret (Some (indexed 0 qs)).
Proof. exact graphemes_cut. Qed.
Print Assumptions C94_cut.

(** so a cluster alone is one cluster *)
Theorem C94_single : forall ext s ps, grapheme_indices ext s = Ret (Some (indexed 0 ps)) ->
  Forall (fun p => grapheme_indices ext p = Ret (Some [(0, p)])) ps.
Proof. exact graphemes_single. Qed.
Print Assumptions C94_single.

(** flags: two and one indicators have a boundary between them, one and two do not *)
Example C94_ex :
  grapheme_boundary true [0x1F1FA; 0x1F1F8]%N [0x1F1FA]%N = true /\
  grapheme_indices true [0x1F1FA; 0x1F1F8; 0x1F1FA]%N = Ret (Some [(0, [0x1F1FA; 0x1F1F8]%N); (8, [0x1F1FA]%N)]) /\
  grapheme_boundary true [0x1F1FA]%N [0x1F1F8; 0x1F1FA]%N = false /\
  grapheme_indices true [0x1F1FA]%N = Ret (Some [(0, [0x1F1FA]%N)]) /\
  grapheme_indices true [0x1F1F8; 0x1F1FA]%N = Ret (Some [(0, [0x1F1F8; 0x1F1FA]%N)]).
Proof. vm_compute. repeat split; reflexivity. Qed.

(** ** C95 *)
(** the same for words, on any text, also where the iterator does not follow
    the rules *)
Theorem C95_cut : forall s ps qs, word_bound_indices s = Ret (Some (indexed 0 (ps ++ qs))) ->
  word_bound_indices (concat ps) = Ret (Some (indexed 0 ps)) /\ word_bound_indices (concat qs) = Ret (Some (indexed 0 qs)).
Proof. exact words_cut. Qed.
Print Assumptions C95_cut.
Theorem C95_single : forall s ps, word_bound_indices s = Ret (Some (indexed 0 ps)) ->
  Forall (fun p => word_bound_indices p = Ret (Some [(0, p)])) ps.
Proof. exact words_single. Qed.
Print Assumptions C95_single.
(** and from the back *)
Theorem C95_cut_back : forall s ps qs, word_bound_indices_rev s = Ret (Some (rev (indexed 0 (ps ++ qs)))) ->
  word_bound_indices_rev (concat ps) = Ret (Some (rev (indexed 0 ps))) /\ word_bound_indices_rev (concat qs) = Ret (Some (rev (indexed 0 qs))).
Proof. exact words_rev_cut. Qed.
Print Assumptions C95_cut_back.
Theorem C95_single_back : forall s ps, word_bound_indices_rev s = Ret (Some (rev (indexed 0 ps))) ->
  Forall (fun p => word_bound_indices_rev p = Ret (Some [(0, p)])) ps.
Proof. exact words_rev_single. Qed.
Print Assumptions C95_single_back.

(** "3." is cut after the 3, "3.4" is not; "a" ZWJ heart "b" is one piece from
    the front and two from the back, either way again on its own *)
Example C95_ex :
  word_bound_indices [0x33; 0x2E; 0x61]%N = Ret (Some [(0, [0x33]%N); (1, [0x2E]%N); (2, [0x61]%N)]) /\
  word_bound_indices [0x33; 0x2E]%N = Ret (Some [(0, [0x33]%N); (1, [0x2E]%N)]) /\
  word_bound_indices [0x33; 0x2E; 0x34]%N = Ret (Some [(0, [0x33; 0x2E; 0x34]%N)]) /\
  word_bound_indices [0x61; 0x200D; 0x2764; 0x62]%N = Ret (Some [(0, [0x61; 0x200D; 0x2764; 0x62]%N)]) /\
  word_bound_indices_rev [0x61; 0x200D; 0x2764; 0x62]%N = Ret (Some [(7, [0x62]%N); (0, [0x61; 0x200D; 0x2764]%N)]) /\
  word_bound_indices_rev [0x61; 0x200D; 0x2764]%N = Ret (Some [(0, [0x61; 0x200D; 0x2764]%N)]).
Proof. vm_compute. repeat split; reflexivity. Qed.

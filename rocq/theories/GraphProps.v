(** Properties C39-C41: grapheme clusters. *)
From Coq Require Import List NArith Bool Arith.
From Verif Require Import Base Enums UcdModel BidiModel GraphModel GraphSpec SegLemmas GraphProofs GraphCursor GraphIter GraphChunks GraphWalk.
Import ListNotations.
Open Scope nat_scope.

(** ** C39 *)
(** the clusters are non-empty, concatenate to the string, and come with their byte offsets *)
Theorem C39_lossless : forall ext s, exists ps,
  grapheme_indices ext s = Ret (Some (indexed 0 ps)) /\ concat ps = s /\ Forall (fun p => p <> []) ps.
Proof. exact graphemes_lossless. Qed.
Print Assumptions C39_lossless.

Theorem C39_backward : forall ext s, exists l,
  grapheme_indices ext s = Ret (Some l) /\ grapheme_indices_rev ext s = Ret (Some (rev l)).
Proof. exact graphemes_agree. Qed.
Print Assumptions C39_backward.

(** calls of [next] and [next_back] in any order take the clusters from the
    two ends, [as_str] is what is left, and [size_hint] is right about it *)
Theorem C39_both_ends : forall ext s ps asks, segments (grapheme_boundary ext) s ps ->
  exists g, run_asks (graphemes_new ext s) asks = Ret (g, deque (indexed 0 ps) asks) /\
  let left := deque_rest (indexed 0 ps) asks in
  graphemes_as_str g = Ret (concat (map snd left)) /\
  graphemes_size_hint g = Ret (Nat.min (bytes (concat (map snd left))) 1, bytes (concat (map snd left))).
Proof. exact graphemes_mixed. Qed.
Print Assumptions C39_both_ends.

(** e + acute, CR LF, Hangul L V, three regional indicators *)
Example C39_ex : grapheme_indices true [0x65; 0x301; 0xD; 0xA; 0x1100; 0x1161; 0x1F1FA; 0x1F1F8; 0x1F1FA]%N =
  Ret (Some [(0, [0x65; 0x301]%N); (3, [0xD; 0xA]%N); (5, [0x1100; 0x1161]%N); (11, [0x1F1FA; 0x1F1F8]%N); (19, [0x1F1FA]%N)]).
Proof. vm_compute. reflexivity. Qed.
(** the last from the back, then the first, then there is none left *)
Example C39_both_ends_ex :
  match run_asks (graphemes_new true [0x65; 0x301; 0x1F1FA; 0x1F1F8; 0x1F1FA]%N) [false; true; false; true; false] with
  | Ret (_, l) => l = [Some (11, [0x1F1FA]%N); Some (0, [0x65; 0x301]%N); Some (3, [0x1F1FA; 0x1F1F8]%N); None; None]
  | Panic => False
  end.
Proof. vm_compute. reflexivity. Qed.

(** ** C40 *)
(** a new cursor at any character position decides as the rules do *)
Theorem C40_is_boundary : forall ext pre post, exists c,
  is_boundary (cursor_new ext (bytes pre) (bytes (pre ++ post))) (pre ++ post) 0 = Ret (c, GOk (grapheme_boundary ext pre post)).
Proof. exact cursor_is_boundary. Qed.
Print Assumptions C40_is_boundary.

(** the clusters of the iterators are the pieces between the boundaries of the rules *)
Theorem C40_forward : forall ext s, exists ps, segments (grapheme_boundary ext) s ps /\
  grapheme_indices ext s = Ret (Some (indexed 0 ps)).
Proof. exact graphemes_forward. Qed.
Print Assumptions C40_forward.
Theorem C40_backward : forall ext s, exists ps, segments (grapheme_boundary ext) s ps /\
  grapheme_indices_rev ext s = Ret (Some (rev (indexed 0 ps))).
Proof. exact graphemes_backward. Qed.
Print Assumptions C40_backward.

(** and a cursor on the whole text answers any sequence of operations as the
    rules prescribe, whatever it has cached on the way *)
Theorem C40_any_operations : forall ext pre post os l, ops_spec (grapheme_boundary ext) (pre, post) os l ->
  run_ops (cursor_new ext (bytes pre) (bytes (pre ++ post))) (pre ++ post) os = Ret l.
Proof. exact cursor_ops. Qed.
Print Assumptions C40_any_operations.

(** Prepend joins a letter only in extended mode; man ZWJ heart; a skin tone after a letter and after thumbs up, with Extend between *)
Example C40_ex :
  map (fun ext => grapheme_boundary ext [0x600]%N [0x61]%N) [true; false] = [false; true] /\
  grapheme_boundary true [0x1F468; 0x200D]%N [0x2764]%N = false /\
  grapheme_boundary true [0x1F44D; 0x61; 0xFE0F]%N [0x1F3FB]%N = true /\
  grapheme_boundary true [0x61; 0x1F44D; 0xFE0F]%N [0x1F3FB]%N = false /\
  grapheme_boundary true [0x1F1FA; 0x1F1F8]%N [0x1F1FA]%N = true /\
  grapheme_boundary true [0x61; 0x1F1FA]%N [0x1F1F8]%N = false.
Proof. vm_compute. repeat split; reflexivity. Qed.
Example C40_operations_ex : run_ops (cursor_new true 0 17) [0x61; 0x1F1FA; 0x1F1F8; 0x1F1FA; 0x1F1F8]%N
    [OpNext; OpNext; OpIsBoundary; OpSet 5; OpIsBoundary; OpNext; OpNext; OpNext; OpPrev; OpPrev; OpPrev; OpPrev]
  = Ret [AOffset (Some 1); AOffset (Some 9); ABool true; AUnit; ABool false; AOffset (Some 9); AOffset (Some 17); AOffset None;
         AOffset (Some 9); AOffset (Some 1); AOffset (Some 0); AOffset None].
Proof. vm_compute. reflexivity. Qed.

(** ** C41 *)
(** The full statement: with every chunking, at every position, the chunked
    answer is that of the rules.  It is false, see the refutations below.
    What holds: *)

(** a position inside a chunk, where the decision does not depend on the text
    before the chunk *)
Theorem C41_inside_chunk_partial : forall ext before m1 x m2 T1, m1 <> [] -> (before = [] \/ ~ looks_before_chunk m1 x) ->
  let T0 := concat (rev before) in
  let pre := T0 ++ m1 in let post := x :: m2 ++ T1 in
  exists c, ask_boundary before (cursor_new ext (slen pre) (slen (pre ++ post))) (m1 ++ x :: m2) (slen T0)
            = Ret (c, GOk (grapheme_boundary ext pre post)).
Proof. exact ask_settled. Qed.
Print Assumptions C41_inside_chunk_partial.
(** "ab" | "cde", between d and e *)
Example C41_inside_chunk_ex : exists c,
  ask_boundary [[0x61; 0x62]%N] (cursor_new true 4 5) [0x63; 0x64; 0x65]%N 2 = Ret (c, GOk true).
Proof. eexists. vm_compute. reflexivity. Qed.

(** the start of a chunk that begins with a regional indicator or a modifier,
    with context over any number of chunks *)
Theorem C41_chunk_start_partial : forall ext before x m2 T1, Forall nonempty before -> before <> [] ->
  gcb x = GCB_RegionalIndicator \/ gcb x = GCB_EModifier ->
  let T0 := concat (rev before) in let post := x :: m2 ++ T1 in
  exists c, ask_boundary before (cursor_new ext (slen T0) (slen (T0 ++ post))) (x :: m2) (slen T0)
            = Ret (c, GOk (grapheme_boundary ext T0 post)).
Proof. exact ask_start_context. Qed.
Print Assumptions C41_chunk_start_partial.
(** one indicator in each chunk: the fourth makes a pair with the third *)
Example C41_chunk_start_ex : exists c,
  ask_boundary [[0x1F1FA]; [0x1F1F8]; [0x1F1FA]]%N (cursor_new true 12 16) [0x1F1F8]%N 12 = Ret (c, GOk false).
Proof. eexists. vm_compute. reflexivity. Qed.

(** a walk forwards over the chunks, if no chunk but the first begins with a
    regional indicator or with Extend* E_Modifier *)
Theorem C41_forward_partial : forall ext first rest, first <> [] -> Forall self_contained rest ->
  exists ps, segments (grapheme_boundary ext) (first ++ concat rest) ps /\
    chunked_boundaries ext first rest = Ret (Some (piece_ends 0 ps)).
Proof. exact walk_forward. Qed.
Print Assumptions C41_forward_partial.
(** "a" e | acute acute | b CR | LF c *)
Example C41_forward_ex :
  chunked_boundaries true [0x61; 0x65]%N [[0x301; 0x301]; [0x62; 0xD]; [0xA; 0x63]]%N = Ret (Some [1; 6; 7; 9; 10]).
Proof. vm_compute. reflexivity. Qed.

(** and backwards, if the last chunk is not a single character *)
Theorem C41_backward_partial : forall ext first mids last,
  first <> [] -> Forall self_contained mids -> self_contained last -> 2 <= length last ->
  exists ps, segments (grapheme_boundary ext) (first ++ concat mids ++ last) ps /\
    chunked_boundaries_rev ext (rev (first :: mids)) last = Ret (Some (rev (piece_starts ps))).
Proof. exact walk_backward. Qed.
Print Assumptions C41_backward_partial.
Example C41_backward_ex :
  chunked_boundaries_rev true (rev [[0x61; 0x65]; [0x301; 0x301]; [0x62; 0xD]])%N [0xA; 0x63]%N = Ret (Some [9; 7; 6; 1; 0]).
Proof. vm_compute. reflexivity. Qed.

(** What happens at the start of any other chunk: [provide_context] panics, or
    with a Prepend character before it the answer is "no boundary", whatever
    the next character is. *)
Theorem C41_other_chunk_start : forall ext before p0 z x m2 T1, Forall nonempty before ->
  gcb x <> GCB_RegionalIndicator -> gcb x <> GCB_EModifier ->
  let T0 := concat (rev before) ++ p0 ++ [z] in let post := x :: m2 ++ T1 in
  match ask_boundary ((p0 ++ [z]) :: before) (cursor_new ext (slen T0) (slen (T0 ++ post))) (x :: m2) (slen T0) with
  | Ret (c, r) => ext = true /\ gcb z = GCB_Prepend /\ r = GOk false
  | Panic => ext = false \/ gcb z <> GCB_Prepend
  end.
Proof. exact ask_start_other. Qed.
Print Assumptions C41_other_chunk_start.
(** and it panics when a run of regional indicators, or Extend* E_Modifier, is
    cut after its first character *)
Theorem C41_cut_run_panics : forall ext before m1 x m2 T1, Forall nonempty before -> before <> [] -> m1 <> [] ->
  looks_before_chunk m1 x ->
  let T0 := concat (rev before) in let post := x :: m2 ++ T1 in
  ask_boundary before (cursor_new ext (slen (T0 ++ m1)) (slen ((T0 ++ m1) ++ post))) (m1 ++ x :: m2) (slen T0) = Panic.
Proof. exact ask_unsettled. Qed.
Print Assumptions C41_cut_run_panics.

(** "ab" | "cd", position 2 *)
Theorem C41_letters_refuted : exists ext p chunk,
  ask_boundary [p] (cursor_new ext (slen p) (slen (p ++ chunk))) chunk (slen p) = Panic.
Proof. exists true, [0x61; 0x62]%N, [0x63; 0x64]%N. vm_compute. reflexivity. Qed.
Print Assumptions C41_letters_refuted.

(** a Prepend character | LF: "no boundary", against GB5 *)
Theorem C41_prepend_refuted : exists p chunk c,
  ask_boundary [p] (cursor_new true (slen p) (slen (p ++ chunk))) chunk (slen p) = Ret (c, GOk false) /\
  grapheme_boundary true p chunk = true.
Proof. exists [0x600]%N, [0xA]%N. eexists. split; [vm_compute; reflexivity|]. vm_compute. reflexivity. Qed.
Print Assumptions C41_prepend_refuted.

(** a U | S, a letter and a flag: walking forwards over the two chunks cuts the
    flag, because the indicator before the chunk is counted twice *)
Theorem C41_flag_refuted : exists first rest ps, segments (grapheme_boundary true) (first ++ concat rest) ps /\
  piece_ends 0 ps = [1; 9] /\ chunked_boundaries true first rest = Ret (Some [1; 5; 9]).
Proof.
  exists [0x61; 0x1F1FA]%N, [[0x1F1F8]]%N.
  destruct (graphemes_forward true [0x61; 0x1F1FA; 0x1F1F8]%N) as (ps & SG & H).
  exists ps. split; [exact SG|]. split; [|vm_compute; reflexivity].
  assert (E : grapheme_indices true [0x61; 0x1F1FA; 0x1F1F8]%N = Ret (Some [(0, [0x61]%N); (1, [0x1F1FA; 0x1F1F8]%N)])) by (vm_compute; reflexivity).
  rewrite E in H. apply (f_equal (fun r => match r with Ret (Some l) => map snd l | _ => [] end)) in H.
  rewrite snd_indexed in H. cbn [map snd] in H. rewrite <- H. vm_compute. reflexivity.
Qed.
Print Assumptions C41_flag_refuted.

(** "a" | "b" from the end: [prev_boundary] on the second chunk, and then as it
    asks on the first, fails with [InvalidOffset] *)
Theorem C41_single_character_refuted : exists p chunk c c',
  prev_boundary (cursor_new true (slen (p ++ chunk)) (slen (p ++ chunk))) chunk (slen p) = Ret (c, GErr PrevChunk) /\
  prev_boundary c p 0 = Ret (c', GErr InvalidOffset).
Proof.
  exists [0x61]%N, [0x62]%N. eexists. eexists. split; [vm_compute; reflexivity|]. vm_compute. reflexivity.
Qed.
Print Assumptions C41_single_character_refuted.

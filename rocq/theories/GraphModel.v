(** Model of unic/segment/src/grapheme.rs: the grapheme cluster cursor and the
    iterators over grapheme clusters.

    Strings are lists of characters, offsets are UTF-8 byte offsets ([nat]).
    A method that takes [&mut self] returns the new cursor beside its result;
    [Panic] stands for a failed [unwrap], [assert!], slice or subtraction.
    Offsets are unbounded: they are bounded by the length of a string in
    memory, so [usize] additions do not overflow. *)
From Coq Require Import List NArith Lia Bool Arith.
Import ListNotations.
From Verif Require Import Base Enums TableTypes UcdModel BidiModel.
Open Scope nat_scope.

Notation GCB := GraphemeClusterBreak.

(** [GCB::of] (unic/ucd/segment/src/grapheme_cluster_break.rs:329-346) *)
Definition gcb (c : N) : GCB := grapheme_cluster_break c.

(** grapheme.rs:180-193 [enum GraphemeState] *)
Inductive gstate := GUnknown | GNotBreak | GBreak | GRegional | GEmoji.

(** grapheme.rs:233-252 [enum GraphemeIncomplete] *)
Inductive incomplete := PreContext (n : nat) | PrevChunk | NextChunk | InvalidOffset.

(** [Result<A, GraphemeIncomplete>] *)
Inductive gres (A : Type) := GOk (a : A) | GErr (e : incomplete).
Arguments GOk {A} _.
Arguments GErr {A} _.

(** grapheme.rs:197-228 [struct GraphemeCursor] *)
Record cursor := Cur {
  c_off : nat;                 (* offset *)
  c_len : nat;                 (* len *)
  c_ext : bool;                (* is_extended *)
  c_state : gstate;            (* state *)
  c_before : option GCB;       (* cat_before *)
  c_after : option GCB;        (* cat_after *)
  c_pre : option nat;          (* pre_context_offset *)
  c_ris : option nat;          (* ris_count *)
  c_res : bool                 (* resuming *)
}.

(** field updates *)
Definition with_state (c : cursor) s := Cur (c_off c) (c_len c) (c_ext c) s (c_before c) (c_after c) (c_pre c) (c_ris c) (c_res c).
Definition with_before (c : cursor) b := Cur (c_off c) (c_len c) (c_ext c) (c_state c) b (c_after c) (c_pre c) (c_ris c) (c_res c).
Definition with_after (c : cursor) a := Cur (c_off c) (c_len c) (c_ext c) (c_state c) (c_before c) a (c_pre c) (c_ris c) (c_res c).
Definition with_pre (c : cursor) p := Cur (c_off c) (c_len c) (c_ext c) (c_state c) (c_before c) (c_after c) p (c_ris c) (c_res c).
Definition with_ris (c : cursor) r := Cur (c_off c) (c_len c) (c_ext c) (c_state c) (c_before c) (c_after c) (c_pre c) r (c_res c).
Definition with_res (c : cursor) r := Cur (c_off c) (c_len c) (c_ext c) (c_state c) (c_before c) (c_after c) (c_pre c) (c_ris c) r.
Definition with_off (c : cursor) o := Cur o (c_len c) (c_ext c) (c_state c) (c_before c) (c_after c) (c_pre c) (c_ris c) (c_res c).

(** grapheme.rs:256-271 [enum PairResult] *)
Inductive pair_result := PNotBreak | PBreak | PExtended | PRegional | PEmoji.

(** grapheme.rs:273-322 [check_pair] *)
Definition check_pair (before after : GCB) : pair_result :=
  match before, after with
  | GCB_CR, GCB_LF => PNotBreak
  | GCB_Control, _ => PBreak
  | GCB_CR, _ => PBreak
  | GCB_LF, _ => PBreak
  | _, GCB_Control => PBreak
  | _, GCB_CR => PBreak
  | _, GCB_LF => PBreak
  | GCB_L, GCB_L => PNotBreak
  | GCB_L, GCB_V => PNotBreak
  | GCB_L, GCB_LV => PNotBreak
  | GCB_L, GCB_LVT => PNotBreak
  | GCB_LV, GCB_V => PNotBreak
  | GCB_LV, GCB_T => PNotBreak
  | GCB_V, GCB_V => PNotBreak
  | GCB_V, GCB_T => PNotBreak
  | GCB_LVT, GCB_T => PNotBreak
  | GCB_T, GCB_T => PNotBreak
  | _, GCB_Extend => PNotBreak
  | _, GCB_ZWJ => PNotBreak
  | _, GCB_SpacingMark => PExtended
  | GCB_Prepend, _ => PExtended
  | GCB_EBase, GCB_EModifier => PNotBreak
  | GCB_EBaseGAZ, GCB_EModifier => PNotBreak
  | GCB_Extend, GCB_EModifier => PEmoji
  | GCB_ZWJ, GCB_GlueAfterZwj => PNotBreak
  | GCB_ZWJ, GCB_EBaseGAZ => PNotBreak
  | GCB_RegionalIndicator, GCB_RegionalIndicator => PRegional
  | _, _ => PBreak
  end.

(** grapheme.rs:337-341, 367-371, 399-403 *)
Definition initial_state (offset len : nat) : gstate :=
  if (offset =? 0) || (offset =? len) then GBreak else GUnknown.

(** grapheme.rs:336-353 [new] ([ext] true), 366-383 [new_legacy] ([ext] false) *)
Definition cursor_new (ext : bool) (offset len : nat) : cursor :=
  Cur offset len ext (initial_state offset len) None None None None false.

(** grapheme.rs:396-409 [set_cursor] *)
Definition set_cursor (c : cursor) (offset : nat) : cursor :=
  if offset =? c_off c then c
  else Cur offset (c_len c) (c_ext c) (initial_state offset (c_len c)) None None (c_pre c) None (c_res c).

(** grapheme.rs:469-475 [decide] *)
Definition decide (c : cursor) (b : bool) : cursor := with_state c (if b then GBreak else GNotBreak).
(** grapheme.rs:477-480 [decision] *)
Definition decision (c : cursor) (b : bool) : cursor * gres bool := (decide c b, GOk b).

(** grapheme.rs:482-492 [is_boundary_result] *)
Definition is_boundary_result (c : cursor) : outcome (cursor * gres bool) :=
  match c_state c with
  | GBreak => Ret (c, GOk true)
  | GNotBreak => Ret (c, GOk false)
  | _ => match c_pre c with
         | Some n => Ret (c, GErr (PreContext n))
         | None => Panic
         end
  end.

(** grapheme.rs:494-510 [handle_regional]; [rchunk] is the chunk reversed *)
Fixpoint handle_regional_loop (c : cursor) (rchunk : str) (chunk_start ris_count : nat) : cursor :=
  match rchunk with
  | [] => let c := with_ris c (Some ris_count) in
          if chunk_start =? 0 then decide c (Nat.even ris_count) else with_pre c (Some chunk_start)
  | ch :: r =>
      if GCB_eqb (gcb ch) GCB_RegionalIndicator
      then handle_regional_loop c r chunk_start (S ris_count)
      else decide (with_ris c (Some ris_count)) (Nat.even ris_count)
  end.
Definition handle_regional (c : cursor) (chunk : str) (chunk_start : nat) : cursor :=
  handle_regional_loop c (rev chunk) chunk_start (match c_ris c with Some n => n | None => 0 end).

(** grapheme.rs:512-531 [handle_emoji] *)
Fixpoint handle_emoji_loop (c : cursor) (rchunk : str) (chunk_start : nat) : cursor :=
  match rchunk with
  | [] => if chunk_start =? 0 then decide c true else with_pre c (Some chunk_start)
  | ch :: r =>
      match gcb ch with
      | GCB_Extend => handle_emoji_loop c r chunk_start
      | GCB_EBase | GCB_EBaseGAZ => decide c false
      | _ => decide c true
      end
  end.
Definition handle_emoji (c : cursor) (chunk : str) (chunk_start : nat) : cursor :=
  handle_emoji_loop c (rev chunk) chunk_start.

(** grapheme.rs:452-467 [provide_context] *)
Definition provide_context (c : cursor) (chunk : str) (chunk_start : nat) : outcome cursor :=
  match c_pre c with
  | None => Panic
  | Some p =>
      if chunk_start + slen chunk =? p then
        let c := with_pre c None in
        let continue :=
          match c_state c with
          | GRegional => Ret (handle_regional c chunk chunk_start)
          | GEmoji => Ret (handle_emoji c chunk chunk_start)
          | _ => Panic                                        (* panic!("invalid state") *)
          end in
        if c_ext c && (chunk_start + slen chunk =? c_off c) then
          match rev chunk with
          | [] => Panic
          | ch :: _ => if GCB_eqb (gcb ch) GCB_Prepend then Ret (decide c false) else continue
          end
        else continue
      else Panic
  end.

(** grapheme.rs:600-618, the last part of [is_boundary]; [before] is
    [&chunk[..offset_in_chunk]] *)
Definition resolve_pair (c : cursor) (b a : GCB) (before : str) (chunk_start : nat) : outcome (cursor * gres bool) :=
  match check_pair b a with
  | PNotBreak => Ret (decision c false)
  | PBreak => Ret (decision c true)
  | PExtended => Ret (decision c (negb (c_ext c)))
  | PRegional =>
      match c_ris c with
      | Some n => Ret (decision c (Nat.even n))
      | None => is_boundary_result (handle_regional c before chunk_start)
      end
  | PEmoji => is_boundary_result (handle_emoji c before chunk_start)
  end.

(** grapheme.rs:596-618 *)
Definition is_boundary_pair (c : cursor) (a : GCB) (before : str) (chunk_start : nat) : outcome (cursor * gres bool) :=
  match c_before c with
  | Some b => resolve_pair c b a before chunk_start
  | None => match rev before with
            | [] => Panic
            | ch :: _ => resolve_pair (with_before c (Some (gcb ch))) (gcb ch) a before chunk_start
            end
  end.

(** grapheme.rs:584-618 *)
Definition is_boundary_known (c : cursor) (a : GCB) (before : str) (chunk_start : nat) : outcome (cursor * gres bool) :=
  if c_off c =? chunk_start then
    let '(c, need) :=
      match a with
      | GCB_RegionalIndicator => (with_state c GRegional, true)
      | GCB_EModifier => (with_state c GEmoji, true)
      | _ => (c, match c_before c with None => true | Some _ => false end)
      end in
    if need then Ret (with_pre c (Some chunk_start), GErr (PreContext chunk_start))
    else is_boundary_pair c a before chunk_start
  else is_boundary_pair c a before chunk_start.

(** grapheme.rs:560-619 [is_boundary].  If [cat_before] and [cat_after] are
    both known the code does not slice the chunk unless the pair needs it; the
    model slices first, so it answers [Panic] at an offset inside a character
    also where the code would not look. *)
Definition is_boundary (c : cursor) (chunk : str) (chunk_start : nat) : outcome (cursor * gres bool) :=
  match c_state c with
  | GBreak => Ret (c, GOk true)
  | GNotBreak => Ret (c, GOk false)
  | _ =>
      if ((c_off c <? chunk_start) || (chunk_start + slen chunk <=? c_off c))
         && ((chunk_start + slen chunk <? c_off c) || match c_after c with None => true | Some _ => false end)
      then Ret (c, GErr InvalidOffset)
      else match c_pre c with
      | Some n => Ret (c, GErr (PreContext n))
      | None =>
          if c_off c <? chunk_start then Panic else
          match split_at chunk (c_off c - chunk_start) with
          | None => Panic
          | Some (before, after) =>
              match c_after c with
              | Some a => is_boundary_known c a before chunk_start
              | None => match after with
                        | [] => Panic
                        | ch :: _ => is_boundary_known (with_after c (Some (gcb ch))) (gcb ch) before chunk_start
                        end
              end
          end
      end
  end.

(** [Option::or_else] for the categories: the known one, or that of [ch] *)
Definition cat_or (o : option GCB) (ch : N) : GCB := match o with Some g => g | None => gcb ch end.

(** grapheme.rs:669-679: step over [ch] *)
Definition step_next (c : cursor) (ch : N) : cursor :=
  let b := cat_or (c_after c) ch in
  Cur (c_off c + clen ch) (c_len c) (c_ext c) GUnknown (Some b) None (c_pre c)
      (if GCB_eqb b GCB_RegionalIndicator then option_map S (c_ris c) else Some 0) (c_res c).

(** grapheme.rs:663-696, a pass of the loop with [resuming] false; [iter] are
    the characters of the chunk after [ch] *)
Fixpoint next_loop (chunk : str) (chunk_start : nat) (iter : str) (ch : N) (c : cursor)
  : outcome (cursor * gres (option nat)) :=
  let c := step_next c ch in
  match iter with
  | next_ch :: iter' =>
      let c := with_res (with_after c (Some (gcb next_ch))) true in
      match is_boundary c chunk chunk_start with
      | Ret (c, GOk true) => Ret (with_res c false, GOk (Some (c_off c)))
      | Ret (c, GOk false) => next_loop chunk chunk_start iter' next_ch (with_res c false)
      | Ret (c, GErr e) => Ret (c, GErr e)
      | Panic => Panic
      end
  | [] =>
      if c_off c =? c_len c then
        (* decided: [is_boundary] answers [Ok(true)] *)
        Ret (with_res (decide c true) false, GOk (Some (c_off c)))
      else Ret (with_res c true, GErr NextChunk)
  end.

(** grapheme.rs:653-697 [next_boundary] *)
Definition next_boundary (c : cursor) (chunk : str) (chunk_start : nat) : outcome (cursor * gres (option nat)) :=
  if c_off c =? c_len c then Ret (c, GOk None)
  else if c_off c <? chunk_start then Panic
  else match split_at chunk (c_off c - chunk_start) with
  | Some (_, ch :: iter) =>
      if c_res c then
        let c := with_after c (Some (cat_or (c_after c) ch)) in
        match is_boundary c chunk chunk_start with
        | Ret (c, GOk true) => Ret (with_res c false, GOk (Some (c_off c)))
        | Ret (c, GOk false) => next_loop chunk chunk_start iter ch (with_res c false)
        | Ret (c, GErr e) => Ret (c, GErr e)
        | Panic => Panic
        end
      else next_loop chunk chunk_start iter ch c
  | _ => Panic
  end.

(** grapheme.rs:750-759: step back over [ch] *)
Definition step_prev (c : cursor) (ch : N) : cursor :=
  Cur (c_off c - clen ch) (c_len c) (c_ext c) GUnknown None (c_before c) (c_pre c)
      (match c_ris c with Some (S n) => Some n | Some 0 => None | None => None end) (c_res c).

(** grapheme.rs:742-776, a pass of the loop with [resuming] false; [iter] are
    the characters of the chunk before [ch], last first.  In this loop the
    test at 743 is false: the offset is the end of [ch], a character of the
    chunk. *)
Fixpoint prev_loop (chunk : str) (chunk_start : nat) (iter : str) (ch : N) (c : cursor)
  : outcome (cursor * gres (option nat)) :=
  let c := step_prev c ch in
  match iter with
  | prev_ch :: iter' =>
      let c := with_res (with_before c (Some (gcb prev_ch))) true in
      match is_boundary c chunk chunk_start with
      | Ret (c, GOk true) => Ret (with_res c false, GOk (Some (c_off c)))
      | Ret (c, GOk false) => prev_loop chunk chunk_start iter' prev_ch (with_res c false)
      | Ret (c, GErr e) => Ret (c, GErr e)
      | Panic => Panic
      end
  | [] =>
      if c_off c =? 0 then Ret (with_res (decide c true) false, GOk (Some (c_off c)))
      else Ret (with_res c true, GErr PrevChunk)
  end.

(** grapheme.rs:732-777 [prev_boundary].  At 741 [unwrap] fails if the cursor
    is at the start of the chunk. *)
Definition prev_boundary (c : cursor) (chunk : str) (chunk_start : nat) : outcome (cursor * gres (option nat)) :=
  if c_off c =? 0 then Ret (c, GOk None)
  else if c_off c <? chunk_start then Panic
  else match split_at chunk (c_off c - chunk_start) with
  | Some (before, _) =>
      match rev before with
      | [] => Panic
      | ch :: iter =>
          if c_res c then
            let c := with_before c (Some (gcb ch)) in
            match is_boundary c chunk chunk_start with
            | Ret (c, GOk true) => Ret (with_res c false, GOk (Some (c_off c)))
            | Ret (c, GOk false) => prev_loop chunk chunk_start iter ch (with_res c false)
            | Ret (c, GErr e) => Ret (c, GErr e)
            | Panic => Panic
            end
          else prev_loop chunk chunk_start iter ch c
      end
  | None => Panic
  end.

(** grapheme.rs:94-98 [struct Graphemes] *)
Record graphemes := Gr { g_string : str; g_front : cursor; g_back : cursor }.

(** grapheme.rs:103-121 [Graphemes::new], [new_legacy] *)
Definition graphemes_new (ext : bool) (s : str) : graphemes :=
  Gr s (cursor_new ext 0 (slen s)) (cursor_new ext (slen s) (slen s)).

(** grapheme.rs:136-138 [as_str] *)
Definition graphemes_as_str (g : graphemes) : outcome str :=
  str_slice (g_string g) (c_off (g_front g)) (c_off (g_back g)).

(** grapheme.rs:145-148 [size_hint] *)
Definition graphemes_size_hint (g : graphemes) : outcome (nat * nat) :=
  if c_off (g_front g) <=? c_off (g_back g) then
    let slen := c_off (g_back g) - c_off (g_front g) in Ret (Nat.min slen 1, slen)
  else Panic.

(** grapheme.rs:151-158 [next], with the byte offset that [GraphemeIndices]
    computes from the address of the slice (70-74) *)
Definition graphemes_next (g : graphemes) : outcome (graphemes * option (nat * str)) :=
  let start := c_off (g_front g) in
  if start =? c_off (g_back g) then Ret (g, None)
  else match next_boundary (g_front g) (g_string g) 0 with
  | Ret (c, GOk (Some next)) =>
      match str_slice (g_string g) start next with
      | Ret s => Ret (Gr (g_string g) c (g_back g), Some (start, s))
      | Panic => Panic
      end
  | _ => Panic
  end.

(** grapheme.rs:163-174 [next_back] and 84-88 *)
Definition graphemes_next_back (g : graphemes) : outcome (graphemes * option (nat * str)) :=
  let e := c_off (g_back g) in
  if e =? c_off (g_front g) then Ret (g, None)
  else match prev_boundary (g_back g) (g_string g) 0 with
  | Ret (c, GOk (Some prev)) =>
      match str_slice (g_string g) prev e with
      | Ret s => Ret (Gr (g_string g) (g_front g) c, Some (prev, s))
      | Panic => Panic
      end
  | _ => Panic
  end.

(** Collecting an iterator (Rust core), at most [fuel] items; [None] if more
    are left.  A string of [n] characters has at most [n] clusters. *)
Fixpoint collect_fuel (fuel : nat) (next : graphemes -> outcome (graphemes * option (nat * str))) (g : graphemes)
  : outcome (option (list (nat * str))) :=
  match next g with
  | Panic => Panic
  | Ret (_, None) => Ret (Some [])
  | Ret (g', Some x) =>
      match fuel with
      | O => Ret None
      | S f => match collect_fuel f next g' with
               | Ret (Some l) => Ret (Some (x :: l))
               | other => other
               end
      end
  end.
(** [GraphemeIndices::new(s).collect()] and [.rev().collect()] *)
Definition grapheme_indices (ext : bool) (s : str) := collect_fuel (length s) graphemes_next (graphemes_new ext s).
Definition grapheme_indices_rev (ext : bool) (s : str) := collect_fuel (length s) graphemes_next_back (graphemes_new ext s).

(** Mixed calls of [next] ([true]) and [next_back] ([false]) on one iterator:
    the items and the iterator that is left. *)
Fixpoint run_asks (g : graphemes) (asks : list bool) : outcome (graphemes * list (option (nat * str))) :=
  match asks with
  | [] => Ret (g, [])
  | a :: q => match (if a then graphemes_next g else graphemes_next_back g) with
              | Panic => Panic
              | Ret (g', x) => match run_asks g' q with
                               | Ret (g'', l) => Ret (g'', x :: l)
                               | Panic => Panic
                               end
              end
  end.

(** ** A caller that has the text in chunks

    As grapheme.rs:229-252 and the documentation of [provide_context],
    [is_boundary], [next_boundary] and [prev_boundary] (428-451, 537-559,
    621-652, 699-731) prescribe: on [PreContext] the caller provides the chunk
    that ends at the requested offset and retries, on [NextChunk] and
    [PrevChunk] it retries with the chunk after or before.  The chunks before
    the current one are listed nearest first. *)
Fixpoint ask_boundary (before : list str) (c : cursor) (chunk : str) (cs : nat) : outcome (cursor * gres bool) :=
  match is_boundary c chunk cs with
  | Ret (c, GErr (PreContext n)) =>
      match before with
      | [] => Panic
      | p :: before => match provide_context c p (n - slen p) with
                       | Ret c => ask_boundary before c chunk cs
                       | Panic => Panic
                       end
      end
  | r => r
  end.

(** the place of a caller: the chunks before, the start of the current chunk, the current chunk, the chunks after *)
Definition place := (list str * nat * str * list str)%type.

Fixpoint next_chunked (before : list str) (rest : list str) (c : cursor) (cs : nat) (chunk : str) {struct rest}
  : outcome (cursor * gres (option nat) * place) :=
  (fix feed (ctx : list str) (c : cursor) {struct ctx} :=
     match next_boundary c chunk cs with
     | Ret (c, GErr NextChunk) =>
         match rest with
         | [] => Ret (c, GErr NextChunk, (before, cs, chunk, rest))
         | chunk' :: rest' => next_chunked (chunk :: before) rest' c (cs + slen chunk) chunk'
         end
     | Ret (c, GErr (PreContext n)) =>
         match ctx with
         | [] => Panic
         | p :: ctx => match provide_context c p (n - slen p) with Ret c => feed ctx c | Panic => Panic end
         end
     | Ret (c, r) => Ret (c, r, (before, cs, chunk, rest))
     | Panic => Panic
     end) before c.

Fixpoint prev_chunked (before : list str) (rest : list str) (c : cursor) (cs : nat) (chunk : str) {struct before}
  : outcome (cursor * gres (option nat) * place) :=
  (fix feed (ctx : list str) (c : cursor) {struct ctx} :=
     match prev_boundary c chunk cs with
     | Ret (c, GErr PrevChunk) =>
         match before with
         | [] => Ret (c, GErr PrevChunk, (before, cs, chunk, rest))
         | chunk' :: before' => prev_chunked before' (chunk :: rest) c (cs - slen chunk') chunk'
         end
     | Ret (c, GErr (PreContext n)) =>
         match ctx with
         | [] => Panic
         | p :: ctx => match provide_context c p (n - slen p) with Ret c => feed ctx c | Panic => Panic end
         end
     | Ret (c, r) => Ret (c, r, (before, cs, chunk, rest))
     | Panic => Panic
     end) before c.

(** all boundaries after (before) the cursor; [None] if a call fails or the fuel runs out *)
Fixpoint all_next (fuel : nat) (c : cursor) (p : place) : outcome (option (list nat)) :=
  match fuel with
  | O => Ret None
  | S fuel =>
      let '(before, cs, chunk, rest) := p in
      match next_chunked before rest c cs chunk with
      | Ret (_, GOk None, _) => Ret (Some [])
      | Ret (c, GOk (Some n), p) => match all_next fuel c p with
                                    | Ret (Some l) => Ret (Some (n :: l))
                                    | r => r
                                    end
      | Ret (_, GErr _, _) => Ret None
      | Panic => Panic
      end
  end.
Fixpoint all_prev (fuel : nat) (c : cursor) (p : place) : outcome (option (list nat)) :=
  match fuel with
  | O => Ret None
  | S fuel =>
      let '(before, cs, chunk, rest) := p in
      match prev_chunked before rest c cs chunk with
      | Ret (_, GOk None, _) => Ret (Some [])
      | Ret (c, GOk (Some n), p) => match all_prev fuel c p with
                                    | Ret (Some l) => Ret (Some (n :: l))
                                    | r => r
                                    end
      | Ret (_, GErr _, _) => Ret None
      | Panic => Panic
      end
  end.

(** All boundaries of the text [first ++ concat rest] after its start, front to back. *)
Definition chunked_boundaries (ext : bool) (first : str) (rest : list str) : outcome (option (list nat)) :=
  let len := slen (first ++ concat rest) in
  all_next (S len) (cursor_new ext 0 len) ([], 0, first, rest).
(** All boundaries of the text [concat (rev before) ++ last] before its end, back to front. *)
Definition chunked_boundaries_rev (ext : bool) (before : list str) (last : str) : outcome (option (list nat)) :=
  let len := slen (concat (rev before) ++ last) in
  all_prev (S len) (cursor_new ext len len) (before, slen (concat (rev before)), last, []).

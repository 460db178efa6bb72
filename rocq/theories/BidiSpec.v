(** UAX #9 rules stated on characters, independently of the model of the
    bidi crate.  Only the enumeration of Bidi_Class values is shared. *)
From Coq Require Import List NArith Lia Bool Arith Permutation.
Import ListNotations.
From Verif Require Import Base Enums UcdModel BidiModel.
Open Scope nat_scope.

(** The byte array that holds [nth k l] at every byte of the k-th character. *)
Fixpoint expand {A} (ws : list nat) (l : list A) : list A :=
  match ws, l with
  | w :: ws', a :: l' => repeat a w ++ expand ws' l'
  | _, _ => []
  end.

(** Classes removed by rule X9 *)
Definition x9 (c : BidiClass) : Prop := In c [cRLE; cLRE; cRLO; cLRO; cPDF; cBN].

Definition strong (c : BidiClass) : Prop := c = cL \/ c = cR \/ c = cAL.
Definition initiator (c : BidiClass) : Prop := c = cLRI \/ c = cRLI \/ c = cFSI.

(** ** P1: paragraphs *)

(** [pieces] are the paragraphs of [t]: non-empty, every separator last in its
    paragraph, every paragraph but the last ended by a separator. *)
Definition paragraphs_of (t : str) (pieces : list str) : Prop :=
  concat pieces = t /\
  (forall p, In p pieces -> p <> []) /\
  (forall p a c b, In p pieces -> p = a ++ c :: b -> bidi_class c = cB -> b = []) /\
  (forall front p rest, pieces = front ++ p :: rest -> rest <> [] ->
     exists a c, p = a ++ [c] /\ bidi_class c = cB).

(** Byte ranges of consecutive pieces, from [i] *)
Fixpoint ranges_from (i : nat) (pieces : list str) : list (nat * nat) :=
  match pieces with
  | [] => []
  | p :: rest => (i, i + slen p) :: ranges_from (i + slen p) rest
  end.

(** ** P2, P3 and X5c *)

(** Number of open isolates after reading [cs] from depth [d] (BD9; a PDI without
    initiator does nothing) *)
Fixpoint isolate_depth (d : nat) (cs : list BidiClass) : nat :=
  match cs with
  | [] => d
  | c :: cs' =>
      match c with
      | cLRI | cRLI | cFSI => isolate_depth (S d) cs'
      | cPDI => isolate_depth (pred d) cs'
      | _ => isolate_depth d cs'
      end
  end.

(** [c] is the first strong class of [cs] outside isolates *)
Definition first_strong (cs : list BidiClass) (c : BidiClass) : Prop :=
  exists pre post, cs = pre ++ c :: post /\ strong c /\ isolate_depth 0 pre = 0 /\
    forall pre1 c1 post1, pre = pre1 ++ c1 :: post1 -> strong c1 -> isolate_depth 0 pre1 <> 0.

(** The part of [cs] before the PDI (or the paragraph end) that closes an isolate
    whose nesting depth is [d] *)
Fixpoint isolate_body (d : nat) (cs : list BidiClass) : list BidiClass :=
  match cs with
  | [] => []
  | c :: cs' =>
      match c, d with
      | cB, _ => []
      | cPDI, O => []
      | cPDI, S k => c :: isolate_body k cs'
      | (cLRI | cRLI | cFSI), _ => c :: isolate_body (S d) cs'
      | _, _ => c :: isolate_body d cs'
      end
  end.

(** What X5c makes of an FSI followed by [rest] *)
Definition fsi_resolution (rest : list BidiClass) (r : BidiClass) : Prop :=
  (first_strong (isolate_body 0 rest) cL /\ r = cLRI) \/
  ((first_strong (isolate_body 0 rest) cR \/ first_strong (isolate_body 0 rest) cAL) /\ r = cRLI) \/
  ((forall c, ~ first_strong (isolate_body 0 rest) c) /\ r = cFSI).

(** [ds] are the classes [cs] of a text with every FSI resolved *)
Definition fsi_resolved (cs ds : list BidiClass) : Prop :=
  length ds = length cs /\
  forall pre c post, cs = pre ++ c :: post ->
    (c <> cFSI -> nth_error ds (length pre) = Some c) /\
    (c = cFSI -> exists r, nth_error ds (length pre) = Some r /\ fsi_resolution post r).

(** ** X1-X8 *)

Definition next_odd (l : N) : N := if N.even l then (l + 1)%N else (l + 2)%N.
Definition next_even (l : N) : N := if N.even l then (l + 2)%N else (l + 1)%N.

(** An entry of the directional status stack: level, override, isolate status *)
Record status := mkstatus { st_level : N; st_override : option BidiClass; st_isolate : bool }.

Record xstate := mkx {
  x_stack : list status;      (* last entry first *)
  x_oi : nat;                 (* overflow isolate count *)
  x_oe : nat;                 (* overflow embedding count *)
  x_vi : nat                  (* valid isolate count *)
}.

(** X1 *)
Definition x_start (para : N) : xstate := mkx [mkstatus para None false] 0 0 0.

Definition x_top (s : xstate) : status := hd (mkstatus 0 None false) (x_stack s).

(** X2-X5b: the embedding level and override wanted by an initiator *)
Definition wanted (c : BidiClass) (l : N) : N * option BidiClass :=
  match c with
  | cRLE => (next_odd l, None)
  | cLRE => (next_even l, None)
  | cRLO => (next_odd l, Some cR)
  | cLRO => (next_even l, Some cL)
  | cRLI => (next_odd l, None)
  | _ => (next_even l, None)
  end.

(** X6a: drop entries up to and including the last one with a true isolate status *)
Fixpoint drop_isolate (s : list status) : list status :=
  match s with
  | [] => []
  | e :: s' => if st_isolate e then s' else drop_isolate s'
  end.

Definition x_next (c : BidiClass) (s : xstate) : xstate :=
  match c with
  | cRLE | cLRE | cRLO | cLRO =>
      let '(l, o) := wanted c (st_level (x_top s)) in
      if (l <=? 125)%N && (x_oi s =? 0) && (x_oe s =? 0)
      then mkx (mkstatus l o false :: x_stack s) 0 0 (x_vi s)
      else mkx (x_stack s) (x_oi s) (if x_oi s =? 0 then S (x_oe s) else x_oe s) (x_vi s)
  | cRLI | cLRI | cFSI =>
      let '(l, o) := wanted c (st_level (x_top s)) in
      if (l <=? 125)%N && (x_oi s =? 0) && (x_oe s =? 0)
      then mkx (mkstatus l o true :: x_stack s) 0 0 (S (x_vi s))
      else mkx (x_stack s) (S (x_oi s)) (x_oe s) (x_vi s)
  | cPDI =>
      if 0 <? x_oi s then mkx (x_stack s) (x_oi s - 1) (x_oe s) (x_vi s)
      else if x_vi s =? 0 then s
      else mkx (drop_isolate (x_stack s)) 0 0 (x_vi s - 1)
  | cPDF =>
      if 0 <? x_oi s then s
      else if 0 <? x_oe s then mkx (x_stack s) 0 (x_oe s - 1) (x_vi s)
      else if negb (st_isolate (x_top s)) && (2 <=? length (x_stack s))
           then mkx (tl (x_stack s)) 0 0 (x_vi s)
           else s
  | _ => s
  end.

(** The level and class a character gets when the status is [s] *)
Definition x_assign (s : xstate) (c : BidiClass) : N * BidiClass :=
  (st_level (x_top s),
   match st_override (x_top s) with Some o => o | None => c end).

(** X5a-X8: level and class of each character of a paragraph (removed ones: any) *)
Fixpoint x_rules (para : N) (s : xstate) (cs : list BidiClass) : list (N * BidiClass) :=
  match cs with
  | [] => []
  | c :: cs' =>
      let s' := x_next c s in
      (match c with
       | cB => (para, cB)                          (* X8 *)
       | cPDI => x_assign s' c                     (* X6a: after closing *)
       | _ => x_assign s c                         (* X5a-X6: before opening *)
       end) :: x_rules para s' cs'
  end.

(** ** Level runs and isolating run sequences (BD7, BD13) *)

(** The level that counts for a run starting at [s]: all its positions not
    removed by X9, and its first one, have it. *)
Definition run_of_level (oc : list BidiClass) (levels : list N) (l : N) (r : run) : Prop :=
  fst r < snd r <= length levels /\
  level_at levels (fst r) = l /\
  forall i, fst r <= i < snd r -> ~ x9 (class_at oc i) -> level_at levels i = l.

(** [runs] are the level runs of the paragraph: each of one level, consecutive, and
    each next run starts at a position not removed and with another level *)
Fixpoint are_level_runs (oc : list BidiClass) (levels : list N) (from : nat) (runs : list run)
  : Prop :=
  match runs with
  | [] => from = length levels
  | r :: rest =>
      fst r = from /\
      run_of_level oc levels (level_at levels (fst r)) r /\
      match rest with
      | [] => True
      | r' :: _ => ~ x9 (class_at oc (fst r')) /\
                   level_at levels (fst r') <> level_at levels (fst r)
      end /\
      are_level_runs oc levels (snd r) rest
  end.

(** Runs in text order *)
Fixpoint in_order (from : nat) (runs : list run) : Prop :=
  match runs with
  | [] => True
  | r :: rest => from <= fst r < snd r /\ in_order (snd r) rest
  end.

(** ** W1-W7, on the classes of a sequence without removed characters *)

Definition is_in (l : list BidiClass) (c : BidiClass) : bool := existsb (BC_eqb c) l.

(** W1; [prev] is the previous character's class, after W1 *)
Fixpoint w1 (prev : BidiClass) (cs : list BidiClass) : list BidiClass :=
  match cs with
  | [] => []
  | c :: cs' =>
      let c' := if is_in [cNSM] c
                then if is_in [cLRI; cRLI; cFSI; cPDI] prev then cON else prev
                else c in
      c' :: w1 c' cs'
  end.

(** the last strong class among [rev_pre] (nearest first), or [sos] *)
Definition last_strong (sos : BidiClass) (rev_pre : list BidiClass) : BidiClass :=
  hd sos (filter (is_in [cL; cR; cAL]) rev_pre).

(** apply a rule at every position; it sees the reversed prefix and the suffix *)
Fixpoint at_each (f : list BidiClass -> BidiClass -> list BidiClass -> BidiClass)
    (rev_pre cs : list BidiClass) : list BidiClass :=
  match cs with
  | [] => []
  | c :: cs' => f rev_pre c cs' :: at_each f (c :: rev_pre) cs'
  end.

Definition w2 (sos : BidiClass) : list BidiClass -> list BidiClass :=
  at_each (fun pre c _ => if is_in [cEN] c && is_in [cAL] (last_strong sos pre)
                          then cAN else c) [].
Definition w3 : list BidiClass -> list BidiClass :=
  map (fun c => if is_in [cAL] c then cR else c).
(** W4: a single separator between two numbers of the same type *)
Definition w4 : list BidiClass -> list BidiClass :=
  at_each (fun pre c post =>
    match pre, post with
    | p :: _, q :: _ =>
        if is_in [cES; cCS] c && is_in [cEN] p && is_in [cEN] q then cEN
        else if is_in [cCS] c && is_in [cAN] p && is_in [cAN] q then cAN
        else c
    | _, _ => c
    end) [].
(** the nearest class that is not ET *)
Definition beyond_et (l : list BidiClass) : option BidiClass :=
  hd_error (filter (fun c => negb (is_in [cET] c)) l).
(** W5: a sequence of ETs adjacent to a European number *)
Definition w5 : list BidiClass -> list BidiClass :=
  at_each (fun pre c post =>
    if is_in [cET] c &&
       (match beyond_et pre with Some p => is_in [cEN] p | None => false end ||
        match beyond_et post with Some p => is_in [cEN] p | None => false end)
    then cEN else c) [].
Definition w6 : list BidiClass -> list BidiClass :=
  map (fun c => if is_in [cES; cET; cCS] c then cON else c).
Definition w7 (sos : BidiClass) : list BidiClass -> list BidiClass :=
  at_each (fun pre c _ => if is_in [cEN] c && is_in [cL] (last_strong sos pre)
                          then cL else c) [].

Definition w_rules (sos : BidiClass) (cs : list BidiClass) : list BidiClass :=
  w7 sos (w6 (w5 (w4 (w3 (w2 sos (w1 sos cs)))))).

(** ** N1, N2 *)

Definition neutral (c : BidiClass) : bool :=
  is_in [cB; cS; cWS; cON; cFSI; cLRI; cRLI; cPDI] c.

(** the direction a resolved class lends to a neighbouring neutral run *)
Definition direction (c : BidiClass) : option BidiClass :=
  if is_in [cL] c then Some cL
  else if is_in [cR; cEN; cAN] c then Some cR else None.

Definition n_class (e left right : BidiClass) : BidiClass :=
  match direction left, direction right with
  | Some a, Some b => if BC_eqb a b then a else e
  | _, _ => e
  end.

(** [left]/[right]: nearest class that is not neutral, or the border class *)
Definition nearest (border : BidiClass) (l : list BidiClass) : BidiClass :=
  hd border (filter (fun c => negb (neutral c)) l).

Definition n_rules (sos eos e : BidiClass) : list BidiClass -> list BidiClass :=
  at_each (fun pre c post => if neutral c then n_class e (nearest sos pre) (nearest eos post)
                             else c) [].

(** ** I1, I2 *)
Definition implicit_level (l : N) (c : BidiClass) : N :=
  if N.even l
  then if is_in [cR] c then (l + 1)%N else if is_in [cAN; cEN] c then (l + 2)%N else l
  else if is_in [cL; cEN; cAN] c then (l + 1)%N else l.

(** ** Line reordering *)

(** L1 on the characters of a line: separators, and whitespace or isolate formatting
    (removed characters in between) before a separator or the line end, get the
    paragraph level *)
Fixpoint reset_here (post : list BidiClass) : bool :=
  match post with
  | [] => true
  | c :: post' =>
      if is_in [cB; cS] c then true
      else if is_in [cWS; cFSI; cLRI; cRLI; cPDI; cRLE; cLRE; cRLO; cLRO; cPDF; cBN] c
      then reset_here post' else false
  end.

(** L2: reverse every maximal contiguous block of items whose level is at least [k] *)
Fixpoint reverse_blocks {A} (lev : A -> N) (k : N) (items block : list A) : list A :=
  match items with
  | [] => block
  | x :: rest =>
      if (k <=? lev x)%N then reverse_blocks lev k rest (x :: block)
      else block ++ x :: reverse_blocks lev k rest []
  end.

(** for the levels hi, hi-1, ..., hi-n+1 *)
Fixpoint l2_down {A} (lev : A -> N) (hi : N) (n : nat) (items : list A) : list A :=
  match n with
  | O => items
  | S n' => l2_down lev (hi - 1) n' (reverse_blocks lev hi items [])
  end.

Definition max_level {A} (lev : A -> N) (items : list A) : N :=
  fold_right N.max 0%N (map lev items).

(** the lowest odd level among the items *)
Definition lowest_odd {A} (lev : A -> N) (items : list A) : option N :=
  fold_right (fun x acc =>
    if N.odd (lev x)
    then match acc with Some m => Some (N.min (lev x) m) | None => Some (lev x) end
    else acc) None items.

(** from the highest level down to the lowest odd level, including levels in between
    that do not occur *)
Definition l2_rule {A} (lev : A -> N) (items : list A) : list A :=
  match lowest_odd lev items with
  | None => items
  | Some lo => l2_down lev (max_level lev items)
                 (N.to_nat (max_level lev items + 1 - lo)) items
  end.

(** ** Conditions under which the implementation follows the rules exactly *)

Definition kept (c : BidiClass) : bool := negb (is_in [cRLE; cLRE; cRLO; cLRO; cPDF; cBN] c).

(** For N1/N2: no removed character stands directly before the first neutral of a
    neutral run ([inrun]: the last kept class is neutral) *)
Fixpoint runs_unbroken (inrun : bool) (cs : list BidiClass) : Prop :=
  match cs with
  | [] => True
  | c :: r =>
      if neutral c then runs_unbroken true r
      else if kept c then runs_unbroken false r
      else (inrun = true \/ match find kept r with Some d => neutral d = false | None => True end)
           /\ runs_unbroken inrun r
  end.

(** For W1-W7: no number after an Arabic letter is affected by W2, ... *)
Definition w2_idle (sos : BidiClass) (cs : list BidiClass) : Prop := w2 sos (w1 sos cs) = w1 sos cs.
(** ... every ET is followed by another character of the sequence that is not an NSM,
    ES or CS, ... *)
Fixpoint ets_followed (cs : list BidiClass) : Prop :=
  match cs with
  | [] => True
  | c :: r =>
      (c = cET -> match r with [] => False | d :: _ => is_in [cNSM; cES; cCS] d = false end)
      /\ ets_followed r
  end.
(** ... and every separator is one byte long *)
Fixpoint separators_short (ws : list nat) (cs : list BidiClass) : Prop :=
  match ws, cs with
  | w :: ws', c :: r => (is_in [cES; cCS] c = true -> w = 1) /\ separators_short ws' r
  | _, _ => True
  end.
Definition weak_tame (sos : BidiClass) (ws : list nat) (cs : list BidiClass) : Prop :=
  w2_idle sos (filter kept cs) /\ ets_followed (filter kept cs) /\ separators_short ws cs.

(** ** Isolating run sequences (BD9, BD13) *)

(** the PDI at [b] matches the isolate initiator at [a] *)
Definition matching_pdi (cs : list BidiClass) (a b : nat) : Prop :=
  a < b < length cs /\ initiator (class_at cs a) /\ class_at cs b = cPDI /\
  (forall k, a < k <= b -> isolate_depth 0 (firstn a cs) < isolate_depth 0 (firstn k cs)) /\
  isolate_depth 0 (firstn (S b) cs) = isolate_depth 0 (firstn a cs).

(** every run but the last ends with an initiator matched by the first character of
    the next run, and the last run does not end with a matched initiator *)
Fixpoint isolating_chain (cs : list BidiClass) (s : list run) : Prop :=
  match s with
  | [] => False
  | r :: rest =>
      match rest with
      | [] => forall b, ~ matching_pdi cs (snd r - 1) b
      | r' :: _ => matching_pdi cs (snd r - 1) (fst r') /\ isolating_chain cs rest
      end
  end.

(** a paragraph separator occurs only at the end *)
Definition separator_last (cs : list BidiClass) : Prop :=
  forall k, class_at cs k = cB -> k < length cs -> S k = length cs.
(** no removed character directly follows an isolate initiator *)
Definition isolates_begin_kept (cs : list BidiClass) : Prop :=
  forall k, initiator (class_at cs k) -> S k < length cs -> kept (class_at cs (S k)) = true.

(** byte offset of the k-th of characters with widths [ws], and the byte range of a
    range of characters *)
Definition off (ws : list nat) (k : nat) : nat := list_sum (firstn k ws).
Definition bound (ws : list nat) (r : run) : run := (off ws (fst r), off ws (snd r)).

(** X10: the class of the border between levels [l] and [m] *)
Definition border_class (l m : N) : BidiClass := if N.odd (N.max l m) then cR else cL.
(** level of the nearest character not removed, or the paragraph level *)
Definition nearest_level (para : N) (items : list (BidiClass * N)) : N :=
  hd para (map snd (filter (fun x => kept (fst x)) items)).
Definition sos_eos (para : N) (cs : list BidiClass) (lv : list N) (s : sequence) : Prop :=
  let l := level_at lv (seq_start (s_runs s)) in
  let e := seq_end (s_runs s) in
  s_sos s = border_class l (nearest_level para (rev (firstn (seq_start (s_runs s)) (combine cs lv)))) /\
  (initiator (class_at cs (e - 1)) -> s_eos s = border_class l para) /\
  (~ initiator (class_at cs (e - 1)) -> s_eos s = border_class l (nearest_level para (skipn e (combine cs lv)))).

(** ** The levels of a paragraph *)

(** W1-N2 on the characters of a sequence that X9 does not remove; [xc]: classes after
    X1-X8, [fc]: final classes *)
Definition sequence_resolved (cs xc fc : list BidiClass) (lv : list N) (s : sequence) : Prop :=
  let idx := filter (fun k => kept (class_at cs k)) (seq_indices (s_runs s)) in
  let e := if N.odd (level_at lv (seq_start (s_runs s))) then cR else cL in
  map (class_at fc) idx = n_rules (s_sos s) (s_eos s) e (w_rules (s_sos s) (map (class_at xc) idx)).

(** every removed character is followed (in the sequence) by a letter or a number, or by
    nothing that is kept *)
Fixpoint removed_before_firm (cs : list BidiClass) : Prop :=
  match cs with
  | [] => True
  | c :: r =>
      (kept c = false ->
       match find kept r with Some d => is_in [cL; cR; cAL; cEN; cAN] d = true | None => True end)
      /\ removed_before_firm r
  end.

(** [out] are the resolved levels of a paragraph with classes [cs]: X1-X8, level runs,
    isolating run sequences (BD13), X10, W1-W7, N1-N2 for the sequences selected by
    [sel], I1-I2; a removed character has the level of the character before it *)
Definition uax9_levels (sel : list BidiClass -> sequence -> Prop) (para : N) (cs : list BidiClass) (out : list N) : Prop :=
  exists lv xc fc runs ss,
    length lv = length cs /\
    (forall k, k < length cs -> kept (class_at cs k) = true ->
       nth_error (x_rules para (x_start para) cs) k = Some (level_at lv k, class_at xc k)) /\
    (forall k, k < length cs -> kept (class_at cs k) = false -> class_at xc k = class_at cs k) /\
    are_level_runs cs lv 0 runs /\
    Permutation (concat (map s_runs ss)) runs /\
    Forall (fun s => isolating_chain cs (s_runs s) /\
                     (exists l, Forall (fun r => level_at lv (fst r) = l) (s_runs s)) /\
                     sos_eos para cs lv s) ss /\
    Forall (fun s => sel xc s -> sequence_resolved cs xc fc lv s) ss /\
    length out = length cs /\
    forall k, k < length cs ->
      level_at out k = if kept (class_at cs k) then implicit_level (level_at lv k) (class_at fc k)
                       else match k with O => para | S j => level_at out j end.

(** the sequences on which the implementation follows the rules *)
Definition tame_sequence (ws : list nat) (xc : list BidiClass) (s : sequence) : Prop :=
  let idx := seq_indices (s_runs s) in
  weak_tame (s_sos s) (map (fun k => nth k ws 0) idx) (map (class_at xc) idx) /\
  removed_before_firm (map (class_at xc) idx).

(** Model of unic/bidi/src: embedding levels, explicit levels, isolating run
    sequences, weak/neutral/implicit resolution, paragraph analysis and line
    reordering.

    Arrays ([Vec<BidiClass>], [Vec<Level>], slices of them) are lists indexed
    by [nat] byte offsets.  Reads outside an array give a default and writes
    outside are ignored; where the Rust index can be out of range the model
    checks it and answers [Panic].  The [u32] counters of [compute] are
    unbounded (they count characters of one paragraph). *)
From Coq Require Import List NArith Lia Bool Arith.
Import ListNotations.
From Verif Require Import Base Enums TableTypes UcdModel.
Open Scope nat_scope.

(** The short names of unic/ucd/bidi/src/bidi_class.rs:102-190
    ([abbr_names]), as imported by the bidi crate. *)
Notation cL := BC_LeftToRight.
Notation cR := BC_RightToLeft.
Notation cAL := BC_ArabicLetter.
Notation cEN := BC_EuropeanNumber.
Notation cES := BC_EuropeanSeparator.
Notation cET := BC_EuropeanTerminator.
Notation cAN := BC_ArabicNumber.
Notation cCS := BC_CommonSeparator.
Notation cNSM := BC_NonspacingMark.
Notation cBN := BC_BoundaryNeutral.
Notation cB := BC_ParagraphSeparator.
Notation cS := BC_SegmentSeparator.
Notation cWS := BC_WhiteSpace.
Notation cON := BC_OtherNeutral.
Notation cLRE := BC_LeftToRightEmbedding.
Notation cLRO := BC_LeftToRightOverride.
Notation cRLE := BC_RightToLeftEmbedding.
Notation cRLO := BC_RightToLeftOverride.
Notation cPDF := BC_PopDirectionalFormat.
Notation cLRI := BC_LeftToRightIsolate.
Notation cRLI := BC_RightToLeftIsolate.
Notation cFSI := BC_FirstStrongIsolate.
Notation cPDI := BC_PopDirectionalIsolate.

(** ** Arrays and strings (Rust core) *)

Fixpoint upd {A} (l : list A) (i : nat) (x : A) : list A :=
  match l, i with
  | [], _ => []
  | _ :: l', O => x :: l'
  | y :: l', S i' => y :: upd l' i' x
  end.

Definition upds {A} (l : list A) (is : list nat) (x : A) : list A :=
  fold_left (fun l j => upd l j x) is l.

Definition class_at (l : list BidiClass) (i : nat) : BidiClass := nth i l cL.
Definition level_at (l : list N) (i : nat) : N := nth i l 0%N.

(** [char::len_utf8], [str::len] *)
Definition clen (c : N) : nat := N.to_nat (utf8_len c).
Definition slen (t : str) : nat := fold_right (fun c n => clen c + n) 0 t.

(** Split a string at a byte offset; [None] if the offset is not on a
    character boundary or beyond the end. *)
Fixpoint split_at (t : str) (n : nat) : option (str * str) :=
  match n with
  | O => Some ([], t)
  | _ => match t with
         | [] => None
         | c :: t' => if clen c <=? n
                      then match split_at t' (n - clen c) with
                           | Some (a, b) => Some (c :: a, b)
                           | None => None
                           end
                      else None
         end
  end.

(** [&text[s..e]], which panics off character boundaries. *)
Definition str_slice (t : str) (s e : nat) : outcome str :=
  if s <=? e then
    match split_at t s with
    | Some (_, b) => match split_at b (e - s) with
                     | Some (m, _) => Ret m
                     | None => Panic
                     end
    | None => Panic
    end
  else Panic.

(** [vec[s..e]] for in-range bounds *)
Definition sub {A} (l : list A) (s e : nat) : list A := firstn (e - s) (skipn s l).

(** ** unic/bidi/src/level.rs *)

(** level.rs:43-47 *)
Definition MAX_EXPLICIT_DEPTH : N := 125.
Definition MAX_IMPLICIT_DEPTH : N := 126.
(** level.rs:38-41 *)
Definition LTR_LEVEL : N := 0.
Definition RTL_LEVEL : N := 1.

(** level.rs:83-89 [Level::new] *)
Definition level_new (n : N) : option N :=
  if (n <=? MAX_IMPLICIT_DEPTH)%N then Some n else None.
(** level.rs:93-99 [Level::new_explicit] *)
Definition level_new_explicit (n : N) : option N :=
  if (n <=? MAX_EXPLICIT_DEPTH)%N then Some n else None.
(** level.rs:111-119 *)
Definition level_is_ltr (l : N) : bool := (l mod 2 =? 0)%N.
Definition level_is_rtl (l : N) : bool := (l mod 2 =? 1)%N.
(** level.rs:125-137 [raise] ([checked_add] on [u8]) *)
Definition level_raise (l a : N) : option N :=
  if (l + a <=? 255)%N
  then if (l + a <=? MAX_IMPLICIT_DEPTH)%N then Some (l + a)%N else None
  else None.
(** level.rs:141-153 [raise_explicit] *)
Definition level_raise_explicit (l a : N) : option N :=
  if (l + a <=? 255)%N
  then if (l + a <=? MAX_EXPLICIT_DEPTH)%N then Some (l + a)%N else None
  else None.
(** level.rs:157-165 [lower] ([checked_sub]) *)
Definition level_lower (l a : N) : option N :=
  if (a <=? l)%N then Some (l - a)%N else None.
(** level.rs:171-173; [& !1] on [u8] clears the lowest bit *)
Definition level_next_ltr (l : N) : option N := level_new_explicit (N.land (l + 2) 254).
(** level.rs:177-179 *)
Definition level_next_rtl (l : N) : option N := level_new_explicit (N.lor (l + 1) 1).
(** level.rs:184-186 *)
Definition level_lowest_ge_rtl (l : N) : option N := level_new (N.lor l 1).
(** level.rs:190-196 [bidi_class] *)
Definition level_class (l : N) : BidiClass := if level_is_rtl l then cR else cL.
(** level.rs:214-216 [has_rtl] *)
Definition levels_has_rtl (ls : list N) : bool := existsb level_is_rtl ls.

(** ** unic/bidi/src/prepare.rs:168-170 *)
Definition removed_by_x9 (c : BidiClass) : bool :=
  match c with
  | cRLE | cLRE | cRLO | cLRO | cPDF | cBN => true
  | _ => false
  end.
(** prepare.rs:173-175 *)
Definition not_removed_by_x9 (c : BidiClass) : bool := negb (removed_by_x9 c).

Definition is_isolate_initiator (c : BidiClass) : bool :=
  match c with cRLI | cLRI | cFSI => true | _ => false end.

(** ** unic/bidi/src/bidi_info.rs:68-143, [InitialInfo::new] *)

Record para := mkpara { p_start : nat; p_end : nat; p_level : N }.

Record init_state := mkinit {
  i_classes : list BidiClass;    (* original_classes so far *)
  i_stack : list nat;            (* isolate_stack, last pushed first *)
  i_paras : list para;           (* paragraphs so far *)
  i_start : nat;                 (* para_start *)
  i_level : option N             (* para_level *)
}.

Definition unwrap_level (o : option N) : N := match o with Some l => l | None => LTR_LEVEL end.

(** bidi_info.rs:79-129, one iteration at byte offset [i] with a character of
    class [class] and width [w] *)
Definition init_step (default : option N) (st : init_state) (i w : nat) (class : BidiClass)
  : init_state :=
  let oc := i_classes st ++ repeat class w in
  match class with
  | cB =>
      mkinit oc [] (i_paras st ++ [mkpara (i_start st) (i + w) (unwrap_level (i_level st))])
             (i + w) default
  | cL | cR | cAL =>
      match i_stack st with
      | start :: _ =>
          match class_at oc start with
          | cFSI => mkinit (upds oc (map (fun j => start + j) (seq 0 3))
                              (match class with cL => cLRI | _ => cRLI end))
                           (i_stack st) (i_paras st) (i_start st) (i_level st)
          | _ => mkinit oc (i_stack st) (i_paras st) (i_start st) (i_level st)
          end
      | [] =>
          match i_level st with
          | None => mkinit oc [] (i_paras st) (i_start st)
                           (Some (match class with cL => LTR_LEVEL | _ => RTL_LEVEL end))
          | Some _ => mkinit oc [] (i_paras st) (i_start st) (i_level st)
          end
      end
  | cRLI | cLRI | cFSI =>
      mkinit oc (i :: i_stack st) (i_paras st) (i_start st) (i_level st)
  | cPDI => mkinit oc (tl (i_stack st)) (i_paras st) (i_start st) (i_level st)
  | _ => mkinit oc (i_stack st) (i_paras st) (i_start st) (i_level st)
  end.

(** the loop over [text.char_indices()] *)
Fixpoint init_loop (default : option N) (t : str) (i : nat) (st : init_state) : init_state :=
  match t with
  | [] => st
  | c :: t' => init_loop default t' (i + clen c) (init_step default st i (clen c) (bidi_class c))
  end.

(** bidi_info.rs:68-143; the two public components of [InitialInfo] besides the text *)
Definition initial_info (t : str) (default : option N) : list BidiClass * list para :=
  let st := init_loop default t 0 (mkinit [] [] [] 0 default) in
  let ps := if i_start st <? slen t
            then i_paras st ++ [mkpara (i_start st) (slen t) (unwrap_level (i_level st))]
            else i_paras st in
  (i_classes st, ps).

(** ** unic/bidi/src/explicit.rs *)

(** explicit.rs:167-172 *)
Inductive override := O_Neutral | O_RTL | O_LTR | O_Isolate.

Record exp_state := mkexp {
  e_levels : list N;
  e_classes : list BidiClass;         (* processing_classes *)
  e_stack : list (N * override);      (* last pushed first; never empty *)
  e_oi : nat;                         (* overflow_isolate_count *)
  e_oe : nat;                         (* overflow_embedding_count *)
  e_vi : nat                          (* valid_isolate_count *)
}.

(** explicit.rs:188-190 [last] *)
Definition stack_last (s : list (N * override)) : N * override :=
  match s with x :: _ => x | [] => (0%N, O_Neutral) end.

(** explicit.rs:52-56, 113-117, 145-149: the override status sets the processing class *)
Definition apply_override (o : override) (pc : list BidiClass) (i : nat) : list BidiClass :=
  match o with
  | O_RTL => upd pc i cR
  | O_LTR => upd pc i cL
  | _ => pc
  end.

(** explicit.rs:98-107: pop everything up to and including the last Isolate *)
Fixpoint pop_isolate (s : list (N * override)) : list (N * override) :=
  match s with
  | [] => []
  | (_, O_Isolate) :: s' => s'
  | _ :: s' => pop_isolate s'
  end.

(** explicit.rs:152-156 *)
Definition copy_bytes (st : exp_state) (i w : nat) : exp_state :=
  let js := map (fun j => i + j) (seq 1 (w - 1)) in
  mkexp (upds (e_levels st) js (level_at (e_levels st) i))
        (upds (e_classes st) js (class_at (e_classes st) i))
        (e_stack st) (e_oi st) (e_oe st) (e_vi st).

(** explicit.rs:42-157, one iteration at byte offset [i], width [w], where
    [oc] is original_classes.  [stack.last()] cannot fail: see
    [cst_ok] in BidiExplicit.v. *)
Definition exp_step (oc : list BidiClass) (st : exp_state) (i w : nat) : exp_state :=
  let '(last_level, last_status) := stack_last (e_stack st) in
  match class_at oc i with
  | (cRLE | cLRE | cRLO | cLRO | cRLI | cLRI | cFSI) as class =>
      let iso := is_isolate_initiator class in
      let levels1 := if iso then upd (e_levels st) i last_level else e_levels st in
      let pc1 := if iso then apply_override last_status (e_classes st) i else e_classes st in
      let new_level := if bc_is_rtl class then level_next_rtl last_level
                       else level_next_ltr last_level in
      let st' :=
        match new_level, e_oi st, e_oe st with
        | Some nl, O, O =>
            let stack' := (nl, match class with
                               | cRLO => O_RTL
                               | cLRO => O_LTR
                               | cRLI | cLRI | cFSI => O_Isolate
                               | _ => O_Neutral
                               end) :: e_stack st in
            if iso then mkexp levels1 pc1 stack' (e_oi st) (e_oe st) (S (e_vi st))
            else mkexp (upd levels1 i nl) pc1 stack' (e_oi st) (e_oe st) (e_vi st)
        | _, _, _ =>
            if iso then mkexp levels1 pc1 (e_stack st) (S (e_oi st)) (e_oe st) (e_vi st)
            else match e_oi st with
                 | O => mkexp levels1 pc1 (e_stack st) (e_oi st) (S (e_oe st)) (e_vi st)
                 | _ => mkexp levels1 pc1 (e_stack st) (e_oi st) (e_oe st) (e_vi st)
                 end
        end in
      copy_bytes st' i w
  | cPDI =>
      let '(stack', oi', oe', vi') :=
        match e_oi st, e_vi st with
        | S k, _ => (e_stack st, k, e_oe st, e_vi st)
        | O, S k => (pop_isolate (e_stack st), O, O, k)
        | O, O => (e_stack st, O, e_oe st, O)
        end in
      let '(l, o) := stack_last stack' in
      copy_bytes (mkexp (upd (e_levels st) i l) (apply_override o (e_classes st) i)
                        stack' oi' oe' vi') i w
  | cPDF =>
      match e_oi st, e_oe st with
      | S _, _ => st                                    (* continue *)
      | O, S k => mkexp (e_levels st) (e_classes st) (e_stack st) O k (e_vi st)  (* continue *)
      | O, O =>
          let stack' := match last_status with
                        | O_Isolate => e_stack st
                        | _ => if 2 <=? length (e_stack st) then tl (e_stack st) else e_stack st
                        end in
          copy_bytes (mkexp (upd (e_levels st) i (fst (stack_last stack'))) (e_classes st)
                            stack' O O (e_vi st)) i w
      end
  | cB | cBN => copy_bytes st i w
  | _ =>
      copy_bytes (mkexp (upd (e_levels st) i last_level)
                        (apply_override last_status (e_classes st) i)
                        (e_stack st) (e_oi st) (e_oe st) (e_vi st)) i w
  end.

(** the loop over [text.char_indices()]; only the widths of the characters matter *)
Fixpoint exp_loop (oc : list BidiClass) (ws : list nat) (i : nat) (st : exp_state) : exp_state :=
  match ws with
  | [] => st
  | w :: ws' => exp_loop oc ws' (i + w) (exp_step oc st i w)
  end.

(** explicit.rs:24-158 [compute] *)
Definition explicit_compute (ws : list nat) (para_level : N) (oc : list BidiClass)
    (levels : list N) (pc : list BidiClass) : list N * list BidiClass :=
  let st := exp_loop oc ws 0 (mkexp levels pc [(para_level, O_Neutral)] 0 0 0) in
  (e_levels st, e_classes st).

(** ** unic/bidi/src/prepare.rs *)

Definition run := (nat * nat)%type.

(** prepare.rs:150-160, the loop from [i] over the remaining [n] positions *)
Fixpoint level_runs_loop (levels : list N) (oc : list BidiClass) (i n : nat)
    (cur_level : N) (cur_start : nat) : list run :=
  match n with
  | O => [(cur_start, i)]
  | S n' =>
      if negb (removed_by_x9 (class_at oc i)) && negb (level_at levels i =? cur_level)%N
      then (cur_start, i) :: level_runs_loop levels oc (S i) n' (level_at levels i) i
      else level_runs_loop levels oc (S i) n' cur_level cur_start
  end.

(** prepare.rs:142-163 [level_runs] *)
Definition level_runs (levels : list N) (oc : list BidiClass) : list run :=
  match levels with
  | [] => []
  | l0 :: _ => level_runs_loop levels oc 1 (length levels - 1) l0 0
  end.

(** prepare.rs:57-86; [stack] has the last pushed first and its bottom element is the
    initial empty vector.  [seqs] are the finished sequences. *)
Fixpoint collect_sequences (oc : list BidiClass) (runs : list run)
    (stack : list (list run)) (seqs : list (list run)) : list (list run) :=
  match runs with
  | [] => seqs ++ filter (fun s => match s with [] => false | _ => true end) stack
  | r :: runs' =>
      let start_class := class_at oc (fst r) in
      let end_class := class_at oc (snd r - 1) in
      let '(sequence, stack1) :=
        match start_class, stack with
        | cPDI, s :: ((_ :: _) as rest) => (s, rest)
        | _, _ => ([], stack)
        end in
      let sequence' := sequence ++ [r] in
      if is_isolate_initiator end_class
      then collect_sequences oc runs' (sequence' :: stack1) seqs
      else collect_sequences oc runs' stack1 (seqs ++ [sequence'])
  end.

(** prepare.rs:31-35 *)
Record sequence := mkseq { s_runs : list run; s_sos : BidiClass; s_eos : BidiClass }.

(** [slice[..n].iter().rposition(not_removed_by_x9)]: the last index below [n] *)
Fixpoint rposition (oc : list BidiClass) (n : nat) : option nat :=
  match n with
  | O => None
  | S k => if not_removed_by_x9 (class_at oc k) then Some k else rposition oc k
  end.

(** [slice[i..].iter().position(not_removed_by_x9)], as an absolute index among the
    [n] positions from [i] *)
Fixpoint position (oc : list BidiClass) (i n : nat) : option nat :=
  match n with
  | O => None
  | S k => if not_removed_by_x9 (class_at oc i) then Some i else position oc (S i) k
  end.

Definition run0 : run := (0, 0).
Definition seq_start (s : list run) : nat := fst (hd run0 s).
Definition seq_end (s : list run) : nat := snd (last s run0).

(** prepare.rs:90-136 *)
Definition finish_sequence (para_level : N) (oc : list BidiClass) (levels : list N)
    (s : list run) : sequence :=
  let start_of_seq := seq_start s in
  let end_of_seq := seq_end s in
  let seq_level := level_at levels start_of_seq in
  let pred_level := match rposition oc start_of_seq with
                    | Some idx => level_at levels idx
                    | None => para_level
                    end in
  let succ_level :=
    if is_isolate_initiator (class_at oc (end_of_seq - 1)) then para_level
    else match position oc end_of_seq (length oc - end_of_seq) with
         | Some idx => level_at levels idx
         | None => para_level
         end in
  mkseq s (level_class (N.max seq_level pred_level)) (level_class (N.max seq_level succ_level)).

(** prepare.rs:44-137 [isolating_run_sequences] *)
Definition isolating_run_sequences (para_level : N) (oc : list BidiClass) (levels : list N)
  : list sequence :=
  map (finish_sequence para_level oc levels)
      (collect_sequences oc (level_runs levels oc) [[]] []).

(** [runs.iter().flat_map(...)]: the positions of a sequence in order *)
Definition run_indices (r : run) : list nat := seq (fst r) (snd r - fst r).
Definition seq_indices (s : list run) : list nat := flat_map run_indices s.

(** ** unic/bidi/src/implicit.rs *)

(** implicit.rs:74-78: the first class not removed among the following positions *)
Definition next_class (pc : list BidiClass) (rest : list nat) (eos : BidiClass) : BidiClass :=
  match find not_removed_by_x9 (map (class_at pc) rest) with
  | Some c => c
  | None => eos
  end.

(** implicit.rs:99-115: what follows the match in the loop body; [ets] are the
    et_run_indices.  Gives the new [prev_class], [last_strong_is_al], classes and ETs. *)
Definition weak_tail (pc : list BidiClass) (i : nat) (al : bool) (ets : list nat)
  : BidiClass * bool * list BidiClass * list nat :=
  let prev := class_at pc i in
  let al' := match prev with cL | cR => false | cAL => true | _ => al end in
  match prev with
  | cET => (prev, al', pc, ets)
  | _ => (prev, al', upds pc ets cON, [])
  end.

(** implicit.rs:48-116, the first loop (W1-W6) *)
Fixpoint weak_loop (eos : BidiClass) (idx : list nat) (pc : list BidiClass)
    (prev : BidiClass) (al : bool) (ets : list nat) : list BidiClass :=
  match idx with
  | [] => pc
  | i :: rest =>
      let continue_with pc ets :=
        let '(prev', al', pc', ets') := weak_tail pc i al ets in
        weak_loop eos rest pc' prev' al' ets' in
      match class_at pc i with
      | cNSM =>
          continue_with (upd pc i (match prev with
                                   | cRLI | cLRI | cFSI | cPDI => cON
                                   | _ => prev
                                   end)) ets
      | cEN =>
          if al then continue_with (upd pc i cAN) ets
          else continue_with (upds pc ets cEN) []
      | cAL => continue_with (upd pc i cR) ets
      | (cES | cCS) as class =>
          continue_with (upd pc i (match prev, class, next_class pc rest eos with
                                   | cEN, cES, cEN | cEN, cCS, cEN => cEN
                                   | cAN, cCS, cAN => cAN
                                   | _, _, _ => cON
                                   end)) ets
      | cET =>
          match prev with
          | cEN => continue_with (upd pc i cEN) ets
          | _ => continue_with pc (ets ++ [i])
          end
      | class =>
          if removed_by_x9 class then weak_loop eos rest pc prev al ets
          else continue_with pc ets
      end
  end.

(** implicit.rs:118-135, the second loop (W7) *)
Fixpoint weak_w7 (idx : list nat) (pc : list BidiClass) (last_l : bool) : list BidiClass :=
  match idx with
  | [] => pc
  | i :: rest =>
      match class_at pc i with
      | cEN => if last_l then weak_w7 rest (upd pc i cL) last_l else weak_w7 rest pc last_l
      | cL => weak_w7 rest pc true
      | cR | cAL => weak_w7 rest pc false
      | _ => weak_w7 rest pc last_l
      end
  end.

Definition is_class_L (c : BidiClass) : bool := match c with cL => true | _ => false end.

(** implicit.rs:25-136 [resolve_weak] *)
Definition resolve_weak (s : sequence) (pc : list BidiClass) : list BidiClass :=
  let idx := seq_indices (s_runs s) in
  weak_w7 idx (weak_loop (s_eos s) idx pc (s_sos s) false []) (is_class_L (s_sos s)).

(** implicit.rs:232-238 [is_NI] *)
Definition is_NI (c : BidiClass) : bool :=
  match c with
  | cB | cS | cWS | cON | cFSI | cLRI | cRLI | cPDI => true
  | _ => false
  end.

(** implicit.rs:185-198 *)
Definition neutral_class (prev next e : BidiClass) : BidiClass :=
  match prev, next with
  | cL, cL => cL
  | cR, cR | cR, cAN | cR, cEN | cAN, cR | cAN, cAN | cAN, cEN | cEN, cR | cEN, cAN | cEN, cEN => cR
  | _, _ => e
  end.

(** implicit.rs:147-204.  The two nested loops share one iterator; [run] is
    [None] in the outer loop and [Some ni_run] in the inner one. *)
Fixpoint neutral_loop (e eos : BidiClass) (idx : list nat) (pc : list BidiClass)
    (prev : BidiClass) (run : option (list nat)) : list BidiClass :=
  match idx with
  | [] => match run with
          | None => pc
          | Some r => upds pc r (neutral_class prev eos e)
          end
  | i :: rest =>
      match run with
      | None => if is_NI (class_at pc i)
                then neutral_loop e eos rest pc prev (Some [i])
                else neutral_loop e eos rest pc (class_at pc i) None
      | Some r =>
          if removed_by_x9 (class_at pc i) then neutral_loop e eos rest pc prev (Some r)
          else if is_NI (class_at pc i) then neutral_loop e eos rest pc prev (Some (r ++ [i]))
          else let pc' := upds pc r (neutral_class prev (class_at pc i) e) in
               neutral_loop e eos rest pc' (class_at pc' i) None
      end
  end.

(** implicit.rs:141-205 [resolve_neutral] *)
Definition resolve_neutral (s : sequence) (levels : list N) (pc : list BidiClass)
  : list BidiClass :=
  let e := level_class (level_at levels (seq_start (s_runs s))) in
  neutral_loop e (s_eos s) (seq_indices (s_runs s)) pc (s_sos s) None.

(** implicit.rs:219-225, one position *)
Definition resolve_level (class : BidiClass) (l : N) : outcome N :=
  match
    match level_is_rtl l, class with
    | true, cL | false, cR | true, cEN | true, cAN => level_raise l 1
    | false, cAN | false, cEN => level_raise l 2
    | _, _ => Some l
    end
  with
  | Some l' => Ret l'
  | None => Panic
  end.

(** implicit.rs:212-230 [resolve_levels]; the returned maximum is not used *)
Fixpoint resolve_levels (pc : list BidiClass) (levels : list N) : outcome (list N) :=
  match pc, levels with
  | c :: pc', l :: levels' =>
      obind (resolve_level c l) (fun l' =>
      obind (resolve_levels pc' levels') (fun r => Ret (l' :: r)))
  | [], [] => Ret []
  | _, _ => Panic                                       (* assert_eq! of the lengths *)
  end.

(** ** unic/bidi/src/bidi_info.rs *)

(** bidi_info.rs:226-236 [assign_levels_to_removed_chars]; [prev] is the level of the
    preceding position, or the paragraph level at the start *)
Fixpoint assign_removed (prev : N) (oc : list BidiClass) (levels : list N) : list N :=
  match oc, levels with
  | c :: oc', l :: levels' =>
      let l' := if removed_by_x9 c then prev else l in
      l' :: assign_removed l' oc' levels'
  | _, _ => levels
  end.

(** bidi_info.rs:187-211, the body of the loop over the paragraphs: the levels of
    one paragraph from its character widths and classes *)
Definition para_levels (ws : list nat) (level : N) (oc : list BidiClass) : outcome (list N) :=
  let '(levels, pc) := explicit_compute ws level oc (repeat level (length oc)) oc in
  let seqs := isolating_run_sequences level oc levels in
  let pc' := fold_left (fun pc s => resolve_neutral s levels (resolve_weak s pc)) seqs pc in
  obind (resolve_levels pc' levels) (fun levels' => Ret (assign_removed level oc levels')).

Fixpoint all_para_levels (t : str) (oc : list BidiClass) (ps : list para) : outcome (list N) :=
  match ps with
  | [] => Ret []
  | p :: ps' =>
      obind (str_slice t (p_start p) (p_end p)) (fun pt =>
      obind (para_levels (map clen pt) (p_level p) (sub oc (p_start p) (p_end p))) (fun ls =>
      obind (all_para_levels t oc ps') (fun rest => Ret (ls ++ rest))))
  end.

(** bidi_info.rs:150-168 *)
Record bidi_info := mkbidi {
  b_text : str;
  b_classes : list BidiClass;
  b_levels : list N;
  b_paras : list para
}.

(** bidi_info.rs:177-219 [BidiInfo::new].  The level vector is grown paragraph by
    paragraph, which is right because the ranges are contiguous from 0 (C30). *)
Definition bidi_new (t : str) (default : option N) : outcome bidi_info :=
  let '(oc, ps) := initial_info t default in
  obind (all_para_levels t oc ps) (fun ls => Ret (mkbidi t oc ls ps)).

(** bidi_info.rs:295-331: one iteration of rule L1 at offset [i] {i relative to the
    line, as in the code}, with [resets] = (reset_from, reset_to).  [assert_eq!(reset_to, None)]
    holds because both are cleared in the same iteration. *)
Definition l1_step (plevel : N) (class : BidiClass) (levels : list N)
    (reset_from : option nat) (i w : nat) : list N * option nat :=
  match class with
  | cRLE | cLRE | cRLO | cLRO | cPDF | cBN => (levels, reset_from)
  | cB | cS =>
      let from := match reset_from with Some f => f | None => i end in
      (upds levels (seq from (i + w - from)) plevel, None)
  | cWS | cFSI | cLRI | cRLI | cPDI =>
      (levels, match reset_from with Some f => Some f | None => Some i end)
  | _ => (levels, None)
  end.

Fixpoint l1_loop (plevel : N) (oc : list BidiClass) (ws : list nat) (i : nat)
    (levels : list N) (reset_from : option nat) : list N :=
  match ws with
  | [] => match reset_from with
          | Some from => upds levels (seq from (i - from)) plevel
          | None => levels
          end
  | w :: ws' =>
      let '(levels', rf) := l1_step plevel (class_at oc i) levels reset_from i w in
      l1_loop plevel oc ws' (i + w) levels' rf
  end.

(** bidi_info.rs:333-354: the runs from position [i] with [n] positions left *)
Fixpoint vruns_loop (levels : list N) (le : nat) (i n : nat) (start : nat) (level : N)
    (minl maxl : N) : list run * N * N :=
  match n with
  | O => ([(start, le)], minl, maxl)
  | S n' =>
      let nl := level_at levels i in
      if (nl =? level)%N then vruns_loop levels le (S i) n' start level minl maxl
      else let '(rs, mn, mx) := vruns_loop levels le (S i) n' i nl (N.min nl minl) (N.max nl maxl) in
           ((start, i) :: rs, mn, mx)
  end.

(** bidi_info.rs:362-385: one pass of rule L2 at [max]: every maximal sequence of
    consecutive runs with level at least [max] is reversed; [group] is the
    current such sequence, already reversed *)
Fixpoint l2_pass (self_levels : list N) (max : N) (runs group : list run) : list run :=
  match runs with
  | [] => group
  | r :: rest =>
      if (level_at self_levels (fst r) <? max)%N
      then group ++ r :: l2_pass self_levels max rest []
      else l2_pass self_levels max rest (r :: group)
  end.

(** bidi_info.rs:358-388: the passes for max, max-1, ..., min; [n] is the number of passes *)
Fixpoint l2_loop (self_levels : list N) (n : nat) (max : N) (runs : list run) : list run :=
  match n with
  | O => runs
  | S n' => l2_loop self_levels n' (max - 1) (l2_pass self_levels max runs [])
  end.

(** bidi_info.rs:282-391 [visual_runs] *)
Definition visual_runs (b : bidi_info) (plevel : N) (ls le : nat)
  : outcome (list N * list run) :=
  if (ls <=? length (b_levels b)) && (le <=? length (b_levels b)) then
    obind (str_slice (b_text b) ls le) (fun line =>
    let levels := l1_loop plevel (b_classes b) (map clen line) 0 (b_levels b) (Some 0) in
    if ls <? length levels then                          (* levels[start] *)
      let l0 := level_at levels ls in
      let '(runs, minl, maxl) := vruns_loop levels le (S ls) (le - S ls) ls l0 l0 l0 in
      match level_lowest_ge_rtl minl with                 (* expect("Level error") *)
      | None => Panic
      | Some mn =>
          Ret (levels, l2_loop (b_levels b) (N.to_nat (maxl + 1 - mn)) maxl runs)
      end
    else Panic)
  else Panic.

(** bidi_info.rs:240-243 *)
Definition reordered_levels (b : bidi_info) (plevel : N) (ls le : nat) : outcome (list N) :=
  obind (visual_runs b plevel ls le) (fun p => Ret (fst p)).

(** bidi_info.rs:247-254 *)
Fixpoint char_offsets (t : str) (i : nat) : list nat :=
  match t with
  | [] => []
  | c :: t' => i :: char_offsets t' (i + clen c)
  end.
Definition reordered_levels_per_char (b : bidi_info) (plevel : N) (ls le : nat)
  : outcome (list N) :=
  obind (reordered_levels b plevel ls le) (fun levels =>
  Ret (map (level_at levels) (char_offsets (b_text b) 0))).

Fixpoint render_runs (t : str) (levels : list N) (runs : list run) : outcome str :=
  match runs with
  | [] => Ret []
  | r :: rest =>
      obind (str_slice t (fst r) (snd r)) (fun s =>
      obind (render_runs t levels rest) (fun out =>
      Ret ((if level_is_rtl (level_at levels (fst r)) then rev s else s) ++ out)))
  end.

(** bidi_info.rs:257-274 [reorder_line] *)
Definition reorder_line (b : bidi_info) (plevel : N) (ls le : nat) : outcome str :=
  obind (visual_runs b plevel ls le) (fun '(levels, runs) =>
  if forallb (fun r => level_is_ltr (level_at levels (fst r))) runs
  then str_slice (b_text b) ls le
  else render_runs (b_text b) levels runs).

(** bidi_info.rs:397-399 [has_rtl] *)
Definition bidi_has_rtl (b : bidi_info) : bool := levels_has_rtl (b_levels b).

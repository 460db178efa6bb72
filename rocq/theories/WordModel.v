(** Model of unic/segment/src/word.rs: the iterators over word boundaries.

    Strings are lists of characters, offsets are UTF-8 byte offsets ([nat]).
    [Panic] stands for a failed [unwrap], slice or [unreachable!]. *)
From Coq Require Import List NArith Lia Bool Arith.
Import ListNotations.
From Verif Require Import Base Enums TableTypes UcdModel BidiModel.
Open Scope nat_scope.

Notation WB := WordBreak.

(** [WB::of] (unic/ucd/segment/src/word_break.rs:337-354) *)
Definition wb (c : N) : WB := word_break c.

(** word.rs:151-156 [enum RegionalState] *)
Inductive regional_state := RHalf | RFull | RUnknown.
(** word.rs:140-149 [enum FormatExtendType] *)
Inductive fe_type := AcceptAny | AcceptNone | RequireLetter | RequireHLetter | AcceptQLetter | RequireNumeric.
(** word.rs:124-138 [enum WordBoundsState] *)
Inductive wstate :=
| WStart | WLetter | WHLetter | WNumeric | WKatakana | WExtendNumLet
| WRegional (r : regional_state) | WFormatExtend (t : fe_type) | WZwj | WEmoji.

Definition is_start (s : wstate) : bool := match s with WStart => true | _ => false end.

(** [WB::Extend | WB::Format | WB::ZWJ] *)
Definition extend_format_zwj (c : WB) : bool :=
  match c with WB_Extend | WB_Format | WB_ZWJ => true | _ => false end.

(** word.rs:59-64 [struct WordBounds]; [w_off] is the offset of [string] in the
    text, which [WordBoundIndices] gets from its address (105-107, 117-119) *)
Record word_bounds := WBs { w_off : nat; w_string : str; w_cat : option WB; w_catb : option WB }.

(** word.rs:634-640 [WordBounds::new], 75-80 [WordBoundIndices::new] *)
Definition word_bounds_new (s : str) : word_bounds := WBs 0 s None None.

(** word.rs:656-658, 96-98 [as_str] *)
Definition word_bounds_as_str (w : word_bounds) : str := w_string w.

(** word.rs:161-165 [size_hint] *)
Definition word_bounds_size_hint (w : word_bounds) : nat * nat :=
  let slen := slen (w_string w) in (Nat.min slen 1, slen).

(** ** Forwards *)

(** What an arm of the match at word.rs:242-375 does: *)
Inductive fstep :=
| FNext (s : wstate)                                  (* the new state *)
| FSave (s : wstate)                                  (* savecat = cat, saveidx = idx, the new state *)
| FSkip (c : WB)                                      (* state = FormatExtend(AcceptNone); self.cat = Some(c); continue *)
| FBreak (inc : nat) (take_curr take_cat : bool)      (* idx += inc; break *)
| FUnreachable.

(** word.rs:242-375; [ncat] is [self.get_next_cat(idx)] (660-669), the class of
    the character after the current one *)
Definition fwd_match (state : wstate) (cat : WB) (ncat : option WB) : fstep :=
  match state with
  | WStart =>
      match cat with
      | WB_CR => match ncat with Some WB_LF => FBreak 1 true true | _ => FBreak 0 true true end
      | WB_ALetter => FNext WLetter
      | WB_HebrewLetter => FNext WHLetter
      | WB_Numeric => FNext WNumeric
      | WB_Katakana => FNext WKatakana
      | WB_ExtendNumLet => FNext WExtendNumLet
      | WB_RegionalIndicator => FNext (WRegional RHalf)
      | WB_LF | WB_Newline => FBreak 0 true true
      | WB_ZWJ => FNext WZwj
      | WB_EBase | WB_EBaseGAZ => FNext WEmoji
      | _ => match ncat with
             | Some n => if extend_format_zwj n then FSkip n else FBreak 0 true true
             | None => FBreak 0 true true
             end
      end
  | WZwj => FBreak 0 false true
  | WLetter | WHLetter =>
      match cat with
      | WB_ALetter => FNext WLetter
      | WB_HebrewLetter => FNext WHLetter
      | WB_Numeric => FNext WNumeric
      | WB_ExtendNumLet => FNext WExtendNumLet
      | WB_DoubleQuote => match state with WHLetter => FSave (WFormatExtend RequireHLetter) | _ => FBreak 0 false true end
      | WB_SingleQuote => match state with WHLetter => FNext (WFormatExtend AcceptQLetter) | _ => FSave (WFormatExtend RequireLetter) end
      | WB_MidLetter | WB_MidNumLet => FSave (WFormatExtend RequireLetter)
      | _ => FBreak 0 false true
      end
  | WNumeric =>
      match cat with
      | WB_Numeric => FNext WNumeric
      | WB_ALetter => FNext WLetter
      | WB_HebrewLetter => FNext WHLetter
      | WB_ExtendNumLet => FNext WExtendNumLet
      | WB_MidNum | WB_MidNumLet | WB_SingleQuote => FSave (WFormatExtend RequireNumeric)
      | _ => FBreak 0 false true
      end
  | WKatakana =>
      match cat with
      | WB_Katakana => FNext WKatakana
      | WB_ExtendNumLet => FNext WExtendNumLet
      | _ => FBreak 0 false true
      end
  | WExtendNumLet =>
      match cat with
      | WB_ExtendNumLet => FNext WExtendNumLet
      | WB_ALetter => FNext WLetter
      | WB_HebrewLetter => FNext WHLetter
      | WB_Numeric => FNext WNumeric
      | WB_Katakana => FNext WKatakana
      | _ => FBreak 0 false true
      end
  | WRegional RFull => FBreak 0 false true
  | WRegional RHalf =>
      match cat with
      | WB_RegionalIndicator => FNext (WRegional RFull)
      | _ => FBreak 0 false true
      end
  | WRegional RUnknown => FUnreachable
  | WEmoji =>
      match cat with
      | WB_EModifier => FNext WEmoji
      | _ => FBreak 0 false true
      end
  | WFormatExtend t =>
      match t, cat with
      | RequireNumeric, WB_Numeric => FNext WNumeric
      | RequireLetter, WB_ALetter | AcceptQLetter, WB_ALetter => FNext WLetter
      | RequireLetter, WB_HebrewLetter | AcceptQLetter, WB_HebrewLetter => FNext WHLetter
      | RequireHLetter, WB_HebrewLetter => FNext WHLetter
      | AcceptNone, _ | AcceptQLetter, _ => FBreak 0 false false
      | _, _ => FBreak 0 true true
      end
  end.

(** the variables of [next] (word.rs:180-186) and [self.cat] *)
Record fvars := FV { f_idx : nat; f_saveidx : nat; f_state : wstate; f_cat : WB; f_savecat : WB;
                     f_take_curr : bool; f_take_cat : bool; f_self : option WB }.

(** word.rs:191-376, the loop over [char_indices]; [rest] are the characters
    from offset [curr] on *)
Fixpoint fwd_loop (rest : str) (curr : nat) (v : fvars) : outcome fvars :=
  match rest with
  | [] => Ret v
  | ch :: rest' =>
      let prev_zwj := WB_eqb (f_cat v) WB_ZWJ in
      let cat := match f_self v with None => wb ch | Some c => c end in
      let next := curr + clen ch in
      let ncat := match rest' with [] => None | n :: _ => Some (wb n) end in
      if negb (is_start (f_state v)) && extend_format_zwj cat then          (* WB4, 208-213 *)
        fwd_loop rest' next (FV curr (f_saveidx v) (f_state v) cat (f_savecat v) true true None)
      else if prev_zwj && WB_eqb cat WB_GlueAfterZwj then                   (* WB3c, 231-239 *)
        fwd_loop rest' next (FV curr (f_saveidx v) (f_state v) cat (f_savecat v) true true None)
      else if prev_zwj && WB_eqb cat WB_EBaseGAZ then
        fwd_loop rest' next (FV curr (f_saveidx v) WEmoji cat (f_savecat v) true true None)
      else match fwd_match (f_state v) cat ncat with
      | FNext s => fwd_loop rest' next (FV curr (f_saveidx v) s cat (f_savecat v) true true None)
      | FSave s => fwd_loop rest' next (FV curr curr s cat cat true true None)
      | FSkip c => fwd_loop rest' next (FV curr (f_saveidx v) (WFormatExtend AcceptNone) cat (f_savecat v) true true (Some c))
      | FBreak inc tc tk => Ret (FV (curr + inc) (f_saveidx v) (f_state v) cat (f_savecat v) tc tk None)
      | FUnreachable => Panic
      end
  end.

(** word.rs:378-385, backing up *)
Definition fwd_rewind (v : fvars) : fvars :=
  match f_state v with
  | WFormatExtend RequireLetter | WFormatExtend RequireHLetter | WFormatExtend RequireNumeric =>
      FV (f_saveidx v) (f_saveidx v) (f_state v) (f_savecat v) (f_savecat v) false (f_take_cat v) (f_self v)
  | _ => v
  end.

(** word.rs:378-394, the end of the piece and the new [self.cat] *)
Definition fwd_end (string : str) (v : fvars) : outcome (nat * option WB) :=
  let v := fwd_rewind v in
  if f_take_curr v then
    match split_at string (f_idx v) with
    | Some (_, ch :: _) => Ret (f_idx v + clen ch, None)
    | _ => Panic
    end
  else Ret (f_idx v, if f_take_cat v then Some (f_cat v) else None).

(** word.rs:172-399 [next], with the offset of the piece *)
Definition words_next (w : word_bounds) : outcome (word_bounds * option (nat * str)) :=
  match w_string w with
  | [] => Ret (w, None)
  | _ =>
      obind (fwd_loop (w_string w) 0 (FV 0 0 WStart WB_Other WB_Other true true (w_cat w))) (fun v =>
      obind (fwd_end (w_string w) v) (fun r =>
      match split_at (w_string w) (fst r) with
      | Some (piece, rest) => Ret (WBs (w_off w + fst r) rest (snd r) (w_catb w), Some (w_off w, piece))
      | None => Panic
      end))
  end.

(** ** Backwards *)

Inductive bstep :=
| BNext (s : wstate)
| BSavePrev (s : wstate)                 (* saveidx = previdx *)
| BSaveIdx (s : wstate)                  (* saveidx = idx *)
| BBreak (dec : nat) (take_curr : bool)  (* idx -= dec; break *)
| BPanic.

(** word.rs:458-592; [pcat] is [self.get_prev_cat(idx)] (671-679), the class of
    the character before the current one, and [count] the number of regional
    indicators at 548-555 *)
Definition bwd_match (state : wstate) (cat : WB) (pcat : option WB) (count : outcome nat) : bstep :=
  match state with
  | WStart | WFormatExtend AcceptAny =>
      match cat with
      | WB_ALetter => BNext WLetter
      | WB_HebrewLetter => BNext WHLetter
      | WB_Numeric => BNext WNumeric
      | WB_Katakana => BNext WKatakana
      | WB_ExtendNumLet => BNext WExtendNumLet
      | WB_RegionalIndicator => BNext (WRegional RUnknown)
      | WB_GlueAfterZwj | WB_EBaseGAZ => BNext WZwj
      | WB_Extend | WB_Format | WB_ZWJ => BNext (WFormatExtend AcceptAny)
      | WB_SingleQuote => BSaveIdx (WFormatExtend AcceptQLetter)
      | WB_EModifier => BNext WEmoji
      | WB_CR | WB_LF | WB_Newline =>
          if is_start state then
            match cat, pcat with
            | WB_LF, Some WB_CR => BBreak 1 true
            | _, _ => BBreak 0 true
            end
          else BBreak 0 false
      | _ => BBreak 0 true
      end
  | WZwj =>
      match cat with
      | WB_ZWJ => BNext (WFormatExtend AcceptAny)
      | _ => BBreak 0 false
      end
  | WLetter | WHLetter =>
      match cat with
      | WB_ALetter => BNext WLetter
      | WB_HebrewLetter => BNext WHLetter
      | WB_Numeric => BNext WNumeric
      | WB_ExtendNumLet => BNext WExtendNumLet
      | WB_DoubleQuote => match state with WHLetter => BSavePrev (WFormatExtend RequireHLetter) | _ => BBreak 0 false end
      | WB_MidLetter | WB_MidNumLet | WB_SingleQuote => BSavePrev (WFormatExtend RequireLetter)
      | _ => BBreak 0 false
      end
  | WNumeric =>
      match cat with
      | WB_Numeric => BNext WNumeric
      | WB_ALetter => BNext WLetter
      | WB_HebrewLetter => BNext WHLetter
      | WB_ExtendNumLet => BNext WExtendNumLet
      | WB_MidNum | WB_MidNumLet | WB_SingleQuote => BSavePrev (WFormatExtend RequireNumeric)
      | _ => BBreak 0 false
      end
  | WKatakana =>
      match cat with
      | WB_Katakana => BNext WKatakana
      | WB_ExtendNumLet => BNext WExtendNumLet
      | _ => BBreak 0 false
      end
  | WExtendNumLet =>
      match cat with
      | WB_ExtendNumLet => BNext WExtendNumLet
      | WB_ALetter => BNext WLetter
      | WB_HebrewLetter => BNext WHLetter
      | WB_Numeric => BNext WNumeric
      | WB_Katakana => BNext WKatakana
      | _ => BBreak 0 false
      end
  | WRegional r =>
      match cat with
      | WB_RegionalIndicator =>
          match r, count with
          | RFull, _ => BBreak 0 false
          | RHalf, _ => BNext (WRegional RFull)
          | RUnknown, Ret n => if Nat.even n then BBreak 0 false else BNext (WRegional RFull)
          | RUnknown, Panic => BPanic
          end
      | _ => BBreak 0 false
      end
  | WEmoji =>
      match cat with
      | WB_EBase | WB_EBaseGAZ => BNext WZwj
      | _ => BBreak 0 false
      end
  | WFormatExtend t =>
      match t, cat with
      | RequireNumeric, WB_Numeric => BNext WNumeric
      | RequireLetter, WB_ALetter => BNext WLetter
      | RequireLetter, WB_HebrewLetter | AcceptQLetter, WB_HebrewLetter | RequireHLetter, WB_HebrewLetter => BNext WHLetter
      | _, _ => BBreak 0 true
      end
  end.

(** word.rs:548-555 *)
Fixpoint take_while_ri (l : list WB) : nat :=
  match l with WB_RegionalIndicator :: r => S (take_while_ri r) | _ => 0 end.
Definition regional_count (string : str) (previdx : nat) : outcome nat :=
  match split_at string previdx with
  | Some (before, _) => Ret (take_while_ri (filter (fun c => negb (extend_format_zwj c)) (map wb (rev before))))
  | None => Panic
  end.

(** the variables of [next_back] (word.rs:412-420) and [self.catb] *)
Record bvars := BV { b_idx : nat; b_prev : nat; b_save : nat; b_state : wstate; b_savestate : wstate; b_cat : WB;
                     b_take_curr : bool; b_take_cat : bool; b_self : option WB }.

(** word.rs:441-445 *)
Definition folds (cat : WB) (state : wstate) : bool :=
  match cat with
  | WB_Extend | WB_Format => true
  | WB_ZWJ => match state with WZwj => false | _ => true end
  | _ => false
  end.

(** word.rs:422-593, the loop over [char_indices().rev()]; [rest] are the
    characters before offset [pos], the last first *)
Fixpoint bwd_loop (string : str) (rest : str) (pos : nat) (v : bvars) : outcome bvars :=
  match rest with
  | [] => Ret v
  | ch :: rest' =>
      let previdx := b_idx v in
      let idx := pos - clen ch in
      let cat := match b_self v with None => wb ch | Some c => c end in
      let pcat := match rest' with [] => None | n :: _ => Some (wb n) end in
      let step state savestate previdx saveidx take_cat :=
        match bwd_match state cat pcat (regional_count string previdx) with
        | BNext s => bwd_loop string rest' idx (BV idx previdx saveidx s savestate cat true take_cat None)
        | BSavePrev s => bwd_loop string rest' idx (BV idx previdx previdx s savestate cat true take_cat None)
        | BSaveIdx s => bwd_loop string rest' idx (BV idx previdx idx s savestate cat true take_cat None)
        | BBreak dec tc => Ret (BV (idx - dec) previdx saveidx state savestate cat tc take_cat None)
        | BPanic => Panic
        end in
      if folds cat (b_state v) then
        match b_state v with
        | WStart => step WStart (b_savestate v) previdx (b_save v) true
        | WFormatExtend t =>
            bwd_loop string rest' idx (BV idx previdx (b_save v) (WFormatExtend t) (b_savestate v) cat true true None)
        | s => bwd_loop string rest' idx (BV idx previdx previdx (WFormatExtend AcceptNone) s cat true true None)
        end
      else match b_state v with
      | WFormatExtend AcceptNone => step (b_savestate v) (b_savestate v) (b_save v) (b_save v) false
      | s => step s (b_savestate v) previdx (b_save v) true
      end
  end.

(** word.rs:595-607, backing up *)
Definition bwd_rewind (v : bvars) : bvars :=
  match b_state v with
  | WFormatExtend AcceptAny => v
  | WFormatExtend _ => BV (b_idx v) (b_save v) (b_save v) (b_state v) (b_savestate v) (b_cat v) false false (b_self v)
  | _ => v
  end.

(** word.rs:595-619, the start of the piece and the new [self.catb] *)
Definition bwd_end (v : bvars) : nat * option WB :=
  let v := bwd_rewind v in
  if b_take_curr v then (b_idx v, None)
  else (b_prev v, if b_take_cat v then Some (b_cat v) else None).

(** word.rs:405-628 [next_back] *)
Definition words_next_back (w : word_bounds) : outcome (word_bounds * option (nat * str)) :=
  match rev (w_string w) with
  | [] => Ret (w, None)
  | last :: _ =>
      let len := slen (w_string w) in
      let idx := len - clen last in
      obind (bwd_loop (w_string w) (rev (w_string w)) len (BV idx idx idx WStart WStart WB_Other true true (w_catb w))) (fun v =>
      let r := bwd_end v in
      match split_at (w_string w) (fst r) with
      | Some (rest, piece) => Ret (WBs (w_off w) rest (w_cat w) (snd r), Some (w_off w + fst r, piece))
      | None => Panic
      end)
  end.

(** ** Collecting (Rust core), at most [fuel] items; [None] if more are left *)
Fixpoint collect_words (fuel : nat) (next : word_bounds -> outcome (word_bounds * option (nat * str))) (w : word_bounds)
  : outcome (option (list (nat * str))) :=
  match next w with
  | Panic => Panic
  | Ret (_, None) => Ret (Some [])
  | Ret (w', Some x) =>
      match fuel with
      | O => Ret None
      | S f => match collect_words f next w' with
               | Ret (Some l) => Ret (Some (x :: l))
               | other => other
               end
      end
  end.
(** [WordBoundIndices::new(s).collect()] and [.rev().collect()] *)
Definition word_bound_indices (s : str) := collect_words (length s) words_next (word_bounds_new s).
Definition word_bound_indices_rev (s : str) := collect_words (length s) words_next_back (word_bounds_new s).

(** mixed calls of [next] ([true]) and [next_back] ([false]) *)
Fixpoint run_word_asks (w : word_bounds) (asks : list bool) : outcome (word_bounds * list (option (nat * str))) :=
  match asks with
  | [] => Ret (w, [])
  | a :: q => match (if a then words_next w else words_next_back w) with
              | Panic => Panic
              | Ret (w', x) => match run_word_asks w' q with
                               | Ret (w'', l) => Ret (w'', x :: l)
                               | Panic => Panic
                               end
              end
  end.

(** word.rs:24-56 [Words]: the pieces that pass the filter *)
Definition words (f : str -> bool) (s : str) : outcome (option (list str)) :=
  match word_bound_indices s with
  | Ret (Some l) => Ret (Some (filter f (map snd l)))
  | Ret None => Ret None
  | Panic => Panic
  end.

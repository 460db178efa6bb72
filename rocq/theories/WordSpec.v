(** UAX #29 (Unicode 10), section 4.1: word boundary rules.  Independent of the
    model of the iterators.  Cutting a text at its boundaries is defined in
    [GraphSpec] ([segments], [next_bound], [prev_bound], [indexed]). *)
From Coq Require Import List NArith Lia Bool Arith.
Import ListNotations.
From Verif Require Import Base Enums UcdModel.
Open Scope nat_scope.

Definition is_in (l : list WordBreak) (g : WordBreak) : bool := existsb (WB_eqb g) l.

(** the class at the head of a list, and the one after it *)
Definition first_in (l : list WordBreak) (side : list WordBreak) : bool :=
  match side with g :: _ => is_in l g | [] => false end.
Definition second_in (l : list WordBreak) (side : list WordBreak) : bool :=
  match side with _ :: g :: _ => is_in l g | _ => false end.

Definition Newlines := [WB_Newline; WB_CR; WB_LF].
Definition Ignored := [WB_Extend; WB_Format; WB_ZWJ].
Definition AHLetter := [WB_ALetter; WB_HebrewLetter].
Definition MidNumLetQ := [WB_MidNumLet; WB_SingleQuote].

(** the number of regional indicators at the head of a list *)
Fixpoint ri_count (side : list WordBreak) : nat :=
  match side with
  | [] => 0
  | g :: r => if is_in [WB_RegionalIndicator] g then S (ri_count r) else 0
  end.

(** WB4, X (Extend | Format | ZWJ)* -> X: what is left of [text], which comes
    after [prev], for the later rules.  Not ignored are characters at the start
    of the text and after line breaks. *)
Fixpoint wb4 (prev : option WordBreak) (text : list WordBreak) : list WordBreak :=
  match text with
  | [] => []
  | g :: r =>
      if is_in Ignored g && match prev with Some p => negb (is_in Newlines p) | None => false end
      then wb4 (Some g) r
      else g :: wb4 (Some g) r
  end.

(** A position in a text splits its characters in those before and those after;
    [before] and [after] are their classes in the order of the text.  A rule
    applies or not, and if it applies it says whether the position is a
    boundary; the first rule that applies decides.  [left] and [right] are what
    WB4 leaves before and after the position, the nearest first. *)
Definition wb_rules (before after : list WordBreak) : list (bool * bool) :=
  let b := rev before in
  let left := rev (wb4 None before) in
  let right := wb4 (hd_error b) after in
  [ (* WB1   sot ÷ Any *)                       (match before with [] => true | _ => false end, true);
    (* WB2   Any ÷ eot *)                       (match after with [] => true | _ => false end, true);
    (* WB3   CR × LF *)                         (first_in [WB_CR] b && first_in [WB_LF] after, false);
    (* WB3a  (Newline | CR | LF) ÷ *)           (first_in Newlines b, true);
    (* WB3b  ÷ (Newline | CR | LF) *)           (first_in Newlines after, true);
    (* WB3c  ZWJ × (Glue_After_Zwj | EBG) *)    (first_in [WB_ZWJ] b && first_in [WB_GlueAfterZwj; WB_EBaseGAZ] after, false);
    (* WB4   × (Extend | Format | ZWJ) *)       (first_in Ignored after, false);
    (* WB5   AHLetter × AHLetter *)             (first_in AHLetter left && first_in AHLetter right, false);
    (* WB6   AHLetter × (MidLetter | MidNumLetQ) AHLetter *)
             (first_in AHLetter left && first_in (WB_MidLetter :: MidNumLetQ) right && second_in AHLetter right, false);
    (* WB7   AHLetter (MidLetter | MidNumLetQ) × AHLetter *)
             (second_in AHLetter left && first_in (WB_MidLetter :: MidNumLetQ) left && first_in AHLetter right, false);
    (* WB7a  Hebrew_Letter × Single_Quote *)    (first_in [WB_HebrewLetter] left && first_in [WB_SingleQuote] right, false);
    (* WB7b  Hebrew_Letter × Double_Quote Hebrew_Letter *)
             (first_in [WB_HebrewLetter] left && first_in [WB_DoubleQuote] right && second_in [WB_HebrewLetter] right, false);
    (* WB7c  Hebrew_Letter Double_Quote × Hebrew_Letter *)
             (second_in [WB_HebrewLetter] left && first_in [WB_DoubleQuote] left && first_in [WB_HebrewLetter] right, false);
    (* WB8   Numeric × Numeric *)               (first_in [WB_Numeric] left && first_in [WB_Numeric] right, false);
    (* WB9   AHLetter × Numeric *)              (first_in AHLetter left && first_in [WB_Numeric] right, false);
    (* WB10  Numeric × AHLetter *)              (first_in [WB_Numeric] left && first_in AHLetter right, false);
    (* WB11  Numeric (MidNum | MidNumLetQ) × Numeric *)
             (second_in [WB_Numeric] left && first_in (WB_MidNum :: MidNumLetQ) left && first_in [WB_Numeric] right, false);
    (* WB12  Numeric × (MidNum | MidNumLetQ) Numeric *)
             (first_in [WB_Numeric] left && first_in (WB_MidNum :: MidNumLetQ) right && second_in [WB_Numeric] right, false);
    (* WB13  Katakana × Katakana *)             (first_in [WB_Katakana] left && first_in [WB_Katakana] right, false);
    (* WB13a (AHLetter | Numeric | Katakana | ExtendNumLet) × ExtendNumLet *)
             (first_in ([WB_Numeric; WB_Katakana; WB_ExtendNumLet] ++ AHLetter) left && first_in [WB_ExtendNumLet] right, false);
    (* WB13b ExtendNumLet × (AHLetter | Numeric | Katakana) *)
             (first_in [WB_ExtendNumLet] left && first_in ([WB_Numeric; WB_Katakana] ++ AHLetter) right, false);
    (* WB14  (E_Base | EBG) × E_Modifier *)     (first_in [WB_EBase; WB_EBaseGAZ] left && first_in [WB_EModifier] right, false);
    (* WB15, WB16 an odd number of RI × RI *)   (Nat.odd (ri_count left) && first_in [WB_RegionalIndicator] right, false);
    (* WB999 Any ÷ Any *)                       (true, true) ].

Definition wb_boundary (before after : list WordBreak) : bool :=
  match find fst (wb_rules before after) with Some (_, v) => v | None => true end.

(** Is the position between [pre] and [post] a boundary of the text [pre ++ post]? *)
Definition word_boundary (pre post : str) : bool :=
  wb_boundary (map word_break pre) (map word_break post).

(** ** Texts on which the iterators follow the rules *)

(** the class before a position, and the class after a character, under WB4 *)
Definition class_before (pre : str) : list WordBreak := firstn 1 (rev (wb4 None (map word_break pre))).
Definition class_after (x : N) (post : str) : list WordBreak := firstn 1 (wb4 (Some (word_break x)) (map word_break post)).

Definition MidClasses := [WB_SingleQuote; WB_DoubleQuote; WB_MidLetter; WB_MidNumLet; WB_MidNum].
(** the classes that a character before can join to, other than in WB3, WB3c and WB4 *)
Definition JoinClasses := MidClasses ++
  [WB_ALetter; WB_HebrewLetter; WB_Numeric; WB_Katakana; WB_ExtendNumLet; WB_RegionalIndicator; WB_EModifier].

(** no E_Modifier follows an E_Modifier *)
Definition no_double_modifier (text : str) : Prop := forall pre x post, text = pre ++ x :: post ->
  word_break x = WB_EModifier -> class_before pre <> [WB_EModifier].
(** a ZWJ followed by Glue_After_Zwj or EBG belongs to no punctuation, and the
    Glue_After_Zwj is followed by nothing that could join to a character *)
Definition glue_alone (text : str) : Prop := forall pre z x post, text = pre ++ z :: x :: post ->
  word_break z = WB_ZWJ -> is_in [WB_GlueAfterZwj; WB_EBaseGAZ] (word_break x) = true ->
  first_in MidClasses (class_before (pre ++ [z])) = false /\
  (word_break x = WB_GlueAfterZwj -> first_in JoinClasses (class_after x post) = false).
(** no E_Base between ZWJ and E_Modifier *)
Definition no_zwj_base_modifier (text : str) : Prop := forall pre z x post, text = pre ++ z :: x :: post ->
  word_break z = WB_ZWJ -> word_break x = WB_EBase -> class_after x post <> [WB_EModifier].

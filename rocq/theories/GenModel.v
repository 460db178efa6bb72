(** Model of the readers of Unicode data files and of the table writers in the
    generator (crate [gen]).  Files are the text [read] returns (input and
    output of files, and the messages printed, are not modelled). *)
From Coq Require Import List NArith Bool PeanoNat String Ascii.
From Verif Require Import Base RangeModel TableModel TextModel TableGenModel GenRegex.
Import ListNotations.
Open Scope N_scope.
Open Scope list_scope.

(** A literal of the Rust source. *)
Fixpoint text (s : string) : str :=
  match s with EmptyString => [] | String a r => N_of_ascii a :: text r end.

Fixpoint str_eqb (s t : str) : bool :=
  match s, t with
  | [], [] => true
  | a :: s', b :: t' => (a =? b) && str_eqb s' t'
  | _, _ => false
  end.

(** [for x in l] with a body that may panic. *)
Fixpoint ofold {A B} (f : A -> B -> outcome A) (a : A) (l : list B) : outcome A :=
  match l with
  | [] => Ret a
  | x :: l' => obind (f a x) (fun a' => ofold f a' l')
  end.

Fixpoint omap {A B} (f : A -> outcome B) (l : list A) : outcome (list B) :=
  match l with
  | [] => Ret []
  | x :: l' => obind (f x) (fun y => obind (omap f l') (fun ys => Ret (y :: ys)))
  end.

Definition unwrap {A} (x : option A) : outcome A := match x with Some a => Ret a | None => Panic end.

(** [Option::map] with a closure that may panic. *)
Definition ooption {A B} (f : A -> outcome B) (x : option A) : outcome (option B) :=
  match x with None => Ret None | Some a => obind (f a) (fun b => Ret (Some b)) end.

(** [BTreeMap<char, V>] (Rust std): iterated by increasing key. *)
Fixpoint map_insert {V} (k : N) (v : V) (m : list (N * V)) : list (N * V) :=
  match m with
  | [] => [(k, v)]
  | (k', v') :: m' =>
      if k <? k' then (k, v) :: m
      else if k =? k' then (k, v) :: m'
      else (k', v') :: map_insert k v m'
  end.

Fixpoint map_get {V} (k : N) (m : list (N * V)) : option V :=
  match m with
  | [] => None
  | (k', v) :: m' => if k =? k' then Some v else map_get k m'
  end.

(** [BTreeSet<char>] *)
Fixpoint set_insert (k : N) (s : list N) : list N :=
  match s with
  | [] => [k]
  | k' :: s' => if k <? k' then k :: s else if k =? k' then s else k' :: set_insert k s'
  end.

Definition set_contains (k : N) (s : list N) : bool := existsb (N.eqb k) s.

(** [collect::<BTreeMap<_, _>>()]: later pairs replace earlier ones. *)
Definition collect_map {V} (l : list (N * V)) : list (N * V) :=
  fold_left (fun m e => map_insert (fst e) (snd e) m) l [].

Definition collect_set (l : list N) : list N := fold_left (fun s c => set_insert c s) l [].

(** The [u32] range [a..b]. *)
Definition u32_range (a b : N) : list N :=
  map (fun k => a + N.of_nat k) (seq 0 (N.to_nat (b - a))).

(** What iterating a [CharRange] yields (this is property C02). *)
Definition range_chars (r : CharRange) : list N :=
  filter scalarb (u32_range (r_low r) (r_high r + 1)).

(** [u32::from_str_radix(s, 16).unwrap()] *)
Definition hex (s : str) : outcome N := unwrap (from_str_radix16 0xFFFFFFFF s).

(** [char::from_u32(u).unwrap()] *)
Definition to_char (u : N) : outcome N := unwrap (char_from_u32 u).

Definition hex_char (s : str) : outcome N := obind (hex s) to_char.

(** [s.parse::<uN>()] (Rust core), [max] being [uN::MAX]. *)
Fixpoint dec_loop (max acc : N) (s : str) : option N :=
  match s with
  | [] => Some acc
  | c :: s' =>
      if digit c then
        let n := acc * 10 + (c - 0x30) in if n <=? max then dec_loop max n s' else None
      else None
  end.

Definition parse_dec (max : N) (s : str) : option N :=
  match s with
  | [] => None
  | c :: s' => if c =? 0x2B then match s' with [] => None | _ => dec_loop max 0 s' end
               else dec_loop max 0 s
  end.

(** [str::split(' ')] *)
Fixpoint split_space (s : str) : list str :=
  match s with
  | [] => [[]]
  | c :: s' =>
      if c =? 0x20 then [] :: split_space s'
      else match split_space s' with
           | [] => [[c]]
           | w :: ws => (c :: w) :: ws
           end
  end.

(** * Files that list a value for ranges of characters *)

Definition semicolon : re := lit 0x3B.
Definition blanks : re := Star (Cls blank).

(** gen/src/source/ucd/word_break_property.rs:39-47, the same expression in
    grapheme_break_property.rs:39-47 and sentence_break_property.rs:39-47.  The
    two dots are not escaped: each stands for any character. *)
Definition BREAK_REGEX : re :=
  Seq Bol (Seq (Cap 1 hex46) (Seq (Opt (Seq dot (Seq dot (Cap 2 hex46))))
    (Seq blanks (Seq semicolon (Seq blanks (Cap 3 (plus (Cls word)))))))).

(** gen/src/source/ucd/derived_age.rs:37-46 *)
Definition AGE_REGEX : re :=
  Seq Bol (Seq (Cap 1 hex46) (Seq (Opt (Seq dot (Seq dot (Cap 2 hex46))))
    (Seq blanks (Seq semicolon (Seq blanks
      (Seq (Cap 3 (plus (Cls digit)))
        (Seq (lit 0x2E) (Seq (Cap 4 (plus (Cls digit)))
          (Opt (Seq (lit 0x2E) (Cap 5 (plus (Cls digit)))))))))))))  .

(** gen/src/source/ucd/blocks.rs:39-47 *)
Definition BLOCKS_REGEX : re :=
  Seq Bol (Seq (Cap 1 hex46) (Seq dot (Seq dot (Seq (Cap 2 hex46)
    (Seq blanks (Seq semicolon (Seq blanks (Cap 3 (Star dot))))))))).

(** The loop of these readers: [for point in start..(end + 1)], inserting at the
    code points that are characters. *)
Definition insert_points {V} (start stop : N) (v : V) (m : list (N * V)) : list (N * V) :=
  fold_left (fun m p => match char_from_u32 p with Some c => map_insert c v m | None => m end)
            (u32_range start (stop + 1)) m.

(** [capture.get(n).map_or(start, ..)] *)
Definition end_or (start : N) (g : option str) : outcome N :=
  match g with None => Ret start | Some t => hex t end.

(** word_break_property.rs:50-61 *)
Definition break_step (m : list (N * str)) (capture : list (nat * str)) : outcome (list (N * str)) :=
  obind (index 1 capture) (fun t1 => obind (hex t1) (fun start =>
  obind (end_or start (get 2 capture)) (fun stop =>
  obind (index 3 capture) (fun v => Ret (insert_points start stop v m))))).

(** word_break_property.rs:35-64, grapheme_break_property.rs:35-64,
    sentence_break_property.rs:35-64 *)
Definition break_from_str (s : str) : outcome (list (N * str)) :=
  ofold break_step [] (captures_iter BREAK_REGEX s).

(** derived_age.rs:52-72; the value is kept as the three numbers that are
    printed into it. *)
Definition age_step (m : list (N * (N * N * N))) (capture : list (nat * str))
  : outcome (list (N * (N * N * N))) :=
  obind (index 1 capture) (fun t1 => obind (hex t1) (fun start =>
  obind (end_or start (get 2 capture)) (fun stop =>
  obind (index 3 capture) (fun t3 => obind (unwrap (parse_dec 0xFFFF t3)) (fun major =>
  obind (index 4 capture) (fun t4 => obind (unwrap (parse_dec 0xFFFF t4)) (fun minor =>
  obind (match get 5 capture with None => Ret 0 | Some t => unwrap (parse_dec 0xFFFF t) end)
        (fun micro => Ret (insert_points start stop (major, minor, micro) m))))))))).

(** derived_age.rs:35-76 *)
Definition age_from_str (s : str) : outcome (list (N * (N * N * N))) :=
  ofold age_step [] (captures_iter AGE_REGEX s).

(** blocks.rs:51-60 *)
Definition blocks_step (m : list (N * str)) (capture : list (nat * str)) : outcome (list (N * str)) :=
  obind (index 1 capture) (fun t1 => obind (hex t1) (fun start =>
  obind (index 2 capture) (fun t2 => obind (hex t2) (fun stop =>
  obind (index 3 capture) (fun v => Ret (insert_points start stop v m)))))).

(** blocks.rs:35-63 *)
Definition blocks_from_str (s : str) : outcome (list (N * str)) :=
  ofold blocks_step [] (captures_iter BLOCKS_REGEX s).

(** writer/ucd/segment.rs:29-57, writer/ucd/age.rs:26-32, writer/ucd/blocks.rs:25-33:
    what is printed for a map is [to_range_char_table] of it. *)
Definition age_eqb (a b : N * N * N) : bool :=
  match a, b with (x, y, z), (x', y', z') => (x =? x') && (y =? y') && (z =? z') end.

Definition emit_breaks (s : str) : outcome (CharDataTable str) :=
  obind (break_from_str s) (to_range_char_table str_eqb).
Definition emit_age_values (s : str) : outcome (CharDataTable (N * N * N)) :=
  obind (age_from_str s) (to_range_char_table age_eqb).
Definition emit_blocks (s : str) : outcome (CharDataTable str) :=
  obind (blocks_from_str s) (to_range_char_table str_eqb).

(** * Files that list binary properties *)

Section binary.
(** [\w] and [\s], by the tables of the [regex] crate. *)
Variable uword uspace : N -> bool.

(** gen/src/source/ucd/mod.rs:29-37 *)
Definition BINARY_PROPERTIES_REGEX : re :=
  Seq Bol (Seq (Cap 1 hex46) (Seq (Opt (Seq dot (Seq dot (Cap 2 hex46))))
    (Seq (plus (Cls uspace)) (Seq semicolon (Seq (plus (Cls uspace))
      (Cap 3 (plus (Cls uword)))))))).

(** The structures [PropList], [DerivedCoreProperties] and [EmojiData]: the set
    in the field of a given name. *)
Definition fields := string -> list N.
Definition extend (f : fields) (name : string) (l : list N) : fields :=
  fun n => if String.eqb n name then fold_left (fun s c => set_insert c s) l (f n) else f n.

(** The arms of [match &capture[3]]: the literal, and the field extended
    ([None]: the arm does nothing).  No arm: [panic!]. *)
Definition arms := list (string * option string).

Fixpoint arm (a : arms) (s : str) : outcome (option string) :=
  match a with
  | [] => Panic
  | (l, f) :: a' => if str_eqb s (text l) then Ret f else arm a' s
  end.

(** prop_list.rs:189-195 and the match, the same in derived_core_properties.rs:196-202
    and emoji_data.rs:55-61 *)
Definition binary_step (a : arms) (props : fields) (capture : list (nat * str)) : outcome fields :=
  obind (index 1 capture) (fun t1 => obind (hex_char t1) (fun low =>
  obind (match get 2 capture with None => Ret low | Some t => hex_char t end) (fun high =>
  obind (index 3 capture) (fun prop =>
  obind (arm a prop) (fun f =>
  Ret match f with
      | None => props
      | Some name => extend props name (range_chars (closed low high))
      end))))).

(** prop_list.rs:185-239, derived_core_properties.rs:192-229, emoji_data.rs:51-74 *)
Definition binary_from_str (a : arms) (s : str) : outcome fields :=
  ofold (binary_step a) (fun _ => []) (captures_iter BINARY_PROPERTIES_REGEX s).
End binary.

Local Open Scope string_scope.

(** prop_list.rs:197-234 *)
Definition PROP_LIST_ARMS : arms :=
  [("White_Space", Some "white_space");
   ("Bidi_Control", Some "bidi_control");
   ("Join_Control", Some "join_control");
   ("Dash", Some "dash");
   ("Hyphen", Some "dash");
   ("Quotation_Mark", Some "quotation_mark");
   ("Terminal_Punctuation", Some "terminal_punctuation");
   ("Other_Math", Some "other_math");
   ("Hex_Digit", Some "hex_digit");
   ("ASCII_Hex_Digit", Some "ascii_hex_digit");
   ("Other_Alphabetic", Some "other_alphabetic");
   ("Ideographic", Some "ideographic");
   ("Diacritic", Some "diacritic");
   ("Extender", Some "extender");
   ("Other_Lowercase", Some "other_lowercase");
   ("Other_Uppercase", Some "other_uppercase");
   ("Noncharacter_Code_Point", Some "noncharacter_code_point");
   ("Other_Grapheme_Extend", Some "other_grapheme_extend");
   ("IDS_Binary_Operator", Some "ids_binary_operator");
   ("IDS_Trinary_Operator", Some "ids_trinary_operator");
   ("Radical", Some "radical");
   ("Unified_Ideograph", Some "unified_ideograph");
   ("Other_Default_Ignorable_Code_Point", Some "other_default_ignorable_code_point");
   ("Deprecated", Some "deprecated");
   ("Soft_Dotted", Some "soft_dotted");
   ("Logical_Order_Exception", Some "logical_order_exception");
   ("Other_ID_Start", Some "other_id_start");
   ("Other_ID_Continue", Some "other_id_continue");
   ("Sentence_Terminal", Some "sentence_terminal");
   ("Variation_Selector", Some "variation_selector");
   ("Pattern_White_Space", Some "pattern_white_space");
   ("Pattern_Syntax", Some "pattern_syntax");
   ("Prepended_Concatenation_Mark", Some "prepended_concatenation_mark");
   ("Regional_Indicator", Some "regional_indicator")].

(** derived_core_properties.rs:204-224 *)
Definition DERIVED_CORE_ARMS : arms :=
  [("Lowercase", Some "lowercase");
   ("Uppercase", Some "uppercase");
   ("Cased", Some "cased");
   ("Case_Ignorable", Some "case_ignorable");
   ("Changes_When_Lowercased", Some "changes_when_lowercased");
   ("Changes_When_Uppercased", Some "changes_when_uppercased");
   ("Changes_When_Titlecased", Some "changes_when_titlecased");
   ("Changes_When_Casefolded", Some "changes_when_casefolded");
   ("Changes_When_Casemapped", Some "changes_when_casemapped");
   ("Alphabetic", Some "alphabetic");
   ("Default_Ignorable_Code_Point", Some "default_ignorable_code_point");
   ("Grapheme_Extend", Some "grapheme_extend");
   ("Grapheme_Base", Some "grapheme_base");
   ("Grapheme_Link", None);
   ("Math", Some "math");
   ("ID_Start", Some "id_start");
   ("ID_Continue", Some "id_continue");
   ("XID_Start", Some "xid_start");
   ("XID_Continue", Some "xid_continue")].

(** emoji_data.rs:63-70 *)
Definition EMOJI_ARMS : arms :=
  [("Emoji", Some "emoji");
   ("Emoji_Presentation", Some "emoji_presentation");
   ("Emoji_Modifier", Some "emoji_modifier");
   ("Emoji_Modifier_Base", Some "emoji_modifier_base");
   ("Emoji_Component", Some "emoji_component")].

Local Close Scope string_scope.

(** writer/ucd/case.rs:33-111, ident.rs:31-77, common.rs:32-46, bidi.rs:83-89,
    emoji/char.rs:39-73: one field, as a set of ranges. *)
Definition emit_field (uword uspace : N -> bool) (a : arms) (field : string) (s : str)
  : outcome (CharDataTable unit) :=
  obind (binary_from_str uword uspace a s) (fun props => to_range_char_set (props field)).

(** * DerivedNormalizationProps.txt *)

Definition spaces : re := Star (Cls space).
Definition hex_range : re :=
  Seq (Cap 1 hex46) (Opt (Seq (lit 0x2E) (Seq (lit 0x2E) (Cap 2 hex46)))).

(** derived_normalization_props.rs:36-43 *)
Definition EXCLUSIONS_REGEX : re :=
  Seq Bol (Seq hex_range (Seq spaces (Seq semicolon
    (Seq (lits 0x20 (text "Full_Composition_Exclusion")) (Seq (lit 0x20) (lit 0x23)))))).

(** derived_normalization_props.rs:49-58 *)
Definition exclusions_step (set : list N) (capture : list (nat * str)) : outcome (list N) :=
  obind (index 1 capture) (fun t1 => obind (hex t1) (fun low =>
  obind (end_or low (get 2 capture)) (fun high =>
  Ret (fold_left (fun s p => match char_from_u32 p with Some c => set_insert c s | None => s end)
                 (u32_range low (high + 1)) set)))).

(** derived_normalization_props.rs:34-61 *)
Definition exclusions_from_str (s : str) : outcome (list N) :=
  ofold exclusions_step [] (captures_iter EXCLUSIONS_REGEX s).

(** * IdnaMappingTable.txt *)

(** idna_mapping_table.rs:48-66 *)
Definition IDNA_REGEX : re :=
  Seq Bol (Seq hex_range (Seq spaces (Seq semicolon (Seq spaces
    (Seq (Cap 3 (Star (Cls word))) (Seq spaces
    (Seq (Opt (Seq semicolon (Seq spaces
           (Seq (Opt (Cap 4 (Seq hex46 (Star (Seq (lit 0x20) hex46)))))
           (Seq spaces
             (Opt (Seq semicolon (Seq spaces
               (Seq (Cap 5 (Alt (lits 0x4E (text "V8")) (lits 0x58 (text "V8")))) spaces)))))))))
      (lit 0x23)))))))).

(** idna_mapping_table.rs:32-41 [struct IdnaMappingEntry]; the status as the
    name of the enum case it prints. *)
Record IdnaMappingEntry := mkIdna { idna_status : string; idna_mapping : option str }.

(** idna_mapping_table.rs:81-90 *)
Definition idna_statuses : list (string * string) :=
  [("valid", "Valid"); ("ignored", "Ignored"); ("mapped", "Mapped"); ("deviation", "Deviation");
   ("disallowed", "Disallowed"); ("disallowed_STD3_valid", "DisallowedStd3Valid");
   ("disallowed_STD3_mapped", "DisallowedStd3Mapped")]%string.

Fixpoint idna_status_of (l : list (string * string)) (s : str) : outcome string :=
  match l with
  | [] => Panic
  | (k, v) :: l' => if str_eqb s (text k) then Ret v else idna_status_of l' s
  end.

(** idna_mapping_table.rs:73-103 *)
Definition idna_step (m : list (N * IdnaMappingEntry)) (capture : list (nat * str))
  : outcome (list (N * IdnaMappingEntry)) :=
  obind (index 1 capture) (fun t1 => obind (hex t1) (fun u =>
  match char_from_u32 u with
  | None => Ret m
  | Some low =>
      obind (match get 2 capture with None => Ret low | Some t => hex_char t end) (fun high =>
      obind (index 3 capture) (fun t3 => obind (idna_status_of idna_statuses t3) (fun status =>
      obind (ooption (fun t => omap hex_char (split_space t)) (get 4 capture)) (fun mapping =>
      let entry := mkIdna status mapping in
      Ret (map_insert high entry
             (fold_left (fun m ch => map_insert ch entry m) (range_chars (open_right low high)) m))))))
  end)).

(** idna_mapping_table.rs:46-106 *)
Definition idna_from_str (s : str) : outcome (list (N * IdnaMappingEntry)) :=
  ofold idna_step [] (captures_iter IDNA_REGEX s).

Definition ostr_eqb (a b : option str) : bool :=
  match a, b with
  | None, None => true
  | Some s, Some t => str_eqb s t
  | _, _ => false
  end.
Definition idna_eqb (a b : IdnaMappingEntry) : bool :=
  String.eqb (idna_status a) (idna_status b) && ostr_eqb (idna_mapping a) (idna_mapping b).

(** writer/idna/mapping.rs:25-44: the printed value is the case, with the
    mapping as its argument for three of the cases. *)
Definition idna_value (e : IdnaMappingEntry) : string * option str :=
  (idna_status e,
   if existsb (String.eqb (idna_status e)) ["Mapped"; "Deviation"; "DisallowedStd3Mapped"]%string
   then Some (match idna_mapping e with Some s => s | None => [] end)
   else None).

Definition emit_idna_mapping (s : str) : outcome (CharDataTable (string * option str)) :=
  obind (idna_from_str s) (fun m =>
  obind (to_range_char_table idna_eqb m) (fun t =>
  Ret match t with
      | Direct l => Direct (map (fun e => (fst e, idna_value (snd e))) l)
      | Range l => Range (map (fun e => (fst e, idna_value (snd e))) l)
      end)).

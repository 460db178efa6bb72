(** Model of the reader of UnicodeData.txt and of the tables written from it. *)
From Coq Require Import String List NArith Bool PeanoNat.
From Verif Require Import Base RangeModel TableModel TextModel TableGenModel GenRegex GenModel.
Import ListNotations.
Open Scope N_scope.
Open Scope list_scope.

Definition not_semicolon : re := Cls (fun c => negb (c =? 0x3B)).
(** An expression, then a semicolon. *)
Definition fld (r rest : re) : re := Seq r (Seq semicolon rest).

(** gen/src/source/ucd/unicode_data.rs:193-214 *)
Definition DECOMPOSITION : re :=
  Opt (Seq (Opt (Seq (lit 0x3C) (Seq (Cap 6 (Star (Cls (fun c => negb (c =? 0x3E)))))
                (Seq (lit 0x3E) (lit 0x20)))))
           (Cap 7 (Seq (Star (Seq hex46 (lit 0x20))) hex46))).
Definition UNICODE_DATA_REGEX : re :=
  Seq Bol
    (fld (Cap 1 hex46)
    (fld (Cap 2 (plus not_semicolon))
    (fld (Cap 3 (plus not_semicolon))
    (fld (Cap 4 (plus (Cls digit)))
    (fld (Cap 5 (plus not_semicolon))
    (fld DECOMPOSITION
    (fld (Opt (Cap 8 (Cls digit)))
    (fld (Opt (Cap 9 (Cls digit)))
    (fld (Opt (Cap 10 (plus not_semicolon)))
    (fld (Cap 11 (Cls (fun c => (c =? 0x59) || (c =? 0x4E))))
    (fld (Opt (Cap 12 (plus not_semicolon)))
    (Seq semicolon
    (fld (Opt (Cap 13 hex46))
    (fld (Opt (Cap 14 hex46))
    (Seq (Opt (Cap 15 hex46)) Eol))))))))))))))).

(** unicode_data.rs:27-166 [struct UnicodeDataEntry] *)
Record UnicodeDataEntry := mkEntry {
  character : N; name : str; general_category : str; canonical_combining_class : N;
  bidi_class : str; decomposition_type : option str; decomposition_mapping : option str;
  decimal_numeric_value : option N; digit_numeric_value : option N;
  numeric_numeric_value : option str; bidi_mirrored : bool; unicode_1_name : option str;
  simple_uppercase_mapping : option N; simple_lowercase_mapping : option N;
  simple_titlecase_mapping : option N }.

(** [entry.character = c], [entry.name = n] *)
Definition set_character (c : N) (e : UnicodeDataEntry) : UnicodeDataEntry :=
  mkEntry c (name e) (general_category e) (canonical_combining_class e) (bidi_class e)
    (decomposition_type e) (decomposition_mapping e) (decimal_numeric_value e) (digit_numeric_value e)
    (numeric_numeric_value e) (bidi_mirrored e) (unicode_1_name e) (simple_uppercase_mapping e)
    (simple_lowercase_mapping e) (simple_titlecase_mapping e).
Definition set_name (n : str) (e : UnicodeDataEntry) : UnicodeDataEntry :=
  mkEntry (character e) n (general_category e) (canonical_combining_class e) (bidi_class e)
    (decomposition_type e) (decomposition_mapping e) (decimal_numeric_value e) (digit_numeric_value e)
    (numeric_numeric_value e) (bidi_mirrored e) (unicode_1_name e) (simple_uppercase_mapping e)
    (simple_lowercase_mapping e) (simple_titlecase_mapping e).

(** unicode_data.rs:232-275; [character] is given. *)
Definition data_entry (character : N) (capture : list (nat * str)) : outcome UnicodeDataEntry :=
  obind (index 2 capture) (fun name =>
  obind (index 3 capture) (fun gc =>
  obind (index 4 capture) (fun t4 => obind (unwrap (parse_dec 0xFF t4)) (fun ccc =>
  obind (index 5 capture) (fun bc =>
  obind (ooption (fun t => omap hex_char (split_space t)) (get 7 capture)) (fun dm =>
  obind (ooption (fun t => unwrap (parse_dec 0xFF t)) (get 8 capture)) (fun dec =>
  obind (ooption (fun t => unwrap (parse_dec 0xFF t)) (get 9 capture)) (fun dig =>
  obind (index 11 capture) (fun t11 =>
  obind (ooption hex_char (get 13 capture)) (fun upper =>
  obind (ooption hex_char (get 14 capture)) (fun lower =>
  obind (ooption hex_char (get 15 capture)) (fun title =>
  Ret (mkEntry character name gc ccc bc (get 6 capture) dm dec dig (get 10 capture)
         (str_eqb t11 (text "Y")) (get 12 capture) upper lower
         (match title with None => upper | Some t => Some t end)))))))))))))).

(** [str::ends_with], [str::starts_with(char)] *)
Definition ends_with (s t : str) : bool :=
  Nat.leb (length t) (length s) && str_eqb (skipn (length s - length t) s) t.
Definition starts_with (s : str) (c : N) : bool := match s with [] => false | d :: _ => d =? c end.

(** [str::find(char)]; positions count characters, not bytes. *)
Fixpoint find_char (c : N) (s : str) : option nat :=
  match s with
  | [] => None
  | d :: s' => if d =? c then Some O else option_map S (find_char c s')
  end.

(** unicode_data.rs:281-283 and 288-290: [name.drain(comma_idx..angle_idx)] *)
Definition drain_label (s : str) : outcome str :=
  obind (unwrap (find_char 0x2C s)) (fun comma =>
  obind (unwrap (find_char 0x3E s)) (fun angle =>
  if Nat.ltb angle comma then Panic else Ret (firstn comma s ++ skipn angle s))).

(** unicode_data.rs:230-302 *)
Definition data_step (st : list UnicodeDataEntry * option N) (capture : list (nat * str))
  : outcome (list UnicodeDataEntry * option N) :=
  let (entries, start) := st in
  obind (index 1 capture) (fun t1 => obind (hex t1) (fun u =>
  match char_from_u32 u with
  | None => Ret st
  | Some c =>
      obind (data_entry c capture) (fun e =>
      if ends_with (name e) (text ", First>") then
        obind (drain_label (name e)) (fun n => Ret (entries ++ [set_name n e], Some c))
      else if ends_with (name e) (text ", Last>") then
        match start with
        | None => Panic
        | Some s =>
            if s <? c then
              obind (drain_label (name e)) (fun n =>
              let e := set_name n e in
              Ret (entries ++ map (fun k => set_character k e) (filter scalarb (u32_range s c)) ++ [e], start))
            else Panic
        end
      else Ret (entries ++ [e], start))
  end)).

(** unicode_data.rs:190-307 *)
Definition data_from_str (s : str) : outcome (list UnicodeDataEntry) :=
  obind (ofold data_step ([], None) (captures_iter UNICODE_DATA_REGEX s)) (fun st => Ret (fst st)).

(** * Tables written from it *)
Definition one_of (l : list string) (s : str) : bool := existsb (fun x => str_eqb s (text x)) l.

(** writer/ucd/category.rs:29-42 *)
Definition emit_general_category (es : list UnicodeDataEntry) : outcome (CharDataTable str) :=
  to_range_char_table str_eqb (collect_map (map (fun x => (character x, general_category x)) es)).

(** writer/ucd/normal.rs:32-41 *)
Definition emit_general_category_mark (es : list UnicodeDataEntry) : outcome (CharDataTable unit) :=
  to_range_char_set (collect_set (map character
    (filter (fun x => one_of ["Mn"; "Mc"; "Me"]%string (general_category x)) es))).

(** writer/ucd/normal.rs:43-56 *)
Definition emit_canonical_combining_class (es : list UnicodeDataEntry) : outcome (CharDataTable N) :=
  to_range_char_table N.eqb (collect_map (map (fun x => (character x, canonical_combining_class x))
    (filter (fun x => negb (canonical_combining_class x =? 0)) es))).

(** writer/ucd/common.rs:56-86 *)
Definition get_numeric (es : list UnicodeDataEntry) : list N :=
  collect_set (map character (filter (fun x => one_of ["Nd"; "Nl"; "No"]%string (general_category x)) es)).
Definition emit_control (es : list UnicodeDataEntry) : outcome (CharDataTable unit) :=
  to_range_char_set (collect_set (map character
    (filter (fun x => str_eqb (general_category x) (text "Cc")) es))).
Definition emit_numeric (es : list UnicodeDataEntry) : outcome (CharDataTable unit) :=
  to_range_char_set (get_numeric es).
(** [BTreeSet::union], collected. *)
Definition get_alphanumeric (es : list UnicodeDataEntry) (alphabetic : list N) : list N :=
  fold_left (fun s c => set_insert c s) alphabetic (get_numeric es).
Definition emit_alphanumeric (es : list UnicodeDataEntry) (alphabetic : list N) : outcome (CharDataTable unit) :=
  to_range_char_set (get_alphanumeric es alphabetic).

(** writer/ucd/bidi.rs:34-48 *)
Definition BIDI_CLASS_DEFAULTS : list (N * N * string) :=
  [(0x0600, 0x07BF, "AL"); (0x08A0, 0x08FF, "AL"); (0xFB50, 0xFDCF, "AL"); (0xFDF0, 0xFDFF, "AL");
   (0xFE70, 0xFEFF, "AL"); (0x1EE00, 0x1EEFF, "AL"); (0x0590, 0x05FF, "R"); (0x07C0, 0x089F, "R");
   (0xFB1D, 0xFB4F, "R"); (0x10800, 0x10FFF, "R"); (0x1E800, 0x1EDFF, "R"); (0x1EF00, 0x1EFFF, "R");
   (0x20A0, 0x20CF, "ET")]%string.

(** [map.entry(c).or_insert(v)] *)
Definition map_or_insert {V} (k : N) (v : V) (m : list (N * V)) : list (N * V) :=
  match map_get k m with Some _ => m | None => map_insert k v m end.

(** writer/ucd/bidi.rs:50-70 *)
Definition emit_bidi_class (es : list UnicodeDataEntry) : outcome (CharDataTable str) :=
  to_range_char_table str_eqb
    (fold_left (fun m d => match d with (start, stop, v) =>
                 fold_left (fun m p => match char_from_u32 p with
                                       | Some c => map_or_insert c (text v) m
                                       | None => m
                                       end) (u32_range start (stop + 1)) m end)
               BIDI_CLASS_DEFAULTS
               (collect_map (map (fun x => (character x, bidi_class x)) es))).

(** writer/ucd/bidi.rs:72-81 *)
Definition emit_bidi_mirrored (es : list UnicodeDataEntry) : outcome (CharDataTable unit) :=
  to_range_char_set (collect_set (map character (filter bidi_mirrored es))).

(** writer/ucd/normal.rs:58-70 *)
Definition decomposition_map (es : list UnicodeDataEntry) : list (N * str) :=
  collect_map (flat_map (fun x => match decomposition_type x, decomposition_mapping x with
                                  | None, Some d => [(character x, d)]
                                  | _, _ => []
                                  end) es).

(** writer/ucd/normal.rs:72-84 *)
Definition emit_canonical_decomposition_mapping (es : list UnicodeDataEntry) : CharDataTable str :=
  to_direct_char_table (decomposition_map es).

(** [sort_by_key(|it| it.0)]: a stable sort (Rust std). *)
Fixpoint insert_by_key (p : N * N) (l : list (N * N)) : list (N * N) :=
  match l with
  | [] => [p]
  | q :: l' => if fst p <? fst q then p :: l else q :: insert_by_key p l'
  end.
Definition sort_by_key (l : list (N * N)) : list (N * N) :=
  fold_left (fun s p => insert_by_key p s) l [].

(** writer/ucd/normal.rs:86-125; [exclusions] is [COMPOSITION_EXCLUSIONS.set]. *)
Definition composition_step (exclusions : list N) (m : list (N * list (N * N))) (e : N * str)
  : outcome (list (N * list (N * N))) :=
  let (composed, decomposed) := e in
  match decomposed with
  | [_] => Ret m
  | [lead; follow] =>
      if set_contains composed exclusions then Ret m
      else Ret (map_insert lead
                  (match map_get lead m with Some v => v | None => [] end ++ [(follow, composed)]) m)
  | _ => Panic
  end.
Definition emit_canonical_composition_mapping (es : list UnicodeDataEntry) (exclusions : list N)
  : outcome (CharDataTable (CharDataTable N)) :=
  obind (ofold (composition_step exclusions) [] (decomposition_map es)) (fun m =>
  Ret (to_direct_char_table (map (fun e => (fst e, Direct (sort_by_key (snd e)))) m))).

(** writer/ucd/normal.rs:127-152; the type is printed as the name of the enum
    case (first letter upper case, the others lower case), which is left out. *)
Definition emit_compatibility_decomposition_mapping (es : list UnicodeDataEntry)
  : CharDataTable (str * str) :=
  to_direct_char_table (collect_map (flat_map (fun x =>
    match decomposition_type x, decomposition_mapping x with
    | Some t, Some d => [(character x, (t, d))]
    | _, _ => []
    end) es)).

(** [str::split_whitespace] (Rust core), for texts whose only white space is
    U+0020: the pieces between spaces that are not empty. *)
Definition split_whitespace (s : str) : list str :=
  filter (fun w => match w with [] => false | _ => true end) (split_space s).

(** writer/ucd/name.rs:35-76: the printed value of a character is the list of
    identifiers of its pieces; an identifier is the piece with [-] replaced, and
    is declared as the piece. *)
Definition identifier (piece : str) : str := map (fun c => if c =? 0x2D then 0x5F else c) piece.
Definition name_pieces (es : list UnicodeDataEntry) : list (N * list str) :=
  map (fun x => (character x, split_whitespace (name x)))
      (filter (fun x => negb (starts_with (name x) 0x3C)) es).
(** The declarations, each piece once (their order is left out). *)
Definition emit_name_values (es : list UnicodeDataEntry) : list (str * str) :=
  map (fun p => (identifier p, p))
    (fold_left (fun s p => if existsb (str_eqb p) s then s else s ++ [p]) (flat_map snd (name_pieces es)) []).
Definition emit_name_map (es : list UnicodeDataEntry) : CharDataTable (list str) :=
  to_direct_char_table (collect_map (map (fun e => (fst e, map identifier (snd e))) (name_pieces es))).

(** What UnicodeData.txt looks like and what it says about a character (UAX #44,
    section 4.2). *)
From Coq Require Import String Ascii List NArith Bool Sorted.
From Verif Require Import Base TableModel TableSpec GenSpec GenBinarySpec.
Import ListNotations.
Open Scope N_scope.
Open Scope list_scope.

(** The fields of a line, after the code point and the name, as written. *)
Record info := mkInfo {
  gc : str; ccc : str; bc : str;
  tag : option str; mapping : list str;
  decimal : option N; digit_ : option N; numeric : option str;
  mirrored : bool; old_name : option str;
  upper : option str; lower_ : option str; title : option str }.

Definition opt (o : option str) : str := match o with None => [] | Some t => t end.
Definition optc (o : option N) : str := match o with None => [] | Some c => [c] end.

Fixpoint joined (sep : N) (l : list str) : str :=
  match l with
  | [] => []
  | [w] => w
  | w :: l' => w ++ sep :: joined sep l'
  end.

Definition decomposition_text (d : info) : str :=
  match tag d with None => [] | Some t => [0x3C] ++ t ++ [0x3E; 0x20] end ++ joined 0x20 (mapping d).

Definition info_text (cp name : str) (d : info) : str :=
  joined 0x3B [cp; name; gc d; ccc d; bc d; decomposition_text d; optc (decimal d); optc (digit_ d);
               opt (numeric d); (if mirrored d then [0x59] else [0x4E]); opt (old_name d); [];
               opt (upper d); opt (lower_ d); opt (title d)].

(** A line for one character, or two lines for the first and the last character of
    a range with the same fields. *)
Inductive item :=
| One (cp name : str) (d : info)
| Span (first last label : str) (d : info).

Definition first_name (label : str) : str := [0x3C] ++ label ++ letters ", First>".
Definition last_name (label : str) : str := [0x3C] ++ label ++ letters ", Last>".

Definition item_lines (i : item) : list str :=
  match i with
  | One cp n d => [info_text cp n d]
  | Span f l label d => [info_text f (first_name label) d; info_text l (last_name label) d]
  end.

Definition data_text (f : list item) : str :=
  concat (map (fun t => t ++ [10]) (flat_map item_lines f)).

Definition item_low (i : item) : N := match i with One cp _ _ => hex_number cp | Span f _ _ _ => hex_number f end.
Definition item_high (i : item) : N := match i with One cp _ _ => hex_number cp | Span _ l _ _ => hex_number l end.
Definition item_info (i : item) : info := match i with One _ _ d => d | Span _ _ _ d => d end.
Definition item_covers (c : N) (i : item) : bool := (item_low i <=? c) && (c <=? item_high i).

(** Code points increase through the file. *)
Definition increasing (f : list item) : Prop :=
  StronglySorted (fun i j => item_high i < item_low j) f.

(** What the file says about a character. *)
Definition info_of (f : list item) (c : N) : option info := option_map item_info (List.find (item_covers c) f).

(** * Well-formed files *)
Definition plain (t : str) : Prop := ~ In 0x3B t /\ no_newline t.
Definition filled (t : str) : Prop := t <> [] /\ plain t.
Definition opt_ok (p : str -> Prop) (o : option str) : Prop := match o with None => True | Some t => p t end.
Definition character_code (t : str) : Prop := code_point t /\ scalar (hex_number t).

Definition info_ok (d : info) : Prop :=
  filled (gc d) /\ (ccc d <> [] /\ Forall is_digit (ccc d) /\ dec_number (ccc d) < 256) /\ filled (bc d) /\
  opt_ok (fun t => plain t /\ ~ In 0x3E t) (tag d) /\ Forall character_code (mapping d) /\
  (tag d <> None -> mapping d <> []) /\
  (forall c, decimal d = Some c -> is_digit c) /\ (forall c, digit_ d = Some c -> is_digit c) /\
  opt_ok filled (numeric d) /\ opt_ok filled (old_name d) /\
  opt_ok character_code (upper d) /\ opt_ok character_code (lower_ d) /\ opt_ok character_code (title d).

Definition ends (t suffix : str) : Prop := exists p, t = p ++ suffix.

Definition item_ok (i : item) : Prop :=
  match i with
  | One cp n d => code_point cp /\ filled n /\ ~ ends n (letters ", First>") /\ ~ ends n (letters ", Last>") /\ info_ok d
  | Span f l label d =>
      code_point f /\ code_point l /\ hex_number f < hex_number l /\ hex_number l <= 0x10FFFF /\
      (scalar (hex_number f) <-> scalar (hex_number l)) /\
      plain label /\ ~ In 0x2C label /\ ~ In 0x3E label /\ info_ok d
  end.

Definition good_data (f : list item) : Prop := Forall item_ok f /\ increasing f.

(** * What the tables should say *)
Definition is_category (f : list item) (names : list string) (c : N) : Prop :=
  exists d x, info_of f c = Some d /\ In x names /\ gc d = letters x.

(** Combining classes other than zero. *)
Definition class_of (f : list item) (c : N) : option N :=
  match info_of f c with
  | Some d => if dec_number (ccc d) =? 0 then None else Some (dec_number (ccc d))
  | None => None
  end.

(** A mapping without a tag is canonical, one with a tag is for compatibility. *)
Definition canonical (f : list item) (c : N) : option str :=
  match info_of f c with
  | Some d => match tag d, mapping d with
              | None, _ :: _ => Some (map hex_number (mapping d))
              | _, _ => None
              end
  | None => None
  end.
Definition compatible (f : list item) (c : N) : option (str * str) :=
  match info_of f c with
  | Some d => match tag d with
              | Some t => Some (t, map hex_number (mapping d))
              | None => None
              end
  | None => None
  end.

Definition within (a b c : N) : bool := (a <=? c) && (c <=? b).

(** The classes of characters that are not listed (DerivedBidiClass.txt, as quoted
    in the generator; without its remark on default ignorable code points and
    noncharacters). *)
Definition default_class (c : N) : option str :=
  if within 0x0600 0x07BF c || within 0x08A0 0x08FF c || within 0xFB50 0xFDCF c || within 0xFDF0 0xFDFF c ||
     within 0xFE70 0xFEFF c || within 0x1EE00 0x1EEFF c then Some (letters "AL")
  else if within 0x0590 0x05FF c || within 0x07C0 0x089F c || within 0xFB1D 0xFB4F c || within 0x10800 0x10FFF c ||
     within 0x1E800 0x1EDFF c || within 0x1EF00 0x1EFFF c then Some (letters "R")
  else if within 0x20A0 0x20CF c then Some (letters "ET")
  else None.
Definition bidi_class_of (f : list item) (c : N) : option str :=
  match info_of f c with Some d => Some (bc d) | None => default_class c end.

(** DerivedNormalizationProps.txt: [lo..hi  ; Name # comment], or
    [lo..hi  ; Name; value # comment]. *)
Definition exclusion_row (r : row) : Prop :=
  code_point (lo r) /\ (forall h, hi r = Some h -> code_point h) /\
  Forall is_blank (pad r) /\ pad' r = [0x20] /\ word_value (value r) /\ after_word (tail r) /\ no_newline (tail r) /\
  (value r = letters "Full_Composition_Exclusion" -> exists u, tail r = [0x20; 0x23] ++ u).
Definition exclusion_file (x : list line) : Prop :=
  Forall (fun l => match l with
                   | Data r => exclusion_row r
                   | Other t => no_newline t /\ not_starting is_hex t
                   end) x.
Definition excluded (x : list line) (c : N) : Prop := given x (letters "Full_Composition_Exclusion") c.

(** Canonical mappings are one or two characters long, and no two characters that
    are not excluded have the same mapping. *)
Definition short_mappings (f : list item) : Prop :=
  forall c m, scalar c -> canonical f c = Some m -> (length m <= 2)%nat.
Definition distinct_mappings (f : list item) (x : list line) : Prop :=
  forall c c' a b, canonical f c = Some [a; b] -> canonical f c' = Some [a; b] ->
    ~ excluded x c -> ~ excluded x c' -> c = c'.

(** * Names *)
(** The name of a character; texts in angle brackets are not names. *)
Definition name_of (f : list item) (c : N) : option str :=
  match List.find (item_covers c) f with
  | Some (One _ (x :: n) _) => if x =? 0x3C then None else Some (x :: n)
  | _ => None
  end.

(** Names are words of capital letters, digits and hyphens, separated by one space. *)
Definition name_char (c : N) : Prop := 0x41 <= c <= 0x5A \/ 0x30 <= c <= 0x39 \/ c = 0x2D.
Definition good_name (n : str) : Prop :=
  exists ws, ws <> [] /\ n = joined 0x20 ws /\ Forall (fun w => w <> [] /\ Forall name_char w) ws.
Definition good_names (f : list item) : Prop :=
  forall cp n d, In (One cp n d) f -> good_name n \/ exists t, n = 0x3C :: t.

(** The characters of identifiers. *)
Definition identifier_char (c : N) : Prop := 0x41 <= c <= 0x5A \/ 0x30 <= c <= 0x39 \/ c = 0x5F.

(** [emit] gives a table that answers [g], or a set that contains [P]. *)
Definition tells {V} (emit : outcome (CharDataTable V)) (g : N -> option V) : Prop :=
  exists t, emit = Ret t /\ wf_table t /\ forall c, scalar c -> find t c = Ret (g c).
Definition tells_set (emit : outcome (CharDataTable unit)) (P : N -> Prop) : Prop :=
  exists t, emit = Ret t /\ wf_table t /\ forall c, scalar c -> exists b, tcontains t c = Ret b /\ (b = true <-> P c).

(** Looking up a pair in a table of tables. *)
Definition composed (t : CharDataTable (CharDataTable N)) (a b : N) : outcome (option N) :=
  obind (find t a) (fun o => match o with Some inner => find inner b | None => Ret None end).

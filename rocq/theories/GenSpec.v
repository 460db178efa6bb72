(** What the data files of the Unicode Character Database look like, and what
    they say (independent of how the generator reads them). *)
From Coq Require Import List NArith Bool.
From Verif Require Import Base.
Import ListNotations.
Open Scope N_scope.

(** Hexadecimal and decimal numerals. *)
Definition hex_value_of (c : N) : option N :=
  if (0x30 <=? c) && (c <=? 0x39) then Some (c - 0x30)
  else if (0x41 <=? c) && (c <=? 0x46) then Some (c - 0x41 + 10)
  else if (0x61 <=? c) && (c <=? 0x66) then Some (c - 0x61 + 10)
  else None.

Definition is_hex (c : N) : Prop := hex_value_of c <> None.

Fixpoint numeral (base : N) (digits : list N) : N :=
  match digits with
  | [] => 0
  | d :: ds => d * base ^ N.of_nat (length ds) + numeral base ds
  end.

Definition hex_number (t : str) : N :=
  numeral 16 (map (fun c => match hex_value_of c with Some d => d | None => 0 end) t).

Definition is_digit (c : N) : Prop := 0x30 <= c <= 0x39.
Definition dec_number (t : str) : N := numeral 10 (map (fun c => c - 0x30) t).

(** A code point is written with four to six hexadecimal digits. *)
Definition code_point (t : str) : Prop := Forall is_hex t /\ (4 <= length t <= 6)%nat.

Definition is_blank (c : N) : Prop := c = 0x20 \/ c = 9.
Definition is_word (c : N) : Prop :=
  is_digit c \/ 0x41 <= c <= 0x5A \/ 0x61 <= c <= 0x7A \/ c = 0x5F.

(** One data line: [lo..hi  ; value tail], where [..hi] may be missing. *)
Record row := mkRow {
  lo : str; hi : option str; pad : str; pad' : str; value : str; tail : str }.

Definition row_text (r : row) : str :=
  lo r ++ (match hi r with None => [] | Some h => [0x2E; 0x2E] ++ h end)
       ++ pad r ++ [0x3B] ++ pad' r ++ value r ++ tail r.

Definition low (r : row) : N := hex_number (lo r).
Definition high (r : row) : N := match hi r with None => low r | Some h => hex_number h end.

Definition row_covers (r : row) (c : N) : bool := (low r <=? c) && (c <=? high r).

(** A file: data lines and other lines (comments, empty lines, directives), each
    ended by a line feed. *)
Inductive line := Data (r : row) | Other (t : str).

Definition line_text (l : line) : str :=
  match l with Data r => row_text r | Other t => t end ++ [10].
Definition file_text (f : list line) : str := concat (map line_text f).

Definition rows (f : list line) : list row :=
  flat_map (fun l => match l with Data r => [r] | Other _ => [] end) f.

Definition no_newline (t : str) : Prop := ~ In 10 t.

(** The first character of a text, if any, is not in a class. *)
Definition not_starting (p : N -> Prop) (t : str) : Prop :=
  match t with [] => True | c :: _ => ~ p c end.

Definition good_row (val_ok tail_ok : str -> Prop) (r : row) : Prop :=
  code_point (lo r) /\ (forall h, hi r = Some h -> code_point h) /\
  Forall is_blank (pad r) /\ pad r <> [] /\ Forall is_blank (pad' r) /\ pad' r <> [] /\
  val_ok (value r) /\ tail_ok (tail r) /\ no_newline (tail r).

(** Other lines do not start with a hexadecimal digit. *)
Definition good_file (val_ok tail_ok : str -> Prop) (f : list line) : Prop :=
  Forall (fun l => match l with
                   | Data r => good_row val_ok tail_ok r
                   | Other t => no_newline t /\ not_starting is_hex t
                   end) f.

(** UAX #44 does not require white space around the semicolon. *)
Definition loose_row (val_ok tail_ok : str -> Prop) (r : row) : Prop :=
  code_point (lo r) /\ (forall h, hi r = Some h -> code_point h) /\
  Forall is_blank (pad r) /\ Forall is_blank (pad' r) /\
  val_ok (value r) /\ tail_ok (tail r) /\ no_newline (tail r).
Definition loose_file (val_ok tail_ok : str -> Prop) (f : list line) : Prop :=
  Forall (fun l => match l with
                   | Data r => loose_row val_ok tail_ok r
                   | Other t => no_newline t /\ not_starting is_hex t
                   end) f.

(** The last line that covers a character. *)
Definition last_row (f : list line) (c : N) : option row :=
  List.find (fun r => row_covers r c) (rev (rows f)).

(** A property value: a word. *)
Definition word_value (t : str) : Prop := t <> [] /\ Forall is_word t.
Definition after_word (t : str) : Prop := not_starting is_word t.

(** A version number: [major.minor] or [major.minor.micro]. *)
Definition number_value (t : str) : Prop := t <> [] /\ Forall is_digit t /\ dec_number t < 0x10000.
Definition version_text (major minor : str) (micro : option str) : str :=
  major ++ [0x2E] ++ minor ++ match micro with None => [] | Some m => [0x2E] ++ m end.
Definition version_value (t : str) : Prop :=
  exists major minor micro, t = version_text major minor micro /\
    number_value major /\ number_value minor /\ (forall m, micro = Some m -> number_value m).
(** After a version comes neither a digit nor a dot. *)
Definition after_version (t : str) : Prop := not_starting (fun c => is_digit c \/ c = 0x2E) t.

(** [v] is the version written [t]. *)
Definition is_version (t : str) (v : N * N * N) : Prop :=
  exists major minor micro, t = version_text major minor micro /\
    Forall is_digit major /\ Forall is_digit minor /\ (forall m, micro = Some m -> Forall is_digit m) /\
    v = (dec_number major, dec_number minor, match micro with None => 0 | Some m => dec_number m end).

(** Blocks.txt: a range is always given, the value is the rest of the line. *)
Definition block_row (r : row) : Prop :=
  code_point (lo r) /\ (exists h, hi r = Some h /\ code_point h) /\
  Forall is_blank (pad r) /\ Forall is_blank (pad' r) /\
  no_newline (value r) /\ not_starting is_blank (value r) /\ tail r = [].
Definition block_file (f : list line) : Prop :=
  Forall (fun l => match l with
                   | Data r => block_row r
                   | Other t => no_newline t /\ not_starting is_hex t
                   end) f.

(** The Unicode-aware classes [\w] and [\s], of which only the ASCII part
    matters. *)
Definition ascii_classes (uword uspace : N -> bool) : Prop :=
  forall c, c < 128 -> (uword c = true <-> is_word c) /\
                       (uspace c = true <-> c = 0x20 \/ 9 <= c <= 13).

(** After the name of a property comes an ASCII character that cannot be part of
    it, or the line ends. *)
Definition after_name (t : str) : Prop :=
  match t with [] => True | c :: _ => c < 128 /\ ~ is_word c end.

(** Some line gives the property [name] to [c]. *)
Definition given (f : list line) (name : str) (c : N) : Prop :=
  exists r, In r (rows f) /\ value r = name /\ low r <= c <= high r.

(** What IdnaMappingTable.txt looks like and what it says (UTS #46, section 5). *)
From Coq Require Import String List NArith Bool.
From Verif Require Import Base GenSpec GenBinarySpec GenDataSpec.
Import ListNotations.
Open Scope N_scope.
Open Scope list_scope.

(** [lo..hi  ; status  ; mapping  ; IDNA2008 status # comment], where [..hi], the
    IDNA2008 status, and the mapping together with it may be missing.  The second
    pair of blanks of the mapping field is only used around a mapping. *)
Record idna_row := mkIdnaRow {
  ilo : str; ihi : option str; pad1 : str; pad2 : str; status : str; pad3 : str;
  more : option (str * list str * str * option (str * str * str));
  comment : str }.

Definition more_text (m : option (str * list str * str * option (str * str * str))) : str :=
  match m with
  | None => []
  | Some (p, mp, q, x) =>
      [0x3B] ++ p ++ joined 0x20 mp ++ q ++
      match x with None => [] | Some (p', s, q') => [0x3B] ++ p' ++ s ++ q' end
  end.

Definition idna_row_text (r : idna_row) : str :=
  ilo r ++ (match ihi r with None => [] | Some h => [0x2E; 0x2E] ++ h end)
        ++ pad1 r ++ [0x3B] ++ pad2 r ++ status r ++ pad3 r ++ more_text (more r) ++ [0x23] ++ comment r.

Inductive idna_line := IdnaData (r : idna_row) | IdnaOther (t : str).
Definition idna_line_text (l : idna_line) : str :=
  match l with IdnaData r => idna_row_text r | IdnaOther t => t end ++ [10].
Definition idna_text (f : list idna_line) : str := concat (map idna_line_text f).
Definition idna_rows (f : list idna_line) : list idna_row :=
  flat_map (fun l => match l with IdnaData r => [r] | IdnaOther _ => [] end) f.

Definition ilow (r : idna_row) : N := hex_number (ilo r).
Definition ihigh (r : idna_row) : N := match ihi r with None => ilow r | Some h => hex_number h end.

(** The statuses and what they are called in the library. *)
Definition statuses : list (string * string) :=
  [("valid", "Valid"); ("ignored", "Ignored"); ("mapped", "Mapped"); ("deviation", "Deviation");
   ("disallowed", "Disallowed"); ("disallowed_STD3_valid", "DisallowedStd3Valid");
   ("disallowed_STD3_mapped", "DisallowedStd3Mapped")]%string.

Definition more_ok (m : option (str * list str * str * option (str * str * str))) : Prop :=
  match m with
  | None => True
  | Some (p, mp, q, x) =>
      Forall is_blank p /\ Forall character_code mp /\ Forall is_blank q /\
      match x with
      | None => True
      | Some (p', s, q') => Forall is_blank p' /\ Forall is_blank q' /\ (s = letters "NV8" \/ s = letters "XV8")
      end
  end.

(** A line covers scalar values only or surrogates only at its ends. *)
Definition idna_row_ok (r : idna_row) : Prop :=
  code_point (ilo r) /\ (forall h, ihi r = Some h -> code_point h) /\ ilow r <= ihigh r /\
  ((scalar (ilow r) /\ scalar (ihigh r)) \/ (0xD800 <= ilow r /\ ihigh r <= 0xDFFF)) /\
  Forall is_blank (pad1 r) /\ Forall is_blank (pad2 r) /\ Forall is_blank (pad3 r) /\
  (exists s, In s (map fst statuses) /\ status r = letters s) /\ more_ok (more r) /\ no_newline (comment r).
Definition idna_file (f : list idna_line) : Prop :=
  Forall (fun l => match l with
                   | IdnaData r => idna_row_ok r
                   | IdnaOther t => no_newline t /\ not_starting is_hex t
                   end) f.

(** The mapping of a line (empty if not given). *)
Definition row_mapping (r : idna_row) : str :=
  match more r with Some (_, mp, _, _) => map hex_number mp | None => [] end.

(** [v] is what a line says: the status, with the mapping for three of them. *)
Definition row_says (r : idna_row) (v : string * option str) : Prop :=
  exists s, In (s, fst v) statuses /\ status r = letters s /\
    snd v = if existsb (String.eqb s) ["mapped"; "deviation"; "disallowed_STD3_mapped"]%string
            then Some (row_mapping r) else None.

Definition idna_covers (c : N) (r : idna_row) : bool := (ilow r <=? c) && (c <=? ihigh r).
Definition last_idna_row (f : list idna_line) (c : N) : option idna_row :=
  List.find (idna_covers c) (rev (idna_rows f)).

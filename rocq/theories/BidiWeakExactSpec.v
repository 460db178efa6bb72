(** What becomes of a position of a sequence in the weak pass, read off the
    classes before and after it. *)
From Coq Require Import List NArith Bool.
Import ListNotations.
From Verif Require Import Base Enums UcdModel BidiModel BidiSpec.

(** the nearest class outside [skip] *)
Definition beyond (skip : list BidiClass) (l : list BidiClass) : option BidiClass :=
  find (fun c => negb (is_in skip c)) l.
(** a European number, with marks and terminators in between only *)
Definition number_near (l : list BidiClass) : bool :=
  match beyond [cNSM; cET] l with Some cEN => true | _ => false end.
Definition first_is (c : BidiClass) (l : list BidiClass) : bool :=
  match l with d :: _ => BC_eqb d c | [] => false end.

(** the class of [c]; [before] has the nearest class first *)
Definition weak_class (sos : BidiClass) (before : list BidiClass) (c : BidiClass) (after : list BidiClass) : BidiClass :=
  match c with
  | cAL => cR
  | cEN => cEN
  | cES => if number_near before && first_is cEN after then cEN else cON
  | cCS =>
      if number_near before && first_is cEN after then cEN
      else match beyond [cNSM] before with
           | Some cAN => if first_is cAN after then cAN else cON
           | _ => cON
           end
  | cET =>
      if number_near before || number_near after then cEN
      else match beyond [cNSM; cET] after with None => cET | Some _ => cON end
  | cNSM =>
      match beyond [cNSM] before with
      | None => sos
      | Some cET => if number_near before then cEN else cET
      | Some (cES | cCS | cLRI | cRLI | cFSI | cPDI) => cON
      | Some cAL => cR
      | Some d => d
      end
  | _ => c
  end.
(** then W7, by the strong classes of the text *)
Definition weak_result (sos : BidiClass) (before : list BidiClass) (c : BidiClass) (after : list BidiClass) : BidiClass :=
  match weak_class sos before c after with
  | cEN => if is_in [cL] (last_strong sos before) then cL else cEN
  | d => d
  end.

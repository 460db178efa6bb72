(** Specification vocabulary for the command-line formats. *)
From Coq Require Import List NArith Bool.
From Verif Require Import Base.
Import ListNotations.
Open Scope N_scope.

(** What is assumed of the regex class [\w]: on ASCII it is letters, digits and
    the underscore. *)
Definition ascii_word_law (word : N -> bool) : Prop := forall c, c < 128 ->
  (word c = true <-> (0x30 <= c <= 0x39 \/ 0x41 <= c <= 0x5A \/ c = 0x5F \/ 0x61 <= c <= 0x7A)).

(** Reading a string literal with backslash escapes: one token at a time.
    [reads s t]: the literal body [s] denotes the text [t]. *)
Definition hexval (c : N) : option N :=
  if (0x30 <=? c) && (c <=? 0x39) then Some (c - 0x30)
  else if (0x61 <=? c) && (c <=? 0x66) then Some (c - 0x57)
  else if (0x41 <=? c) && (c <=? 0x46) then Some (c - 0x37)
  else None.

Inductive hex_number : str -> N -> Prop :=
| hex_one c d : hexval c = Some d -> hex_number [c] d
| hex_more s n c d : hex_number s n -> hexval c = Some d -> hex_number (s ++ [c]) (n * 16 + d).

Inductive reads : str -> str -> Prop :=
| reads_nil : reads [] []
| reads_plain c s t : c <> 0x5C -> c <> 0x22 -> reads s t -> reads (c :: s) (c :: t)
| reads_tab s t : reads s t -> reads (0x5C :: 0x74 :: s) (0x09 :: t)
| reads_cr s t : reads s t -> reads (0x5C :: 0x72 :: s) (0x0D :: t)
| reads_lf s t : reads s t -> reads (0x5C :: 0x6E :: s) (0x0A :: t)
| reads_nul s t : reads s t -> reads (0x5C :: 0x30 :: s) (0x00 :: t)
| reads_quote s t : reads s t -> reads (0x5C :: 0x22 :: s) (0x22 :: t)
| reads_apostrophe s t : reads s t -> reads (0x5C :: 0x27 :: s) (0x27 :: t)
| reads_backslash s t : reads s t -> reads (0x5C :: 0x5C :: s) (0x5C :: t)
| reads_unicode h n s t : hex_number h n -> reads s t ->
    reads ([0x5C; 0x75; 0x7B] ++ h ++ [0x7D] ++ s) (n :: t).

(** [denotes lit t]: the double-quoted literal [lit] denotes [t]. *)
Definition denotes (lit : str) (t : str) : Prop :=
  exists body, lit = [0x22] ++ body ++ [0x22] /\ reads body t.

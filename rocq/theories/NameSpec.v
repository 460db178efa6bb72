(** Specification vocabulary for character names, ages and basic
    classifications, after the Unicode Standard (sections 3.12, 4.8, 23.5,
    23.7, appendix A). *)
From Coq Require Import List NArith String Ascii Lia.
From Verif Require Import Base.
Import ListNotations.
Open Scope N_scope.

Fixpoint text (s : string) : list N :=
  match s with EmptyString => [] | String a r => N_of_ascii a :: text r end.
Arguments text s%string.

(** Jamo short names (Jamo.txt), in the order of the jamo blocks. *)
Definition leading_names : list string :=
  ["G"; "GG"; "N"; "D"; "DD"; "R"; "M"; "B"; "BB"; "S"; "SS"; ""; "J"; "JJ"; "C"; "K"; "T"; "P"; "H"]%string.
Definition vowel_names : list string :=
  ["A"; "AE"; "YA"; "YAE"; "EO"; "E"; "YEO"; "YE"; "O"; "WA"; "WAE"; "OE"; "YO"; "U"; "WEO"; "WE"; "WI";
   "YU"; "EU"; "YI"; "I"]%string.
Definition trailing_names : list string :=
  [""; "G"; "GG"; "GS"; "N"; "NJ"; "NH"; "D"; "L"; "LG"; "LM"; "LB"; "LS"; "LT"; "LP"; "LH"; "M"; "B"; "BS";
   "S"; "SS"; "NG"; "J"; "C"; "K"; "T"; "P"; "H"]%string.

(** Rule NR1: the name of the syllable with leading consonant [l], vowel [v]
    and trailing consonant [t] (0: none). *)
Definition syllable_name (l v t : nat) : list N :=
  text "HANGUL SYLLABLE " ++ text (nth l leading_names ""%string)
  ++ text (nth v vowel_names ""%string) ++ text (nth t trailing_names ""%string).

(** Value of a hexadecimal digit string, upper case. *)
Inductive upper_hex : list N -> N -> Prop :=
| uh_one d : d < 16 -> upper_hex [if d <? 10 then 0x30 + d else 0x41 + (d - 10)] d
| uh_more s n d : upper_hex s n -> d < 16 ->
    upper_hex (s ++ [if d <? 10 then 0x30 + d else 0x41 + (d - 10)]) (n * 16 + d).

(** Lexicographic order of strings. *)
Inductive lex_lt : list N -> list N -> Prop :=
| lex_nil b t : lex_lt [] (b :: t)
| lex_head a b s t : a < b -> lex_lt (a :: s) (b :: t)
| lex_tail a s t : lex_lt s t -> lex_lt (a :: s) (a :: t).

Definition orders (o : comparison) (s t : list N) : Prop :=
  match o with Lt => lex_lt s t | Gt => lex_lt t s | Eq => s = t end.

(** The 66 noncharacters. *)
Definition noncharacter (c : N) : Prop :=
  0xFDD0 <= c <= 0xFDEF \/ c mod 0x10000 = 0xFFFE \/ c mod 0x10000 = 0xFFFF.
(** The three private-use areas. *)
Definition private_use (c : N) : Prop :=
  0xE000 <= c <= 0xF8FF \/ 0xF0000 <= c <= 0xFFFFD \/ 0x100000 <= c <= 0x10FFFD.

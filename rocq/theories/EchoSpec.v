(** What the formats of [unic-echo] and the rows of [unic-inspector] are to be. *)
From Coq Require Import String List NArith Bool.
From Verif Require Import Base CliSpec NameParseSpec.
Import ListNotations.
Open Scope list_scope.
Open Scope N_scope.

(** The value of an option may be given in any case and with hyphens anywhere. *)
Inductive spelled : str -> str -> Prop :=
| spelled_end : spelled [] []
| spelled_hyphen s n : spelled s n -> spelled (0x2D :: s) n
| spelled_letter a b s n : a <> 0x2D -> same_letter a b -> spelled s n -> spelled (a :: s) (b :: n).

(** [spaced shown vs out]: [out] is what [shown] allows for each of [vs], one space between. *)
Inductive spaced {A} (shown : A -> str -> Prop) : list A -> str -> Prop :=
| spaced_none : spaced shown [] []
| spaced_one a o : shown a o -> spaced shown [a] o
| spaced_more a o b vs out : shown a o -> spaced shown (b :: vs) out -> spaced shown (a :: b :: vs) (o ++ [0x20] ++ out).

(** The text given by the arguments. *)
Definition given : list str -> str -> Prop := spaced (fun a o => o = a).

(** A number in hexadecimal, padded to [w] digits and no more. *)
Definition padded (w : nat) (h : str) (n : N) : Prop :=
  hex_number h n /\ (w <= List.length h)%nat /\ ((w < List.length h)%nat -> n >= 16 ^ N.of_nat (List.length h - 1)).
Definition code_shown (c : N) (o : str) : Prop := exists h, o = [0x55; 0x2B] ++ h /\ padded 4 h c.
Definition unit_shown (w : nat) (u : N) (o : str) : Prop :=
  exists h, o = [0x30; 0x78] ++ h /\ hex_number h u /\ List.length h = w.

(** RFC 3629, section 3 *)
Inductive utf8_form : N -> list N -> Prop :=
| utf8_one a : a < 0x80 -> utf8_form a [a]
| utf8_two a b : 2 <= a < 0x20 -> b < 64 -> utf8_form (a * 64 + b) [0xC0 + a; 0x80 + b]
| utf8_three a b c : a < 16 -> b < 64 -> c < 64 -> 0x800 <= (a * 64 + b) * 64 + c ->
    utf8_form ((a * 64 + b) * 64 + c) [0xE0 + a; 0x80 + b; 0x80 + c]
| utf8_four a b c d : a < 8 -> b < 64 -> c < 64 -> d < 64 -> 0x10000 <= ((a * 64 + b) * 64 + c) * 64 + d ->
    utf8_form (((a * 64 + b) * 64 + c) * 64 + d) [0xF0 + a; 0x80 + b; 0x80 + c; 0x80 + d].
(** RFC 2781, section 2.1 *)
Inductive utf16_form : N -> list N -> Prop :=
| utf16_one a : a < 0x10000 -> utf16_form a [a]
| utf16_two a b : a < 0x400 -> b < 0x400 -> utf16_form (0x10000 + a * 0x400 + b) [0xD800 + a; 0xDC00 + b].
(** The units of a text *)
Inductive units (form : N -> list N -> Prop) : str -> list N -> Prop :=
| units_none : units form [] []
| units_more c us t vs : form c us -> units form t vs -> units form (c :: t) (us ++ vs).

(** A literal in which every character is escaped. *)
Definition all_escaped (lit t : str) : Prop :=
  exists body, lit = [0x22] ++ List.concat body ++ [0x22] /\
    Forall2 (fun e c => exists h, e = [0x5C; 0x75; 0x7B] ++ h ++ [0x7D] /\ hex_number h c) body t.

Inductive manner := AsText | AsCodes | AsBytes | AsWords | AsAsciiLiteral | AsEscapes | AsLiteral.
(** [shows m t out]: [out] shows the text [t] in the manner [m]. *)
Definition shows (m : manner) (t out : str) : Prop :=
  match m with
  | AsText => out = t
  | AsCodes => spaced code_shown t out
  | AsBytes => exists us, units utf8_form t us /\ spaced (unit_shown 2) us out
  | AsWords => exists us, units utf16_form t us /\ spaced (unit_shown 4) us out
  | AsAsciiLiteral => denotes out t /\ Forall (fun c => c < 128) out
  | AsEscapes => all_escaped out t
  | AsLiteral => denotes out t
  end.

(** What may be entered for code points and units: hexadecimal numbers with any
    number of digits in either case, with or without a prefix, each separated
    from the next by one ASCII character that belongs to no number. *)
Definition separator (x : N) : Prop :=
  x < 128 /\ ~ (0x30 <= x <= 0x39 \/ 0x41 <= x <= 0x5A \/ x = 0x5F \/ 0x61 <= x <= 0x7A \/ x = 0x2B).
Definition code_entered (c : N) (o : str) : Prop :=
  exists h, hex_number h c /\ (o = h \/ o = [0x55; 0x2B] ++ h \/ o = [0x75; 0x2B] ++ h).
Definition unit_entered (u : N) (o : str) : Prop :=
  exists h, hex_number h u /\ (o = h \/ o = [0x30; 0x78] ++ h \/ o = [0x30; 0x58] ++ h).
Inductive entered (item : N -> str -> Prop) : list N -> str -> Prop :=
| entered_none : entered item [] []
| entered_one a o : item a o -> entered item [a] o
| entered_more a o x b vs out : item a o -> separator x -> entered item (b :: vs) out ->
    entered item (a :: b :: vs) (o ++ [x] ++ out).
(** [stands m x t]: entered in the manner [m], [x] stands for the text [t]. *)
Definition stands (m : manner) (x t : str) : Prop :=
  match m with
  | AsText => x = t
  | AsCodes => entered code_entered t x
  | AsBytes => exists us, units utf8_form t us /\ entered unit_entered us x
  | AsWords => exists us, units utf16_form t us /\ entered unit_entered us x
  | _ => False
  end.

(** The names in the help text (unic-echo.rs:35-43, 69-93), and the singular
    that is accepted beside [codepoints]. *)
Definition input_manners : list (string * manner) :=
  [("plain", AsText); ("codepoint", AsCodes); ("codepoints", AsCodes); ("utf8hex", AsBytes); ("utf16hex", AsWords)]%string.
Definition output_manners : list (string * manner) :=
  input_manners ++
  [("bracesescape", AsAsciiLiteral); ("js6escape", AsAsciiLiteral); ("rustescape", AsAsciiLiteral);
   ("bracesescapeall", AsEscapes); ("js6escapeall", AsEscapes); ("rustescapeall", AsEscapes);
   ("bracesescapecontrol", AsLiteral); ("js6escapecontrol", AsLiteral); ("rustescapecontrol", AsLiteral)]%string.
(** [asks manners arg m]: the option, if given, asks for [m]. *)
Definition asks (letters : string -> str) (manners : list (string * manner)) (arg : option str) (m : manner) : Prop :=
  match arg with
  | None => m = AsText
  | Some s => exists name, In (name, m) manners /\ spelled s (letters name)
  end.

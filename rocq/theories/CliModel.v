(** Model of apps/cli/src/writers.rs and apps/cli/src/parsers.rs. *)
From Coq Require Import List NArith Bool.
From Verif Require Import Base TextModel.
Import ListNotations.
Open Scope N_scope.

(** writers.rs:20-32 [write_join_with_space!]; the output stream is the list
    of characters written to it (I/O errors are not modelled). *)
Fixpoint join_loop {A} (write_fn : A -> str) (first : bool) (values : list A) : str :=
  match values with
  | [] => []
  | v :: values' => (if first then [] else [0x20]) ++ write_fn v ++ join_loop write_fn false values'
  end.
Definition write_join_with_space {A} (write_fn : A -> str) (values : list A) : str :=
  join_loop write_fn true values.

(** writers.rs:36-38 *)
Definition write_char_as_codepoint (ch : N) : str := [0x55; 0x2B] ++ fmt_upper_hex_w 4 ch.
(** writers.rs:40-46 *)
Definition write_char_as_utf8_hex (ch : N) : str :=
  write_join_with_space (fun b8 => [0x30; 0x78] ++ fmt_upper_hex_w 2 b8) (encode_utf8 ch).
(** writers.rs:48-54 *)
Definition write_char_as_utf16_hex (ch : N) : str :=
  write_join_with_space (fun b16 => [0x30; 0x78] ++ fmt_upper_hex_w 4 b16) (encode_utf16 ch).
(** writers.rs:58-60 *)
Definition write_as_codepoints (chars : str) : str := write_join_with_space write_char_as_codepoint chars.
(** writers.rs:62-64 *)
Definition write_as_utf8_hex (chars : str) : str := write_join_with_space write_char_as_utf8_hex chars.
(** writers.rs:66-68 *)
Definition write_as_utf16_hex (chars : str) : str := write_join_with_space write_char_as_utf16_hex chars.

(** [char::escape_unicode] (Rust core): backslash, u, braces, lower-case hex *)
Definition escape_unicode (c : N) : str := [0x5C; 0x75; 0x7B] ++ fmt_lower_hex c ++ [0x7D].
(** [char::escape_default] (Rust core) *)
Definition escape_default (c : N) : str :=
  if c =? 0x09 then [0x5C; 0x74]
  else if c =? 0x0D then [0x5C; 0x72]
  else if c =? 0x0A then [0x5C; 0x6E]
  else if (c =? 0x27) || (c =? 0x22) || (c =? 0x5C) then [0x5C; c]
  else if (0x20 <=? c) && (c <=? 0x7E) then [c]
  else escape_unicode c.
(** [char::escape_debug] (Rust core).  [literal c] stands for Rust's own tables:
    printable and not a grapheme extender. *)
Definition escape_debug (literal : N -> bool) (c : N) : str :=
  if c =? 0 then [0x5C; 0x30]
  else if c =? 0x09 then [0x5C; 0x74]
  else if c =? 0x0D then [0x5C; 0x72]
  else if c =? 0x0A then [0x5C; 0x6E]
  else if (c =? 0x27) || (c =? 0x22) || (c =? 0x5C) then [0x5C; c]
  else if literal c then [c]
  else escape_unicode c.

Definition quoted (esc : N -> str) (chars : str) : str := [0x22] ++ flat_map esc chars ++ [0x22].
(** writers.rs:70-80 *)
Definition write_with_control_n_unicode_braces_escape (chars : str) : str := quoted escape_default chars.
(** writers.rs:82-92 *)
Definition write_with_control_braces_escape (literal : N -> bool) (chars : str) : str :=
  quoted (escape_debug literal) chars.
(** writers.rs:94-104 *)
Definition write_with_all_braces_escape (chars : str) : str := quoted escape_unicode chars.

(** [Regex::split] for a pattern matching exactly the single characters [sep].
    [keep_last] says whether an empty piece at the very end of the text is
    yielded; it is not in version 0.2 of the [regex] crate, the one the tool
    depends on (apps/cli/Cargo.toml:20), and it is in current versions. *)
Fixpoint split_loop (keep_last : bool) (sep : N -> bool) (cur : str) (s : str) : list str :=
  match s with
  | [] => match cur with [] => if keep_last then [[]] else [] | _ => [rev cur] end
  | c :: s' =>
      if sep c then rev cur :: split_loop keep_last sep [] s'
      else split_loop keep_last sep (c :: cur) s'
  end.
Definition regex_split (keep_last : bool) (sep : N -> bool) (s : str) : list str :=
  split_loop keep_last sep [] s.

(** Map a fallible function over tokens, as [unwrap_or_else(panic)] inside the
    iterator does. *)
Fixpoint map_or_panic {A} (f : str -> option A) (ts : list str) : outcome (list A) :=
  match ts with
  | [] => Ret []
  | t :: ts' =>
      match f t with
      | None => Panic
      | Some a => obind (map_or_panic f ts') (fun l => Ret (a :: l))
      end
  end.

Section parsers.
(** [word c]: [c] matches the regex class [\w], by the tables of the [regex]
    crate. *)
Variable word : N -> bool.
Variable keep_last : bool.

(** parsers.rs:18 [CODEPOINT_SEPARATORS] and 24 [HEX_SEPARATORS] *)
Definition codepoint_separator (c : N) : bool := negb (word c || (c =? 0x2B)).
Definition hex_separator (c : N) : bool := negb (word c).

(** parsers.rs:21, 34-36: strip [U+] or [u+] *)
Definition strip_codepoint_prefix (t : str) : str :=
  match t with
  | a :: b :: r => if ((a =? 0x55) || (a =? 0x75)) && (b =? 0x2B) then r else t
  | _ => t
  end.
(** parsers.rs:27, 49-51, 62-64: strip [0x] or [0X] *)
Definition strip_hex_prefix (t : str) : str :=
  match t with
  | a :: b :: r => if (a =? 0x30) && ((b =? 0x78) || (b =? 0x58)) then r else t
  | _ => t
  end.

(** parsers.rs:30-44 *)
Definition codepoints (string : str) : outcome str :=
  map_or_panic
    (fun token =>
       match from_str_radix16 0xFFFFFFFF (strip_codepoint_prefix token) with
       | Some codepoint => char_from_u32 codepoint
       | None => None
       end)
    (regex_split keep_last codepoint_separator string).

(** parsers.rs:46-57 *)
Definition utf8_hex (string : str) : outcome str :=
  obind (map_or_panic (fun token => from_str_radix16 0xFF (strip_hex_prefix token))
                      (regex_split keep_last hex_separator string))
    (fun utf8 => match from_utf8 utf8 with Some s => Ret s | None => Panic end).

(** parsers.rs:59-72 *)
Definition utf16_hex (string : str) : outcome str :=
  obind (map_or_panic (fun token => from_str_radix16 0xFFFF (strip_hex_prefix token))
                      (regex_split keep_last hex_separator string))
    (fun utf16 => match from_utf16 utf16 with Some s => Ret s | None => Panic end).
End parsers.

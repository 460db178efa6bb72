(** Model of the programs [unic-echo] and [unic-inspector], after the command line
    has been taken apart (by the [clap] crate). *)
From Coq Require Import String Ascii List NArith Bool.
From Verif Require Import Base TextModel CliModel NameParseModel NameModel Enums TableTypes UcdModel NameListModel.
Import ListNotations.
Open Scope list_scope.
Open Scope N_scope.

(** A Rust identifier or literal in ASCII. *)
Fixpoint ident (s : string) : str :=
  match s with EmptyString => [] | String c s' => N_of_ascii c :: ident s' end.

(** * unic-echo *)

(** apps/cli/src/bin/unic-echo.rs:24-33 *)
Inductive InputFormat := I_Plain | I_Codepoint | I_Codepoints | I_Utf8Hex | I_Utf16Hex.
(** unic-echo.rs:45-67 *)
Inductive OutputFormat :=
| O_Plain | O_Codepoint | O_Codepoints | O_Utf8Hex | O_Utf16Hex
| O_BracesEscape | O_Js6Escape | O_RustEscape
| O_BracesEscapeAll | O_Js6EscapeAll | O_RustEscapeAll
| O_BracesEscapeControl | O_Js6EscapeControl | O_RustEscapeControl.

(** The variants with [stringify!($v)], in order. *)
Definition input_variants : list (string * InputFormat) :=
  [("Plain", I_Plain); ("Codepoint", I_Codepoint); ("Codepoints", I_Codepoints);
   ("Utf8Hex", I_Utf8Hex); ("Utf16Hex", I_Utf16Hex)]%string.
Definition output_variants : list (string * OutputFormat) :=
  [("Plain", O_Plain); ("Codepoint", O_Codepoint); ("Codepoints", O_Codepoints);
   ("Utf8Hex", O_Utf8Hex); ("Utf16Hex", O_Utf16Hex);
   ("BracesEscape", O_BracesEscape); ("Js6Escape", O_Js6Escape); ("RustEscape", O_RustEscape);
   ("BracesEscapeAll", O_BracesEscapeAll); ("Js6EscapeAll", O_Js6EscapeAll); ("RustEscapeAll", O_RustEscapeAll);
   ("BracesEscapeControl", O_BracesEscapeControl); ("Js6EscapeControl", O_Js6EscapeControl);
   ("RustEscapeControl", O_RustEscapeControl)]%string.

(** [str::replace("-", "")] (Rust core) *)
Definition without_hyphens (s : str) : str := filter (fun c => negb (c =? 0x2D)) s.

(** apps/cli/src/clap_macros.rs:21-33: the arms [stringify!($v) | _ if ..] in order;
    the guard belongs to both alternatives and the second one always matches. *)
Fixpoint arg_enum {A} (variants : list (string * A)) (s : str) : option A :=
  match variants with
  | [] => None
  | (v, a) :: variants' => if eq_ignore_ascii_case (without_hyphens s) (ident v) then Some a else arg_enum variants' s
  end.

(** [value_t!] with [unwrap_or_else] (unic-echo.rs:139-146, 159-163): without the
    option the default; a value that is no format ends the program. *)
Definition format_arg {A} (variants : list (string * A)) (default : A) (arg : option str) : option A :=
  match arg with None => Some default | Some s => arg_enum variants s end.

(** [[&str]::join(" ")] (Rust alloc) *)
Fixpoint join_space (l : list str) : str :=
  match l with [] => [] | [s] => s | s :: l' => s ++ [0x20] ++ join_space l' end.

(** How a run ends: with a usage message, with a panic, or with what was written. *)
Inductive ending := Usage | Panicked | Written (s : str).

Section echo.
Variable word : N -> bool.     (* [\w] of the regex crate *)
Variable keep_last : bool.     (* see [regex_split] *)
Variable literal : N -> bool.  (* see [escape_debug] *)

(** unic-echo.rs:148-153 *)
Definition read_input (f : InputFormat) (input : str) : outcome str :=
  match f with
  | I_Plain => Ret input
  | I_Codepoint | I_Codepoints => codepoints word keep_last input
  | I_Utf8Hex => utf8_hex word keep_last input
  | I_Utf16Hex => utf16_hex word keep_last input
  end.

(** unic-echo.rs:165-190 *)
Definition write_output (f : OutputFormat) (s : str) : str :=
  match f with
  | O_Plain => s
  | O_Codepoint | O_Codepoints => write_as_codepoints s
  | O_Utf8Hex => write_as_utf8_hex s
  | O_Utf16Hex => write_as_utf16_hex s
  | O_BracesEscape | O_Js6Escape | O_RustEscape => write_with_control_n_unicode_braces_escape s
  | O_BracesEscapeAll | O_Js6EscapeAll | O_RustEscapeAll => write_with_all_braces_escape s
  | O_BracesEscapeControl | O_Js6EscapeControl | O_RustEscapeControl => write_with_control_braces_escape literal s
  end.

(** unic-echo.rs:132-198; the output format is looked at after the input was read. *)
Definition echo (strings : list str) (input_format output_format : option str) (no_newline : bool) : ending :=
  match format_arg input_variants I_Plain input_format with
  | None => Usage
  | Some i =>
      match read_input i (join_space strings) with
      | Panic => Panicked
      | Ret s =>
          match format_arg output_variants O_Plain output_format with
          | None => Usage
          | Some o => Written (write_output o s ++ (if no_newline then [] else [10]))
          end
      end
  end.
End echo.

(** * unic-inspector *)

(** apps/cli/src/bin/unic-inspector.rs:59-66; [abbrs[0]] *)
Definition display_name (chr : N) : outcome str :=
  match Name_of chr with
  | Some n => name_fmt n
  | None =>
      match name_aliases_of chr NA_NameAbbreviations with
      | Some (abbr :: _) => Ret abbr
      | Some [] => Panic
      | None => Ret (ident "<none>")
      end
  end.

(** unic-inspector.rs:68-73: the cells of a row.  Their layout (by the [prettytable]
    crate) is not modelled. *)
Record row := { r_char : str; r_code : str; r_name : str; r_category : str }.
(** unic-inspector.rs:58-74 *)
Fixpoint inspect_rows (chars : str) : outcome (list row) :=
  match chars with
  | [] => Ret []
  | chr :: chars' =>
      obind (display_name chr) (fun n =>
      obind (inspect_rows chars') (fun rows =>
      Ret ({| r_char := [chr]; r_code := [0x55; 0x2B] ++ fmt_upper_hex_w 4 chr; r_name := n;
              r_category := GC_long (general_category chr) |} :: rows)))
  end.
(** unic-inspector.rs:36-41, 58-77 *)
Definition inspect (strings : list str) := inspect_rows (join_space strings).

(** How the Rust source text of a generated file is read: the part of the
    language that such files use. *)
From Coq Require Import String List NArith Bool.
From Verif Require Import Base CliSpec RangeModel TableModel.
Import ListNotations.
Open Scope list_scope.
Open Scope N_scope.

(** * Tokens (The Rust Reference, "Lexical structure") *)
Inductive token :=
| TWord (w : str)      (* an identifier, or a number in decimal *)
| TChar (c : N)        (* a character literal *)
| TText (t : str)      (* a string literal *)
| TMark (c : N).       (* a punctuation character *)

Definition digit_char (c : N) : Prop := 0x30 <= c <= 0x39.
Definition word_char (c : N) : Prop := digit_char c \/ 0x41 <= c <= 0x5A \/ 0x61 <= c <= 0x7A \/ c = 0x5F.
Definition rust_word (w : str) : Prop := w <> [] /\ Forall word_char w.
(** The characters ! & ( ) , . : ; = [ ] { } *)
Definition marks : list N := [0x21; 0x26; 0x28; 0x29; 0x2C; 0x2E; 0x3A; 0x3B; 0x3D; 0x5B; 0x5D; 0x7B; 0x7D].

(** An escape of one to six hexadecimal digits for a character. *)
Definition escape (e : str) (c : N) : Prop :=
  exists h, e = [0x5C; 0x75; 0x7B] ++ h ++ [0x7D] /\ hex_number h c /\ (List.length h <= 6)%nat /\ scalar c.
Definition char_literal (b : str) (c : N) : Prop :=
  (b = [c] /\ c <> 0x27 /\ c <> 0x5C /\ c <> 9 /\ c <> 10 /\ c <> 13) \/ escape b c.
Inductive text_literal : str -> str -> Prop :=
| text_end : text_literal [] []
| text_plain c b t : c <> 0x22 -> c <> 0x5C -> c <> 13 -> text_literal b t -> text_literal (c :: b) (c :: t)
| text_escape e c b t : escape e c -> text_literal b t -> text_literal (e ++ b) (c :: t).

(** [lexes s ts]: the text [s] is the tokens [ts]. *)
Inductive lexes : str -> list token -> Prop :=
| lex_end : lexes [] []
| lex_blank c s ts : c = 0x20 \/ c = 10 -> lexes s ts -> lexes (c :: s) ts
| lex_comment l s ts : ~ In 10 l -> lexes s ts -> lexes ([0x2F; 0x2F] ++ l ++ [10] ++ s) ts
| lex_word w s ts : rust_word w -> (forall c r, s = c :: r -> ~ word_char c) -> lexes s ts -> lexes (w ++ s) (TWord w :: ts)
| lex_char b c s ts : char_literal b c -> lexes s ts -> lexes ([0x27] ++ b ++ [0x27] ++ s) (TChar c :: ts)
| lex_text b t s ts : text_literal b t -> lexes s ts -> lexes ([0x22] ++ b ++ [0x22] ++ s) (TText t :: ts)
| lex_mark c s ts : In c marks -> lexes s ts -> lexes (c :: s) (TMark c :: ts).

(** * Expressions *)
Inductive expr :=
| Number (n : N)
| Character (c : N)
| Text (t : str)
| Name (path : list str)                                 (* [A::B] *)
| Call (path : list str) (args : list expr)              (* [A::B(x, y)] *)
| Struct (path : list str) (fields : list (str * expr))  (* [A { b: x }] *)
| Tuple (l : list expr)                                  (* [(x, y)] *)
| Slice (l : list expr)                                  (* [&[x, y]] *)
| Chars (low high : N).                                  (* [chars!('a'..='b')] *)

(** A number in decimal *)
Inductive decimal_of : str -> N -> Prop :=
| decimal_one d : digit_char d -> decimal_of [d] (d - 0x30)
| decimal_more s n d : decimal_of s n -> digit_char d -> decimal_of (s ++ [d]) (n * 10 + (d - 0x30)).

(** The words kept by the language ("Keywords"), and the underscore *)
Definition kept : list string :=
  ["as"; "break"; "const"; "continue"; "crate"; "else"; "enum"; "extern"; "false"; "fn"; "for"; "if"; "impl"; "in";
   "let"; "loop"; "match"; "mod"; "move"; "mut"; "pub"; "ref"; "return"; "self"; "Self"; "static"; "struct"; "super";
   "trait"; "true"; "type"; "unsafe"; "use"; "where"; "while"; "async"; "await"; "dyn"; "abstract"; "become"; "box";
   "do"; "final"; "macro"; "override"; "priv"; "typeof"; "unsized"; "virtual"; "yield"; "try"; "_"]%string.

Definition mark (s : string) : token :=
  TMark (match s with String c _ => Ascii.N_of_ascii c | EmptyString => 0 end).
Fixpoint chars_of (s : string) : str :=
  match s with EmptyString => [] | String c s' => Ascii.N_of_ascii c :: chars_of s' end.
Definition word (s : string) : token := TWord (chars_of s).
Definition rust_name (w : str) : Prop :=
  rust_word w /\ (forall c r, w = c :: r -> ~ digit_char c) /\ ~ In w (map chars_of kept).

(** [path_at ts p r]: [ts] is the path [p] and then [r]. *)
Inductive path_at : list token -> list str -> list token -> Prop :=
| path_one w r : rust_name w -> (forall r', r <> mark ":" :: mark ":" :: r') -> path_at (TWord w :: r) [w] r
| path_more w ts p r : rust_name w -> path_at ts p r -> path_at (TWord w :: mark ":" :: mark ":" :: ts) (w :: p) r.

(** What turns a path into something else when it follows. *)
Definition applied (r : list token) : Prop :=
  exists r', r = mark "(" :: r' \/ r = mark "{" :: r' \/ r = mark "!" :: r'.

(** [expr_at ts e r]: [ts] is the expression [e] and then [r].  Lists of
    expressions and of fields may end in a comma. *)
Inductive expr_at : list token -> expr -> list token -> Prop :=
| at_number w n r : decimal_of w n -> expr_at (TWord w :: r) (Number n) r
| at_char c r : expr_at (TChar c :: r) (Character c) r
| at_text t r : expr_at (TText t :: r) (Text t) r
| at_name ts p r : path_at ts p r -> ~ applied r -> expr_at ts (Name p) r
| at_call ts p ts' l r : path_at ts p (mark "(" :: ts') -> list_at (mark ")") ts' l r -> expr_at ts (Call p l) r
| at_struct ts p ts' l r : path_at ts p (mark "{" :: ts') -> fields_at ts' l r -> expr_at ts (Struct p l) r
| at_chars low high r :
    expr_at (word "chars" :: mark "!" :: mark "(" :: TChar low :: mark "." :: mark "." :: mark "=" :: TChar high :: mark ")" :: r)
      (Chars low high) r
| at_tuple ts l r : list_at (mark ")") ts l r -> List.length l <> 1%nat -> expr_at (mark "(" :: ts) (Tuple l) r
| at_slice ts l r : list_at (mark "]") ts l r -> expr_at (mark "&" :: mark "[" :: ts) (Slice l) r
with list_at : token -> list token -> list expr -> list token -> Prop :=
| list_end close r : list_at close (close :: r) [] r
| list_last close ts e r : expr_at ts e (close :: r) -> list_at close ts [e] r
| list_more close ts e ts' l r : expr_at ts e (mark "," :: ts') -> list_at close ts' l r -> list_at close ts (e :: l) r
with fields_at : list token -> list (str * expr) -> list token -> Prop :=
| fields_end r : fields_at (mark "}" :: r) [] r
| fields_last w ts e r : rust_name w -> expr_at ts e (mark "}" :: r) -> fields_at (TWord w :: mark ":" :: ts) [(w, e)] r
| fields_more w ts e ts' l r : rust_name w -> expr_at ts e (mark "," :: ts') -> fields_at ts' l r ->
    fields_at (TWord w :: mark ":" :: ts) ((w, e) :: l) r.

(** [source s e]: the text [s] is the expression [e]. *)
Definition source (s : str) (e : expr) : Prop := exists ts, lexes s ts /\ expr_at ts e [].

(** Declarations [const NAME: &str = "text";] *)
Inductive consts_at : list token -> list (str * str) -> Prop :=
| consts_end : consts_at [] []
| consts_more w t ts l : rust_name w -> consts_at ts l ->
    consts_at (word "const" :: TWord w :: mark ":" :: mark "&" :: word "str" :: mark "=" :: TText t :: mark ";" :: ts) ((w, t) :: l).
Definition source_consts (s : str) (l : list (str * str)) : Prop := exists ts, lexes s ts /\ consts_at ts l.

(** * Tables as expressions *)
Definition path (s : list string) : list str := map chars_of s.

(** The expression that builds a table, [value] building the values in it. *)
Definition table_of {V} (value : V -> expr) (t : CharDataTable V) : expr :=
  match t with
  | Direct l => Call (path ["CharDataTable"; "Direct"]%string)
      [Slice (map (fun x => Tuple [Character (fst x); value (snd x)]) l)]
  | Range l => Call (path ["CharDataTable"; "Range"]%string)
      [Slice (map (fun x => Tuple [Chars (r_low (fst x)) (r_high (fst x)); value (snd x)]) l)]
  end.
(** The characters and the values of a table. *)
Definition table_chars {V} (t : CharDataTable V) : list N :=
  match t with
  | Direct l => map fst l
  | Range l => flat_map (fun x => [r_low (fst x); r_high (fst x)]) l
  end.
Definition table_values {V} (t : CharDataTable V) : list V :=
  match t with Direct l => map snd l | Range l => map snd l end.
Definition chars_expr (l : str) : expr := Slice (map Character l).
Definition texts_expr (l : list str) : expr := Slice (map Text l).
Definition names_expr (l : list str) : expr := Slice (map (fun w => Name [w]) l).
Definition version_expr (v : N * N * N) : expr :=
  let '(major, minor, micro) := v in
  Struct (path ["UnicodeVersion"]%string)
    [(chars_of "major", Number major); (chars_of "minor", Number minor); (chars_of "micro", Number micro)].
(** An ASCII word with the first letter in upper_of case, the others in lower_of case *)
Definition upper_of (c : N) : N := if (0x61 <=? c) && (c <=? 0x7A) then c - 0x20 else c.
Definition lower_of (c : N) : N := if (0x41 <=? c) && (c <=? 0x5A) then c + 0x20 else c.
Definition titled (s : str) : str := match s with [] => [] | c :: r => upper_of c :: map lower_of r end.
(** What a character of a text literal may be without an escape. *)
Definition unescaped (t : str) : Prop := Forall (fun c => c <> 0x22 /\ c <> 0x5C /\ c <> 13) t.

(** The tests as expressions *)
Definition grapheme_test_expr (t : str * list str * option (list str)) : expr :=
  let '(s, extended, legacy) := t in
  Tuple [Text s; texts_expr extended;
         match legacy with Some l => Call (path ["Some"]%string) [texts_expr l] | None => Name (path ["None"]%string) end].
Definition word_test_expr (t : str * list str) : expr := Tuple [Text (fst t); texts_expr (snd t)].
Definition normal_test_expr (t : str * str * str * str * str) : expr :=
  let '(a, b, c, d, e) := t in Tuple [Text a; Text b; Text c; Text d; Text e].

(** [gives e c x]: the table built by [e] has the value built by [x] for the
    character [c]. *)
Definition gives (e : expr) (c : N) (x : expr) : Prop :=
  exists es,
    (e = Call (path ["CharDataTable"; "Direct"]%string) [Slice es] /\ In (Tuple [Character c; x]) es) \/
    (e = Call (path ["CharDataTable"; "Range"]%string) [Slice es] /\
     exists low high, In (Tuple [Chars low high; x]) es /\ low <= c <= high).

(** [says s m]: the text [s] is exactly one expression, a table that has the
    value of [x] for [c] exactly if [m c x]. *)
Definition says (s : str) (m : N -> expr -> Prop) : Prop :=
  exists e, (forall e', source s e' <-> e' = e) /\ forall c, scalar c -> forall x, gives e c x <-> m c x.

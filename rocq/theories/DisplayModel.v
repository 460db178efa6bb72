(** Model of the [Display] implementations of the value types.

    Not modelled: the width, fill and alignment that a format string can ask
    for ([{:>20}]); the texts below are those of [to_string] and [{}]. *)
From Coq Require Import String List NArith Bool.
From Verif Require Import Base Enums TableTypes RangeModel TextModel NameParseModel PrintModel BidiModel.
Import ListNotations.
Open Scope list_scope.
Open Scope N_scope.

(** unic/char/property/src/macros.rs:286-292 (enumerated: 150-152): the human
    name of the value; the names are at macros.rs:171-175 and in [Enums] *)
Definition GC_display := GC_human.
Definition BC_display := BC_human.
Definition GCB_display := GCB_human.
Definition WB_display := WB_human.
Definition SB_display := SB_human.
Definition DT_display := DT_human.

(** unic/char/property/src/range_types.rs:51-58, 60-67, 69-76: the names of the
    values of a binary property *)
Definition binary_abbr (b : bool) : str := lit (if b then "Y" else "N").
Definition binary_long (b : bool) : str := lit (if b then "Yes" else "No").
Definition binary_human (b : bool) : str := lit (if b then "Yes" else "No").
(** unic/char/property/src/macros.rs:249-251, 286-292 *)
Definition binary_display := binary_human.

(** unic/ucd/normal/src/canonical_combining_class.rs:120-124; the class is its
    number, a [u8] *)
Definition class_display (ccc : N) : str := fmt_dec ccc.

(** unic/common/src/version.rs:36-40 *)
Definition version_display (v : UnicodeVersion) : str :=
  fmt_dec (major v) ++ lit "." ++ fmt_dec (minor v) ++ lit "." ++ fmt_dec (micro v).

(** unic/bidi/src/level.rs:204-208 *)
Definition level_display (l : N) : str := fmt_dec l.

(** unic/bidi/src/level.rs:235-240 [PartialEq<&str> for Level] *)
Definition level_eq_str (l : N) (s : str) : bool := str_eqb s (lit "x") || str_eqb s (fmt_dec l).

(** unic/bidi/src/level.rs:199-201 [Level::vec], 226-232 [From<u8>]: [None] is
    the panic of [expect("Level number error")] *)
Fixpoint level_vec (v : list N) : option (list N) :=
  match v with
  | [] => Some []
  | x :: v' => match level_new x, level_vec v' with Some l, Some r => Some (l :: r) | _, _ => None end
  end.

(** [Iterator::max] (Rust core); of equal elements the last, which is the same
    number *)
Definition iter_max (l : list N) : option N :=
  match l with [] => None | x :: l' => Some (fold_left (fun m y => if y <? m then m else y) l' x) end.

(** unic/bidi/src/bidi_info.rs:402-411 *)
Definition bidi_info_display (b : bidi_info) : str :=
  fmt_dec (N.of_nat (List.length (b_paras b))) ++
  lit " paragraphs with a maximum bidirectional level of " ++
  level_display (match iter_max (b_levels b) with Some m => m | None => LTR_LEVEL end).

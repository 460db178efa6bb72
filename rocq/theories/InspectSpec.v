(** What a row of [unic-inspector] is to say about its character. *)
From Coq Require Import String List NArith.
From Verif Require Import Base CliSpec EchoSpec NameModel NameListModel Enums TableTypes UcdModel EchoModel.
Import ListNotations.
Open Scope list_scope.
Open Scope N_scope.

(** The name column: the name; else the first abbreviation; else a mark. *)
Inductive shown_name (c : N) : str -> Prop :=
| shown_listed n s : Name_of c = Some n -> name_fmt n = Ret s -> shown_name c s
| shown_abbreviation s more : Name_of c = None ->
    name_aliases_of c NA_NameAbbreviations = Some (s :: more) -> shown_name c s
| shown_none : Name_of c = None -> name_aliases_of c NA_NameAbbreviations = None -> shown_name c (ident "<none>").

Record row_of (c : N) (r : row) : Prop := {
  row_char : r_char r = [c];
  row_code : code_shown c (r_code r);
  row_name : shown_name c (r_name r);
  row_category : r_category r = GC_long (general_category c)
}.

(** Value types of the data tables that are not [char_property!] enums. *)
From Coq Require Import List NArith.
From Verif Require Import Base.
Open Scope N_scope.

(** unic/idna/mapping/src/mapping.rs:14-38 [enum Mapping]; [&'static str] is a
    list of characters. *)
Inductive Mapping : Type :=
| IM_Valid
| IM_Ignored
| IM_Mapped (s : str)
| IM_Deviation (s : str)
| IM_Disallowed
| IM_DisallowedStd3Valid
| IM_DisallowedStd3Mapped (s : str).

(** unic/common/src/version.rs:24-34 [struct UnicodeVersion]; the fields are u8. *)
Record UnicodeVersion : Type := mkVersion { major : N; minor : N; micro : N }.

(** unic/ucd/name_aliases/src/name_aliases.rs:12-31 [enum NameAliasType] *)
Inductive NameAliasType : Type :=
| NA_NameCorrections
| NA_ControlCodeNames
| NA_AlternateNames
| NA_Figments
| NA_NameAbbreviations.

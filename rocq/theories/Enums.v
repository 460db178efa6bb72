(** GENERATED by tools/gen_tables.py from the char_property! declarations of /repo.
    Do not edit. *)
From Coq Require Import List NArith.
From Verif Require Import Base.
Import ListNotations.
Open Scope N_scope.

(** unic/ucd/category/src/category.rs:20-234 [enum GeneralCategory] *)
Inductive GeneralCategory : Type :=
| GC_UppercaseLetter
| GC_LowercaseLetter
| GC_TitlecaseLetter
| GC_ModifierLetter
| GC_OtherLetter
| GC_NonspacingMark
| GC_SpacingMark
| GC_EnclosingMark
| GC_DecimalNumber
| GC_LetterNumber
| GC_OtherNumber
| GC_ConnectorPunctuation
| GC_DashPunctuation
| GC_OpenPunctuation
| GC_ClosePunctuation
| GC_InitialPunctuation
| GC_FinalPunctuation
| GC_OtherPunctuation
| GC_MathSymbol
| GC_CurrencySymbol
| GC_ModifierSymbol
| GC_OtherSymbol
| GC_SpaceSeparator
| GC_LineSeparator
| GC_ParagraphSeparator
| GC_Control
| GC_Format
| GC_Surrogate
| GC_PrivateUse
| GC_Unassigned.

(** position in the declaration (model helper, used for equality tests) *)
Definition GC_index (x : GeneralCategory) : N :=
  match x with
  | GC_UppercaseLetter => 0
  | GC_LowercaseLetter => 1
  | GC_TitlecaseLetter => 2
  | GC_ModifierLetter => 3
  | GC_OtherLetter => 4
  | GC_NonspacingMark => 5
  | GC_SpacingMark => 6
  | GC_EnclosingMark => 7
  | GC_DecimalNumber => 8
  | GC_LetterNumber => 9
  | GC_OtherNumber => 10
  | GC_ConnectorPunctuation => 11
  | GC_DashPunctuation => 12
  | GC_OpenPunctuation => 13
  | GC_ClosePunctuation => 14
  | GC_InitialPunctuation => 15
  | GC_FinalPunctuation => 16
  | GC_OtherPunctuation => 17
  | GC_MathSymbol => 18
  | GC_CurrencySymbol => 19
  | GC_ModifierSymbol => 20
  | GC_OtherSymbol => 21
  | GC_SpaceSeparator => 22
  | GC_LineSeparator => 23
  | GC_ParagraphSeparator => 24
  | GC_Control => 25
  | GC_Format => 26
  | GC_Surrogate => 27
  | GC_PrivateUse => 28
  | GC_Unassigned => 29
  end.
Definition GC_eqb (x y : GeneralCategory) : bool := GC_index x =? GC_index y.

(** unic/ucd/category/src/category.rs:20-234 via unic/char/property/src/macros.rs:155-160 [all_values] *)
Definition GC_all : list GeneralCategory :=
  [GC_UppercaseLetter; GC_LowercaseLetter; GC_TitlecaseLetter; GC_ModifierLetter; GC_OtherLetter; GC_NonspacingMark; GC_SpacingMark; GC_EnclosingMark; GC_DecimalNumber; GC_LetterNumber; GC_OtherNumber; GC_ConnectorPunctuation; GC_DashPunctuation; GC_OpenPunctuation; GC_ClosePunctuation; GC_InitialPunctuation; GC_FinalPunctuation; GC_OtherPunctuation; GC_MathSymbol; GC_CurrencySymbol; GC_ModifierSymbol; GC_OtherSymbol; GC_SpaceSeparator; GC_LineSeparator; GC_ParagraphSeparator; GC_Control; GC_Format; GC_Surrogate; GC_PrivateUse; GC_Unassigned].

(** unic/ucd/category/src/category.rs:20-234 via unic/char/property/src/macros.rs:161-165 [abbr_name] *)
Definition GC_abbr (x : GeneralCategory) : str :=
  match x with
  | GC_UppercaseLetter => [0x4c; 0x75] (* Lu *)
  | GC_LowercaseLetter => [0x4c; 0x6c] (* Ll *)
  | GC_TitlecaseLetter => [0x4c; 0x74] (* Lt *)
  | GC_ModifierLetter => [0x4c; 0x6d] (* Lm *)
  | GC_OtherLetter => [0x4c; 0x6f] (* Lo *)
  | GC_NonspacingMark => [0x4d; 0x6e] (* Mn *)
  | GC_SpacingMark => [0x4d; 0x63] (* Mc *)
  | GC_EnclosingMark => [0x4d; 0x65] (* Me *)
  | GC_DecimalNumber => [0x4e; 0x64] (* Nd *)
  | GC_LetterNumber => [0x4e; 0x6c] (* Nl *)
  | GC_OtherNumber => [0x4e; 0x6f] (* No *)
  | GC_ConnectorPunctuation => [0x50; 0x63] (* Pc *)
  | GC_DashPunctuation => [0x50; 0x64] (* Pd *)
  | GC_OpenPunctuation => [0x50; 0x73] (* Ps *)
  | GC_ClosePunctuation => [0x50; 0x65] (* Pe *)
  | GC_InitialPunctuation => [0x50; 0x69] (* Pi *)
  | GC_FinalPunctuation => [0x50; 0x66] (* Pf *)
  | GC_OtherPunctuation => [0x50; 0x6f] (* Po *)
  | GC_MathSymbol => [0x53; 0x6d] (* Sm *)
  | GC_CurrencySymbol => [0x53; 0x63] (* Sc *)
  | GC_ModifierSymbol => [0x53; 0x6b] (* Sk *)
  | GC_OtherSymbol => [0x53; 0x6f] (* So *)
  | GC_SpaceSeparator => [0x5a; 0x73] (* Zs *)
  | GC_LineSeparator => [0x5a; 0x6c] (* Zl *)
  | GC_ParagraphSeparator => [0x5a; 0x70] (* Zp *)
  | GC_Control => [0x43; 0x63] (* Cc *)
  | GC_Format => [0x43; 0x66] (* Cf *)
  | GC_Surrogate => [0x43; 0x73] (* Cs *)
  | GC_PrivateUse => [0x43; 0x6f] (* Co *)
  | GC_Unassigned => [0x43; 0x6e] (* Cn *)
  end.

(** unic/ucd/category/src/category.rs:20-234 via unic/char/property/src/macros.rs:166-170 [long_name] *)
Definition GC_long (x : GeneralCategory) : str :=
  match x with
  | GC_UppercaseLetter => [0x55; 0x70; 0x70; 0x65; 0x72; 0x63; 0x61; 0x73; 0x65; 0x5f; 0x4c; 0x65; 0x74; 0x74; 0x65; 0x72] (* Uppercase_Letter *)
  | GC_LowercaseLetter => [0x4c; 0x6f; 0x77; 0x65; 0x72; 0x63; 0x61; 0x73; 0x65; 0x5f; 0x4c; 0x65; 0x74; 0x74; 0x65; 0x72] (* Lowercase_Letter *)
  | GC_TitlecaseLetter => [0x54; 0x69; 0x74; 0x6c; 0x65; 0x63; 0x61; 0x73; 0x65; 0x5f; 0x4c; 0x65; 0x74; 0x74; 0x65; 0x72] (* Titlecase_Letter *)
  | GC_ModifierLetter => [0x4d; 0x6f; 0x64; 0x69; 0x66; 0x69; 0x65; 0x72; 0x5f; 0x4c; 0x65; 0x74; 0x74; 0x65; 0x72] (* Modifier_Letter *)
  | GC_OtherLetter => [0x4f; 0x74; 0x68; 0x65; 0x72; 0x5f; 0x4c; 0x65; 0x74; 0x74; 0x65; 0x72] (* Other_Letter *)
  | GC_NonspacingMark => [0x4e; 0x6f; 0x6e; 0x73; 0x70; 0x61; 0x63; 0x69; 0x6e; 0x67; 0x5f; 0x4d; 0x61; 0x72; 0x6b] (* Nonspacing_Mark *)
  | GC_SpacingMark => [0x53; 0x70; 0x61; 0x63; 0x69; 0x6e; 0x67; 0x5f; 0x4d; 0x61; 0x72; 0x6b] (* Spacing_Mark *)
  | GC_EnclosingMark => [0x45; 0x6e; 0x63; 0x6c; 0x6f; 0x73; 0x69; 0x6e; 0x67; 0x5f; 0x4d; 0x61; 0x72; 0x6b] (* Enclosing_Mark *)
  | GC_DecimalNumber => [0x44; 0x65; 0x63; 0x69; 0x6d; 0x61; 0x6c; 0x5f; 0x4e; 0x75; 0x6d; 0x62; 0x65; 0x72] (* Decimal_Number *)
  | GC_LetterNumber => [0x4c; 0x65; 0x74; 0x74; 0x65; 0x72; 0x5f; 0x4e; 0x75; 0x6d; 0x62; 0x65; 0x72] (* Letter_Number *)
  | GC_OtherNumber => [0x4f; 0x74; 0x68; 0x65; 0x72; 0x5f; 0x4e; 0x75; 0x6d; 0x62; 0x65; 0x72] (* Other_Number *)
  | GC_ConnectorPunctuation => [0x43; 0x6f; 0x6e; 0x6e; 0x65; 0x63; 0x74; 0x6f; 0x72; 0x5f; 0x50; 0x75; 0x6e; 0x63; 0x74; 0x75; 0x61; 0x74; 0x69; 0x6f; 0x6e] (* Connector_Punctuation *)
  | GC_DashPunctuation => [0x44; 0x61; 0x73; 0x68; 0x5f; 0x50; 0x75; 0x6e; 0x63; 0x74; 0x75; 0x61; 0x74; 0x69; 0x6f; 0x6e] (* Dash_Punctuation *)
  | GC_OpenPunctuation => [0x4f; 0x70; 0x65; 0x6e; 0x5f; 0x50; 0x75; 0x6e; 0x63; 0x74; 0x75; 0x61; 0x74; 0x69; 0x6f; 0x6e] (* Open_Punctuation *)
  | GC_ClosePunctuation => [0x43; 0x6c; 0x6f; 0x73; 0x65; 0x5f; 0x50; 0x75; 0x6e; 0x63; 0x74; 0x75; 0x61; 0x74; 0x69; 0x6f; 0x6e] (* Close_Punctuation *)
  | GC_InitialPunctuation => [0x49; 0x6e; 0x69; 0x74; 0x69; 0x61; 0x6c; 0x5f; 0x50; 0x75; 0x6e; 0x63; 0x74; 0x75; 0x61; 0x74; 0x69; 0x6f; 0x6e] (* Initial_Punctuation *)
  | GC_FinalPunctuation => [0x46; 0x69; 0x6e; 0x61; 0x6c; 0x5f; 0x50; 0x75; 0x6e; 0x63; 0x74; 0x75; 0x61; 0x74; 0x69; 0x6f; 0x6e] (* Final_Punctuation *)
  | GC_OtherPunctuation => [0x4f; 0x74; 0x68; 0x65; 0x72; 0x5f; 0x50; 0x75; 0x6e; 0x63; 0x74; 0x75; 0x61; 0x74; 0x69; 0x6f; 0x6e] (* Other_Punctuation *)
  | GC_MathSymbol => [0x4d; 0x61; 0x74; 0x68; 0x5f; 0x53; 0x79; 0x6d; 0x62; 0x6f; 0x6c] (* Math_Symbol *)
  | GC_CurrencySymbol => [0x43; 0x75; 0x72; 0x72; 0x65; 0x6e; 0x63; 0x79; 0x5f; 0x53; 0x79; 0x6d; 0x62; 0x6f; 0x6c] (* Currency_Symbol *)
  | GC_ModifierSymbol => [0x4d; 0x6f; 0x64; 0x69; 0x66; 0x69; 0x65; 0x72; 0x5f; 0x53; 0x79; 0x6d; 0x62; 0x6f; 0x6c] (* Modifier_Symbol *)
  | GC_OtherSymbol => [0x4f; 0x74; 0x68; 0x65; 0x72; 0x5f; 0x53; 0x79; 0x6d; 0x62; 0x6f; 0x6c] (* Other_Symbol *)
  | GC_SpaceSeparator => [0x53; 0x70; 0x61; 0x63; 0x65; 0x5f; 0x53; 0x65; 0x70; 0x61; 0x72; 0x61; 0x74; 0x6f; 0x72] (* Space_Separator *)
  | GC_LineSeparator => [0x4c; 0x69; 0x6e; 0x65; 0x5f; 0x53; 0x65; 0x70; 0x61; 0x72; 0x61; 0x74; 0x6f; 0x72] (* Line_Separator *)
  | GC_ParagraphSeparator => [0x50; 0x61; 0x72; 0x61; 0x67; 0x72; 0x61; 0x70; 0x68; 0x5f; 0x53; 0x65; 0x70; 0x61; 0x72; 0x61; 0x74; 0x6f; 0x72] (* Paragraph_Separator *)
  | GC_Control => [0x43; 0x6f; 0x6e; 0x74; 0x72; 0x6f; 0x6c] (* Control *)
  | GC_Format => [0x46; 0x6f; 0x72; 0x6d; 0x61; 0x74] (* Format *)
  | GC_Surrogate => [0x53; 0x75; 0x72; 0x72; 0x6f; 0x67; 0x61; 0x74; 0x65] (* Surrogate *)
  | GC_PrivateUse => [0x50; 0x72; 0x69; 0x76; 0x61; 0x74; 0x65; 0x5f; 0x55; 0x73; 0x65] (* Private_Use *)
  | GC_Unassigned => [0x55; 0x6e; 0x61; 0x73; 0x73; 0x69; 0x67; 0x6e; 0x65; 0x64] (* Unassigned *)
  end.

(** unic/ucd/category/src/category.rs:20-234 via unic/char/property/src/macros.rs:171-175 [human_name] *)
Definition GC_human (x : GeneralCategory) : str :=
  match x with
  | GC_UppercaseLetter => [0x55; 0x70; 0x70; 0x65; 0x72; 0x63; 0x61; 0x73; 0x65; 0x20; 0x4c; 0x65; 0x74; 0x74; 0x65; 0x72] (* Uppercase Letter *)
  | GC_LowercaseLetter => [0x4c; 0x6f; 0x77; 0x65; 0x72; 0x63; 0x61; 0x73; 0x65; 0x20; 0x4c; 0x65; 0x74; 0x74; 0x65; 0x72] (* Lowercase Letter *)
  | GC_TitlecaseLetter => [0x54; 0x69; 0x74; 0x6c; 0x65; 0x63; 0x61; 0x73; 0x65; 0x20; 0x4c; 0x65; 0x74; 0x74; 0x65; 0x72] (* Titlecase Letter *)
  | GC_ModifierLetter => [0x4d; 0x6f; 0x64; 0x69; 0x66; 0x69; 0x65; 0x72; 0x20; 0x4c; 0x65; 0x74; 0x74; 0x65; 0x72] (* Modifier Letter *)
  | GC_OtherLetter => [0x4f; 0x74; 0x68; 0x65; 0x72; 0x20; 0x4c; 0x65; 0x74; 0x74; 0x65; 0x72] (* Other Letter *)
  | GC_NonspacingMark => [0x4e; 0x6f; 0x6e; 0x73; 0x70; 0x61; 0x63; 0x69; 0x6e; 0x67; 0x20; 0x4d; 0x61; 0x72; 0x6b] (* Nonspacing Mark *)
  | GC_SpacingMark => [0x53; 0x70; 0x61; 0x63; 0x69; 0x6e; 0x67; 0x20; 0x4d; 0x61; 0x72; 0x6b] (* Spacing Mark *)
  | GC_EnclosingMark => [0x45; 0x6e; 0x63; 0x6c; 0x6f; 0x73; 0x69; 0x6e; 0x67; 0x20; 0x4d; 0x61; 0x72; 0x6b] (* Enclosing Mark *)
  | GC_DecimalNumber => [0x44; 0x65; 0x63; 0x69; 0x6d; 0x61; 0x6c; 0x20; 0x44; 0x69; 0x67; 0x69; 0x74] (* Decimal Digit *)
  | GC_LetterNumber => [0x4c; 0x65; 0x74; 0x74; 0x65; 0x72; 0x6c; 0x69; 0x6b; 0x65; 0x20; 0x4e; 0x75; 0x6d; 0x62; 0x65; 0x72] (* Letterlike Number *)
  | GC_OtherNumber => [0x4f; 0x74; 0x68; 0x65; 0x72; 0x20; 0x4e; 0x75; 0x6d; 0x65; 0x72; 0x69; 0x63] (* Other Numeric *)
  | GC_ConnectorPunctuation => [0x43; 0x6f; 0x6e; 0x6e; 0x65; 0x63; 0x74; 0x69; 0x6e; 0x67; 0x20; 0x50; 0x75; 0x6e; 0x63; 0x74; 0x75; 0x61; 0x74; 0x69; 0x6f; 0x6e] (* Connecting Punctuation *)
  | GC_DashPunctuation => [0x44; 0x61; 0x73; 0x68; 0x20; 0x50; 0x75; 0x6e; 0x63; 0x74; 0x75; 0x61; 0x74; 0x69; 0x6f; 0x6e] (* Dash Punctuation *)
  | GC_OpenPunctuation => [0x4f; 0x70; 0x65; 0x6e; 0x69; 0x6e; 0x67; 0x20; 0x50; 0x75; 0x6e; 0x63; 0x74; 0x75; 0x61; 0x74; 0x69; 0x6f; 0x6e] (* Opening Punctuation *)
  | GC_ClosePunctuation => [0x43; 0x6c; 0x6f; 0x73; 0x69; 0x6e; 0x67; 0x20; 0x50; 0x75; 0x6e; 0x63; 0x74; 0x75; 0x61; 0x74; 0x69; 0x6f; 0x6e] (* Closing Punctuation *)
  | GC_InitialPunctuation => [0x49; 0x6e; 0x69; 0x74; 0x69; 0x61; 0x6c; 0x20; 0x51; 0x75; 0x6f; 0x74; 0x61; 0x74; 0x69; 0x6f; 0x6e] (* Initial Quotation *)
  | GC_FinalPunctuation => [0x46; 0x69; 0x6e; 0x61; 0x6c; 0x20; 0x51; 0x75; 0x6f; 0x74; 0x61; 0x74; 0x69; 0x6f; 0x6e] (* Final Quotation *)
  | GC_OtherPunctuation => [0x4f; 0x74; 0x68; 0x65; 0x72; 0x20; 0x50; 0x75; 0x6e; 0x63; 0x74; 0x75; 0x61; 0x74; 0x69; 0x6f; 0x6e] (* Other Punctuation *)
  | GC_MathSymbol => [0x4d; 0x61; 0x74; 0x68; 0x20; 0x53; 0x79; 0x6d; 0x62; 0x6f; 0x6c] (* Math Symbol *)
  | GC_CurrencySymbol => [0x43; 0x75; 0x72; 0x72; 0x65; 0x6e; 0x63; 0x79; 0x20; 0x53; 0x79; 0x6d; 0x62; 0x6f; 0x6c] (* Currency Symbol *)
  | GC_ModifierSymbol => [0x4d; 0x6f; 0x64; 0x69; 0x66; 0x69; 0x65; 0x72; 0x20; 0x53; 0x79; 0x6d; 0x62; 0x6f; 0x6c] (* Modifier Symbol *)
  | GC_OtherSymbol => [0x4f; 0x74; 0x68; 0x65; 0x72; 0x20; 0x53; 0x79; 0x6d; 0x62; 0x6f; 0x6c] (* Other Symbol *)
  | GC_SpaceSeparator => [0x53; 0x70; 0x61; 0x63; 0x65] (* Space *)
  | GC_LineSeparator => [0x4c; 0x69; 0x6e; 0x65; 0x20; 0x53; 0x65; 0x70; 0x61; 0x72; 0x61; 0x74; 0x6f; 0x72] (* Line Separator *)
  | GC_ParagraphSeparator => [0x50; 0x61; 0x72; 0x61; 0x67; 0x72; 0x61; 0x70; 0x68; 0x20; 0x53; 0x65; 0x70; 0x61; 0x72; 0x61; 0x74; 0x6f; 0x72] (* Paragraph Separator *)
  | GC_Control => [0x43; 0x6f; 0x6e; 0x74; 0x72; 0x6f; 0x6c] (* Control *)
  | GC_Format => [0x46; 0x6f; 0x72; 0x6d; 0x61; 0x74; 0x74; 0x69; 0x6e; 0x67] (* Formatting *)
  | GC_Surrogate => [0x53; 0x75; 0x72; 0x72; 0x6f; 0x67; 0x61; 0x74; 0x65] (* Surrogate *)
  | GC_PrivateUse => [0x50; 0x72; 0x69; 0x76; 0x61; 0x74; 0x65; 0x2d; 0x55; 0x73; 0x65] (* Private-Use *)
  | GC_Unassigned => [0x55; 0x6e; 0x61; 0x73; 0x73; 0x69; 0x67; 0x6e; 0x65; 0x64] (* Unassigned *)
  end.

(** unic/ucd/bidi/src/bidi_class.rs:23-188 [enum BidiClass] *)
Inductive BidiClass : Type :=
| BC_ArabicLetter
| BC_ArabicNumber
| BC_ParagraphSeparator
| BC_BoundaryNeutral
| BC_CommonSeparator
| BC_EuropeanNumber
| BC_EuropeanSeparator
| BC_EuropeanTerminator
| BC_FirstStrongIsolate
| BC_LeftToRight
| BC_LeftToRightEmbedding
| BC_LeftToRightIsolate
| BC_LeftToRightOverride
| BC_NonspacingMark
| BC_OtherNeutral
| BC_PopDirectionalFormat
| BC_PopDirectionalIsolate
| BC_RightToLeft
| BC_RightToLeftEmbedding
| BC_RightToLeftIsolate
| BC_RightToLeftOverride
| BC_SegmentSeparator
| BC_WhiteSpace.

(** position in the declaration (model helper, used for equality tests) *)
Definition BC_index (x : BidiClass) : N :=
  match x with
  | BC_ArabicLetter => 0
  | BC_ArabicNumber => 1
  | BC_ParagraphSeparator => 2
  | BC_BoundaryNeutral => 3
  | BC_CommonSeparator => 4
  | BC_EuropeanNumber => 5
  | BC_EuropeanSeparator => 6
  | BC_EuropeanTerminator => 7
  | BC_FirstStrongIsolate => 8
  | BC_LeftToRight => 9
  | BC_LeftToRightEmbedding => 10
  | BC_LeftToRightIsolate => 11
  | BC_LeftToRightOverride => 12
  | BC_NonspacingMark => 13
  | BC_OtherNeutral => 14
  | BC_PopDirectionalFormat => 15
  | BC_PopDirectionalIsolate => 16
  | BC_RightToLeft => 17
  | BC_RightToLeftEmbedding => 18
  | BC_RightToLeftIsolate => 19
  | BC_RightToLeftOverride => 20
  | BC_SegmentSeparator => 21
  | BC_WhiteSpace => 22
  end.
Definition BC_eqb (x y : BidiClass) : bool := BC_index x =? BC_index y.

(** unic/ucd/bidi/src/bidi_class.rs:23-188 via unic/char/property/src/macros.rs:155-160 [all_values] *)
Definition BC_all : list BidiClass :=
  [BC_ArabicLetter; BC_ArabicNumber; BC_ParagraphSeparator; BC_BoundaryNeutral; BC_CommonSeparator; BC_EuropeanNumber; BC_EuropeanSeparator; BC_EuropeanTerminator; BC_FirstStrongIsolate; BC_LeftToRight; BC_LeftToRightEmbedding; BC_LeftToRightIsolate; BC_LeftToRightOverride; BC_NonspacingMark; BC_OtherNeutral; BC_PopDirectionalFormat; BC_PopDirectionalIsolate; BC_RightToLeft; BC_RightToLeftEmbedding; BC_RightToLeftIsolate; BC_RightToLeftOverride; BC_SegmentSeparator; BC_WhiteSpace].

(** unic/ucd/bidi/src/bidi_class.rs:23-188 via unic/char/property/src/macros.rs:161-165 [abbr_name] *)
Definition BC_abbr (x : BidiClass) : str :=
  match x with
  | BC_ArabicLetter => [0x41; 0x4c] (* AL *)
  | BC_ArabicNumber => [0x41; 0x4e] (* AN *)
  | BC_ParagraphSeparator => [0x42] (* B *)
  | BC_BoundaryNeutral => [0x42; 0x4e] (* BN *)
  | BC_CommonSeparator => [0x43; 0x53] (* CS *)
  | BC_EuropeanNumber => [0x45; 0x4e] (* EN *)
  | BC_EuropeanSeparator => [0x45; 0x53] (* ES *)
  | BC_EuropeanTerminator => [0x45; 0x54] (* ET *)
  | BC_FirstStrongIsolate => [0x46; 0x53; 0x49] (* FSI *)
  | BC_LeftToRight => [0x4c] (* L *)
  | BC_LeftToRightEmbedding => [0x4c; 0x52; 0x45] (* LRE *)
  | BC_LeftToRightIsolate => [0x4c; 0x52; 0x49] (* LRI *)
  | BC_LeftToRightOverride => [0x4c; 0x52; 0x4f] (* LRO *)
  | BC_NonspacingMark => [0x4e; 0x53; 0x4d] (* NSM *)
  | BC_OtherNeutral => [0x4f; 0x4e] (* ON *)
  | BC_PopDirectionalFormat => [0x50; 0x44; 0x46] (* PDF *)
  | BC_PopDirectionalIsolate => [0x50; 0x44; 0x49] (* PDI *)
  | BC_RightToLeft => [0x52] (* R *)
  | BC_RightToLeftEmbedding => [0x52; 0x4c; 0x45] (* RLE *)
  | BC_RightToLeftIsolate => [0x52; 0x4c; 0x49] (* RLI *)
  | BC_RightToLeftOverride => [0x52; 0x4c; 0x4f] (* RLO *)
  | BC_SegmentSeparator => [0x53] (* S *)
  | BC_WhiteSpace => [0x57; 0x53] (* WS *)
  end.

(** unic/ucd/bidi/src/bidi_class.rs:23-188 via unic/char/property/src/macros.rs:166-170 [long_name] *)
Definition BC_long (x : BidiClass) : str :=
  match x with
  | BC_ArabicLetter => [0x41; 0x72; 0x61; 0x62; 0x69; 0x63; 0x5f; 0x4c; 0x65; 0x74; 0x74; 0x65; 0x72] (* Arabic_Letter *)
  | BC_ArabicNumber => [0x41; 0x72; 0x61; 0x62; 0x69; 0x63; 0x5f; 0x4e; 0x75; 0x6d; 0x62; 0x65; 0x72] (* Arabic_Number *)
  | BC_ParagraphSeparator => [0x50; 0x61; 0x72; 0x61; 0x67; 0x72; 0x61; 0x70; 0x68; 0x5f; 0x53; 0x65; 0x70; 0x61; 0x72; 0x61; 0x74; 0x6f; 0x72] (* Paragraph_Separator *)
  | BC_BoundaryNeutral => [0x42; 0x6f; 0x75; 0x6e; 0x64; 0x61; 0x72; 0x79; 0x5f; 0x4e; 0x65; 0x75; 0x74; 0x72; 0x61; 0x6c] (* Boundary_Neutral *)
  | BC_CommonSeparator => [0x43; 0x6f; 0x6d; 0x6d; 0x6f; 0x6e; 0x5f; 0x53; 0x65; 0x70; 0x61; 0x72; 0x61; 0x74; 0x6f; 0x72] (* Common_Separator *)
  | BC_EuropeanNumber => [0x45; 0x75; 0x72; 0x6f; 0x70; 0x65; 0x61; 0x6e; 0x5f; 0x4e; 0x75; 0x6d; 0x62; 0x65; 0x72] (* European_Number *)
  | BC_EuropeanSeparator => [0x45; 0x75; 0x72; 0x6f; 0x70; 0x65; 0x61; 0x6e; 0x5f; 0x53; 0x65; 0x70; 0x61; 0x72; 0x61; 0x74; 0x6f; 0x72] (* European_Separator *)
  | BC_EuropeanTerminator => [0x45; 0x75; 0x72; 0x6f; 0x70; 0x65; 0x61; 0x6e; 0x5f; 0x54; 0x65; 0x72; 0x6d; 0x69; 0x6e; 0x61; 0x74; 0x6f; 0x72] (* European_Terminator *)
  | BC_FirstStrongIsolate => [0x46; 0x69; 0x72; 0x73; 0x74; 0x5f; 0x53; 0x74; 0x72; 0x6f; 0x6e; 0x67; 0x5f; 0x49; 0x73; 0x6f; 0x6c; 0x61; 0x74; 0x65] (* First_Strong_Isolate *)
  | BC_LeftToRight => [0x4c; 0x65; 0x66; 0x74; 0x5f; 0x54; 0x6f; 0x5f; 0x52; 0x69; 0x67; 0x68; 0x74] (* Left_To_Right *)
  | BC_LeftToRightEmbedding => [0x4c; 0x65; 0x66; 0x74; 0x5f; 0x54; 0x6f; 0x5f; 0x52; 0x69; 0x67; 0x68; 0x74; 0x5f; 0x45; 0x6d; 0x62; 0x65; 0x64; 0x64; 0x69; 0x6e; 0x67] (* Left_To_Right_Embedding *)
  | BC_LeftToRightIsolate => [0x4c; 0x65; 0x66; 0x74; 0x5f; 0x54; 0x6f; 0x5f; 0x52; 0x69; 0x67; 0x68; 0x74; 0x5f; 0x49; 0x73; 0x6f; 0x6c; 0x61; 0x74; 0x65] (* Left_To_Right_Isolate *)
  | BC_LeftToRightOverride => [0x4c; 0x65; 0x66; 0x74; 0x5f; 0x54; 0x6f; 0x5f; 0x52; 0x69; 0x67; 0x68; 0x74; 0x5f; 0x4f; 0x76; 0x65; 0x72; 0x72; 0x69; 0x64; 0x65] (* Left_To_Right_Override *)
  | BC_NonspacingMark => [0x4e; 0x6f; 0x6e; 0x73; 0x70; 0x61; 0x63; 0x69; 0x6e; 0x67; 0x5f; 0x4d; 0x61; 0x72; 0x6b] (* Nonspacing_Mark *)
  | BC_OtherNeutral => [0x4f; 0x74; 0x68; 0x65; 0x72; 0x5f; 0x4e; 0x65; 0x75; 0x74; 0x72; 0x61; 0x6c] (* Other_Neutral *)
  | BC_PopDirectionalFormat => [0x50; 0x6f; 0x70; 0x5f; 0x44; 0x69; 0x72; 0x65; 0x63; 0x74; 0x69; 0x6f; 0x6e; 0x61; 0x6c; 0x5f; 0x46; 0x6f; 0x72; 0x6d; 0x61; 0x74] (* Pop_Directional_Format *)
  | BC_PopDirectionalIsolate => [0x50; 0x6f; 0x70; 0x5f; 0x44; 0x69; 0x72; 0x65; 0x63; 0x74; 0x69; 0x6f; 0x6e; 0x61; 0x6c; 0x5f; 0x49; 0x73; 0x6f; 0x6c; 0x61; 0x74; 0x65] (* Pop_Directional_Isolate *)
  | BC_RightToLeft => [0x52; 0x69; 0x67; 0x68; 0x74; 0x5f; 0x54; 0x6f; 0x5f; 0x4c; 0x65; 0x66; 0x74] (* Right_To_Left *)
  | BC_RightToLeftEmbedding => [0x52; 0x69; 0x67; 0x68; 0x74; 0x5f; 0x54; 0x6f; 0x5f; 0x4c; 0x65; 0x66; 0x74; 0x5f; 0x45; 0x6d; 0x62; 0x65; 0x64; 0x64; 0x69; 0x6e; 0x67] (* Right_To_Left_Embedding *)
  | BC_RightToLeftIsolate => [0x52; 0x69; 0x67; 0x68; 0x74; 0x5f; 0x54; 0x6f; 0x5f; 0x4c; 0x65; 0x66; 0x74; 0x5f; 0x49; 0x73; 0x6f; 0x6c; 0x61; 0x74; 0x65] (* Right_To_Left_Isolate *)
  | BC_RightToLeftOverride => [0x52; 0x69; 0x67; 0x68; 0x74; 0x5f; 0x54; 0x6f; 0x5f; 0x4c; 0x65; 0x66; 0x74; 0x5f; 0x4f; 0x76; 0x65; 0x72; 0x72; 0x69; 0x64; 0x65] (* Right_To_Left_Override *)
  | BC_SegmentSeparator => [0x53; 0x65; 0x67; 0x6d; 0x65; 0x6e; 0x74; 0x5f; 0x53; 0x65; 0x70; 0x61; 0x72; 0x61; 0x74; 0x6f; 0x72] (* Segment_Separator *)
  | BC_WhiteSpace => [0x57; 0x68; 0x69; 0x74; 0x65; 0x5f; 0x53; 0x70; 0x61; 0x63; 0x65] (* White_Space *)
  end.

(** unic/ucd/bidi/src/bidi_class.rs:23-188 via unic/char/property/src/macros.rs:171-175 [human_name] *)
Definition BC_human (x : BidiClass) : str :=
  match x with
  | BC_ArabicLetter => [0x52; 0x69; 0x67; 0x68; 0x74; 0x2d; 0x74; 0x6f; 0x2d; 0x4c; 0x65; 0x66; 0x74; 0x20; 0x41; 0x72; 0x61; 0x62; 0x69; 0x63] (* Right-to-Left Arabic *)
  | BC_ArabicNumber => [0x41; 0x72; 0x61; 0x62; 0x69; 0x63; 0x20; 0x4e; 0x75; 0x6d; 0x62; 0x65; 0x72] (* Arabic Number *)
  | BC_ParagraphSeparator => [0x50; 0x61; 0x72; 0x61; 0x67; 0x72; 0x61; 0x70; 0x68; 0x20; 0x53; 0x65; 0x70; 0x61; 0x72; 0x61; 0x74; 0x6f; 0x72] (* Paragraph Separator *)
  | BC_BoundaryNeutral => [0x4e; 0x65; 0x75; 0x74; 0x72; 0x61; 0x6c; 0x20; 0x42; 0x6f; 0x75; 0x6e; 0x64; 0x61; 0x72; 0x79] (* Neutral Boundary *)
  | BC_CommonSeparator => [0x43; 0x6f; 0x6d; 0x6d; 0x6f; 0x6e; 0x20; 0x4e; 0x75; 0x6d; 0x62; 0x65; 0x72; 0x20; 0x53; 0x65; 0x70; 0x61; 0x72; 0x61; 0x74; 0x6f; 0x72] (* Common Number Separator *)
  | BC_EuropeanNumber => [0x45; 0x75; 0x72; 0x6f; 0x70; 0x65; 0x61; 0x6e; 0x20; 0x4e; 0x75; 0x6d; 0x62; 0x65; 0x72] (* European Number *)
  | BC_EuropeanSeparator => [0x45; 0x75; 0x72; 0x6f; 0x70; 0x65; 0x61; 0x6e; 0x20; 0x4e; 0x75; 0x6d; 0x62; 0x65; 0x72; 0x20; 0x53; 0x65; 0x70; 0x61; 0x72; 0x61; 0x74; 0x6f; 0x72] (* European Number Separator *)
  | BC_EuropeanTerminator => [0x45; 0x75; 0x72; 0x6f; 0x70; 0x65; 0x61; 0x6e; 0x20; 0x4e; 0x75; 0x6d; 0x62; 0x65; 0x72; 0x20; 0x54; 0x65; 0x72; 0x6d; 0x69; 0x6e; 0x61; 0x74; 0x6f; 0x72] (* European Number Terminator *)
  | BC_FirstStrongIsolate => [0x46; 0x69; 0x72; 0x73; 0x74; 0x20; 0x53; 0x74; 0x72; 0x6f; 0x6e; 0x67; 0x20; 0x49; 0x73; 0x6f; 0x6c; 0x61; 0x74; 0x65] (* First Strong Isolate *)
  | BC_LeftToRight => [0x4c; 0x65; 0x66; 0x74; 0x2d; 0x74; 0x6f; 0x2d; 0x52; 0x69; 0x67; 0x68; 0x74] (* Left-to-Right *)
  | BC_LeftToRightEmbedding => [0x4c; 0x65; 0x66; 0x74; 0x2d; 0x74; 0x6f; 0x2d; 0x52; 0x69; 0x67; 0x68; 0x74; 0x20; 0x45; 0x6d; 0x62; 0x65; 0x64; 0x64; 0x69; 0x6e; 0x67] (* Left-to-Right Embedding *)
  | BC_LeftToRightIsolate => [0x4c; 0x65; 0x66; 0x74; 0x2d; 0x74; 0x6f; 0x2d; 0x52; 0x69; 0x67; 0x68; 0x74; 0x20; 0x49; 0x73; 0x6f; 0x6c; 0x61; 0x74; 0x65] (* Left-to-Right Isolate *)
  | BC_LeftToRightOverride => [0x4c; 0x65; 0x66; 0x74; 0x54; 0x6f; 0x52; 0x69; 0x67; 0x68; 0x74; 0x4f; 0x76; 0x65; 0x72; 0x72; 0x69; 0x64; 0x65] (* LeftToRightOverride *)
  | BC_NonspacingMark => [0x4e; 0x6f; 0x6e; 0x73; 0x70; 0x61; 0x63; 0x69; 0x6e; 0x67; 0x20; 0x4d; 0x61; 0x72; 0x6b] (* Nonspacing Mark *)
  | BC_OtherNeutral => [0x4f; 0x74; 0x68; 0x65; 0x72; 0x4e; 0x65; 0x75; 0x74; 0x72; 0x61; 0x6c] (* OtherNeutral *)
  | BC_PopDirectionalFormat => [0x50; 0x6f; 0x70; 0x20; 0x44; 0x69; 0x72; 0x65; 0x63; 0x74; 0x69; 0x6f; 0x6e; 0x61; 0x6c; 0x20; 0x46; 0x6f; 0x72; 0x6d; 0x61; 0x74] (* Pop Directional Format *)
  | BC_PopDirectionalIsolate => [0x50; 0x6f; 0x70; 0x44; 0x69; 0x72; 0x65; 0x63; 0x74; 0x69; 0x6f; 0x6e; 0x61; 0x6c; 0x49; 0x73; 0x6f; 0x6c; 0x61; 0x74; 0x65] (* PopDirectionalIsolate *)
  | BC_RightToLeft => [0x52; 0x69; 0x67; 0x68; 0x74; 0x2d; 0x74; 0x6f; 0x2d; 0x4c; 0x65; 0x66; 0x74] (* Right-to-Left *)
  | BC_RightToLeftEmbedding => [0x52; 0x69; 0x67; 0x68; 0x74; 0x2d; 0x74; 0x6f; 0x2d; 0x4c; 0x65; 0x66; 0x74; 0x20; 0x45; 0x6d; 0x62; 0x65; 0x64; 0x64; 0x69; 0x6e; 0x67] (* Right-to-Left Embedding *)
  | BC_RightToLeftIsolate => [0x52; 0x69; 0x67; 0x68; 0x74; 0x2d; 0x74; 0x6f; 0x2d; 0x4c; 0x65; 0x66; 0x74; 0x20; 0x49; 0x73; 0x6f; 0x6c; 0x61; 0x74; 0x65] (* Right-to-Left Isolate *)
  | BC_RightToLeftOverride => [0x52; 0x69; 0x67; 0x68; 0x74; 0x2d; 0x74; 0x6f; 0x2d; 0x4c; 0x65; 0x66; 0x74; 0x20; 0x4f; 0x76; 0x65; 0x72; 0x72; 0x69; 0x64; 0x65] (* Right-to-Left Override *)
  | BC_SegmentSeparator => [0x53; 0x65; 0x67; 0x6d; 0x65; 0x6e; 0x74; 0x20; 0x53; 0x65; 0x70; 0x61; 0x72; 0x61; 0x74; 0x6f; 0x72] (* Segment Separator *)
  | BC_WhiteSpace => [0x57; 0x68; 0x69; 0x74; 0x65; 0x73; 0x70; 0x61; 0x63; 0x65] (* Whitespace *)
  end.

(** unic/ucd/segment/src/grapheme_cluster_break.rs:31-302 [enum GraphemeClusterBreak] *)
Inductive GraphemeClusterBreak : Type :=
| GCB_CR
| GCB_LF
| GCB_Control
| GCB_Extend
| GCB_ZWJ
| GCB_RegionalIndicator
| GCB_Prepend
| GCB_SpacingMark
| GCB_L
| GCB_V
| GCB_T
| GCB_LV
| GCB_LVT
| GCB_EBase
| GCB_EModifier
| GCB_GlueAfterZwj
| GCB_EBaseGAZ
| GCB_Other.

(** position in the declaration (model helper, used for equality tests) *)
Definition GCB_index (x : GraphemeClusterBreak) : N :=
  match x with
  | GCB_CR => 0
  | GCB_LF => 1
  | GCB_Control => 2
  | GCB_Extend => 3
  | GCB_ZWJ => 4
  | GCB_RegionalIndicator => 5
  | GCB_Prepend => 6
  | GCB_SpacingMark => 7
  | GCB_L => 8
  | GCB_V => 9
  | GCB_T => 10
  | GCB_LV => 11
  | GCB_LVT => 12
  | GCB_EBase => 13
  | GCB_EModifier => 14
  | GCB_GlueAfterZwj => 15
  | GCB_EBaseGAZ => 16
  | GCB_Other => 17
  end.
Definition GCB_eqb (x y : GraphemeClusterBreak) : bool := GCB_index x =? GCB_index y.

(** unic/ucd/segment/src/grapheme_cluster_break.rs:31-302 via unic/char/property/src/macros.rs:155-160 [all_values] *)
Definition GCB_all : list GraphemeClusterBreak :=
  [GCB_CR; GCB_LF; GCB_Control; GCB_Extend; GCB_ZWJ; GCB_RegionalIndicator; GCB_Prepend; GCB_SpacingMark; GCB_L; GCB_V; GCB_T; GCB_LV; GCB_LVT; GCB_EBase; GCB_EModifier; GCB_GlueAfterZwj; GCB_EBaseGAZ; GCB_Other].

(** unic/ucd/segment/src/grapheme_cluster_break.rs:31-302 via unic/char/property/src/macros.rs:161-165 [abbr_name] *)
Definition GCB_abbr (x : GraphemeClusterBreak) : str :=
  match x with
  | GCB_CR => [0x43; 0x52] (* CR *)
  | GCB_LF => [0x4c; 0x46] (* LF *)
  | GCB_Control => [0x43; 0x4e] (* CN *)
  | GCB_Extend => [0x45; 0x58] (* EX *)
  | GCB_ZWJ => [0x5a; 0x57; 0x4a] (* ZWJ *)
  | GCB_RegionalIndicator => [0x52; 0x49] (* RI *)
  | GCB_Prepend => [0x50; 0x50] (* PP *)
  | GCB_SpacingMark => [0x53; 0x4d] (* SM *)
  | GCB_L => [0x4c] (* L *)
  | GCB_V => [0x56] (* V *)
  | GCB_T => [0x54] (* T *)
  | GCB_LV => [0x4c; 0x56] (* LV *)
  | GCB_LVT => [0x4c; 0x56; 0x54] (* LVT *)
  | GCB_EBase => [0x45; 0x42] (* EB *)
  | GCB_EModifier => [0x45; 0x4d] (* EM *)
  | GCB_GlueAfterZwj => [0x47; 0x41; 0x5a] (* GAZ *)
  | GCB_EBaseGAZ => [0x45; 0x42; 0x47] (* EBG *)
  | GCB_Other => [0x58; 0x58] (* XX *)
  end.

(** unic/ucd/segment/src/grapheme_cluster_break.rs:31-302 via unic/char/property/src/macros.rs:166-170 [long_name] *)
Definition GCB_long (x : GraphemeClusterBreak) : str :=
  match x with
  | GCB_CR => [0x43; 0x52] (* CR *)
  | GCB_LF => [0x4c; 0x46] (* LF *)
  | GCB_Control => [0x43; 0x6f; 0x6e; 0x74; 0x72; 0x6f; 0x6c] (* Control *)
  | GCB_Extend => [0x45; 0x78; 0x74; 0x65; 0x6e; 0x64] (* Extend *)
  | GCB_ZWJ => [0x5a; 0x57; 0x4a] (* ZWJ *)
  | GCB_RegionalIndicator => [0x52; 0x65; 0x67; 0x69; 0x6f; 0x6e; 0x61; 0x6c; 0x5f; 0x49; 0x6e; 0x64; 0x69; 0x63; 0x61; 0x74; 0x6f; 0x72] (* Regional_Indicator *)
  | GCB_Prepend => [0x50; 0x72; 0x65; 0x70; 0x65; 0x6e; 0x64] (* Prepend *)
  | GCB_SpacingMark => [0x53; 0x70; 0x61; 0x63; 0x69; 0x6e; 0x67; 0x4d; 0x61; 0x72; 0x6b] (* SpacingMark *)
  | GCB_L => [0x4c] (* L *)
  | GCB_V => [0x56] (* V *)
  | GCB_T => [0x54] (* T *)
  | GCB_LV => [0x4c; 0x56] (* LV *)
  | GCB_LVT => [0x4c; 0x56; 0x54] (* LVT *)
  | GCB_EBase => [0x45; 0x5f; 0x42; 0x61; 0x73; 0x65] (* E_Base *)
  | GCB_EModifier => [0x45; 0x5f; 0x4d; 0x6f; 0x64; 0x69; 0x66; 0x69; 0x65; 0x72] (* E_Modifier *)
  | GCB_GlueAfterZwj => [0x47; 0x6c; 0x75; 0x65; 0x5f; 0x41; 0x66; 0x74; 0x65; 0x72; 0x5f; 0x5a; 0x77; 0x6a] (* Glue_After_Zwj *)
  | GCB_EBaseGAZ => [0x45; 0x5f; 0x42; 0x61; 0x73; 0x65; 0x5f; 0x47; 0x41; 0x5a] (* E_Base_GAZ *)
  | GCB_Other => [0x4f; 0x74; 0x68; 0x65; 0x72] (* Other *)
  end.

(** unic/ucd/segment/src/grapheme_cluster_break.rs:31-302 via unic/char/property/src/macros.rs:171-175 [human_name] *)
Definition GCB_human (x : GraphemeClusterBreak) : str :=
  match x with
  | GCB_CR => [0x43; 0x61; 0x72; 0x72; 0x69; 0x61; 0x67; 0x65; 0x20; 0x52; 0x65; 0x74; 0x75; 0x72; 0x6e] (* Carriage Return *)
  | GCB_LF => [0x4c; 0x69; 0x6e; 0x65; 0x20; 0x46; 0x65; 0x65; 0x64] (* Line Feed *)
  | GCB_Control => [0x43; 0x6f; 0x6e; 0x74; 0x72; 0x6f; 0x6c] (* Control *)
  | GCB_Extend => [0x45; 0x78; 0x74; 0x65; 0x6e; 0x64] (* Extend *)
  | GCB_ZWJ => [0x5a; 0x65; 0x72; 0x6f; 0x20; 0x57; 0x69; 0x64; 0x74; 0x68; 0x20; 0x4a; 0x6f; 0x69; 0x6e; 0x65; 0x72; 0x20; 0x28; 0x5a; 0x57; 0x4a; 0x29] (* Zero Width Joiner (ZWJ) *)
  | GCB_RegionalIndicator => [0x52; 0x65; 0x67; 0x69; 0x6f; 0x6e; 0x61; 0x6c; 0x20; 0x49; 0x6e; 0x64; 0x69; 0x63; 0x61; 0x74; 0x6f; 0x72] (* Regional Indicator *)
  | GCB_Prepend => [0x50; 0x72; 0x65; 0x70; 0x65; 0x6e; 0x64] (* Prepend *)
  | GCB_SpacingMark => [0x53; 0x70; 0x61; 0x63; 0x69; 0x6e; 0x67; 0x20; 0x4d; 0x61; 0x72; 0x6b] (* Spacing Mark *)
  | GCB_L => [0x48; 0x61; 0x6e; 0x67; 0x75; 0x6c; 0x20; 0x53; 0x79; 0x6c; 0x6c; 0x61; 0x62; 0x6c; 0x65; 0x20; 0x54; 0x79; 0x70; 0x65; 0x20; 0x4c] (* Hangul Syllable Type L *)
  | GCB_V => [0x48; 0x61; 0x6e; 0x67; 0x75; 0x6c; 0x20; 0x53; 0x79; 0x6c; 0x6c; 0x61; 0x62; 0x6c; 0x65; 0x20; 0x54; 0x79; 0x70; 0x65; 0x20; 0x56] (* Hangul Syllable Type V *)
  | GCB_T => [0x48; 0x61; 0x6e; 0x67; 0x75; 0x6c; 0x20; 0x53; 0x79; 0x6c; 0x6c; 0x61; 0x62; 0x6c; 0x65; 0x20; 0x54; 0x79; 0x70; 0x65; 0x20; 0x54] (* Hangul Syllable Type T *)
  | GCB_LV => [0x48; 0x61; 0x6e; 0x67; 0x75; 0x6c; 0x20; 0x53; 0x79; 0x6c; 0x6c; 0x61; 0x62; 0x6c; 0x65; 0x20; 0x54; 0x79; 0x70; 0x65; 0x20; 0x4c; 0x56] (* Hangul Syllable Type LV *)
  | GCB_LVT => [0x48; 0x61; 0x6e; 0x67; 0x75; 0x6c; 0x20; 0x53; 0x79; 0x6c; 0x6c; 0x61; 0x62; 0x6c; 0x65; 0x20; 0x54; 0x79; 0x70; 0x65; 0x20; 0x4c; 0x56; 0x54] (* Hangul Syllable Type LVT *)
  | GCB_EBase => [0x45; 0x6d; 0x6f; 0x6a; 0x69; 0x20; 0x42; 0x61; 0x73; 0x65] (* Emoji Base *)
  | GCB_EModifier => [0x45; 0x6d; 0x6f; 0x6a; 0x69; 0x20; 0x4d; 0x6f; 0x64; 0x69; 0x66; 0x69; 0x65; 0x72] (* Emoji Modifier *)
  | GCB_GlueAfterZwj => [0x47; 0x6c; 0x75; 0x65; 0x20; 0x41; 0x66; 0x74; 0x65; 0x72; 0x20; 0x5a; 0x57; 0x4a] (* Glue After ZWJ *)
  | GCB_EBaseGAZ => [0x45; 0x6d; 0x6f; 0x6a; 0x69; 0x20; 0x42; 0x61; 0x73; 0x65; 0x20; 0x61; 0x6e; 0x64; 0x20; 0x47; 0x6c; 0x75; 0x65; 0x20; 0x41; 0x66; 0x74; 0x65; 0x72; 0x20; 0x5a; 0x57; 0x4a] (* Emoji Base and Glue After ZWJ *)
  | GCB_Other => [0x4f; 0x74; 0x68; 0x65; 0x72] (* Other *)
  end.

(** unic/ucd/segment/src/word_break.rs:31-310 [enum WordBreak] *)
Inductive WordBreak : Type :=
| WB_CR
| WB_LF
| WB_Newline
| WB_Extend
| WB_ZWJ
| WB_RegionalIndicator
| WB_Format
| WB_Katakana
| WB_HebrewLetter
| WB_ALetter
| WB_SingleQuote
| WB_DoubleQuote
| WB_MidNumLet
| WB_MidLetter
| WB_MidNum
| WB_Numeric
| WB_ExtendNumLet
| WB_EBase
| WB_EModifier
| WB_GlueAfterZwj
| WB_EBaseGAZ
| WB_Other.

(** position in the declaration (model helper, used for equality tests) *)
Definition WB_index (x : WordBreak) : N :=
  match x with
  | WB_CR => 0
  | WB_LF => 1
  | WB_Newline => 2
  | WB_Extend => 3
  | WB_ZWJ => 4
  | WB_RegionalIndicator => 5
  | WB_Format => 6
  | WB_Katakana => 7
  | WB_HebrewLetter => 8
  | WB_ALetter => 9
  | WB_SingleQuote => 10
  | WB_DoubleQuote => 11
  | WB_MidNumLet => 12
  | WB_MidLetter => 13
  | WB_MidNum => 14
  | WB_Numeric => 15
  | WB_ExtendNumLet => 16
  | WB_EBase => 17
  | WB_EModifier => 18
  | WB_GlueAfterZwj => 19
  | WB_EBaseGAZ => 20
  | WB_Other => 21
  end.
Definition WB_eqb (x y : WordBreak) : bool := WB_index x =? WB_index y.

(** unic/ucd/segment/src/word_break.rs:31-310 via unic/char/property/src/macros.rs:155-160 [all_values] *)
Definition WB_all : list WordBreak :=
  [WB_CR; WB_LF; WB_Newline; WB_Extend; WB_ZWJ; WB_RegionalIndicator; WB_Format; WB_Katakana; WB_HebrewLetter; WB_ALetter; WB_SingleQuote; WB_DoubleQuote; WB_MidNumLet; WB_MidLetter; WB_MidNum; WB_Numeric; WB_ExtendNumLet; WB_EBase; WB_EModifier; WB_GlueAfterZwj; WB_EBaseGAZ; WB_Other].

(** unic/ucd/segment/src/word_break.rs:31-310 via unic/char/property/src/macros.rs:161-165 [abbr_name] *)
Definition WB_abbr (x : WordBreak) : str :=
  match x with
  | WB_CR => [0x43; 0x52] (* CR *)
  | WB_LF => [0x4c; 0x46] (* LF *)
  | WB_Newline => [0x4e; 0x4c] (* NL *)
  | WB_Extend => [0x45; 0x78; 0x74; 0x65; 0x6e; 0x64] (* Extend *)
  | WB_ZWJ => [0x5a; 0x57; 0x4a] (* ZWJ *)
  | WB_RegionalIndicator => [0x52; 0x49] (* RI *)
  | WB_Format => [0x46; 0x4f] (* FO *)
  | WB_Katakana => [0x4b; 0x41] (* KA *)
  | WB_HebrewLetter => [0x48; 0x4c] (* HL *)
  | WB_ALetter => [0x4c; 0x45] (* LE *)
  | WB_SingleQuote => [0x53; 0x51] (* SQ *)
  | WB_DoubleQuote => [0x44; 0x51] (* DQ *)
  | WB_MidNumLet => [0x4d; 0x42] (* MB *)
  | WB_MidLetter => [0x4d; 0x4c] (* ML *)
  | WB_MidNum => [0x4d; 0x4e] (* MN *)
  | WB_Numeric => [0x4e; 0x55] (* NU *)
  | WB_ExtendNumLet => [0x45; 0x58] (* EX *)
  | WB_EBase => [0x45; 0x42] (* EB *)
  | WB_EModifier => [0x45; 0x4d] (* EM *)
  | WB_GlueAfterZwj => [0x47; 0x41; 0x5a] (* GAZ *)
  | WB_EBaseGAZ => [0x45; 0x42; 0x47] (* EBG *)
  | WB_Other => [0x58; 0x58] (* XX *)
  end.

(** unic/ucd/segment/src/word_break.rs:31-310 via unic/char/property/src/macros.rs:166-170 [long_name] *)
Definition WB_long (x : WordBreak) : str :=
  match x with
  | WB_CR => [0x43; 0x52] (* CR *)
  | WB_LF => [0x4c; 0x46] (* LF *)
  | WB_Newline => [0x4e; 0x65; 0x77; 0x6c; 0x69; 0x6e; 0x65] (* Newline *)
  | WB_Extend => [0x45; 0x78; 0x74; 0x65; 0x6e; 0x64] (* Extend *)
  | WB_ZWJ => [0x5a; 0x57; 0x4a] (* ZWJ *)
  | WB_RegionalIndicator => [0x52; 0x65; 0x67; 0x69; 0x6f; 0x6e; 0x61; 0x6c; 0x5f; 0x49; 0x6e; 0x64; 0x69; 0x63; 0x61; 0x74; 0x6f; 0x72] (* Regional_Indicator *)
  | WB_Format => [0x46; 0x6f; 0x72; 0x6d; 0x61; 0x74] (* Format *)
  | WB_Katakana => [0x4b; 0x61; 0x74; 0x61; 0x6b; 0x61; 0x6e; 0x61] (* Katakana *)
  | WB_HebrewLetter => [0x48; 0x65; 0x62; 0x72; 0x65; 0x77; 0x5f; 0x4c; 0x65; 0x74; 0x74; 0x65; 0x72] (* Hebrew_Letter *)
  | WB_ALetter => [0x41; 0x4c; 0x65; 0x74; 0x74; 0x65; 0x72] (* ALetter *)
  | WB_SingleQuote => [0x53; 0x69; 0x6e; 0x67; 0x6c; 0x65; 0x5f; 0x51; 0x75; 0x6f; 0x74; 0x65] (* Single_Quote *)
  | WB_DoubleQuote => [0x44; 0x6f; 0x75; 0x62; 0x6c; 0x65; 0x5f; 0x51; 0x75; 0x6f; 0x74; 0x65] (* Double_Quote *)
  | WB_MidNumLet => [0x4d; 0x69; 0x64; 0x4e; 0x75; 0x6d; 0x4c; 0x65; 0x74] (* MidNumLet *)
  | WB_MidLetter => [0x4d; 0x69; 0x64; 0x4c; 0x65; 0x74; 0x74; 0x65; 0x72] (* MidLetter *)
  | WB_MidNum => [0x4d; 0x69; 0x64; 0x4e; 0x75; 0x6d] (* MidNum *)
  | WB_Numeric => [0x4e; 0x75; 0x6d; 0x65; 0x72; 0x69; 0x63] (* Numeric *)
  | WB_ExtendNumLet => [0x45; 0x78; 0x74; 0x65; 0x6e; 0x64; 0x4e; 0x75; 0x6d; 0x4c; 0x65; 0x74] (* ExtendNumLet *)
  | WB_EBase => [0x45; 0x5f; 0x42; 0x61; 0x73; 0x65] (* E_Base *)
  | WB_EModifier => [0x45; 0x5f; 0x4d; 0x6f; 0x64; 0x69; 0x66; 0x69; 0x65; 0x72] (* E_Modifier *)
  | WB_GlueAfterZwj => [0x47; 0x6c; 0x75; 0x65; 0x5f; 0x41; 0x66; 0x74; 0x65; 0x72; 0x5f; 0x5a; 0x77; 0x6a] (* Glue_After_Zwj *)
  | WB_EBaseGAZ => [0x45; 0x5f; 0x42; 0x61; 0x73; 0x65; 0x5f; 0x47; 0x41; 0x5a] (* E_Base_GAZ *)
  | WB_Other => [0x4f; 0x74; 0x68; 0x65; 0x72] (* Other *)
  end.

(** unic/ucd/segment/src/word_break.rs:31-310 via unic/char/property/src/macros.rs:171-175 [human_name] *)
Definition WB_human (x : WordBreak) : str :=
  match x with
  | WB_CR => [0x43; 0x61; 0x72; 0x72; 0x69; 0x61; 0x67; 0x65; 0x20; 0x52; 0x65; 0x74; 0x75; 0x72; 0x6e] (* Carriage Return *)
  | WB_LF => [0x4c; 0x69; 0x6e; 0x65; 0x20; 0x46; 0x65; 0x65; 0x64] (* Line Feed *)
  | WB_Newline => [0x4e; 0x65; 0x77; 0x6c; 0x69; 0x6e; 0x65] (* Newline *)
  | WB_Extend => [0x45; 0x78; 0x74; 0x65; 0x6e; 0x64] (* Extend *)
  | WB_ZWJ => [0x5a; 0x65; 0x72; 0x6f; 0x20; 0x57; 0x69; 0x64; 0x74; 0x68; 0x20; 0x4a; 0x6f; 0x69; 0x6e; 0x65; 0x72; 0x20; 0x28; 0x5a; 0x57; 0x4a; 0x29] (* Zero Width Joiner (ZWJ) *)
  | WB_RegionalIndicator => [0x52; 0x65; 0x67; 0x69; 0x6f; 0x6e; 0x61; 0x6c; 0x20; 0x49; 0x6e; 0x64; 0x69; 0x63; 0x61; 0x74; 0x6f; 0x72] (* Regional Indicator *)
  | WB_Format => [0x46; 0x6f; 0x72; 0x6d; 0x61; 0x74] (* Format *)
  | WB_Katakana => [0x4b; 0x61; 0x74; 0x61; 0x6b; 0x61; 0x6e; 0x61] (* Katakana *)
  | WB_HebrewLetter => [0x48; 0x65; 0x62; 0x72; 0x65; 0x77; 0x20; 0x4c; 0x65; 0x74; 0x74; 0x65; 0x72] (* Hebrew Letter *)
  | WB_ALetter => [0x41; 0x6c; 0x70; 0x68; 0x61; 0x62; 0x65; 0x74; 0x69; 0x63; 0x20; 0x4c; 0x65; 0x74; 0x74; 0x65; 0x72] (* Alphabetic Letter *)
  | WB_SingleQuote => [0x53; 0x69; 0x6e; 0x67; 0x6c; 0x65; 0x20; 0x51; 0x75; 0x6f; 0x74; 0x65] (* Single Quote *)
  | WB_DoubleQuote => [0x44; 0x6f; 0x75; 0x62; 0x6c; 0x65; 0x20; 0x51; 0x75; 0x6f; 0x74; 0x65] (* Double Quote *)
  | WB_MidNumLet => [0x4d; 0x69; 0x64; 0x64; 0x6c; 0x65; 0x20; 0x6f; 0x66; 0x20; 0x4e; 0x75; 0x6d; 0x65; 0x72; 0x69; 0x63; 0x2f; 0x4c; 0x65; 0x74; 0x74; 0x65; 0x72] (* Middle of Numeric/Letter *)
  | WB_MidLetter => [0x4d; 0x69; 0x64; 0x64; 0x6c; 0x65; 0x20; 0x6f; 0x66; 0x20; 0x4c; 0x65; 0x74; 0x74; 0x65; 0x72] (* Middle of Letter *)
  | WB_MidNum => [0x4d; 0x69; 0x64; 0x64; 0x6c; 0x65; 0x20; 0x6f; 0x66; 0x20; 0x4e; 0x75; 0x6d; 0x65; 0x72; 0x69; 0x63] (* Middle of Numeric *)
  | WB_Numeric => [0x4e; 0x75; 0x6d; 0x65; 0x72; 0x69; 0x63] (* Numeric *)
  | WB_ExtendNumLet => [0x45; 0x78; 0x74; 0x65; 0x6e; 0x64; 0x20; 0x4e; 0x75; 0x6d; 0x65; 0x72; 0x69; 0x63; 0x2f; 0x4c; 0x65; 0x74; 0x74; 0x65; 0x72] (* Extend Numeric/Letter *)
  | WB_EBase => [0x45; 0x6d; 0x6f; 0x6a; 0x69; 0x20; 0x42; 0x61; 0x73; 0x65] (* Emoji Base *)
  | WB_EModifier => [0x45; 0x6d; 0x6f; 0x6a; 0x69; 0x20; 0x4d; 0x6f; 0x64; 0x69; 0x66; 0x69; 0x65; 0x72] (* Emoji Modifier *)
  | WB_GlueAfterZwj => [0x47; 0x6c; 0x75; 0x65; 0x20; 0x41; 0x66; 0x74; 0x65; 0x72; 0x20; 0x5a; 0x57; 0x4a] (* Glue After ZWJ *)
  | WB_EBaseGAZ => [0x45; 0x6d; 0x6f; 0x6a; 0x69; 0x20; 0x42; 0x61; 0x73; 0x65; 0x20; 0x61; 0x6e; 0x64; 0x20; 0x47; 0x6c; 0x75; 0x65; 0x20; 0x41; 0x66; 0x74; 0x65; 0x72; 0x20; 0x5a; 0x57; 0x4a] (* Emoji Base and Glue After ZWJ *)
  | WB_Other => [0x4f; 0x74; 0x68; 0x65; 0x72] (* Other *)
  end.

(** unic/ucd/segment/src/sentence_break.rs:31-217 [enum SentenceBreak] *)
Inductive SentenceBreak : Type :=
| SB_CR
| SB_LF
| SB_Extend
| SB_Sep
| SB_Format
| SB_Sp
| SB_Lower
| SB_Upper
| SB_OLetter
| SB_Numeric
| SB_ATerm
| SB_SContinue
| SB_STerm
| SB_Close
| SB_Other.

(** position in the declaration (model helper, used for equality tests) *)
Definition SB_index (x : SentenceBreak) : N :=
  match x with
  | SB_CR => 0
  | SB_LF => 1
  | SB_Extend => 2
  | SB_Sep => 3
  | SB_Format => 4
  | SB_Sp => 5
  | SB_Lower => 6
  | SB_Upper => 7
  | SB_OLetter => 8
  | SB_Numeric => 9
  | SB_ATerm => 10
  | SB_SContinue => 11
  | SB_STerm => 12
  | SB_Close => 13
  | SB_Other => 14
  end.
Definition SB_eqb (x y : SentenceBreak) : bool := SB_index x =? SB_index y.

(** unic/ucd/segment/src/sentence_break.rs:31-217 via unic/char/property/src/macros.rs:155-160 [all_values] *)
Definition SB_all : list SentenceBreak :=
  [SB_CR; SB_LF; SB_Extend; SB_Sep; SB_Format; SB_Sp; SB_Lower; SB_Upper; SB_OLetter; SB_Numeric; SB_ATerm; SB_SContinue; SB_STerm; SB_Close; SB_Other].

(** unic/ucd/segment/src/sentence_break.rs:31-217 via unic/char/property/src/macros.rs:161-165 [abbr_name] *)
Definition SB_abbr (x : SentenceBreak) : str :=
  match x with
  | SB_CR => [0x43; 0x52] (* CR *)
  | SB_LF => [0x4c; 0x46] (* LF *)
  | SB_Extend => [0x45; 0x78; 0x74; 0x65; 0x6e; 0x64] (* Extend *)
  | SB_Sep => [0x53; 0x45] (* SE *)
  | SB_Format => [0x46; 0x4f] (* FO *)
  | SB_Sp => [0x53; 0x50] (* SP *)
  | SB_Lower => [0x4c; 0x4f] (* LO *)
  | SB_Upper => [0x55; 0x50] (* UP *)
  | SB_OLetter => [0x4c; 0x45] (* LE *)
  | SB_Numeric => [0x4e; 0x55] (* NU *)
  | SB_ATerm => [0x41; 0x54] (* AT *)
  | SB_SContinue => [0x53; 0x43] (* SC *)
  | SB_STerm => [0x53; 0x54] (* ST *)
  | SB_Close => [0x43; 0x4c] (* CL *)
  | SB_Other => [0x58; 0x58] (* XX *)
  end.

(** unic/ucd/segment/src/sentence_break.rs:31-217 via unic/char/property/src/macros.rs:166-170 [long_name] *)
Definition SB_long (x : SentenceBreak) : str :=
  match x with
  | SB_CR => [0x43; 0x52] (* CR *)
  | SB_LF => [0x4c; 0x46] (* LF *)
  | SB_Extend => [0x45; 0x78; 0x74; 0x65; 0x6e; 0x64] (* Extend *)
  | SB_Sep => [0x53; 0x65; 0x70] (* Sep *)
  | SB_Format => [0x46; 0x6f; 0x72; 0x6d; 0x61; 0x74] (* Format *)
  | SB_Sp => [0x53; 0x70] (* Sp *)
  | SB_Lower => [0x4c; 0x6f; 0x77; 0x65; 0x72] (* Lower *)
  | SB_Upper => [0x55; 0x70; 0x70; 0x65; 0x72] (* Upper *)
  | SB_OLetter => [0x4f; 0x4c; 0x65; 0x74; 0x74; 0x65; 0x72] (* OLetter *)
  | SB_Numeric => [0x4e; 0x75; 0x6d; 0x65; 0x72; 0x69; 0x63] (* Numeric *)
  | SB_ATerm => [0x41; 0x54; 0x65; 0x72; 0x6d] (* ATerm *)
  | SB_SContinue => [0x53; 0x43; 0x6f; 0x6e; 0x74; 0x69; 0x6e; 0x75; 0x65] (* SContinue *)
  | SB_STerm => [0x53; 0x54; 0x65; 0x72; 0x6d] (* STerm *)
  | SB_Close => [0x43; 0x6c; 0x6f; 0x73; 0x65] (* Close *)
  | SB_Other => [0x4f; 0x74; 0x68; 0x65; 0x72] (* Other *)
  end.

(** unic/ucd/segment/src/sentence_break.rs:31-217 via unic/char/property/src/macros.rs:171-175 [human_name] *)
Definition SB_human (x : SentenceBreak) : str :=
  match x with
  | SB_CR => [0x43; 0x61; 0x72; 0x72; 0x69; 0x61; 0x67; 0x65; 0x20; 0x52; 0x65; 0x74; 0x75; 0x72; 0x6e] (* Carriage Return *)
  | SB_LF => [0x4c; 0x69; 0x6e; 0x65; 0x20; 0x46; 0x65; 0x65; 0x64] (* Line Feed *)
  | SB_Extend => [0x45; 0x78; 0x74; 0x65; 0x6e; 0x64] (* Extend *)
  | SB_Sep => [0x53; 0x65; 0x70; 0x61; 0x72; 0x61; 0x74; 0x6f; 0x72] (* Separator *)
  | SB_Format => [0x46; 0x6f; 0x72; 0x6d; 0x61; 0x74] (* Format *)
  | SB_Sp => [0x53; 0x70; 0x61; 0x63; 0x65] (* Space *)
  | SB_Lower => [0x4c; 0x6f; 0x77; 0x65; 0x72; 0x63; 0x61; 0x73; 0x65] (* Lowercase *)
  | SB_Upper => [0x55; 0x70; 0x70; 0x65; 0x72; 0x63; 0x61; 0x73; 0x65] (* Uppercase *)
  | SB_OLetter => [0x4f; 0x74; 0x68; 0x65; 0x72; 0x20; 0x4c; 0x65; 0x74; 0x74; 0x65; 0x72] (* Other Letter *)
  | SB_Numeric => [0x4e; 0x75; 0x6d; 0x65; 0x72; 0x69; 0x63] (* Numeric *)
  | SB_ATerm => [0x41; 0x54; 0x65; 0x72; 0x6d] (* ATerm *)
  | SB_SContinue => [0x53; 0x65; 0x6e; 0x74; 0x65; 0x6e; 0x63; 0x65; 0x20; 0x43; 0x6f; 0x6e; 0x74; 0x69; 0x6e; 0x75; 0x65] (* Sentence Continue *)
  | SB_STerm => [0x53; 0x65; 0x6e; 0x74; 0x65; 0x6e; 0x63; 0x65; 0x20; 0x54; 0x65; 0x72; 0x6d; 0x69; 0x6e; 0x61; 0x6c] (* Sentence Terminal *)
  | SB_Close => [0x43; 0x6c; 0x6f; 0x73; 0x65] (* Close *)
  | SB_Other => [0x4f; 0x74; 0x68; 0x65; 0x72] (* Other *)
  end.

(** unic/ucd/normal/src/decomposition_type.rs:24-147 [enum DecompositionType] *)
Inductive DecompositionType : Type :=
| DT_Canonical
| DT_Compat
| DT_Circle
| DT_Final
| DT_Font
| DT_Fraction
| DT_Initial
| DT_Isolated
| DT_Medial
| DT_Narrow
| DT_NoBreak
| DT_Small
| DT_Square
| DT_Sub
| DT_Super
| DT_Vertical
| DT_Wide.

(** position in the declaration (model helper, used for equality tests) *)
Definition DT_index (x : DecompositionType) : N :=
  match x with
  | DT_Canonical => 0
  | DT_Compat => 1
  | DT_Circle => 2
  | DT_Final => 3
  | DT_Font => 4
  | DT_Fraction => 5
  | DT_Initial => 6
  | DT_Isolated => 7
  | DT_Medial => 8
  | DT_Narrow => 9
  | DT_NoBreak => 10
  | DT_Small => 11
  | DT_Square => 12
  | DT_Sub => 13
  | DT_Super => 14
  | DT_Vertical => 15
  | DT_Wide => 16
  end.
Definition DT_eqb (x y : DecompositionType) : bool := DT_index x =? DT_index y.

(** unic/ucd/normal/src/decomposition_type.rs:24-147 via unic/char/property/src/macros.rs:155-160 [all_values] *)
Definition DT_all : list DecompositionType :=
  [DT_Canonical; DT_Compat; DT_Circle; DT_Final; DT_Font; DT_Fraction; DT_Initial; DT_Isolated; DT_Medial; DT_Narrow; DT_NoBreak; DT_Small; DT_Square; DT_Sub; DT_Super; DT_Vertical; DT_Wide].

(** unic/ucd/normal/src/decomposition_type.rs:24-147 via unic/char/property/src/macros.rs:161-165 [abbr_name] *)
Definition DT_abbr (x : DecompositionType) : str :=
  match x with
  | DT_Canonical => [0x43; 0x61; 0x6e] (* Can *)
  | DT_Compat => [0x43; 0x6f; 0x6d] (* Com *)
  | DT_Circle => [0x45; 0x6e; 0x63] (* Enc *)
  | DT_Final => [0x46; 0x69; 0x6e] (* Fin *)
  | DT_Font => [0x46; 0x6f; 0x6e; 0x74] (* Font *)
  | DT_Fraction => [0x46; 0x72; 0x61] (* Fra *)
  | DT_Initial => [0x49; 0x6e; 0x69; 0x74] (* Init *)
  | DT_Isolated => [0x49; 0x73; 0x6f] (* Iso *)
  | DT_Medial => [0x4d; 0x65; 0x64] (* Med *)
  | DT_Narrow => [0x4e; 0x61; 0x72] (* Nar *)
  | DT_NoBreak => [0x4e; 0x62] (* Nb *)
  | DT_Small => [0x53; 0x6d; 0x6c] (* Sml *)
  | DT_Square => [0x53; 0x71; 0x72] (* Sqr *)
  | DT_Sub => [0x53; 0x75; 0x62] (* Sub *)
  | DT_Super => [0x53; 0x75; 0x70] (* Sup *)
  | DT_Vertical => [0x56; 0x65; 0x72; 0x74] (* Vert *)
  | DT_Wide => [0x57; 0x69; 0x64; 0x65] (* Wide *)
  end.

(** unic/ucd/normal/src/decomposition_type.rs:24-147 via unic/char/property/src/macros.rs:166-170 [long_name] *)
Definition DT_long (x : DecompositionType) : str :=
  match x with
  | DT_Canonical => [0x43; 0x61; 0x6e; 0x6f; 0x6e; 0x69; 0x63; 0x61; 0x6c] (* Canonical *)
  | DT_Compat => [0x43; 0x6f; 0x6d; 0x70; 0x61; 0x74] (* Compat *)
  | DT_Circle => [0x43; 0x69; 0x72; 0x63; 0x6c; 0x65] (* Circle *)
  | DT_Final => [0x46; 0x69; 0x6e; 0x61; 0x6c] (* Final *)
  | DT_Font => [0x46; 0x6f; 0x6e; 0x74] (* Font *)
  | DT_Fraction => [0x46; 0x72; 0x61; 0x63; 0x74; 0x69; 0x6f; 0x6e] (* Fraction *)
  | DT_Initial => [0x49; 0x6e; 0x69; 0x74; 0x69; 0x61; 0x6c] (* Initial *)
  | DT_Isolated => [0x49; 0x73; 0x6f; 0x6c; 0x61; 0x74; 0x65; 0x64] (* Isolated *)
  | DT_Medial => [0x4d; 0x65; 0x64; 0x69; 0x61; 0x6c] (* Medial *)
  | DT_Narrow => [0x4e; 0x61; 0x72; 0x72; 0x6f; 0x77] (* Narrow *)
  | DT_NoBreak => [0x4e; 0x6f; 0x62; 0x72; 0x65; 0x61; 0x6b] (* Nobreak *)
  | DT_Small => [0x53; 0x6d; 0x61; 0x6c; 0x6c] (* Small *)
  | DT_Square => [0x53; 0x71; 0x75; 0x61; 0x72; 0x65] (* Square *)
  | DT_Sub => [0x53; 0x75; 0x62] (* Sub *)
  | DT_Super => [0x53; 0x75; 0x70; 0x65; 0x72] (* Super *)
  | DT_Vertical => [0x56; 0x65; 0x72; 0x74; 0x69; 0x63; 0x61; 0x6c] (* Vertical *)
  | DT_Wide => [0x57; 0x69; 0x64; 0x65] (* Wide *)
  end.

(** unic/ucd/normal/src/decomposition_type.rs:24-147 via unic/char/property/src/macros.rs:171-175 [human_name] *)
Definition DT_human (x : DecompositionType) : str :=
  match x with
  | DT_Canonical => [0x43; 0x61; 0x6e; 0x6f; 0x6e; 0x69; 0x63; 0x61; 0x6c] (* Canonical *)
  | DT_Compat => [0x55; 0x6e; 0x73; 0x70; 0x65; 0x63; 0x69; 0x66; 0x69; 0x65; 0x64] (* Unspecified *)
  | DT_Circle => [0x45; 0x6e; 0x63; 0x69; 0x72; 0x63; 0x6c; 0x65; 0x64] (* Encircled *)
  | DT_Final => [0x41; 0x72; 0x61; 0x62; 0x69; 0x63; 0x20; 0x46; 0x69; 0x6e; 0x61; 0x6c] (* Arabic Final *)
  | DT_Font => [0x46; 0x6f; 0x6e; 0x74; 0x20; 0x56; 0x61; 0x72; 0x69; 0x61; 0x6e; 0x74] (* Font Variant *)
  | DT_Fraction => [0x56; 0x75; 0x6c; 0x67; 0x61; 0x72; 0x20; 0x46; 0x72; 0x61; 0x63; 0x74; 0x69; 0x6f; 0x6e] (* Vulgar Fraction *)
  | DT_Initial => [0x41; 0x72; 0x61; 0x62; 0x69; 0x63; 0x20; 0x49; 0x6e; 0x69; 0x74; 0x69; 0x61; 0x6c] (* Arabic Initial *)
  | DT_Isolated => [0x41; 0x72; 0x61; 0x62; 0x69; 0x63; 0x20; 0x49; 0x73; 0x6f; 0x6c; 0x61; 0x74; 0x65; 0x64] (* Arabic Isolated *)
  | DT_Medial => [0x41; 0x72; 0x61; 0x62; 0x69; 0x63; 0x20; 0x4d; 0x65; 0x64; 0x69; 0x61; 0x6c] (* Arabic Medial *)
  | DT_Narrow => [0x4e; 0x61; 0x72; 0x72; 0x6f; 0x77] (* Narrow *)
  | DT_NoBreak => [0x4e; 0x6f; 0x2d; 0x42; 0x72; 0x65; 0x61; 0x6b] (* No-Break *)
  | DT_Small => [0x53; 0x6d; 0x61; 0x6c; 0x6c] (* Small *)
  | DT_Square => [0x43; 0x4a; 0x4b; 0x20; 0x53; 0x71; 0x75; 0x61; 0x72; 0x65; 0x64] (* CJK Squared *)
  | DT_Sub => [0x53; 0x75; 0x62; 0x73; 0x63; 0x72; 0x69; 0x70; 0x74] (* Subscript *)
  | DT_Super => [0x53; 0x75; 0x70; 0x65; 0x72; 0x73; 0x63; 0x72; 0x69; 0x70; 0x74] (* Superscript *)
  | DT_Vertical => [0x56; 0x65; 0x72; 0x74; 0x69; 0x63; 0x61; 0x6c; 0x20; 0x4c; 0x61; 0x79; 0x6f; 0x75; 0x74] (* Vertical Layout *)
  | DT_Wide => [0x57; 0x69; 0x64; 0x65] (* Wide *)
  end.

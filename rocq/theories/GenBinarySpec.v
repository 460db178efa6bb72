(** The binary properties of the Unicode Character Database (UAX #44) and of
    UTS #51, by the files that list them. *)
From Coq Require Import String Ascii List NArith Bool.
From Verif Require Import Base GenSpec.
Import ListNotations.
Open Scope N_scope.

(** PropList.txt *)
Definition prop_list_names : list string :=
  ["White_Space"; "Bidi_Control"; "Join_Control"; "Dash"; "Hyphen"; "Quotation_Mark";
   "Terminal_Punctuation"; "Other_Math"; "Hex_Digit"; "ASCII_Hex_Digit"; "Other_Alphabetic";
   "Ideographic"; "Diacritic"; "Extender"; "Other_Lowercase"; "Other_Uppercase";
   "Noncharacter_Code_Point"; "Other_Grapheme_Extend"; "IDS_Binary_Operator";
   "IDS_Trinary_Operator"; "Radical"; "Unified_Ideograph"; "Other_Default_Ignorable_Code_Point";
   "Deprecated"; "Soft_Dotted"; "Logical_Order_Exception"; "Other_ID_Start"; "Other_ID_Continue";
   "Sentence_Terminal"; "Variation_Selector"; "Pattern_White_Space"; "Pattern_Syntax";
   "Prepended_Concatenation_Mark"; "Regional_Indicator"]%string.

(** DerivedCoreProperties.txt *)
Definition core_names : list string :=
  ["Lowercase"; "Uppercase"; "Cased"; "Case_Ignorable"; "Changes_When_Lowercased";
   "Changes_When_Uppercased"; "Changes_When_Titlecased"; "Changes_When_Casefolded";
   "Changes_When_Casemapped"; "Alphabetic"; "Default_Ignorable_Code_Point"; "Grapheme_Extend";
   "Grapheme_Base"; "Grapheme_Link"; "Math"; "ID_Start"; "ID_Continue"; "XID_Start";
   "XID_Continue"]%string.

(** emoji-data.txt *)
Definition emoji_names : list string :=
  ["Emoji"; "Emoji_Presentation"; "Emoji_Modifier"; "Emoji_Modifier_Base"; "Emoji_Component"]%string.

(** The field (and table) of a property has its name in lower case. *)
Definition lower (c : ascii) : ascii :=
  let n := N_of_ascii c in if (0x41 <=? n) && (n <=? 0x5A) then ascii_of_N (n + 32) else c.
Fixpoint field (name : string) : string :=
  match name with EmptyString => EmptyString | String c s => String (lower c) (field s) end.

Fixpoint letters (s : string) : str :=
  match s with EmptyString => [] | String c s' => N_of_ascii c :: letters s' end.

(** Every data line names one of the properties, for scalar values. *)
Definition listed (names : list string) (f : list line) : Prop :=
  Forall (fun r => (exists n, In n names /\ value r = letters n) /\ scalar (low r) /\ scalar (high r)) (rows f).

(** The binary properties of the crates, sorted by whether "some character has it"
    and "every character has it" are the same for all spellings of a text. *)
From Coq Require Import List NArith Bool.
From Verif Require Import Base UcdModel.
Import ListNotations.

Definition some_same : list (N -> bool) :=
  [is_pattern_whitespace; is_numeric; is_control; is_white_space; is_bidi_control; is_emoji_modifier_base; is_emoji_modifier;
   is_emoji_component; is_emoji_presentation; is_alphanumeric; is_alphabetic; is_cased; changes_when_uppercased;
   changes_when_lowercased; changes_when_casemapped; changes_when_casefolded; is_xid_start; is_id_start].
Definition some_differs : list (N -> bool) :=
  [is_xid_continue; is_id_continue; is_pattern_syntax; is_uppercase; is_lowercase; changes_when_titlecased; is_case_ignorable;
   is_bidi_mirrored; is_emoji; is_combining_mark_table].
Definition every_same : list (N -> bool) :=
  [is_pattern_whitespace; is_xid_continue; is_id_continue; is_numeric; is_control; is_white_space; is_case_ignorable; is_bidi_control;
   is_combining_mark_table; is_emoji_modifier_base; is_emoji_modifier; is_emoji_component; is_emoji_presentation; is_emoji].
Definition every_differs : list (N -> bool) :=
  [is_pattern_syntax; is_xid_start; is_id_start; is_alphanumeric; is_alphabetic; is_cased; changes_when_uppercased; is_uppercase;
   changes_when_titlecased; changes_when_lowercased; changes_when_casemapped; is_lowercase; changes_when_casefolded; is_bidi_mirrored].

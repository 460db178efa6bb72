(** C98: printed values. *)
From Coq Require Import String List NArith Bool.
From Verif Require Import Base Enums TableTypes RangeModel NameParseModel NameParseSpec RustSpec PrintModel BidiModel BidiSpec BidiLtr
  DisplayModel DisplaySpec DisplayProofs.
Import ListNotations.
Open Scope list_scope.
Open Scope N_scope.

(** [all_values] lists every value once, different values print differently
    (whatever the case), and a printed value is never read as another value *)
Theorem C98_general_category : lists_all GC_all /\ shown_apart GC_display /\ never_misread GC_from_str GC_display.
Proof. exact GC_displayed. Qed.
Print Assumptions C98_general_category.
Theorem C98_bidi_class : lists_all BC_all /\ shown_apart BC_display /\ never_misread BC_from_str BC_display.
Proof. exact BC_displayed. Qed.
Print Assumptions C98_bidi_class.
Theorem C98_grapheme_cluster_break :
  lists_all GCB_all /\ shown_apart GCB_display /\ never_misread GCB_from_str GCB_display.
Proof. exact GCB_displayed. Qed.
Print Assumptions C98_grapheme_cluster_break.
Theorem C98_word_break : lists_all WB_all /\ shown_apart WB_display /\ never_misread WB_from_str WB_display.
Proof. exact WB_displayed. Qed.
Print Assumptions C98_word_break.
Theorem C98_sentence_break : lists_all SB_all /\ shown_apart SB_display /\ never_misread SB_from_str SB_display.
Proof. exact SB_displayed. Qed.
Print Assumptions C98_sentence_break.
Theorem C98_decomposition_type : lists_all DT_all /\ shown_apart DT_display /\ never_misread DT_from_str DT_display.
Proof. exact DT_displayed. Qed.
Print Assumptions C98_decomposition_type.
(** "Private-Use" is not read at all; "CONTROL" is the category Control *)
Example C98_ex : GC_display GC_Control = lit "Control" /\ GC_from_str (lit "CONTROL") = Some GC_Control /\
  GC_display GC_PrivateUse = lit "Private-Use" /\ GC_from_str (lit "Private-Use") = None.
Proof. vm_compute. auto. Qed.

(** Every printed value begins with a letter and is made of letters, spaces, hyphens, slashes and
    parentheses *)
Theorem C98_readable :
  (forall v, readable (GC_display v)) /\ (forall v, readable (BC_display v)) /\
  (forall v, readable (GCB_display v)) /\ (forall v, readable (WB_display v)) /\
  (forall v, readable (SB_display v)) /\ (forall v, readable (DT_display v)).
Proof. exact all_readable. Qed.
Print Assumptions C98_readable.
Example C98_ex_readable : BC_display BC_LeftToRightIsolate = lit "Left-to-Right Isolate" /\
  BC_long BC_LeftToRightIsolate = lit "Left_To_Right_Isolate".
Proof. vm_compute. auto. Qed.

(** The printed value and the two names of a binary value are read as that value; the
    abbreviation is one letter, the long name is not, and it is what is printed *)
Theorem C98_binary : forall b,
  binary_from_str (binary_display b) = Some b /\
  binary_from_str (binary_abbr b) = Some b /\ binary_from_str (binary_long b) = Some b /\
  List.length (binary_abbr b) = 1%nat /\ (2 <= List.length (binary_long b))%nat /\ binary_display b = binary_long b.
Proof. exact binary_displayed. Qed.
Print Assumptions C98_binary.
Example C98_ex_binary : binary_display true = lit "Yes" /\ binary_display false = lit "No".
Proof. split; reflexivity. Qed.

(** Decimal writing: one text for a number, one number for a text *)
Theorem C98_written : forall s t n m, written s n -> written t m -> (s = t <-> n = m).
Proof. exact written_iff. Qed.
Print Assumptions C98_written.
Theorem C98_class : forall n, n <= 255 -> written (class_display n) n.
Proof. exact class_displayed. Qed.
Print Assumptions C98_class.
Example C98_ex_class : class_display 230 = lit "230" /\ class_display 0 = lit "0".
Proof. vm_compute. auto. Qed.

Theorem C98_version : forall v, u8_version v ->
  exists a b c, version_display v = a ++ [0x2E] ++ b ++ [0x2E] ++ c /\
    written a (major v) /\ written b (minor v) /\ written c (micro v).
Proof. exact version_displayed. Qed.
Print Assumptions C98_version.
Theorem C98_version_apart : forall v w, u8_version v -> u8_version w -> version_display v = version_display w -> v = w.
Proof. exact version_apart. Qed.
Print Assumptions C98_version_apart.
Example C98_ex_version : version_display (mkVersion 10 0 0) = lit "10.0.0" /\ version_display (mkVersion 1 1 5) = lit "1.1.5".
Proof. vm_compute. auto. Qed.

(** A level equals a text when the text is "x" or its number in decimal *)
Theorem C98_level : forall l s, l <= 126 ->
  written (level_display l) l /\ (level_eq_str l s = true <-> s = [0x78] \/ written s l).
Proof. exact level_texts. Qed.
Print Assumptions C98_level.
(** [Level::vec] takes the numbers up to 126 as they are, and panics on others *)
Theorem C98_level_vec : forall v r, level_vec v = Some r <-> r = v /\ Forall (fun n => n <= 126) v.
Proof. exact level_vec_iff. Qed.
Print Assumptions C98_level_vec.
Example C98_ex_level : level_eq_str 12 (lit "12") = true /\ level_eq_str 12 (lit "x") = true /\
  level_eq_str 12 (lit "012") = false /\ level_vec [0; 126] = Some [0; 126] /\ level_vec [0; 127] = None.
Proof. vm_compute. auto. Qed.

(** [BidiInfo]: the number of paragraphs and the highest level *)
Theorem C98_bidi_info : forall t default, default_ok default 125 -> N.of_nat (slen t) < 2 ^ 64 ->
  exists b s m u pieces, bidi_new t default = Ret b /\ paragraphs_of t pieces /\
    bidi_info_display b = s ++ lit " paragraphs with a maximum bidirectional level of " ++ u /\
    written s (N.of_nat (List.length pieces)) /\ written u m /\
    Forall (fun l => l <= m) (b_levels b) /\ (In m (b_levels b) \/ t = [] /\ m = 0).
Proof. exact bidi_new_displayed. Qed.
Print Assumptions C98_bidi_info.
Example C98_ex_bidi : exists b, bidi_new [0x61; 0xA; 0x5D0] None = Ret b /\
  bidi_info_display b = lit "2 paragraphs with a maximum bidirectional level of 1".
Proof. eexists. split; vm_compute; reflexivity. Qed.

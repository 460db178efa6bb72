(** C77 to C80: the tables the generator writes from UnicodeData.txt. *)
From Coq Require Import String List NArith Bool.
From Verif Require Import Base RangeModel TableModel TableSpec TextModel TableGenModel Enums UcdModel NameSpec
  GenRegex GenModel GenSpec GenBinarySpec GenBinary GenExamples GenDataModel GenDataSpec GenDataTables GenDataCompose
  GenDataNames GenDataExamples.
Import ListNotations.
Open Scope N_scope.

(** ** C77 *)
Theorem C77_category : forall f, good_data f ->
  tells (obind (data_from_str (data_text f)) emit_general_category) (fun c => option_map gc (info_of f c)).
Proof. exact general_category_ok. Qed.
Print Assumptions C77_category.

Theorem C77_marks : forall f, good_data f ->
  tells_set (obind (data_from_str (data_text f)) emit_general_category_mark) (is_category f ["Mn"; "Mc"; "Me"]%string).
Proof. exact mark_ok. Qed.
Print Assumptions C77_marks.

Theorem C77_numeric : forall f, good_data f ->
  tells_set (obind (data_from_str (data_text f)) emit_numeric) (is_category f ["Nd"; "Nl"; "No"]%string).
Proof. exact numeric_ok. Qed.
Print Assumptions C77_numeric.

Theorem C77_control : forall f, good_data f ->
  tells_set (obind (data_from_str (data_text f)) emit_control)
    (fun c => exists d, info_of f c = Some d /\ gc d = letters "Cc").
Proof. exact control_ok. Qed.
Print Assumptions C77_control.

Theorem C77_alphanumeric : forall uword uspace f p, good_data f ->
  ascii_classes uword uspace -> good_file word_value after_name p -> listed core_names p ->
  tells_set (obind (data_from_str (data_text f)) (fun es =>
             obind (binary_from_str uword uspace DERIVED_CORE_ARMS (file_text p)) (fun props =>
             emit_alphanumeric es (props "alphabetic"%string))))
    (fun c => is_category f ["Nd"; "Nl"; "No"]%string c \/ given p (letters "Alphabetic") c).
Proof. exact alphanumeric_ok. Qed.
Print Assumptions C77_alphanumeric.

Theorem C77_mirrored : forall f, good_data f ->
  tells_set (obind (data_from_str (data_text f)) emit_bidi_mirrored)
    (fun c => exists d, info_of f c = Some d /\ mirrored d = true).
Proof. exact mirrored_ok. Qed.
Print Assumptions C77_mirrored.

Theorem C77_combining_class : forall f, good_data f ->
  tells (obind (data_from_str (data_text f)) emit_canonical_combining_class) (class_of f).
Proof. exact combining_class_ok. Qed.
Print Assumptions C77_combining_class.

Example C77_example : good_data data_lines /\ data_text data_lines = letters data_file /\
  obind (data_from_str (letters data_file)) emit_canonical_combining_class
    = Ret (Range [(closed 0x300 0x300, 230); (closed 0x340 0x340, 230); (closed 0x344 0x344, 230)]) /\
  option_map gc (info_of data_lines 0x4E05) = Some (letters "Lo") /\
  info_of data_lines 0x4E10 = None /\ is_category data_lines ["Nd"; "Nl"; "No"]%string 0xBD.
Proof.
  split; [exact data_lines_good|]. split; [exact data_lines_text|]. split; [vm_compute; reflexivity|].
  split; [reflexivity|]. split; [reflexivity|]. eexists. exists "No"%string. split; [reflexivity|]. split; [cbn; auto|reflexivity].
Qed.

(** ** C78 *)
Theorem C78_canonical : forall f, good_data f ->
  tells (obind (data_from_str (data_text f)) (fun es => Ret (emit_canonical_decomposition_mapping es))) (canonical f).
Proof. exact canonical_ok. Qed.
Print Assumptions C78_canonical.

Theorem C78_compatibility : forall f, good_data f ->
  tells (obind (data_from_str (data_text f)) (fun es => Ret (emit_compatibility_decomposition_mapping es))) (compatible f).
Proof. exact compatible_ok. Qed.
Print Assumptions C78_compatibility.

Theorem C78_composition : forall f x, good_data f -> exclusion_file x -> short_mappings f -> distinct_mappings f x ->
  exists t, obind (data_from_str (data_text f)) (fun es => obind (exclusions_from_str (file_text x)) (fun s =>
              emit_canonical_composition_mapping es s)) = Ret t /\ wf_table t /\
  forall a b, exists o, composed t a b = Ret o /\
    forall c, o = Some c <-> scalar c /\ canonical f c = Some [a; b] /\ ~ excluded x c.
Proof. exact composition_ok. Qed.
Print Assumptions C78_composition.

Example C78_example : good_data data_lines /\ exclusion_file exclusion_lines /\
  short_mappings data_lines /\ distinct_mappings data_lines exclusion_lines /\
  canonical data_lines 0xC0 = Some [0x41; 0x300] /\ compatible data_lines 0xBD = Some (letters "fraction", [0x31; 0x2044; 0x32]) /\
  obind (data_from_str (data_text data_lines)) (fun es => obind (exclusions_from_str (file_text exclusion_lines)) (fun s =>
    emit_canonical_composition_mapping es s)) = Ret (Direct [(0x41, Direct [(0x300, 0xC0)])]).
Proof.
  split; [exact data_lines_good|]. split; [exact exclusion_lines_good|].
  split; [exact data_lines_short|]. split; [exact data_lines_distinct|]. split; [reflexivity|]. split; [reflexivity|].
  vm_compute. reflexivity.
Qed.

(** ** C79 *)
Theorem C79_bidi_class : forall f, good_data f ->
  tells (obind (data_from_str (data_text f)) emit_bidi_class) (bidi_class_of f).
Proof. exact bidi_class_ok. Qed.
Print Assumptions C79_bidi_class.

(** Noncharacters should be [BN] (DerivedBidiClass.txt); the generator leaves them
    out of every table, and [BidiClass::of] then answers [L]. *)
Theorem C79_noncharacter_refuted : exists c, scalar c /\ noncharacter c /\
  (forall f, good_data f -> info_of f c = None ->
     exists t, obind (data_from_str (data_text f)) emit_bidi_class = Ret t /\ find t c = Ret None) /\
  UcdModel.bidi_class c = BC_LeftToRight.
Proof. exact noncharacter_refuted. Qed.
Print Assumptions C79_noncharacter_refuted.

Example C79_example : good_data data_lines /\ bidi_class_of data_lines 0x300 = Some (letters "NSM") /\
  bidi_class_of data_lines 0x5D0 = Some (letters "R") /\ bidi_class_of data_lines 0x20A0 = Some (letters "ET") /\
  bidi_class_of data_lines 0x3000 = None.
Proof. split; [exact data_lines_good|]. repeat split; reflexivity. Qed.

(** ** C80 *)
Theorem C80_names : forall f, good_data f -> good_names f ->
  exists es, data_from_str (data_text f) = Ret es /\
    NoDup (map fst (emit_name_values es)) /\
    (forall i p, In (i, p) (emit_name_values es) -> Forall identifier_char i) /\
    wf_table (emit_name_map es) /\
    forall c, scalar c ->
      match name_of f c with
      | None => find (emit_name_map es) c = Ret None
      | Some n => exists is ps, find (emit_name_map es) c = Ret (Some is) /\
          Forall2 (fun i p => In (i, p) (emit_name_values es)) is ps /\ joined 0x20 ps = n
      end.
Proof. exact names_ok. Qed.
Print Assumptions C80_names.

Example C80_example : good_data name_lines /\ good_names name_lines /\
  name_of name_lines 0xF68 = Some (letters "TIBETAN LETTER -A") /\ name_of name_lines 10 = None /\
  exists es, data_from_str (data_text name_lines) = Ret es /\
    find (emit_name_map es) 0xF68 = Ret (Some [letters "TIBETAN"; letters "LETTER"; letters "_A"]) /\
    emit_name_values es = [(letters "TIBETAN", letters "TIBETAN"); (letters "LETTER", letters "LETTER"); (letters "_A", letters "-A")].
Proof. exact name_lines_ok. Qed.

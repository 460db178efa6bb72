(** Small generated files: examples and counterexamples. *)
From Coq Require Import String List NArith Lia Bool PeanoNat ZifyBool ZifyNat ZifyN Permutation.
From Verif Require Import Base CliSpec RangeModel TableModel TableSpec TextModel TableGenModel
  GenRegex GenModel GenSpec GenBinarySpec GenExamples GenDataModel GenDataSpec GenDataExamples
  GenIdnaSpec GenListModel GenListSpec GenList GenListExamples.
From Verif Require Import RustSpec PrintModel PrintSpec PrintLex PrintProofs PrintFiles PrintEmit.
Import ListNotations.
Open Scope list_scope.
Open Scope N_scope.

Definition capitals : CharDataTable unit := Range [(closed 0x41 0x5A, tt); (closed 0xC9 0xC9, tt)].

Lemma capitals_text : file_of (table_text unit_text capitals) = lit
"// WARNING: Auto-generated by the `unic-gen` crate.
// WARNING: DO NOT EDIT MANUALLY!
CharDataTable::Range(&[
    (chars!('\u{41}'..='\u{5a}'), ()),
    (chars!('\u{c9}'..='\u{c9}'), ()),
])
".
Proof. vm_compute. reflexivity. Qed.

Lemma capitals_wf : wf_table capitals.
Proof.
  split; [|repeat constructor; cbn; unfold scalar; lia].
  cbn. repeat constructor; cbn; lia.
Qed.

Lemma capitals_source : source (file_of (table_text unit_text capitals))
  (Call (path ["CharDataTable"; "Range"]%string)
     [Slice [Tuple [Chars 0x41 0x5A; Tuple []]; Tuple [Chars 0xC9 0xC9; Tuple []]]]).
Proof.
  apply (table_source unit_text (fun _ => Tuple [])); [exact capitals_wf| |reflexivity].
  intros c v _ _. apply reads_source, reads_unit.
Qed.

(** A name with a backslash is printed as it is, and may be read as something else. *)
Lemma quoted_refuted : exists v e, source (file_of (quoted_text v)) e /\ e <> Text v.
Proof.
  exists (lit "\u{41}"), (Text [0x41]). split; [|discriminate].
  apply file_source. apply (reads_text (lit "\u{41}") [0x41]).
  apply (text_escape (lit "\u{41}") 0x41 [] []); [|constructor].
  exists (lit "41"). split; [reflexivity|]. split; [|split; [cbn; lia|unfold scalar; lia]].
  apply (hex_more [0x34] 4 0x31 1); [apply hex_one|]; reflexivity.
Qed.

Lemma name_lines_said : pronounceable name_lines.
Proof.
  intros c ws w Hc E Hws I. unfold name_of, name_lines in E. cbn [List.find] in E.
  destruct (item_covers c (One (text "000A") (text "<control>") (simple "Cc" "0" "B"))); [discriminate E|].
  destruct (item_covers c _); [|discriminate E]. 
  assert (Ew : ws = [text "TIBETAN"; text "LETTER"; text "-A"]).
  { assert (W : Forall (fun w => w <> [] /\ Forall name_char w) [text "TIBETAN"; text "LETTER"; text "-A"]).
    { repeat (constructor; [split; [discriminate|]|]); [| | |constructor];
        apply Forall_forall; intros d Hd; cbn in Hd; unfold name_char; lia. }
    injection E as E. destruct ws as [|v ws]; [destruct I|].
    rewrite <- (GenDataNames.pieces_ok (v :: ws)) by (assumption || discriminate).
    rewrite <- (GenDataNames.pieces_ok [text "TIBETAN"; text "LETTER"; text "-A"]) by (assumption || discriminate).
    f_equal. rewrite <- E. reflexivity. }
  subst ws. cbn in I. destruct I as [<-|[<-|[<-|[]]]]; (split; [discriminate|]); intros d r [= <- _]; unfold is_digit; lia.
Qed.

Lemma name_lines_files : exists es, data_from_str (data_text name_lines) = Ret es /\
  file_of (consts_text (emit_name_values es)) = lit
"// WARNING: Auto-generated by the `unic-gen` crate.
// WARNING: DO NOT EDIT MANUALLY!
const TIBETAN: &str = ""TIBETAN"";
const LETTER: &str = ""LETTER"";
const _A: &str = ""-A"";

" /\
  file_of (table_text names_text (emit_name_map es)) = lit
"// WARNING: Auto-generated by the `unic-gen` crate.
// WARNING: DO NOT EDIT MANUALLY!
CharDataTable::Direct(&[
    ('\u{f68}', &[TIBETAN, LETTER, _A]),
])
".
Proof. eexists. split; [vm_compute; reflexivity|]. split; vm_compute; reflexivity. Qed.

Lemma break_lines_file : Forall (fun r => rust_name (value r)) (rows break_lines) /\
  exists t, emit_breaks (file_text break_lines) = Ret t /\
  file_of (table_text (break_text "WB") t) = lit
"// WARNING: Auto-generated by the `unic-gen` crate.
// WARNING: DO NOT EDIT MANUALLY!
CharDataTable::Range(&[
    (chars!('\u{22}'..='\u{22}'), WB::Double_Quote),
    (chars!('\u{61}'..='\u{7a}'), WB::ALetter),
])
".
Proof.
  split; [cbn; repeat (apply Forall_cons; [fixed_name|]); apply Forall_nil|].
  eexists. split; [vm_compute; reflexivity|vm_compute; reflexivity].
Qed.

Lemma idna_lines_file : exists t, emit_idna_mapping (idna_text idna_lines) = Ret t /\
  file_of (table_text mapping_text t) = lit
"// WARNING: Auto-generated by the `unic-gen` crate.
// WARNING: DO NOT EDIT MANUALLY!
CharDataTable::Range(&[
    (chars!('\u{41}'..='\u{41}'), Mapped(""\u{61}"")),
    (chars!('\u{61}'..='\u{7a}'), Valid),
    (chars!('\u{a8}'..='\u{a8}'), DisallowedStd3Mapped(""\u{20}\u{308}"")),
    (chars!('\u{ad}'..='\u{ad}'), Ignored),
    (chars!('\u{d7}'..='\u{d7}'), Valid),
    (chars!('\u{200c}'..='\u{200d}'), Deviation("""")),
])
".
Proof. eexists. split; [exact idna_lines_table|vm_compute; reflexivity]. Qed.

Lemma test_lines_file : exists ts, tests_from_str (listing show_test test_lines) = Ret ts /\
  file_of (normal_tests_text ts) = lit
"// WARNING: Auto-generated by the `unic-gen` crate.
// WARNING: DO NOT EDIT MANUALLY!
&[
    (""\u{1e0a}"", ""\u{1e0a}"", ""\u{44}\u{307}"", ""\u{1e0a}"", ""\u{44}\u{307}""),
]
".
Proof. eexists. split; [apply tests_ok, test_lines_good|vm_compute; reflexivity]. Qed.

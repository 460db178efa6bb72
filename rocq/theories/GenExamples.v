(** Small data files: examples and counterexamples. *)
From Coq Require Import String Ascii List NArith ZArith Lia Bool PeanoNat ZifyBool ZifyNat ZifyN.
From Verif Require Import Base RangeModel TableModel TableSpec TextModel TableGenModel GenRegex GenModel GenSpec GenBinarySpec
  GenMap GenProofs GenBinary.
Import ListNotations.
Open Scope N_scope.
Open Scope list_scope.

Definition spaced (l : string) (h : option string) (n : nat) (v t : string) : line :=
  Data (mkRow (text l) (option_map text h) (repeat 0x20 n) [0x20] (text v) (text t)).

(** A test for well-formed files. *)
Definition hexb (c : N) : bool := match hex_value_of c with None => false | _ => true end.
Definition codeb (t : str) : bool := forallb hexb t && Nat.leb 4 (length t) && Nat.leb (length t) 6.
Definition blankb (c : N) : bool := (c =? 0x20) || (c =? 9).
Definition newlineb (t : str) : bool := negb (existsb (N.eqb 10) t).
Definition tailb (t : str) : bool := match t with [] => true | c :: _ => (c <? 128) && negb (word c) end.

Definition rowb (r : row) : bool :=
  codeb (lo r) && (match hi r with None => true | Some h => codeb h end) &&
  forallb blankb (pad r) && forallb blankb (pad' r) &&
  negb (match value r with [] => true | _ => false end) && forallb word (value r) &&
  tailb (tail r) && newlineb (tail r).
Definition paddedb (r : row) : bool :=
  negb (match pad r with [] => true | _ => false end) && negb (match pad' r with [] => true | _ => false end).
Definition otherb (t : str) : bool := newlineb t && match t with [] => true | c :: _ => negb (hexb c) end.
Definition lineb (l : line) : bool := match l with Data r => rowb r && paddedb r | Other t => otherb t end.
Definition looseb (l : line) : bool := match l with Data r => rowb r | Other t => otherb t end.

Lemma codeb_ok t : codeb t = true -> code_point t.
Proof.
  unfold codeb. intros H. apply andb_true_iff in H as [H H3]. apply andb_true_iff in H as [H1 H2].
  apply Nat.leb_le in H2, H3. split; [|lia].
  apply Forall_forall. intros c Hc. rewrite forallb_forall in H1. specialize (H1 c Hc).
  unfold hexb, is_hex in *. destruct (hex_value_of c); [discriminate|exfalso; discriminate].
Qed.

Lemma newlineb_ok t : newlineb t = true -> no_newline t.
Proof.
  unfold newlineb, no_newline. intros H Hin. apply negb_true_iff in H.
  assert (existsb (N.eqb 10) t = true) by (apply existsb_exists; exists 10; split; [exact Hin|reflexivity]). congruence.
Qed.

Lemma rowb_loose r : rowb r = true -> loose_row word_value after_name r.
Proof.
  unfold rowb. intros H. do 7 (apply andb_true_iff in H as [H ?H]).
  assert (forall p, forallb blankb p = true -> Forall is_blank p) as Hb.
  { intros p K. apply Forall_forall. intros c Hc. rewrite forallb_forall in K. specialize (K c Hc).
    unfold blankb in K. unfold is_blank. lia. }
  split; [now apply codeb_ok|]. split.
  { intros h E. destruct (hi r) as [h'|]; [|discriminate]. injection E as <-. now apply codeb_ok. }
  split; [auto|]. split; [auto|]. split; [split|split].
  - intros E. rewrite E in *. discriminate.
  - apply Forall_forall. intros c Hc. rewrite forallb_forall in H2. specialize (H2 c Hc). now apply word_iff.
  - unfold tailb in H1. unfold after_name. destruct (tail r) as [|c t]; [exact I|].
    apply andb_true_iff in H1 as [K1 K2]. split; [lia|]. intros K. apply word_iff in K. now rewrite K in K2.
  - now apply newlineb_ok.
Qed.

Lemma otherb_ok t : otherb t = true -> no_newline t /\ not_starting is_hex t.
Proof.
  unfold otherb. intros H. apply andb_true_iff in H as [H1 H2]. split; [now apply newlineb_ok|].
  destruct t as [|c t]; [exact I|]. cbn. unfold hexb, is_hex in *. destruct (hex_value_of c); [discriminate|congruence].
Qed.

Lemma looseb_ok f : forallb looseb f = true -> loose_file word_value after_name f.
Proof.
  intros H. apply Forall_forall. intros l Hl. rewrite forallb_forall in H. specialize (H l Hl).
  destruct l as [r|t]; [now apply rowb_loose|now apply otherb_ok].
Qed.

Lemma lineb_ok f : forallb lineb f = true -> good_file word_value after_name f.
Proof.
  intros H. apply Forall_forall. intros l Hl. rewrite forallb_forall in H. specialize (H l Hl).
  destruct l as [r|t]; [|now apply otherb_ok]. cbn in H. apply andb_true_iff in H as [H1 H2].
  apply rowb_loose in H1 as (A & B & C & D & E & F & G). unfold paddedb in H2. apply andb_true_iff in H2 as [H2 H3].
  repeat (split; [first [assumption | intros K; rewrite K in *; discriminate]|]). exact G.
Qed.

Lemma after_name_word t : after_name t -> after_word t.
Proof. destruct t as [|c t]; cbn; tauto. Qed.

Lemma good_words f : good_file word_value after_name f -> good_file word_value after_word f.
Proof.
  apply Forall_impl. intros [r|t]; [|auto]. intros (A & B & C & D & E & F & G & H & I).
  repeat (split; [first [assumption|now apply after_name_word]|]). exact I.
Qed.

Lemma loose_words f : loose_file word_value after_name f -> loose_file word_value after_word f.
Proof.
  apply Forall_impl. intros [r|t]; [|auto]. intros (A & B & C & D & E & F & G).
  repeat (split; [first [assumption|now apply after_name_word]|]). exact G.
Qed.

Definition listedb (names : list string) (f : list line) : bool :=
  forallb (fun r => existsb (fun n => str_eqb (value r) (letters n)) names && scalarb (low r) && scalarb (high r)) (rows f).

Lemma listedb_ok names f : listedb names f = true -> listed names f.
Proof.
  intros H. apply Forall_forall. intros r Hr. unfold listedb in H. rewrite forallb_forall in H. specialize (H r Hr).
  apply andb_true_iff in H as [H H3]. apply andb_true_iff in H as [H1 H2].
  apply existsb_exists in H1 as (n & Hn & E). apply str_eqb_spec in E.
  split; [eauto|]. split; now apply scalarb_spec.
Qed.

Definition core_lines : list line :=
  [Other (text "# DerivedCoreProperties.txt"); Other [];
   spaced "002B" None 10 "Math" " # Sm       PLUS SIGN";
   spaced "0041" (Some "005A") 4 "Uppercase" " # L&  [26] LATIN CAPITAL LETTER A..LATIN CAPITAL LETTER Z";
   spaced "00AA" None 10 "Alphabetic" " # Lo       FEMININE ORDINAL INDICATOR"]%string.

Lemma core_lines_ok : good_file word_value after_name core_lines /\ listed core_names core_lines /\
  file_text core_lines = text "# DerivedCoreProperties.txt

002B          ; Math # Sm       PLUS SIGN
0041..005A    ; Uppercase # L&  [26] LATIN CAPITAL LETTER A..LATIN CAPITAL LETTER Z
00AA          ; Alphabetic # Lo       FEMININE ORDINAL INDICATOR
" /\
  emit_field word space DERIVED_CORE_ARMS (field "Uppercase") (file_text core_lines)
  = Ret (Range [(closed 0x41 0x5A, tt)]).
Proof.
  split; [|split; [|split; vm_compute; reflexivity]].
  - apply lineb_ok. vm_compute. reflexivity.
  - apply listedb_ok. vm_compute. reflexivity.
Qed.

Definition break_lines : list line :=
  [Other (text "# WordBreakProperty");
   spaced "0022" None 10 "Double_Quote" " # Po       QUOTATION MARK";
   spaced "0061" (Some "007A") 4 "ALetter" " # L&  [26] LATIN SMALL LETTER A..LATIN SMALL LETTER Z"]%string.

Lemma break_lines_ok : good_file word_value after_word break_lines /\
  file_text break_lines = text "# WordBreakProperty
0022          ; Double_Quote # Po       QUOTATION MARK
0061..007A    ; ALetter # L&  [26] LATIN SMALL LETTER A..LATIN SMALL LETTER Z
" /\
  emit_breaks (file_text break_lines)
  = Ret (Range [(closed 0x22 0x22, text "Double_Quote"); (closed 0x61 0x7A, text "ALetter")]).
Proof.
  split; [|split; vm_compute; reflexivity].
  apply good_words, lineb_ok. vm_compute. reflexivity.
Qed.

Lemma ascii_ok : ascii_classes word space.
Proof.
  intros c _. split; [apply word_iff|]. unfold space. lia.
Qed.

Lemma hyphen_refuted : exists uword uspace f c,
  ascii_classes uword uspace /\ good_file word_value after_name f /\ listed prop_list_names f /\ scalar c /\
  given f (letters "Hyphen") c /\ ~ given f (letters "Dash") c /\
  exists t t', emit_field uword uspace PROP_LIST_ARMS (field "Hyphen") (file_text f) = Ret t /\
    tcontains t c = Ret false /\
    emit_field uword uspace PROP_LIST_ARMS (field "Dash") (file_text f) = Ret t' /\
    tcontains t' c = Ret true.
Proof.
  pose (f := [spaced "00AD" None 10 "Hyphen" " # Cf       SOFT HYPHEN"]%string).
  exists word, space, f, 0xAD.
  split; [apply ascii_ok|]. split; [apply lineb_ok; vm_compute; reflexivity|].
  split; [apply listedb_ok; vm_compute; reflexivity|]. split; [now apply scalarb_spec|].
  split; [eexists; split; [left; reflexivity|split; [reflexivity|vm_compute; split; discriminate]]|].
  split; [intros (r & [<-|[]] & E & _); discriminate E|].
  exists (Range []), (Range [(closed 0xAD 0xAD, tt)]). repeat split; vm_compute; reflexivity.
Qed.

Lemma spacing_refuted : exists uword uspace f c,
  ascii_classes uword uspace /\ loose_file word_value after_name f /\ listed prop_list_names f /\ scalar c /\
  given f (letters "White_Space") c /\
  exists t, emit_field uword uspace PROP_LIST_ARMS (field "White_Space") (file_text f) = Ret t /\
    tcontains t c = Ret false.
Proof.
  pose (f := [spaced "0020" None 0 "White_Space" " # Zs       SPACE"]%string).
  exists word, space, f, 0x20.
  split; [apply ascii_ok|]. split; [apply looseb_ok; vm_compute; reflexivity|].
  split; [apply listedb_ok; vm_compute; reflexivity|]. split; [now apply scalarb_spec|].
  split; [eexists; split; [left; reflexivity|split; [reflexivity|vm_compute; split; discriminate]]|].
  exists (Range []). split; vm_compute; reflexivity.
Qed.

Lemma breaks_spacing_refuted : exists f c,
  loose_file word_value after_word f /\ scalar c /\ last_row f c = None /\
  exists t v, emit_breaks (file_text f) = Ret t /\ find t c = Ret (Some v).
Proof.
  exists [spaced "0041" None 0 "0043" " ; Other"]%string, 0x42.
  split; [apply loose_words, looseb_ok; vm_compute; reflexivity|].
  split; [now apply scalarb_spec|]. split; [reflexivity|].
  exists (Range [(closed 0x41 0x43, text "Other")]), (text "Other"). split; vm_compute; reflexivity.
Qed.

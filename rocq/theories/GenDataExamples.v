(** Small files in the formats of UnicodeData.txt and DerivedNormalizationProps.txt. *)
From Coq Require Import String Ascii List NArith ZArith Lia Bool PeanoNat Sorted ZifyBool ZifyNat ZifyN.
From Verif Require Import Base RangeModel TableModel TableSpec TextModel TableGenModel Enums UcdModel NameSpec GenRegex GenModel GenSpec GenBinarySpec
  GenMap GenProofs GenBinary GenExamples GenDataModel GenDataSpec GenDataEntries GenDataTables GenDataCompose.
Import ListNotations.
Open Scope N_scope.
Open Scope list_scope.

(** * A test for well-formed files *)
Definition lacks (c : N) (t : str) : bool := negb (existsb (N.eqb c) t).
Definition plainb (t : str) : bool := lacks 0x3B t && lacks 10 t.
Definition filledb (t : str) : bool := negb (match t with [] => true | _ => false end) && plainb t.
Definition optb (p : str -> bool) (o : option str) : bool := match o with None => true | Some t => p t end.
Definition charb (t : str) : bool := codeb t && scalarb (hex_number t).
Definition digitb (o : option N) : bool := match o with None => true | Some c => digit c end.

Definition infob (d : info) : bool :=
  filledb (gc d) && (negb (match ccc d with [] => true | _ => false end) && forallb digit (ccc d) && (dec_number (ccc d) <? 256)) &&
  filledb (bc d) && optb (fun t => plainb t && lacks 0x3E t) (tag d) && forallb charb (mapping d) &&
  (match tag d, mapping d with Some _, [] => false | _, _ => true end) &&
  digitb (decimal d) && digitb (digit_ d) && optb filledb (numeric d) && optb filledb (old_name d) &&
  optb charb (upper d) && optb charb (lower_ d) && optb charb (title d).

Definition itemb (i : item) : bool :=
  match i with
  | One cp n d => codeb cp && filledb n && negb (ends_with n (text ", First>")) && negb (ends_with n (text ", Last>")) && infob d
  | Span f l label d =>
      codeb f && codeb l && (hex_number f <? hex_number l) && (hex_number l <=? 0x10FFFF) &&
      Bool.eqb (scalarb (hex_number f)) (scalarb (hex_number l)) && plainb label && lacks 0x2C label && lacks 0x3E label && infob d
  end.

Fixpoint increasingb (f : list item) : bool :=
  match f with
  | [] => true
  | i :: f' => forallb (fun j => item_high i <? item_low j) f' && increasingb f'
  end.

Lemma lacks_ok c t : lacks c t = true -> ~ In c t.
Proof.
  unfold lacks. intros H Hin. apply negb_true_iff in H.
  assert (existsb (N.eqb c) t = true) by (apply existsb_exists; exists c; split; [exact Hin|apply N.eqb_refl]). congruence.
Qed.
Lemma plainb_ok t : plainb t = true -> plain t.
Proof. unfold plainb. intros H. apply andb_true_iff in H as [H1 H2]. split; now apply lacks_ok. Qed.
Lemma filledb_ok t : filledb t = true -> filled t.
Proof.
  unfold filledb. intros H. apply andb_true_iff in H as [H1 H2]. split; [|now apply plainb_ok]. intros ->. discriminate.
Qed.
Lemma charb_ok t : charb t = true -> character_code t.
Proof. unfold charb. intros H. apply andb_true_iff in H as [H1 H2]. split; [now apply codeb_ok|now apply scalarb_spec]. Qed.
Lemma optb_ok p (P : str -> Prop) o : (forall t, p t = true -> P t) -> optb p o = true -> opt_ok P o.
Proof. destruct o; cbn; auto. Qed.
Lemma digitb_ok o : digitb o = true -> forall c, o = Some c -> is_digit c.
Proof. intros H c ->. now apply digit_iff. Qed.

Lemma infob_ok d : infob d = true -> info_ok d.
Proof.
  unfold infob. intros H. do 12 (apply andb_true_iff in H as [H ?H]).
  split; [now apply filledb_ok|]. split.
  { do 2 (apply andb_true_iff in H11 as [H11 ?H]). split; [intros E; rewrite E in *; discriminate|]. split; [|lia].
    apply Forall_forall. intros c Hc. rewrite forallb_forall in H13. now apply digit_iff, H13. }
  split; [now apply filledb_ok|]. split.
  { revert H9. apply optb_ok. intros t K. apply andb_true_iff in K as [K1 K2]. split; [now apply plainb_ok|now apply lacks_ok]. }
  split. { apply Forall_forall. intros t Ht. rewrite forallb_forall in H8. now apply charb_ok, H8. }
  split. { intros Ht E. rewrite E in H7. destruct (tag d); [discriminate|congruence]. }
  split; [now apply digitb_ok|]. split; [now apply digitb_ok|].
  split; [revert H4; apply optb_ok, filledb_ok|]. split; [revert H3; apply optb_ok, filledb_ok|].
  split; [revert H2; apply optb_ok, charb_ok|]. split; [revert H1; apply optb_ok, charb_ok|].
  revert H0. apply optb_ok, charb_ok.
Qed.

Lemma itemb_ok i : itemb i = true -> item_ok i.
Proof.
  destruct i as [cp n d|a b label d]; cbn [itemb item_ok]; intros H.
  - do 4 (apply andb_true_iff in H as [H ?H]). split; [now apply codeb_ok|]. split; [now apply filledb_ok|].
    split; [intros K; apply ends_with_spec in K; change (text ", First>") with (letters ", First>") in *; rewrite K in *; discriminate|].
    split; [intros K; apply ends_with_spec in K; change (text ", Last>") with (letters ", Last>") in *; rewrite K in *; discriminate|].
    now apply infob_ok.
  - do 8 (apply andb_true_iff in H as [H ?H]). split; [now apply codeb_ok|]. split; [now apply codeb_ok|].
    split; [lia|]. split; [lia|]. split; [apply Bool.eqb_prop in H4; rewrite <- !scalarb_spec, H4; tauto|].
    split; [now apply plainb_ok|]. split; [now apply lacks_ok|]. split; [now apply lacks_ok|]. now apply infob_ok.
Qed.

Lemma good_datab f : forallb itemb f && increasingb f = true -> good_data f.
Proof.
  intros H. apply andb_true_iff in H as [H1 H2]. split.
  - apply Forall_forall. intros i Hi. rewrite forallb_forall in H1. now apply itemb_ok, H1.
  - clear H1. induction f as [|i f IH]; cbn in H2; [constructor|]. apply andb_true_iff in H2 as [H2 H3].
    constructor; [now apply IH|]. apply Forall_forall. intros j Hj. rewrite forallb_forall in H2. specialize (H2 j Hj). lia.
Qed.

Definition exclusionb (r : row) : bool :=
  codeb (lo r) && (match hi r with None => true | Some h => codeb h end) && forallb blankb (pad r) &&
  str_eqb (pad' r) [0x20] && negb (match value r with [] => true | _ => false end) && forallb word (value r) &&
  (match tail r with [] => true | c :: _ => negb (word c) end) && newlineb (tail r) &&
  (negb (str_eqb (value r) (text "Full_Composition_Exclusion")) ||
   match tail r with a :: b :: _ => (a =? 0x20) && (b =? 0x23) | _ => false end).

Lemma exclusionb_ok x :
  forallb (fun l => match l with Data r => exclusionb r | Other t => otherb t end) x = true -> exclusion_file x.
Proof.
  intros H. apply Forall_forall. intros l Hl. rewrite forallb_forall in H. specialize (H l Hl).
  destruct l as [r|t]; [|now apply otherb_ok]. unfold exclusionb in H. do 8 (apply andb_true_iff in H as [H ?H]).
  split; [now apply codeb_ok|]. split.
  { intros h E. rewrite E in *. now apply codeb_ok. }
  split. { apply Forall_forall. intros c Hc. rewrite forallb_forall in H6. specialize (H6 c Hc). unfold blankb in H6. unfold is_blank. lia. }
  split; [now apply str_eqb_spec|]. split.
  { split; [intros E; rewrite E in *; discriminate|]. apply Forall_forall. intros c Hc. rewrite forallb_forall in H3.
    now apply word_iff, H3. }
  split. { unfold after_word. destruct (tail r) as [|c t]; [exact I|]. cbn. intros K. apply word_iff in K. rewrite K in *. discriminate. }
  split; [now apply newlineb_ok|]. intros E. apply str_eqb_spec in E. change (letters "Full_Composition_Exclusion") with (text "Full_Composition_Exclusion") in E.
  rewrite E in H0. cbn [negb orb] in H0. destruct (tail r) as [|a [|b t]]; try discriminate.
  apply andb_true_iff in H0 as [K1 K2]. exists t. cbn. f_equal; [lia|f_equal; lia].
Qed.

(** * Examples *)
Definition simple (g c b : string) : info :=
  mkInfo (text g) (text c) (text b) None [] None None None false None None None None.
Definition decomposed (g c b : string) (t : option string) (m : list string) : info :=
  mkInfo (text g) (text c) (text b) (option_map text t) (map text m) None None None false None None None None.

Definition data_lines : list item :=
  [One (text "000A") (text "<control>")
     (mkInfo (text "Cc") (text "0") (text "B") None [] None None None false (Some (text "LINE FEED (LF)")) None None None);
   One (text "0028") (text "LEFT PARENTHESIS")
     (mkInfo (text "Ps") (text "0") (text "ON") None [] None None None true (Some (text "OPENING PARENTHESIS")) None None None);
   One (text "0041") (text "LATIN CAPITAL LETTER A")
     (mkInfo (text "Lu") (text "0") (text "L") None [] None None None false None None (Some (text "0061")) None);
   One (text "00BD") (text "VULGAR FRACTION ONE HALF")
     (mkInfo (text "No") (text "0") (text "ON") (Some (text "fraction")) [text "0031"; text "2044"; text "0032"] None None
        (Some (text "1/2")) false (Some (text "FRACTION ONE HALF")) None None None);
   One (text "00C0") (text "LATIN CAPITAL LETTER A WITH GRAVE") (decomposed "Lu" "0" "L" None ["0041"; "0300"]);
   One (text "0300") (text "COMBINING GRAVE ACCENT") (simple "Mn" "230" "NSM");
   One (text "0340") (text "COMBINING GRAVE TONE MARK") (decomposed "Mn" "230" "NSM" None ["0300"]);
   One (text "0344") (text "COMBINING GREEK DIALYTIKA TONOS") (decomposed "Mn" "230" "NSM" None ["0308"; "0301"]);
   One (text "0F0B") (text "TIBETAN MARK INTERSYLLABIC TSHEG -A") (simple "Po" "0" "L");
   Span (text "4E00") (text "4E0F") (text "CJK Ideograph") (simple "Lo" "0" "L");
   Span (text "D800") (text "D80F") (text "Non Private Use High Surrogate") (simple "Cs" "0" "L")]%string.

Definition data_file : string :=
"000A;<control>;Cc;0;B;;;;;N;LINE FEED (LF);;;;
0028;LEFT PARENTHESIS;Ps;0;ON;;;;;Y;OPENING PARENTHESIS;;;;
0041;LATIN CAPITAL LETTER A;Lu;0;L;;;;;N;;;;0061;
00BD;VULGAR FRACTION ONE HALF;No;0;ON;<fraction> 0031 2044 0032;;;1/2;N;FRACTION ONE HALF;;;;
00C0;LATIN CAPITAL LETTER A WITH GRAVE;Lu;0;L;0041 0300;;;;N;;;;;
0300;COMBINING GRAVE ACCENT;Mn;230;NSM;;;;;N;;;;;
0340;COMBINING GRAVE TONE MARK;Mn;230;NSM;0300;;;;N;;;;;
0344;COMBINING GREEK DIALYTIKA TONOS;Mn;230;NSM;0308 0301;;;;N;;;;;
0F0B;TIBETAN MARK INTERSYLLABIC TSHEG -A;Po;0;L;;;;;N;;;;;
4E00;<CJK Ideograph, First>;Lo;0;L;;;;;N;;;;;
4E0F;<CJK Ideograph, Last>;Lo;0;L;;;;;N;;;;;
D800;<Non Private Use High Surrogate, First>;Cs;0;L;;;;;N;;;;;
D80F;<Non Private Use High Surrogate, Last>;Cs;0;L;;;;;N;;;;;
".

Lemma data_lines_text : data_text data_lines = text data_file.
Proof. vm_compute. reflexivity. Qed.
Lemma data_lines_good : good_data data_lines.
Proof. apply good_datab. vm_compute. reflexivity. Qed.

Definition exclusion_lines : list line :=
  [Other (text "# Derived Property: Full_Composition_Exclusion");
   spaced "0340" (Some "0341") 4 "Full_Composition_Exclusion" " # Mn   [2] COMBINING GRAVE TONE MARK..COMBINING ACUTE TONE MARK";
   spaced "0343" (Some "0344") 4 "Full_Composition_Exclusion" " # Mn   [2] COMBINING GREEK KORONIS..COMBINING GREEK DIALYTIKA TONOS";
   Other [];
   spaced "00C0" (Some "00C5") 4 "NFD_QC" "; N # L&   [6] LATIN CAPITAL LETTER A WITH GRAVE..LATIN CAPITAL LETTER A WITH RING ABOVE"]%string.

Lemma exclusion_lines_good : exclusion_file exclusion_lines.
Proof. apply exclusionb_ok. vm_compute. reflexivity. Qed.

(** A noncharacter. *)
Lemma noncharacter_refuted : exists c, scalar c /\ noncharacter c /\
  (forall f, good_data f -> info_of f c = None ->
     exists t, obind (data_from_str (data_text f)) emit_bidi_class = Ret t /\ find t c = Ret None) /\
  UcdModel.bidi_class c = BC_LeftToRight.
Proof.
  exists 0xFFFE. assert (scalar 0xFFFE) as Hs by now apply scalarb_spec. split; [exact Hs|].
  split; [right; left; reflexivity|]. split; [|vm_compute; reflexivity].
  intros f Hf Hn. destruct (bidi_class_ok f Hf) as (t & E & _ & H). exists t. split; [exact E|]. rewrite H by exact Hs.
  unfold bidi_class_of. rewrite Hn. reflexivity.
Qed.

Definition name_lines : list item :=
  [One (text "000A") (text "<control>") (simple "Cc" "0" "B");
   One (text "0F68") (text "TIBETAN LETTER -A") (simple "Lo" "0" "L")].

Lemma name_lines_ok : good_data name_lines /\ good_names name_lines /\
  name_of name_lines 0xF68 = Some (letters "TIBETAN LETTER -A") /\ name_of name_lines 10 = None /\
  exists es, data_from_str (data_text name_lines) = Ret es /\
    find (emit_name_map es) 0xF68 = Ret (Some [letters "TIBETAN"; letters "LETTER"; letters "_A"]) /\
    emit_name_values es = [(letters "TIBETAN", letters "TIBETAN"); (letters "LETTER", letters "LETTER"); (letters "_A", letters "-A")].
Proof.
  split; [apply good_datab; vm_compute; reflexivity|]. split.
  { intros cp n d [E|[E|[]]]; injection E as <- <- <-; [right; eexists; reflexivity|left].
    exists [text "TIBETAN"; text "LETTER"; text "-A"]. split; [discriminate|]. split; [reflexivity|].
    repeat (constructor; [split; [discriminate|]|]); [| | |constructor];
      apply Forall_forall; intros c Hc; cbn in Hc; unfold name_char; lia. }
  split; [reflexivity|]. split; [reflexivity|].
  eexists. split; [vm_compute; reflexivity|]. split; vm_compute; reflexivity.
Qed.

Lemma data_lines_mappings c m : canonical data_lines c = Some m ->
  (c = 0xC0 /\ m = [0x41; 0x300]) \/ (c = 0x340 /\ m = [0x300]) \/ (c = 0x344 /\ m = [0x308; 0x301]).
Proof.
  unfold canonical, info_of. destruct (List.find (item_covers c) data_lines) as [i|] eqn:E; [|discriminate].
  apply find_in in E as [Hi Hc]. unfold item_covers in Hc. intros H.
  repeat (destruct Hi as [<-|Hi]; [vm_compute in H; try discriminate H; injection H as <-;
    match type of Hc with context [item_low ?i] =>
      let l := eval vm_compute in (item_low i) in let h := eval vm_compute in (item_high i) in
      change (item_low i) with l in Hc; change (item_high i) with h in Hc end;
    first [left; split; [lia|reflexivity] | right; left; split; [lia|reflexivity] | right; right; split; [lia|reflexivity]]|]).
  destruct Hi.
Qed.

Lemma data_lines_short : short_mappings data_lines.
Proof. intros c m _ H. apply data_lines_mappings in H as [[_ ->]|[[_ ->]|[_ ->]]]; cbn; lia. Qed.

Lemma data_lines_distinct : distinct_mappings data_lines exclusion_lines.
Proof.
  intros c c' a b H H' _ _. apply data_lines_mappings in H, H'.
  destruct H as [[-> E]|[[-> E]|[-> E]]], H' as [[-> E']|[[-> E']|[-> E']]]; try reflexivity; congruence.
Qed.

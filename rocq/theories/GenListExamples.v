(** Small files in the formats of IdnaMappingTable.txt, Jamo.txt, NameAliases.txt and NormalizationTest.txt. *)
From Coq Require Import String Ascii List NArith ZArith Lia Bool PeanoNat Sorted ZifyBool ZifyNat ZifyN.
From Verif Require Import Base RangeModel TableModel TableSpec TextModel TableGenModel GenRegex GenModel GenSpec GenBinarySpec
  GenMap GenProofs GenBinary GenExamples GenDataModel GenDataSpec GenDataEntries GenDataExamples
  GenIdnaSpec GenIdna GenListModel GenListSpec GenList.
Import ListNotations.
Open Scope N_scope.
Open Scope list_scope.

Lemma forallb_Forall {A} (p : A -> bool) (P : A -> Prop) l : (forall x, p x = true -> P x) -> forallb p l = true -> Forall P l.
Proof. intros H K. apply Forall_forall. intros x Hx. rewrite forallb_forall in K. auto. Qed.
Lemma blanksb_ok p : forallb blankb p = true -> Forall is_blank p.
Proof. apply forallb_Forall. intros c. unfold blankb, is_blank. lia. Qed.

(** * Tests for well-formed files *)
Definition moreb (m : option (str * list str * str * option (str * str * str))) : bool :=
  match m with
  | None => true
  | Some (p, mp, q, x) =>
      forallb blankb p && forallb charb mp && forallb blankb q &&
      match x with
      | None => true
      | Some (p', s, q') => forallb blankb p' && forallb blankb q' && (str_eqb s (text "NV8") || str_eqb s (text "XV8"))
      end
  end.
Definition idnab (r : idna_row) : bool :=
  codeb (ilo r) && (match ihi r with None => true | Some h => codeb h end) && (ilow r <=? ihigh r) &&
  (scalarb (ilow r) && scalarb (ihigh r) || (0xD800 <=? ilow r) && (ihigh r <=? 0xDFFF)) &&
  forallb blankb (pad1 r) && forallb blankb (pad2 r) && forallb blankb (pad3 r) &&
  existsb (fun s => str_eqb (status r) (text s)) (map fst statuses) && moreb (more r) && newlineb (comment r).

Lemma idnab_ok r : idnab r = true -> idna_row_ok r.
Proof.
  unfold idnab. intros H. do 9 (apply andb_true_iff in H as [H ?H]).
  split; [now apply codeb_ok|]. split. { intros h E. rewrite E in *. now apply codeb_ok. }
  split; [lia|]. split. { apply orb_true_iff in H6 as [K|K]; [left|right; lia]. apply andb_true_iff in K as [K1 K2]. split; now apply scalarb_spec. }
  split; [now apply blanksb_ok|]. split; [now apply blanksb_ok|]. split; [now apply blanksb_ok|]. split.
  { apply existsb_exists in H2 as (s & Hs & E). exists s. split; [exact Hs|]. now apply str_eqb_spec in E. }
  split; [|now apply newlineb_ok]. destruct (more r) as [[[[p mp] q] x]|]; cbn [moreb more_ok] in *; [|exact I].
  do 3 (apply andb_true_iff in H1 as [H1 ?H]). split; [now apply blanksb_ok|]. split; [now apply (forallb_Forall charb); [apply charb_ok|]|].
  split; [now apply blanksb_ok|]. destruct x as [[[p' s] q']|]; [|exact I]. do 2 (apply andb_true_iff in H9 as [H9 ?H]).
  split; [now apply blanksb_ok|]. split; [now apply blanksb_ok|]. apply orb_true_iff in H12 as [K|K]; apply str_eqb_spec in K; auto.
Qed.

Lemma idna_fileb f : forallb (fun l => match l with IdnaData r => idnab r | IdnaOther t => otherb t end) f = true -> idna_file f.
Proof. apply forallb_Forall. intros [r|t]; [apply idnab_ok|apply otherb_ok]. Qed.

Definition startb (p : N -> bool) (t : str) : bool := match t with [] => true | c :: _ => negb (p c) end.
Lemma startb_ok (p : N -> bool) (q : N -> Prop) t : (forall c, p c = true <-> q c) -> startb p t = true -> not_starting q t.
Proof.
  intros H. unfold startb, not_starting. destruct t as [|c t]; [auto|]. intros K L. apply H in L. rewrite L in K. discriminate.
Qed.

Definition jamob (r : jamo_row) : bool :=
  charb (jcode r) && forallb blankb (jpad r) && forallb alpha (jname r) && startb alpha (jtail r) && startb blank (jtail r) && newlineb (jtail r)
  || charb (jcode r) && forallb blankb (jpad r) && forallb alpha (jname r) && startb alpha (jtail r) && newlineb (jtail r) &&
     negb (match jname r with [] => true | _ => false end).
Lemma jamob_ok r : jamob r = true -> jamo_row_ok r.
Proof.
  unfold jamob. intros H. apply orb_true_iff in H as [H|H]; do 5 (apply andb_true_iff in H as [H ?H]);
    (split; [now apply charb_ok|]; split; [now apply blanksb_ok|]).
  - split; [now apply (forallb_Forall alpha); [apply alpha_iff|]|]. split; [now apply (startb_ok alpha); [apply alpha_iff|]|].
    split; [|now apply newlineb_ok]. intros _. now apply (startb_ok blank); [apply blank_iff|].
  - split; [now apply (forallb_Forall alpha); [apply alpha_iff|]|]. split; [now apply (startb_ok alpha); [apply alpha_iff|]|].
    split; [|now apply newlineb_ok]. intros E. rewrite E in H0. discriminate.
Qed.

Definition aliasb (r : alias_row) : bool :=
  charb (acode r) && forallb (fun c => alnum c || (c =? 0x20) || (c =? 0x2D)) (alias r) &&
  existsb (String.eqb (atype r)) (map fst alias_types) && startb alpha (atail r) && newlineb (atail r).
Lemma aliasb_ok r : aliasb r = true -> alias_row_ok r.
Proof.
  unfold aliasb. intros H. do 4 (apply andb_true_iff in H as [H ?H]). split; [now apply charb_ok|].
  split; [now apply (forallb_Forall (fun c => alnum c || (c =? 0x20) || (c =? 0x2D))); [apply in_alias_iff|]|].
  split; [|split; [now apply (startb_ok alpha); [apply alpha_iff|]|now apply newlineb_ok]].
  apply existsb_exists in H2 as (s & Hs & E). apply String.eqb_eq in E. now rewrite E.
Qed.

Definition testb (r : test_row) : bool :=
  forallb (fun l => match l with [] => false | _ => forallb charb l end) [t1 r; t2 r; t3 r; t4 r; t5 r] && newlineb (tnote r).
Lemma testb_ok r : testb r = true -> test_row_ok r.
Proof.
  unfold testb. intros H. apply andb_true_iff in H as [H1 H2]. split; [|now apply newlineb_ok]. revert H1.
  apply forallb_Forall. intros l Hl. destruct l as [|w l]; [discriminate|]. split; [discriminate|].
  revert Hl. apply forallb_Forall, charb_ok.
Qed.

Lemma listingb {A} (b : A -> bool) (ok : A -> Prop) f : (forall a, b a = true -> ok a) ->
  forallb (fun l => match l with Item a => b a | Note t => otherb t end) f = true -> good_listing ok f.
Proof. intros H. apply forallb_Forall. intros [r|t]; [apply H|apply otherb_ok]. Qed.

(** * Examples *)
Definition blank1 : str := [0x20].
Definition idna_lines : list idna_line :=
  [IdnaOther (text "# IdnaMappingTable.txt"); IdnaOther [];
   IdnaData (mkIdnaRow (text "0041") None (text "          ") blank1 (text "mapped") (text "                 ")
     (Some (blank1, [text "0061"], (text "         "), None)) (text " 1.1  LATIN CAPITAL LETTER A"));
   IdnaData (mkIdnaRow (text "0061") (Some (text "007A")) (text "    ") blank1 (text "valid") blank1 None (text " letters"));
   IdnaData (mkIdnaRow (text "00A8") None blank1 blank1 (text "disallowed_STD3_mapped") blank1
     (Some (blank1, [text "0020"; text "0308"], blank1, None)) (text " 1.1"));
   IdnaData (mkIdnaRow (text "00AD") None blank1 blank1 (text "ignored") blank1 None (text " SOFT HYPHEN"));
   IdnaData (mkIdnaRow (text "00D7") None blank1 blank1 (text "valid") blank1
     (Some (blank1, [], blank1, Some (blank1, text "NV8", blank1))) (text " MULTIPLICATION SIGN"));
   IdnaData (mkIdnaRow (text "200C") (Some (text "200D")) blank1 blank1 (text "deviation") blank1
     (Some (blank1, [], blank1, None)) (text " 1.1"));
   IdnaData (mkIdnaRow (text "D800") (Some (text "DFFF")) blank1 blank1 (text "disallowed") blank1 None (text " 2.0"))].

Lemma idna_lines_good : idna_file idna_lines.
Proof. apply idna_fileb. vm_compute. reflexivity. Qed.

Lemma idna_lines_table : emit_idna_mapping (idna_text idna_lines) =
  Ret (Range [(closed 0x41 0x41, ("Mapped"%string, Some [0x61])); (closed 0x61 0x7A, ("Valid"%string, None));
    (closed 0xA8 0xA8, ("DisallowedStd3Mapped"%string, Some [0x20; 0x308])); (closed 0xAD 0xAD, ("Ignored"%string, None));
    (closed 0xD7 0xD7, ("Valid"%string, None)); (closed 0x200C 0x200D, ("Deviation"%string, Some []))]).
Proof. vm_compute. reflexivity. Qed.

Definition jamo_lines : list (entry jamo_row) :=
  [Note (text "# Jamo.txt"); Note [];
   Item (mkJamo (text "1100") blank1 (text "G") (text "  # HANGUL CHOSEONG KIYEOK"));
   Item (mkJamo (text "110B") blank1 [] (text "# HANGUL CHOSEONG IEUNG"));
   Item (mkJamo (text "11C2") blank1 (text "H") [])].
Lemma jamo_lines_ok : good_listing jamo_row_ok jamo_lines /\ jamo_of jamo_lines 0x110B = Some [] /\
  emit_jamo (listing show_jamo jamo_lines) = Ret (Direct [(0x1100, text "G"); (0x110B, []); (0x11C2, text "H")]).
Proof. split; [|split; vm_compute; reflexivity]. apply (listingb jamob); [apply jamob_ok|]. vm_compute. reflexivity. Qed.

Definition alias_lines : list (entry alias_row) :=
  [Note (text "# NameAliases.txt");
   Item (mkAlias (text "000A") (text "LINE FEED") "control" []);
   Item (mkAlias (text "000A") (text "NEW LINE") "control" []);
   Item (mkAlias (text "000A") (text "LF") "abbreviation" (text " # twice"));
   Item (mkAlias (text "000A") (text "LINE FEED") "control" []);
   Item (mkAlias (text "FEFF") (text "BYTE ORDER MARK") "alternate" [])].
Lemma alias_lines_good : good_listing alias_row_ok alias_lines.
Proof. apply (listingb aliasb); [apply aliasb_ok|]. vm_compute. reflexivity. Qed.

Definition test_lines : list (entry test_row) :=
  [Note (text "# NormalizationTest.txt"); Note (text "@Part0 # Specific cases");
   Item (mkTest [text "1E0A"] [text "1E0A"] [text "0044"; text "0307"] [text "1E0A"] [text "0044"; text "0307"]
     (text " LATIN CAPITAL LETTER D WITH DOT ABOVE"))].
Lemma test_lines_good : good_listing test_row_ok test_lines.
Proof. apply (listingb testb); [apply testb_ok|]. vm_compute. reflexivity. Qed.

(** A text is first found where a search finds it. *)
Fixpoint prefixb (m s : str) : bool :=
  match m, s with [], _ => true | x :: m', y :: s' => (x =? y) && prefixb m' s' | _, [] => false end.
Lemma prefixb_app m s : prefixb m (m ++ s) = true.
Proof. induction m as [|x m IH]; [reflexivity|]. cbn. now rewrite N.eqb_refl, IH. Qed.
Fixpoint absent_before (m pre s : str) : bool :=
  match pre with [] => true | _ :: pre' => negb (prefixb m s) && absent_before m pre' (match s with [] => [] | _ :: s' => s' end) end.
Lemma first_placeb m pre rest : absent_before m pre (pre ++ m ++ rest) = true -> first_place m pre rest.
Proof.
  intros H p q E. rewrite E in H. clear E rest. revert pre H. induction p as [|c p IH]; intros pre H.
  - destruct pre as [|d pre]; [cbn; lia|]. exfalso. cbn [app absent_before] in H. now rewrite prefixb_app in H.
  - destruct pre as [|d pre]; [cbn; lia|]. cbn [app absent_before] in H. apply andb_true_iff in H as [_ H].
    apply IH in H. cbn [length]. lia.
Qed.

Definition readme_pre : str := text "# This directory contains the final data files" ++ [10] ++ text "# ".
Lemma readme_first : first_place (letters "for Version ") readme_pre (text "10.0.0 of the Unicode Standard.").
Proof. apply first_placeb. vm_compute. reflexivity. Qed.

Lemma dots_refuted : exists s v, version_from_str digit s = Ret v /\
  ~ exists pre a b c post, s = pre ++ letters "for Version " ++ a ++ [0x2E] ++ b ++ [0x2E] ++ c ++ post.
Proof.
  exists (text "for Version 12345"), (1, 3, 5). split; [vm_compute; reflexivity|].
  intros (pre & a & b & c & post & E).
  assert (In 0x2E (text "for Version 12345")) as K.
  { rewrite E. rewrite !in_app_iff. cbn [In]. tauto. }
  revert K. apply lacks_ok. reflexivity.
Qed.

Lemma ascii_digit : ascii_digits digit.
Proof. intros c _. apply digit_iff. Qed.

(** The types of a character are those of which it has aliases. *)
Lemma alias_consistent f n ty : good_listing alias_row_ok f -> In (n, ty) alias_types ->
  exists t u, emit_alias_types (listing show_alias f) = Ret t /\ emit_aliases ty (listing show_alias f) = Ret u /\
    forall c, scalar c -> ((exists l, find t c = Ret (Some l) /\ In ty l) <-> exists l, find u c = Ret (Some l)).
Proof.
  intros Hf Hn. destruct (alias_types_answers f Hf) as (t & Et & _ & Ht). destruct (alias_answers f n ty Hf Hn) as (u & Eu & _ & Hu).
  exists t, u. split; [exact Et|]. split; [exact Eu|]. intros c Hc. rewrite (Hu c Hc). destruct (Ht c Hc) as (l & -> & Hl).
  assert (In ty l <-> In n (types_listed f c)) as E.
  { clear -Hn Hl. induction Hl as [|x y xs ys Hxy Hl IH]; [reflexivity|]. cbn [In]. rewrite IH.
    assert (y = ty <-> x = n) as ->; [|reflexivity].
    clear -Hn Hxy. cbn in Hn, Hxy.
    repeat (destruct Hn as [[= <- <-]|Hn]; [repeat (destruct Hxy as [[= <- <-]|Hxy]; [split; congruence|]); destruct Hxy|]). destruct Hn. }
  assert (In n (types_listed f c) <-> aliases_listed f n c <> []) as E'.
  { unfold types_listed, aliases_listed. rewrite in_firsts, firsts_nil. split.
    - intros H K. apply in_map_iff in H as (r & Er & Hr). apply filter_In in Hr as [Hr1 Hr2].
      assert (In (alias r) []) as [].
      rewrite <- K. apply in_map, filter_In. split; [exact Hr1|]. rewrite Hr2, Er. cbn. apply String.eqb_refl.
    - intros H. destruct (filter (fun r => of_char c r && String.eqb (atype r) n) (items f)) as [|r rs] eqn:F; [now elim H|].
      assert (In r (r :: rs)) as K by now left. rewrite <- F in K. apply filter_In in K as [K1 K2].
      apply andb_true_iff in K2 as [K2 K3]. apply String.eqb_eq in K3. rewrite <- K3. apply in_map, filter_In. auto. }
  split.
  - intros (l' & E1 & Hin). unfold unless_empty in E1. destruct l as [|x xs]; [discriminate|]. injection E1 as <-.
    apply E, E' in Hin. destruct (aliases_listed f n c) as [|a as_]; [congruence|]. eexists. reflexivity.
  - intros (l' & E1). assert (In ty l) as Hin.
    { apply E, E'. intros K. rewrite K in E1. discriminate. }
    destruct l as [|x xs]; [destruct Hin|]. exists (x :: xs). split; [reflexivity|exact Hin].
Qed.

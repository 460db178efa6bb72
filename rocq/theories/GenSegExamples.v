(** A small file in the format of GraphemeBreakTest.txt. *)
From Coq Require Import String List NArith ZArith Lia Bool PeanoNat ZifyBool ZifyNat ZifyN.
From Verif Require Import Base GenRegex GenModel GenSpec GenBinarySpec GenExamples GenDataExamples GenListExamples GenSegModel GenSegSpec.
Import ListNotations.
Open Scope list_scope.
Open Scope N_scope.

Definition filled {A} (l : list A) : bool := match l with [] => false | _ => true end.
Lemma filled_ok {A} (l : list A) : filled l = true -> l <> [].
Proof. destruct l; discriminate. Qed.

Definition testedb (x : tested) : bool :=
  codeb (code x) && (filled (named x) && forallb (fun c => word c || existsb (N.eqb c) (letters " <>()-")) (named x)) &&
  (filled (valued x) && forallb word (valued x)) &&
  (filled (by_rule x) && forallb (fun c => negb (existsb (N.eqb c) (10 :: letters "#]"))) (by_rule x)).

Lemma existsb_In c l : existsb (N.eqb c) l = true <-> In c l.
Proof. rewrite existsb_exists. split; [intros (x & H & E); apply N.eqb_eq in E; now subst|]. intros H. exists c. now rewrite N.eqb_refl. Qed.

Lemma word_is c : word c = true -> is_word c.
Proof. unfold word, alnum, alpha, digit, is_word, is_digit. lia. Qed.

Lemma testedb_ok x : testedb x = true -> good_tested x.
Proof.
  unfold testedb. intros H. do 3 (apply andb_true_iff in H as [H ?H]).
  apply andb_true_iff in H0 as [H0 H0'], H1 as [H1 H1'], H2 as [H2 H2'].
  split; [now apply codeb_ok|]. split; [now apply filled_ok|]. split.
  { eapply forallb_Forall; [|eassumption]. cbn beta. intros c Hc. apply orb_true_iff in Hc as [Hc|Hc]; [left; now apply word_is|right; now apply existsb_In]. }
  split; [now apply filled_ok|]. split; [eapply forallb_Forall; [|eassumption]; apply word_is|].
  split; [now apply filled_ok|]. eapply forallb_Forall; [|eassumption]. cbn beta. intros c Hc K. apply existsb_In in K. now rewrite K in Hc.
Qed.

Definition lineb (x : test_line) : bool :=
  match x with
  | Tested sp sp' l => forallb blankb sp && forallb blankb sp' && filled l && forallb testedb l
  | Remark [] => true
  | Remark (c :: u) => (c =? 0x23) && negb (existsb (N.eqb 10) u)
  end.

Lemma lineb_ok x : lineb x = true -> good_test_line x.
Proof.
  destruct x as [sp sp' l|[|c u]]; cbn [lineb good_test_line]; intros H.
  - do 3 (apply andb_true_iff in H as [H ?H]). split; [now apply blanksb_ok|]. split; [now apply blanksb_ok|].
    split; [now apply filled_ok|]. eapply forallb_Forall; [|eassumption]. apply testedb_ok.
  - now left.
  - apply andb_true_iff in H as [H1 H2]. apply N.eqb_eq in H1 as ->. right. exists u. split; [reflexivity|].
    intros K. apply existsb_In in K. now rewrite K in H2.
Qed.

(** The lines
    [# a comment], an empty line,
    [÷ 000D × 000A ÷ 0061 × 0903 ÷	#  ÷ [0.2] <CARRIAGE RETURN (CR)> (CR) × [3.0] <LINE FEED (LF)> (LF) ÷ [4.0] ..],
    and a test with a surrogate. *)
Definition example_file : list test_line :=
  [Remark (letters "# a comment"); Remark [];
   Tested [9] [0x20; 0x20]
     [mkTested (letters "000D") (letters "<CARRIAGE RETURN (CR)>") (letters "CR") false (letters "3.0");
      mkTested (letters "000A") (letters "<LINE FEED (LF)>") (letters "LF") true (letters "4.0");
      mkTested (letters "0061") (letters "LATIN SMALL LETTER A") (letters "Other") false (letters "9.1");
      mkTested (letters "0903") (letters "DEVANAGARI SIGN VISARGA") (letters "SpacingMark") true (letters "0.3")];
   Tested [9] [0x20; 0x20] [mkTested (letters "D800") (letters "<surrogate-D800>") (letters "Control") true (letters "0.3")]].

Lemma example_good : Forall good_test_line example_file.
Proof. apply (forallb_Forall lineb); [apply lineb_ok|reflexivity]. Qed.

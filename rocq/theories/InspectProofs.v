(** Proofs about [unic-inspector]. *)
From Coq Require Import String List NArith Bool Lia ZifyBool ZifyNat ZifyN.
From Verif Require Import Base RangeModel TableModel TableSpec TableProofs TextModel Enums TableTypes TablesMisc
  TablesCategory TablesNames UcdModel UcdProofs TablePiecewise UcdLemmas CliModel CliSpec CliProofs NameParseModel
  NameParseProofs NameModel NameProofs NameListModel NameListSpec NameListProofs NameOrder EchoModel EchoSpec EchoProofs
  InspectSpec.
Import ListNotations.
Open Scope list_scope.
Open Scope N_scope.

Local Opaque NAMES names_trie NAME_ALIAS_ABBREVIATIONS GENERAL_CATEGORY.

Lemma abbreviations_lookup c : name_aliases_of c NA_NameAbbreviations = lookup NAME_ALIAS_ABBREVIATIONS c.
Proof. reflexivity. Qed.
Lemma wf_abbreviations : wf_table NAME_ALIAS_ABBREVIATIONS.
Proof. exact (wf_alias_table NA_NameAbbreviations). Qed.

(** The characters without a name, and their abbreviations. *)
Definition nameless_check (t : trie) (a : option (list str)) (g : GeneralCategory) : bool :=
  match g with
  | GC_Control =>
      match a with
      | Some (s :: _) => match trie_find s t with None => true | Some _ => false end
                         && negb (existsb (fun p => starts p s) (PREFIX_HANGUL_SYLLABLE :: prefixes))
                         && negb (str_eqb s (ident "<none>"))
      | _ => false
      end
  | GC_Unassigned | GC_Surrogate | GC_PrivateUse => match a with None => true | Some _ => false end
  | _ => match a with Some [] => false | _ => true end
  end.
Lemma nameless_checked : (let t := names_trie in
  check2 NAME_ALIAS_ABBREVIATIONS GENERAL_CATEGORY (fun a g => nameless_check t a (gcv g))) = true.
Proof. vm_compute. reflexivity. Qed.
Lemma nameless c : nameless_check names_trie (lookup NAME_ALIAS_ABBREVIATIONS c) (general_category c) = true.
Proof.
  pose proof nameless_checked as K. cbv zeta in K.
  pose proof (piecewise2 _ _ _ wf_abbreviations wf_GENERAL_CATEGORY K c) as H. cbv beta in H.
  unfold general_category. rewrite lookup_or_lookup by exact wf_GENERAL_CATEGORY. exact H.
Qed.

Definition firsts_check : bool :=
  forallb (fun e => (fst (fst e) =? snd (fst e)) &&
    forallb (fun f => match snd e, snd f with
                      | s :: _, t :: _ => implb (str_eqb s t) (fst (fst e) =? fst (fst f))
                      | _, _ => false end) (entries NAME_ALIAS_ABBREVIATIONS)) (entries NAME_ALIAS_ABBREVIATIONS).
Lemma firsts_checked : firsts_check = true.
Proof. vm_compute. reflexivity. Qed.
Lemma firsts_distinct c d s ss ts : lookup NAME_ALIAS_ABBREVIATIONS c = Some (s :: ss) ->
  lookup NAME_ALIAS_ABBREVIATIONS d = Some (s :: ts) -> c = d.
Proof.
  rewrite !lookup_scan by exact wf_abbreviations. intros H1 H2.
  apply scan_some in H1 as ([[lo1 hi1] v1] & I1 & C1 & E1). apply scan_some in H2 as ([[lo2 hi2] v2] & I2 & C2 & E2).
  cbn [snd] in E1, E2. subst v1 v2. pose proof firsts_checked as K. unfold firsts_check in K. rewrite forallb_forall in K.
  pose proof (K _ I1) as K1. pose proof (K _ I2) as K2. cbn [fst snd] in K1, K2.
  apply andb_true_iff in K1 as [Q1 K1]. apply andb_true_iff in K2 as [Q2 _]. rewrite forallb_forall in K1.
  specialize (K1 _ I2). cbn [fst snd] in K1. rewrite (proj2 (str_eqb_eq s s) eq_refl) in K1. cbn [implb] in K1.
  unfold covers in C1, C2. cbn [fst snd] in C1, C2. lia.
Qed.

Lemma unnamed_category c : Name_of c = None -> general_category c = GC_Control \/
  general_category c = GC_Unassigned \/ general_category c = GC_Surrogate \/ general_category c = GC_PrivateUse.
Proof.
  intros H. pose proof (named_iff c) as N1.
  destruct (general_category c) eqn:E; auto; exfalso;
    (destruct (proj2 N1) as (n & Hn); [unfold graphic_or_format; repeat split; discriminate|congruence]).
Qed.

Lemma display_shown c : exists s, display_name c = Ret s /\ shown_name c s.
Proof.
  unfold display_name. destruct (Name_of c) as [n|] eqn:E.
  - destruct (names_printed c n E) as (s & F & _). exists s. split; [exact F|]. now apply (shown_listed c n).
  - rewrite abbreviations_lookup. destruct (lookup NAME_ALIAS_ABBREVIATIONS c) as [[|s ss]|] eqn:L.
    + exfalso. pose proof (nameless c) as H. rewrite L in H. unfold nameless_check in H.
      destruct (general_category c); discriminate H.
    + exists s. split; [reflexivity|]. now apply (shown_abbreviation c s ss).
    + exists (ident "<none>"). split; [reflexivity|]. now apply shown_none.
Qed.

Theorem inspect_shows args t : given args t -> Forall scalar t ->
  exists rows, inspect args = Ret rows /\ Forall2 row_of t rows.
Proof.
  intros G H. apply given_join in G. unfold inspect. rewrite G. clear G args.
  induction H as [|c t Hc _ (rows & E & F)]; [exists []; split; [reflexivity|constructor]|].
  cbn [inspect_rows]. destruct (display_shown c) as (s & D & Sh). rewrite D, E. cbn [obind].
  eexists. split; [reflexivity|]. constructor; [|exact F]. constructor; cbn [r_char r_code r_name r_category]; try reflexivity.
  - exists (fmt_upper_hex_w 4 c). split; [reflexivity|]. apply padded_fmt; [now apply scalar_u32|lia].
  - exact Sh.
Qed.

Lemma name_has_no_mark c n : Name_of c = Some n -> name_fmt n <> Ret (ident "<none>").
Proof.
  intros H F. destruct (names_printed c n H) as (s & F' & _ & P). rewrite F in F'. apply Ret_inj in F'. subst s.
  destruct (only _ P 0x3C) as [X|[X|[X|X]]]; [vm_compute; auto|unfold letter in X; lia|unfold digit in X; lia|discriminate X..].
Qed.

Lemma abbreviation_facts c s more : Name_of c = None -> lookup NAME_ALIAS_ABBREVIATIONS c = Some (s :: more) ->
  trie_find s names_trie = None /\ (forall p, In p (PREFIX_HANGUL_SYLLABLE :: prefixes) -> starts p s = false) /\ s <> ident "<none>".
Proof.
  intros N1 L. pose proof (nameless c) as H. rewrite L in H. unfold nameless_check in H.
  destruct (unnamed_category c N1) as [E|[E|[E|E]]]; rewrite E in H; try discriminate H.
  apply andb_true_iff in H as [H H3]. apply andb_true_iff in H as [H1 H2]. split; [|split].
  - destruct (trie_find s names_trie); [discriminate H1|reflexivity].
  - intros p Hp. destruct (starts p s) eqn:X; [|reflexivity]. exfalso. apply negb_true_iff in H2.
    rewrite <- not_true_iff_false in H2. apply H2. apply existsb_exists. eauto.
  - intros ->. rewrite (proj2 (str_eqb_eq _ _) eq_refl) in H3. discriminate H3.
Qed.

Lemma name_not_abbreviation c d n s more : Name_of c = Some n -> name_fmt n = Ret s -> Name_of d = None ->
  lookup NAME_ALIAS_ABBREVIATIONS d = Some (s :: more) -> False.
Proof.
  intros H F N1 L. destruct (abbreviation_facts d s more N1 L) as (T1 & P & _).
  assert (X : derived_name n \/ exists ps, n = NR3 ps).
  { destruct n as [ | |ps]; [left; exact I|left; exact I|right; now exists ps]. }
  destruct X as [D|[ps ->]].
  - destruct (derived_starts _ _ _ H D F) as (p & Hp & Y). rewrite (P p Hp) in Y. discriminate Y.
  - destruct (listed_not_starts _ _ _ H F) as [Y _]. congruence.
Qed.

Theorem shown_names_identify c d s : shown_name c s -> shown_name d s -> c = d \/ s = ident "<none>".
Proof.
  intros Hc Hd.
  destruct Hc as [n s Nc Fc|s mc Nc Lc|Nc Lc]; inversion Hd as [m s' Nd Fd|s' md Nd Ld|Nd Ld]; subst; auto.
  - left. exact (names_distinct c d n m _ Nc Nd Fc Fd).
  - exfalso. exact (name_not_abbreviation c d n _ md Nc Fc Nd Ld).
  - exfalso. exact (name_not_abbreviation d c m _ mc Nd Fd Nc Lc).
  - left. exact (firsts_distinct _ _ _ _ _ Lc Ld).
Qed.

Theorem shown_none_iff c : shown_name c (ident "<none>") <->
  general_category c = GC_Unassigned \/ general_category c = GC_Surrogate \/ general_category c = GC_PrivateUse.
Proof.
  pose proof (nameless c) as K. pose proof (named_iff c) as [K1 K2]. split.
  - intros H. inversion H as [n s Nc Fc E|s mc Nc Lc E|Nc Lc]; subst.
    + exfalso. exact (name_has_no_mark c n Nc Fc).
    + exfalso. destruct (abbreviation_facts c _ mc Nc Lc) as (_ & _ & X). now apply X.
    + rewrite abbreviations_lookup in Lc. rewrite Lc in K.
      destruct (unnamed_category c Nc) as [E|E]; [rewrite E in K; discriminate K|exact E].
  - intros H. apply shown_none.
    + destruct (Name_of c) as [n|] eqn:E; [|reflexivity]. exfalso.
      destruct (K1 ltac:(eauto)) as (A & B & C & D). tauto.
    + rewrite abbreviations_lookup. destruct (lookup NAME_ALIAS_ABBREVIATIONS c); [|reflexivity].
      unfold nameless_check in K. destruct H as [H|[H|H]]; rewrite H in K; discriminate K.
Qed.

(** Proofs about the shipped table of listed names. *)
From Coq Require Import List NArith ZArith Lia Bool ZifyBool ZifyNat ZifyN.
From Verif Require Import Base RangeModel TableModel TableSpec TableProofs Enums TablesNames TablesCategory UcdModel
  UcdProofs TablePiecewise TextModel TextProofs NameModel NameSpec NameProofs NameListModel NameListSpec.
Import ListNotations.
Open Scope N_scope.

Lemma names_wfb : wf_entriesb (entries NAMES) = true.
Proof. vm_compute. reflexivity. Qed.
Lemma wf_NAMES : wf_table NAMES.
Proof. exact (wf_entriesb_sound _ names_wfb). Qed.

(** * Which characters have a name *)
Definition DERIVED : CharDataTable unit := Range (map (fun ab => (mkRange (fst ab) (snd ab), tt))
  [(0x3400, 0x4DB5); (0x4E00, 0x9FEA); (0xAC00, 0xD7A3); (0xF900, 0xFA6D); (0xFA70, 0xFAD9); (0x17000, 0x187EC);
   (0x1B170, 0x1B2FB); (0x20000, 0x2A6D6); (0x2A700, 0x2B734); (0x2B740, 0x2B81D); (0x2B820, 0x2CEA1);
   (0x2CEB0, 0x2EBE0); (0x2F800, 0x2FA1D)]).
Lemma wf_DERIVED : wf_table DERIVED.
Proof. apply wf_entriesb_sound. vm_compute. reflexivity. Qed.

Definition some {A} (o : option A) : bool := match o with Some _ => true | None => false end.

Lemma name_of_some names c : some (name_of names c) = some (lookup DERIVED c) || some (names c).
Proof.
  rewrite lookup_scan by exact wf_DERIVED. unfold name_of.
  cbn [DERIVED entries map fst snd r_low r_high scan]. fold (within 0x3400 0x4DB5 c).
  fold (within 0x4E00 0x9FEA c) (within 0xAC00 0xD7A3 c) (within 0xF900 0xFA6D c) (within 0xFA70 0xFAD9 c)
    (within 0x17000 0x187EC c) (within 0x1B170 0x1B2FB c) (within 0x20000 0x2A6D6 c) (within 0x2A700 0x2B734 c)
    (within 0x2B740 0x2B81D c) (within 0x2B820 0x2CEA1 c) (within 0x2CEB0 0x2EBE0 c) (within 0x2F800 0x2FA1D c).
  generalize (within 0x4E00 0x9FEA c) (within 0xAC00 0xD7A3 c) (within 0xF900 0xFA6D c) (within 0xFA70 0xFAD9 c)
    (within 0x17000 0x187EC c) (within 0x1B170 0x1B2FB c) (within 0x20000 0x2A6D6 c) (within 0x2A700 0x2B734 c)
    (within 0x2B740 0x2B81D c) (within 0x2B820 0x2CEA1 c) (within 0x2CEB0 0x2EBE0 c) (within 0x2F800 0x2FA1D c)
    (within 0x3400 0x4DB5 c).
  intros b1 b2 b3 b4 b5 b6 b7 b8 b9 b10 b11 b12 b13.
  destruct b2; [now destruct b13, b1|]. destruct b13; [reflexivity|]. destruct b1; [reflexivity|].
  destruct b7; [now destruct b3, b4, b5, b6|]. destruct b8; [now destruct b3, b4, b5, b6|].
  destruct b9; [now destruct b3, b4, b5, b6|]. destruct b10; [now destruct b3, b4, b5, b6|].
  destruct b11; [now destruct b3, b4, b5, b6|]. destruct b5; [now destruct b3, b4|].
  destruct b6; [now destruct b3, b4|]. destruct b3; [reflexivity|]. destruct b4; [reflexivity|].
  destruct b12; [reflexivity|]. cbn. now destruct (names c).
Qed.

Definition namedb (g : option GeneralCategory) : bool :=
  match g with
  | None | Some GC_Unassigned | Some GC_Control | Some GC_Surrogate | Some GC_PrivateUse => false
  | _ => true
  end.

Lemma named_check : check3 NAMES GENERAL_CATEGORY DERIVED
  (fun n g d => eqb (some d || some n) (namedb g)) = true.
Proof. vm_compute. reflexivity. Qed.

Theorem named_iff c : (exists n, Name_of c = Some n) <-> graphic_or_format (general_category c).
Proof.
  pose proof (piecewise3 _ _ _ _ wf_NAMES wf_GENERAL_CATEGORY wf_DERIVED named_check c) as H.
  apply eqb_prop in H. fold (listed_names c) in H. rewrite <- name_of_some in H. fold (Name_of c) in H.
  assert (E : namedb (lookup GENERAL_CATEGORY c) = true <-> graphic_or_format (general_category c)).
  { unfold general_category. rewrite lookup_or_lookup by exact wf_GENERAL_CATEGORY. clear.
    unfold graphic_or_format. destruct (lookup GENERAL_CATEGORY c) as [g|]; cbn [namedb].
    - destruct g; split; intros X; first [discriminate X | reflexivity | (repeat split; discriminate)
        | destruct X as (A & B & C & D); exfalso; first [now apply A | now apply B | now apply C | now apply D]].
    - split; [discriminate|]. intros [A _]. now destruct A. }
  rewrite <- E, <- H. destruct (Name_of c) as [n|]; cbn [some].
  - split; [reflexivity|]. intros _. now exists n.
  - split; [intros [n [=]]|discriminate].
Qed.

(** * The shape of names *)
Inductive state := Start | Alnum | Sp | Hy | SpHy.
Definition letterb (c : N) : bool := (0x41 <=? c) && (c <=? 0x5A).
Definition digitb (c : N) : bool := (0x30 <=? c) && (c <=? 0x39).
Definition next (st : state) (c : N) : option state :=
  match st with
  | Start => if letterb c then Some Alnum else None
  | Alnum => if letterb c || digitb c then Some Alnum else if c =? space then Some Sp
             else if c =? hyphen then Some Hy else None
  | Sp => if letterb c then Some Alnum else if c =? hyphen then Some SpHy else None
  | Hy => if letterb c || digitb c then Some Alnum else if c =? space then Some Sp else None
  | SpHy => if letterb c || digitb c then Some Alnum else None
  end.
Fixpoint run (st : state) (s : list N) : option state :=
  match s with
  | [] => Some st
  | c :: r => match next st c with Some st' => run st' r | None => None end
  end.
Definition properb (s : list N) : bool := match run Start s with Some Alnum => true | _ => false end.

Lemma run_app s t : forall st, run st (s ++ t) = match run st s with Some st' => run st' t | None => None end.
Proof.
  induction s as [|c s IH]; intros st; cbn [app run]; [reflexivity|]. destruct (next st c); [apply IH|reflexivity].
Qed.

Ltac steps H := repeat match type of H with
  | context [if ?b then _ else _] => let E := fresh "E" in destruct b eqn:E; cbn [run next] in H; try discriminate H
  end.

Lemma properb_sound s : properb s = true -> proper_name s.
Proof.
  unfold properb. destruct (run Start s) as [[]|] eqn:H; try discriminate. intros _.
  assert (Mid : forall u m v, s = u ++ m ++ v -> exists st, run st m <> None).
  { intros u m v E. rewrite E, run_app in H. destruct (run Start u) as [st|]; [|discriminate]. exists st.
    rewrite run_app in H. intros X. rewrite X in H. discriminate. }
  assert (Bad : forall u m v, (forall st, run st m = None) -> s <> u ++ m ++ v).
  { intros u m v B E. destruct (Mid u m v E) as (st & X). now rewrite B in X. }
  constructor.
  - intros c Hin. apply in_split in Hin as (u & v & E). destruct (Mid u [c] v E) as (st & X).
    cbn [run] in X. unfold letter, digit. destruct st; cbn [next] in X; unfold letterb, digitb in X;
    repeat match type of X with context [if ?b then _ else _] => let E := fresh "E" in destruct b eqn:E end;
    try contradiction; lia.
  - destruct s as [|c r]; [discriminate|]. exists c, r. split; [reflexivity|]. cbn [run next] in H.
    destruct (letterb c) eqn:L; [|discriminate]. unfold letterb in L. unfold letter. lia.
  - destruct (List.exists_last (l := s)) as (r & c & ->); [intros ->; discriminate|]. exists r, c.
    split; [reflexivity|]. rewrite run_app in H. destruct (run Start r) as [st|]; [|discriminate].
    cbn [run] in H. destruct st; cbn [next] in H; unfold letterb, digitb, letter, digit in *;
    repeat match type of H with context [if ?b then _ else _] => let E := fresh "E" in destruct b eqn:E end;
    try discriminate H; lia.
  - intros u d v D. apply Bad. intros st. unfold digit in D.
    assert (letterb d = false) as L by (unfold letterb; lia). assert (d =? hyphen = false) as L' by (unfold hyphen; lia).
    destruct st; cbn [run next letterb digitb space N.leb N.compare andb orb]; try reflexivity; cbn; now rewrite L, L'.
  - intros u v. apply Bad. intros []; reflexivity.
  - intros u v. apply Bad. intros []; reflexivity.
  - intros u v. apply Bad. intros []; reflexivity.
Qed.

(** Listed names, joined. *)
Definition join (ps : list str) : str :=
  match ps with [] => [] | p :: rest => p ++ flat_map (fun piece => 0x20 :: piece) rest end.

Fixpoint starts (p s : str) : bool :=
  match p, s with
  | [], _ => true
  | a :: p', b :: s' => (a =? b) && starts p' s'
  | _, [] => false
  end.
Lemma starts_app p s : starts p (p ++ s) = true.
Proof. induction p as [|a p IH]; [reflexivity|]. cbn. now rewrite N.eqb_refl. Qed.

Definition plainb (p : str) : bool := forallb (fun c => 0x20 <? c) p.

(** Strings to numbers, to exhibit an inverse of the list of names. *)
Inductive trie := T (v : option N) (kids : list (N * trie)).
Definition empty : trie := T None [].
Fixpoint assoc (a : N) (kids : list (N * trie)) : trie :=
  match kids with [] => empty | (b, t) :: r => if a =? b then t else assoc a r end.
Fixpoint update (a : N) (t : trie) (kids : list (N * trie)) : list (N * trie) :=
  match kids with
  | [] => [(a, t)]
  | (b, u) :: r => if a =? b then (a, t) :: r else (b, u) :: update a t r
  end.
Fixpoint trie_find (s : str) (t : trie) : option N :=
  match s, t with
  | [], T v _ => v
  | a :: s', T _ kids => trie_find s' (assoc a kids)
  end.
Fixpoint trie_add (s : str) (c : N) (t : trie) : trie :=
  match s, t with
  | [], T _ kids => T (Some c) kids
  | a :: s', T v kids => T v (update a (trie_add s' c (assoc a kids)) kids)
  end.
Definition names_trie : trie :=
  fold_left (fun t e => trie_add (join (snd e)) (fst (fst e)) t) (entries NAMES) empty.

Definition derivedb (c : N) : bool := some (lookup DERIVED c).
Definition entry_check (t : trie) (e : N * N * list str) : bool :=
  let '(lo, hi, ps) := e in let s := join ps in
  (lo =? hi) && match ps with [] => false | _ => true end && forallb plainb ps && properb s
  && (match trie_find s t with Some c => c =? lo | None => false end)
  && (if scan (entries DERIVED) lo then true else
      negb (existsb (fun p => starts p s) (PREFIX_HANGUL_SYLLABLE :: prefixes))).

Lemma names_check : (let t := names_trie in forallb (entry_check t) (entries NAMES)) = true.
Proof. vm_compute. reflexivity. Qed.

Local Opaque NAMES names_trie.

Record listed_ok (c : N) (ps : list str) : Prop := {
  lo_ne : ps <> [];
  lo_plain : Forall plain_piece ps;
  lo_proper : proper_name (join ps);
  lo_inverse : trie_find (join ps) names_trie = Some c;
  lo_prefix : lookup DERIVED c = None -> forall p, In p (PREFIX_HANGUL_SYLLABLE :: prefixes) -> starts p (join ps) = false
}.

Lemma listed_entry c ps : listed_names c = Some ps -> listed_ok c ps.
Proof.
  unfold listed_names. rewrite lookup_scan by exact wf_NAMES. intros H.
  apply scan_some in H as (e & He & Hc & Hv). pose proof names_check as K. cbv zeta in K.
  rewrite forallb_forall in K. specialize (K e He). clear He. destruct e as [[lo hi] qs]. cbn [snd] in Hv. subst qs.
  unfold covers in Hc. cbn [fst snd] in Hc. unfold entry_check in K. cbv zeta in K.
  apply andb_true_iff in K as [K K6]. apply andb_true_iff in K as [K K5]. apply andb_true_iff in K as [K K4].
  apply andb_true_iff in K as [K K3]. apply andb_true_iff in K as [K1 K2].
  apply N.eqb_eq in K1. assert (E : lo = c) by lia. rewrite E in *. clear K1 E Hc. constructor.
  - intros ->. discriminate K2.
  - rewrite forallb_forall in K3. apply Forall_forall. intros p Hp. specialize (K3 p Hp).
    unfold plainb in K3. rewrite forallb_forall in K3. apply Forall_forall. intros x Hx. specialize (K3 x Hx). lia.
  - now apply properb_sound.
  - destruct (trie_find (join ps) names_trie); [|discriminate]. apply N.eqb_eq in K5. congruence.
  - rewrite lookup_scan by exact wf_DERIVED. intros D. rewrite D in K6. apply negb_true_iff in K6.
    intros p Hp. destruct (starts p (join ps)) eqn:E; [|reflexivity].
    rewrite <- K6. symmetry. apply existsb_exists. now exists p.
Qed.

Lemma listed_not_derived names c ps : name_of names c = Some (NR3 ps) -> lookup DERIVED c = None /\ names c = Some ps.
Proof.
  intros H. split.
  - pose proof (name_of_some no_names c) as E. cbn [no_names some] in E. rewrite orb_false_r in E.
    assert (name_of no_names c = None) as X.
    { unfold name_of in *. repeat match type of H with (if ?b then _ else _) = _ => destruct b; [discriminate H|] end.
      reflexivity. }
    rewrite X in E. destruct (lookup DERIVED c); [discriminate E|reflexivity].
  - destruct (name_of_cases _ _ _ H) as [[E _]|[(p & E & _)|(qs & E & N)]]; try discriminate E. congruence.
Qed.

Lemma listed_hyp : forall c l, listed_names c = Some l -> l <> [] /\ Forall plain_piece l.
Proof. intros c l H. apply listed_entry in H. split; apply H. Qed.

Lemma listed_fmt ps : ps <> [] -> name_fmt (NR3 ps) = Ret (join ps).
Proof. destruct ps; [contradiction|reflexivity]. Qed.

(** Derived names have the right shape. *)
Definition syllables_proper : bool :=
  forallb (fun l => forallb (fun v => forallb (fun t => properb (syllable_name l v t)) (seq 0 28)) (seq 0 21)) (seq 0 19).
Lemma syllables_proper_ok : syllables_proper = true. Proof. vm_compute. reflexivity. Qed.
Lemma syllable_proper l v t : valid l v t -> proper_name (syllable_name l v t).
Proof.
  intros (Hl & Hv & Ht). apply properb_sound. pose proof syllables_proper_ok as H. unfold syllables_proper in H.
  rewrite forallb_forall in H. specialize (H l ltac:(apply in_seq; lia)).
  rewrite forallb_forall in H. specialize (H v ltac:(apply in_seq; lia)).
  rewrite forallb_forall in H. apply H. apply in_seq. lia.
Qed.

Lemma hex_alnum s n : upper_hex s n -> forall st, st <> Start -> st <> Sp -> run st s = Some Alnum.
Proof.
  assert (D : forall d st, d < 16 -> st <> Start -> st <> Sp ->
            next st (if d <? 10 then 0x30 + d else 0x41 + (d - 10)) = Some Alnum).
  { intros d st Hd A B. set (x := if d <? 10 then 0x30 + d else 0x41 + (d - 10)).
    assert (letterb x || digitb x = true) as E.
    { unfold x, letterb, digitb. destruct (N.ltb_spec d 10); lia. }
    destruct st; try contradiction; cbn [next]; now rewrite E. }
  induction 1 as [d Hd|s n d Hs IH Hd]; intros st A B.
  - cbn [run]. now rewrite D.
  - rewrite run_app, IH by assumption. cbn [run]. now rewrite D by (assumption || discriminate).
Qed.

Lemma ideograph_proper p ch : derived_prefix p ch -> proper_name (p ++ fmt_upper_hex ch).
Proof.
  intros H. pose proof (derived_range _ _ H) as R. destruct (fmt_upper_shape ch) as [U _]; [lia|].
  apply properb_sound. unfold properb. rewrite run_app.
  assert (run Start p = Some Hy) as ->.
  { destruct (derived_in p ch H) as [<-|[<-|[<-|[<-|[]]]]]; vm_compute; reflexivity. }
  rewrite (hex_alnum _ _ U) by discriminate. reflexivity.
Qed.

Theorem names_printed c n : Name_of c = Some n ->
  exists s, name_fmt n = Ret s /\ name_len n = Ret (str_bytes s) /\ proper_name s.
Proof.
  intros H. destruct (name_len_fmt listed_names c n) as (s & F & L); [apply listed_hyp|exact H|].
  exists s. split; [exact F|]. split; [exact L|].
  destruct (name_of_cases _ _ _ H) as [[-> Hr]|[(p & -> & Hp)|(ps & -> & Hp)]].
  - destruct (syl_onto c Hr) as (l & v & t & V & ->). rewrite (syl_fmt _ _ _ V) in F. apply Ret_inj in F. subst s.
    now apply syllable_proper.
  - cbn [name_fmt] in F. apply Ret_inj in F. subst s. now apply ideograph_proper.
  - apply listed_entry in Hp. rewrite listed_fmt in F by apply Hp. apply Ret_inj in F. subst s. apply Hp.
Qed.

(** * Names identify characters *)
Lemma derived_starts c n s : Name_of c = Some n -> derived_name n -> name_fmt n = Ret s ->
  exists p, In p (PREFIX_HANGUL_SYLLABLE :: prefixes) /\ starts p s = true.
Proof.
  intros H D F. destruct (name_of_cases _ _ _ H) as [[-> Hr]|[(p & -> & Hp)|(ps & -> & Hp)]]; [..|contradiction].
  - destruct (syl_onto c Hr) as (l & v & t & V & ->). rewrite (syl_fmt _ _ _ V) in F. apply Ret_inj in F. subst s.
    exists PREFIX_HANGUL_SYLLABLE. split; [now left|]. unfold syllable_name. apply starts_app.
  - cbn [name_fmt] in F. apply Ret_inj in F. subst s. exists p. split; [right; exact (derived_in p c Hp)|].
    apply starts_app.
Qed.

Lemma listed_not_starts c ps s : Name_of c = Some (NR3 ps) -> name_fmt (NR3 ps) = Ret s ->
  trie_find s names_trie = Some c /\ forall p, In p (PREFIX_HANGUL_SYLLABLE :: prefixes) -> starts p s = false.
Proof.
  intros H F. apply listed_not_derived in H as [D E]. apply listed_entry in E.
  rewrite listed_fmt in F by apply E. apply Ret_inj in F. subst s. split; [apply E|]. now apply E.
Qed.

Theorem names_distinct c d n m s : Name_of c = Some n -> Name_of d = Some m ->
  name_fmt n = Ret s -> name_fmt m = Ret s -> c = d.
Proof.
  intros Hc Hd Fn Fm.
  assert (X : forall n, derived_name n \/ exists ps, n = NR3 ps).
  { intros [ | |ps]; [left; exact I|left; exact I|right; now exists ps]. }
  destruct (X n) as [Dn|[ps ->]]; destruct (X m) as [Dm|[qs ->]].
  - exact (derived_names_distinct _ _ _ _ _ _ Hc Hd Dn Dm Fn Fm).
  - exfalso. destruct (derived_starts _ _ _ Hc Dn Fn) as (p & Hp & Y).
    destruct (listed_not_starts _ _ _ Hd Fm) as [_ Z]. rewrite (Z p Hp) in Y. discriminate.
  - exfalso. destruct (derived_starts _ _ _ Hd Dm Fm) as (p & Hp & Y).
    destruct (listed_not_starts _ _ _ Hc Fn) as [_ Z]. rewrite (Z p Hp) in Y. discriminate.
  - destruct (listed_not_starts _ _ _ Hc Fn) as [Y _]. destruct (listed_not_starts _ _ _ Hd Fm) as [Z _]. congruence.
Qed.

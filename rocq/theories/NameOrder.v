(** The order of names against the order of their printed forms, for the
    shipped table. *)
From Coq Require Import List NArith ZArith Lia Bool ZifyBool ZifyNat ZifyN String.
From Verif Require Import Base RangeModel TableModel TableSpec TableProofs Enums TablesNames UcdModel
  UcdProofs TextModel TextProofs NameModel NameSpec NameProofs NameListModel NameListSpec NameListProofs.
Import ListNotations.
Open Scope N_scope.
Local Opaque NAMES names_trie.

Lemma Name_obtainable c n : Name_of c = Some n -> obtainable n.
Proof. exact (obtainable_of listed_names c n listed_hyp). Qed.

(** The first word of the printed form and of the string compared first. *)
Lemma head_decompose c n s : Name_of c = Some n -> name_fmt n = Ret s ->
  exists w x y, plain_piece w /\ space_or_end x /\ space_or_end y /\ s = w ++ x /\ head_key n = w ++ y.
Proof.
  assert (PL : forall s, plainb s = true -> plain_piece s).
  { intros r H. unfold plainb in H. rewrite forallb_forall in H. apply Forall_forall. intros x Hx. specialize (H x Hx). lia. }
  intros H F. destruct (name_of_cases _ _ _ H) as [[-> Hr]|[(p & -> & Hp)|(ps & -> & Hp)]].
  - destruct (syl_onto c Hr) as (l & v & t & V & ->). rewrite (syl_fmt _ _ _ V) in F. apply Ret_inj in F. subst s.
    exists (lit "HANGUL"), (0x20 :: lit "SYLLABLE " ++ text (nth l leading_names ""%string)
      ++ text (nth v vowel_names ""%string) ++ text (nth t trailing_names ""%string)), (0x20 :: lit "SYLLABLE ").
    split; [apply PL; reflexivity|]. split; [right; eexists; reflexivity|]. split; [right; eexists; reflexivity|].
    split; reflexivity.
  - cbn [name_fmt] in F. apply Ret_inj in F. subst s. cbn [head_key].
    assert (exists w r, plainb w = true /\ p = w ++ 0x20 :: r) as (w & r & W & ->).
    { destruct (derived_in p c Hp) as [<-|[<-|[<-|[<-|[]]]]].
      - exists (lit "CJK"), (lit "UNIFIED IDEOGRAPH-"). split; reflexivity.
      - exists (lit "TANGUT"), (lit "IDEOGRAPH-"). split; reflexivity.
      - exists (lit "NUSHU"), (lit "CHARACTER-"). split; reflexivity.
      - exists (lit "CJK"), (lit "COMPATIBILITY IDEOGRAPH-"). split; reflexivity. }
    exists w, (0x20 :: r ++ fmt_upper_hex c), (0x20 :: r). split; [now apply PL|].
    split; [right; eexists; reflexivity|]. split; [right; eexists; reflexivity|]. rewrite <- app_assoc. split; reflexivity.
  - apply listed_entry in Hp. rewrite listed_fmt in F by apply Hp. apply Ret_inj in F. subst s.
    destruct Hp as [Ne Pl _ _ _]. destruct ps as [|p ps]; [contradiction|].
    inversion Pl; subst. exists p, (flat_map (fun q => 0x20 :: q) ps), [].
    split; [assumption|]. split; [apply join_space_or_end|]. split; [now left|]. split; [reflexivity|].
    cbn [head_key hd]. now rewrite app_nil_r.
Qed.

Lemma no_space_unique a : forall b x y, ~ In space a -> ~ In space b -> (x = [] \/ exists r, x = space :: r) ->
  (y = [] \/ exists r, y = space :: r) -> a ++ x = b ++ y -> a = b.
Proof.
  induction a as [|c a IH]; intros [|d b] x y Ha Hb Hx Hy E; [reflexivity|..].
  - exfalso. destruct Hx as [->|[r ->]]; [discriminate|]. injection E as E _. apply Hb. now left.
  - exfalso. destruct Hy as [->|[r ->]]; [discriminate|]. injection E as E _. apply Ha. left. congruence.
  - injection E as -> E. f_equal. apply (IH b x y); try assumption; intros X; [apply Ha|apply Hb]; now right.
Qed.

Lemma plain_no_space w : plain_piece w -> ~ In space w.
Proof. intros H X. unfold plain_piece in H. rewrite Forall_forall in H. specialize (H _ X). unfold space in H. lia. Qed.

Lemma first_word_is s w v x : first_word s v -> plain_piece w -> space_or_end x -> s = w ++ x -> v = w.
Proof.
  intros [Hv Hs] Hw Hx E. pose proof (plain_no_space w Hw) as Nw. destruct Hs as [Hs|[r Hs]].
  - apply (no_space_unique v w [] x Hv Nw); [now left|exact Hx|]. rewrite app_nil_r. congruence.
  - apply (no_space_unique v w (space :: r) x Hv Nw); [right; now exists r|exact Hx|]. congruence.
Qed.

Theorem first_words_order c d n m s t w v : Name_of c = Some n -> Name_of d = Some m ->
  name_fmt n = Ret s -> name_fmt m = Ret t -> first_word s w -> first_word t v -> w <> v ->
  exists o, name_cmp n m = Ret o /\ orders o s t.
Proof.
  intros Hc Hd Fn Fm Ws Wt Ne. exists (pure_cmp n m).
  split; [apply name_cmp_pure; [exact (Name_obtainable c n Hc)|exact (Name_obtainable d m Hd)]|].
  destruct (head_decompose c n s Hc Fn) as (w' & x & y & Pw & Sx & Sy & E1 & E2).
  destruct (head_decompose d m t Hd Fm) as (v' & x' & y' & Pv & Sx' & Sy' & E3 & E4).
  rewrite (first_word_is s w' w x Ws Pw Sx E1) in Ne. rewrite (first_word_is t v' v x' Wt Pv Sx' E3) in Ne.
  apply orders_cmp. unfold pure_cmp. rewrite E1, E2, E3, E4, !piece_cmp by assumption.
  destruct (str_cmp w' v') eqn:E; [|reflexivity|reflexivity]. apply str_cmp_eq in E. contradiction.
Qed.

(** * A listed name against a derived one *)
Definition exceptionb (c : N) (s q : str) : bool :=
  starts (lit "CJK ") s && str_eqb q PREFIX_CJK_COMPATIBILITY_IDEOGRAPH
  || (c =? 0x16FE0) && str_eqb q PREFIX_TANGUT_IDEOGRAPH
  || (c =? 0x16FE1) && str_eqb q PREFIX_NUSHU_CHARACTER.
Definition comparison_eqb (a b : comparison) : bool :=
  match a, b with Eq, Eq | Lt, Lt | Gt, Gt => true | _, _ => false end.
Lemma comparison_eqb_eq a b : comparison_eqb a b = true <-> a = b.
Proof. destruct a, b; cbn; split; congruence. Qed.

Definition order_check (e : N * N * list str) : bool :=
  let '(lo, hi, ps) := e in let s := join ps in
  if scan (entries DERIVED) lo then true else
    forallb (fun q => diverges s q && Bool.eqb (comparison_eqb (str_cmp (hd [] ps) q) (str_cmp s q)) (negb (exceptionb lo s q)))
      (PREFIX_HANGUL_SYLLABLE :: prefixes).
Lemma names_order_check : forallb order_check (entries NAMES) = true.
Proof. vm_compute. reflexivity. Qed.

Lemma starts_iff p : forall s, starts p s = true <-> starts_with p s.
Proof.
  induction p as [|a p IH]; intros [|b s]; cbn [starts].
  - split; [now exists []|reflexivity].
  - split; [now exists (b :: s)|reflexivity].
  - split; [discriminate|intros [r [=]]].
  - rewrite andb_true_iff, N.eqb_eq, IH. split.
    + intros [-> [r ->]]. now exists r.
    + intros [r [= -> ->]]. split; [reflexivity|now exists r].
Qed.

Lemma starts_prefix p q y : In p (PREFIX_HANGUL_SYLLABLE :: prefixes) -> In q (PREFIX_HANGUL_SYLLABLE :: prefixes) ->
  (starts_with p (q ++ y) <-> q = p).
Proof.
  intros Hp Hq. split; [|intros ->; now exists y]. intros [r E].
  assert (D : q = p \/ diverges q p = true).
  { destruct Hp as [<-|Hp]; destruct Hq as [<-|Hq].
    - now left.
    - right. apply (hangul_diverges q Hq).
    - right. apply (hangul_diverges p Hp).
    - now apply prefixes_diverge. }
  destruct D as [D|D]; [exact D|]. exfalso. exact (diverges_app _ _ D _ _ E).
Qed.

Lemma exceptional_iff c s q y : In q (PREFIX_HANGUL_SYLLABLE :: prefixes) ->
  (exceptionb c s q = true <-> exceptional c s (q ++ y)).
Proof.
  intros Hq. unfold exceptionb, exceptional.
  change (text "CJK COMPATIBILITY IDEOGRAPH-") with PREFIX_CJK_COMPATIBILITY_IDEOGRAPH.
  change (text "TANGUT IDEOGRAPH-") with PREFIX_TANGUT_IDEOGRAPH.
  change (text "NUSHU CHARACTER-") with PREFIX_NUSHU_CHARACTER. change (text "CJK ") with (lit "CJK ").
  rewrite !starts_prefix by (assumption || (cbn [prefixes In]; tauto)).
  rewrite !orb_true_iff, !andb_true_iff, !str_eqb_eq, !N.eqb_eq, starts_iff. tauto.
Qed.

Lemma listed_against q c ps y : Name_of c = Some (NR3 ps) -> In q (PREFIX_HANGUL_SYLLABLE :: prefixes) ->
  (str_cmp (hd [] ps) q = str_cmp (join ps) (q ++ y) <-> ~ exceptional c (join ps) (q ++ y)).
Proof.
  intros H Hq. apply listed_not_derived in H as [D E]. unfold listed_names in E. rewrite lookup_scan in E by exact wf_NAMES.
  apply scan_some in E as (e & He & Hc & Hv). pose proof names_order_check as K. rewrite forallb_forall in K.
  assert (lo_hi : fst (fst e) = c).
  { clear K. revert He Hc. clear. unfold covers.
    intros He Hc. pose proof names_check as K. cbv zeta in K. rewrite forallb_forall in K. specialize (K e He). clear He.
    destruct e as [[lo hi] qs]. unfold entry_check in K. cbv zeta in K.
    do 5 (apply andb_true_iff in K as [K _]). cbn [fst snd] in *. lia. }
  specialize (K e He). clear He. destruct e as [[lo hi] qs]. cbn [snd fst] in Hv, lo_hi. subst qs lo.
  unfold order_check in K. cbv zeta in K. rewrite lookup_scan in D by exact wf_DERIVED. rewrite D in K.
  rewrite forallb_forall in K. specialize (K q Hq). apply andb_true_iff in K as [K1 K2]. apply eqb_prop in K2.
  rewrite <- (app_nil_r (join ps)) at 1. rewrite (str_cmp_diverges _ _ K1 [] y).
  rewrite <- (exceptional_iff c (join ps) q y Hq), not_true_iff_false, <- negb_true_iff, <- K2.
  symmetry. apply comparison_eqb_eq.
Qed.

Theorem listed_derived_order c d ps m s t : Name_of c = Some (NR3 ps) -> Name_of d = Some m -> derived_name m ->
  name_fmt (NR3 ps) = Ret s -> name_fmt m = Ret t ->
  exists o, name_cmp (NR3 ps) m = Ret o /\ (orders o s t <-> ~ exceptional c s t).
Proof.
  intros Hc Hd Dm Fn Fm. exists (pure_cmp (NR3 ps) m).
  split; [apply name_cmp_pure; [exact (Name_obtainable c _ Hc)|exact (Name_obtainable d m Hd)]|].
  rewrite orders_cmp. pose proof (Name_obtainable c _ Hc) as O. cbn [obtainable] in O.
  rewrite listed_fmt in Fn by apply O. apply Ret_inj in Fn. subst s.
  assert (exists q y, In q (PREFIX_HANGUL_SYLLABLE :: prefixes) /\ t = q ++ y /\ pure_cmp (NR3 ps) m = str_cmp (hd [] ps) q)
    as (q & y & Hq & -> & ->).
  { pose proof (Name_obtainable d m Hd) as Om.
    assert (ND : str_cmp (hd [] ps) (head_key m) <> Eq).
    { intros X. apply str_cmp_eq in X. apply (head_key_kind (NR3 ps) m) in X; [|exact O|exact Om].
      destruct m; [discriminate X|discriminate X|contradiction]. }
    assert (P : pure_cmp (NR3 ps) m = str_cmp (hd [] ps) (head_key m)).
    { unfold pure_cmp. cbn [head_key]. destruct (str_cmp (hd [] ps) _); [contradiction|reflexivity|reflexivity]. }
    destruct (name_of_cases _ _ _ Hd) as [[-> Hr]|[(p & -> & Hp)|(x & -> & _)]]; [..|contradiction].
    - destruct (syl_onto d Hr) as (l & v & t' & V & ->). rewrite (syl_fmt _ _ _ V) in Fm. apply Ret_inj in Fm. subst t.
      exists PREFIX_HANGUL_SYLLABLE. eexists. split; [now left|]. split; [reflexivity|exact P].
    - cbn [name_fmt] in Fm. apply Ret_inj in Fm. subst t. exists p, (fmt_upper_hex d).
      split; [right; exact (derived_in p d Hp)|]. split; [reflexivity|exact P]. }
  rewrite <- (listed_against q c ps y Hc Hq). split; congruence.
Qed.

(** * Two syllables *)
Lemma disjoint_diverges s : forall t, disjoint_words s t -> diverges s t = true.
Proof.
  induction s as [|a s IH]; intros [|b t] [A B].
  - exfalso. apply A. now exists [].
  - exfalso. apply A. now exists (b :: t).
  - exfalso. apply B. now exists (a :: s).
  - cbn [diverges]. destruct (N.eqb_spec a b) as [->|N]; [|reflexivity]. apply IH. split; intros [r E].
    + apply A. exists r. cbn. now rewrite E.
    + apply B. exists r. cbn. now rewrite E.
Qed.

Theorem hangul_order l v t l' v' t' : valid l v t -> valid l' v' t' ->
  first_difference disjoint_words l v t l' v' t' ->
  exists o, name_cmp (NR1 (syl l v t)) (NR1 (syl l' v' t')) = Ret o /\
    orders o (syllable_name l v t) (syllable_name l' v' t').
Proof.
  intros V V' D. unfold name_cmp, collect_jamo_short_names. rewrite (syl_jamos _ _ _ V), (syl_jamos _ _ _ V').
  cbn [obind]. eexists. split; [reflexivity|]. apply orders_cmp. unfold syllable_name. rewrite str_cmp_app.
  unfold first_difference in D. unfold short.
  destruct (Nat.eqb_spec l l') as [->|Nl].
  - rewrite str_cmp_app. destruct (Nat.eqb_spec v v') as [->|Nv].
    + rewrite str_cmp_app. destruct t as [|t], t' as [|t']; cbn [map app List.length repeat Nat.sub slice_cmp opt_cmp];
        rewrite ?str_cmp_refl; cbn [slice_cmp opt_cmp].
      * reflexivity.
      * destruct (text (nth (S t') trailing_names ""%string)) eqn:E; [|reflexivity].
        exfalso. destruct V' as (_ & _ & Ht). do 27 (destruct t' as [|t']; [discriminate E|]). lia.
      * destruct (text (nth (S t) trailing_names ""%string)) eqn:E; [|reflexivity].
        exfalso. destruct V as (_ & _ & Ht). do 27 (destruct t as [|t]; [discriminate E|]). lia.
      * destruct (str_cmp _ _); reflexivity.
    + apply disjoint_diverges in D. rewrite (str_cmp_diverges _ _ D).
      destruct t, t'; cbn [map app List.length repeat Nat.sub slice_cmp opt_cmp]; rewrite str_cmp_refl;
        (destruct (str_cmp _ _) eqn:E; [|reflexivity|reflexivity]); exfalso; apply str_cmp_eq in E; rewrite E in D;
        apply (diverges_app _ _ D [] []); reflexivity.
  - apply disjoint_diverges in D. rewrite (str_cmp_diverges _ _ D).
    destruct t, t'; cbn [map app List.length repeat Nat.sub slice_cmp opt_cmp];
        (destruct (str_cmp _ _) eqn:E; [|reflexivity|reflexivity]); exfalso; apply str_cmp_eq in E; rewrite E in D;
        apply (diverges_app _ _ D [] []); reflexivity.
Qed.

(** * The order and the shape, for the shipped table *)
Theorem names_length c n : Name_of c = Some n -> exists s, name_fmt n = Ret s /\ name_len n = Ret (str_bytes s).
Proof. exact (name_len_fmt listed_names c n (fun c l H => proj1 (listed_hyp c l H))). Qed.

Theorem names_proper c n s : Name_of c = Some n -> name_fmt n = Ret s -> proper_name s.
Proof.
  intros H F. destruct (names_printed c n H) as (s' & F' & _ & P). rewrite F in F'. apply Ret_inj in F'. now subst s'.
Qed.

Theorem shipped_total_order a b c n m k :
  Name_of a = Some n -> Name_of b = Some m -> Name_of c = Some k ->
  (exists o, name_cmp n m = Ret o /\ name_cmp m n = Ret (CompOpp o) /\ (o = Eq <-> a = b)) /\
  (forall o, name_cmp n m = Ret o -> name_cmp m k = Ret o -> name_cmp n k = Ret o).
Proof.
  intros Ha Hb Hc. destruct (name_total_order listed_names a b c n m k listed_hyp Ha Hb Hc) as [(o & C1 & C2 & E) T].
  split; [|exact T]. exists o. split; [exact C1|]. split; [exact C2|]. rewrite E. split.
  - intros ->. destruct (names_printed a m Ha) as (s & F & _). exact (names_distinct a b m m s Ha Hb F F).
  - intros ->. congruence.
Qed.

(** IDNA processing of compatibility equivalent names. *)
From Coq Require Import List NArith ZArith Lia Bool Permutation Relations ZifyBool ZifyN.
From Verif Require Import Base RangeModel TableModel TableSpec TableProofs TableLemmas Enums EnumFacts TableTypes
  TablesNormal TablesIdna TablesBidi UcdModel UcdSpec UcdProofs TablePiecewise TableTree
  HangulModel HangulSpec HangulProofs NormSpec NormOrder NormModel NormTables NormBubble NormIter NormRecomp NormAlgebra NormFillerSpec NormFiller PieceTables
  PunyModel IdnaModel IdnaTables IdnaProofs IdnaProcess IdnaEquivSpec IdnaEquiv IdnaCompatSpec.
From Verif Require SpellTables.
Import ListNotations.
Open Scope N_scope.

Definition text_apart : list N := dotted ++ sigmas ++ fillers.
Definition err_apart : list N := dotted ++ dropped.

(** ** What the tables say *)
Section Check.
  Variable mp : N -> option Mapping.
  Variable dec : bool -> N -> list N.
  Variable bc : N -> BidiClass.
  Definition k_text (tr : bool) (c : N) : bool :=
    leqb (flat_map (dec false) (flat_map (text_g mp tr) (dec true c))) (flat_map (dec false) (text_g mp tr c)).
  Definition k_ok (std3 : bool) (c : N) : bool :=
    eqb (no_errors (flat_map (err_g mp std3) (dec true c))) (no_errors (err_g mp std3 c)).
  Definition k_alike (c : N) : bool :=
    (among text_apart c || (k_text false c && k_text true c)) &&
    (among err_apart c || (k_ok false c && k_ok true c)) &&
    (among sided c || eqb (existsb (fun x => rtl_class (bc x)) (dec true c)) (rtl_class (bc c))).
End Check.
Lemma existsb_ext {A} (f g : A -> bool) l : (forall x, f x = g x) -> existsb f l = existsb g l.
Proof. intros H. induction l as [|a l IH]; cbn [existsb]; [reflexivity|]. now rewrite H, IH. Qed.
Definition kalike (c : N) : Prop :=
  (~ In c text_apart -> forall tr, flat false (flat_map (mtext tr) (decompose true c)) = flat false (mtext tr c)) /\
  (~ In c err_apart -> forall std3, flat_map (merr std3) (decompose true c) = [] <-> merr std3 c = []) /\
  (~ In c sided -> has_rtl_char (decompose true c) = has_rtl_char [c]).
Lemma k_alike_facts mp dec bc mp' dec' bc' (Hm : forall c, mp c = mp' c) (Hd : forall k c, dec k c = dec' k c) (Hb : forall c, bc c = bc' c) c :
  k_alike mp dec bc c = true ->
  (~ In c text_apart -> forall tr, flat_map (dec' false) (flat_map (text_g mp' tr) (dec' true c)) = flat_map (dec' false) (text_g mp' tr c)) /\
  (~ In c err_apart -> forall std3, flat_map (err_g mp' std3) (dec' true c) = [] <-> err_g mp' std3 c = []) /\
  (~ In c sided -> existsb (fun x => rtl_class (bc' x)) (dec' true c) = rtl_class (bc' c)).
Proof.
  assert (A : forall l, among l c = true -> In c l).
  { intros l H. apply existsb_exists in H as (x & Hx & E). apply N.eqb_eq in E. now subst. }
  assert (B : forall l, no_errors l = true <-> l = []) by (intros [|]; cbn; split; congruence).
  unfold k_alike. intros H. apply andb_true_iff in H as [H H3]. apply andb_true_iff in H as [H1 H2].
  split; [|split].
  - intros N1 tr. apply orb_true_iff in H1 as [H1|H1]; [exfalso; auto|].
    apply andb_true_iff in H1. assert (T : k_text mp dec tr c = true) by (destruct tr; apply H1).
    unfold k_text in T. apply leqb_eq in T.
    rewrite <- (text_g_ext mp mp' Hm), <- !(flat_map_ext _ _ (Hd false)).
    rewrite <- (flat_map_ext _ _ (text_g_ext mp mp' Hm tr)), <- Hd. exact T.
  - intros N1 std3. apply orb_true_iff in H2 as [H2|H2]; [exfalso; auto|].
    apply andb_true_iff in H2. assert (E : k_ok mp dec std3 c = true) by (destruct std3; apply H2).
    unfold k_ok in E. apply eqb_prop in E.
    rewrite <- (err_g_ext mp mp' Hm), <- (flat_map_ext _ _ (err_g_ext mp mp' Hm std3)), <- Hd, <- !B, E. reflexivity.
  - intros N1. apply orb_true_iff in H3 as [H3|H3]; [exfalso; auto|]. apply eqb_prop in H3.
    rewrite <- Hd, <- Hb, <- H3. apply existsb_ext. intros x. now rewrite Hb.
Qed.
Definition kalike_ok (c : N) : bool := k_alike fmap (decg fcanon fcompat) SpellTables.fbidi c.
Lemma kalike_canon : check_entries (entries CANONICAL_DECOMPOSITION_MAPPING) (fun c _ => kalike_ok c) = true.
Proof. vm_cast_no_check (eq_refl true). Qed.
Lemma kalike_compat : check_entries (entries COMPATIBILITY_DECOMPOSITION_MAPPING) (fun c _ => kalike_ok c) = true.
Proof. vm_cast_no_check (eq_refl true). Qed.
Lemma kalike_sound c : kalike_ok c = true -> kalike c.
Proof.
  intros H. destruct (k_alike_facts fmap (decg fcanon fcompat) SpellTables.fbidi (lookup MAPPING) decompose bidi_class fmap_ok
    (decg_decompose _ _ fcanon_ok fcompat_ok) SpellTables.fbidi_ok c H) as (A & B & R).
  split; [exact A|]. split; [exact B|]. intros N1. unfold has_rtl_char. rewrite (R N1). cbn [existsb]. now rewrite orb_false_r.
Qed.
Lemma existsb_perm {A} (f : A -> bool) l m : Permutation l m -> existsb f l = existsb f m.
Proof.
  induction 1 as [|x l m _ IH|x y l|l m n _ IH1 _ IH2]; cbn [existsb]; [reflexivity|now rewrite IH| |congruence].
  destruct (f x), (f y); reflexivity.
Qed.
Lemma rtl_decompose c : has_rtl_char (decompose false c) = has_rtl_char [c].
Proof.
  rewrite <- (rtl_D [c]). unfold has_rtl_char, D. cbn [flat_map]. rewrite app_nil_r.
  apply existsb_perm, order_perm.
Qed.
Lemma kalike_all c : kalike c.
Proof.
  destruct (canonical_decomposition c) as [l|] eqn:Ec.
  { apply kalike_sound. exact (check_entries_sound _ _ c l wf_CANONICAL_DECOMPOSITION_MAPPING kalike_canon Ec). }
  destruct (lookup COMPATIBILITY_DECOMPOSITION_MAPPING c) as [l|] eqn:Ek.
  { apply kalike_sound. exact (check_entries_sound _ _ c l wf_COMPATIBILITY_DECOMPOSITION_MAPPING kalike_compat Ek). }
  assert (decompose true c = decompose false c) as E.
  { destruct (is_syllable c) eqn:Es.
    - apply block_cover in Es as (l & v & t & Hb & ->). now rewrite !decompose_block_eq.
    - rewrite !decompose_stable; [reflexivity| |]; (split; [assumption|]; split; [assumption|]); [discriminate|].
      intros _. unfold compatibility_decomposition. now rewrite Ek. }
  unfold kalike. rewrite E. destruct (alike_all c) as (A & _ & B). split; [|split].
  - intros _. exact A.
  - intros N1. apply B. intros X. apply N1. unfold err_apart. rewrite in_app_iff. auto.
  - intros _. apply rtl_decompose.
Qed.

(** ** Mapping compatibility equivalent texts *)
Lemma k_text_flat tr s : (forall c, In c s -> ~ In c text_apart) ->
  flat false (flat_map (mtext tr) (flat true s)) = flat false (flat_map (mtext tr) s).
Proof.
  induction s as [|c s IH]; intros H; [reflexivity|]. cbn [flat_map]. rewrite !flat_map_app, IH by (intros x Hx; apply H; now right).
  f_equal. apply (kalike_all c). apply H. now left.
Qed.
Lemma k_ok_flat std3 s : (forall c, In c s -> ~ In c err_apart) ->
  flat_map (merr std3) (flat true s) = [] <-> flat_map (merr std3) s = [].
Proof.
  induction s as [|c s IH]; intros H; [reflexivity|]. cbn [flat_map]. rewrite !flat_map_app, !app_nil_iff, IH by (intros x Hx; apply H; now right).
  rewrite (proj1 (proj2 (kalike_all c)) (H c (or_introl eq_refl)) std3). reflexivity.
Qed.
Lemma rtl_app a b : has_rtl_char (a ++ b) = has_rtl_char a || has_rtl_char b.
Proof. apply existsb_app. Qed.
Lemma k_rtl_flat s : (forall c, In c s -> ~ In c sided) -> has_rtl_char (flat true s) = has_rtl_char s.
Proof.
  induction s as [|c s IH]; intros H; [reflexivity|]. cbn [flat_map]. rewrite rtl_app, IH by (intros x Hx; apply H; now right).
  rewrite (proj2 (proj2 (kalike_all c)) (H c (or_introl eq_refl))). change (c :: s) with ([c] ++ s). now rewrite rtl_app.
Qed.
Lemma k_plain_flat s : plain (D true s) -> plain (flat true s).
Proof. intros H Hi. apply H. unfold D. exact (Permutation_in _ (order_perm ccc _) Hi). Qed.
Lemma k_text_D tr s : plain (D true s) -> (forall c, In c s -> ~ In c text_apart) ->
  D false (flat_map (mtext tr) (D true s)) = D false (flat_map (mtext tr) s).
Proof.
  intros Hp Hs. destruct (exchanges_acts _ _ (order_exchanges ccc (flat true s)) (k_plain_flat s Hp)) as (_ & T & _).
  transitivity (order ccc (flat false (flat_map (mtext tr) (flat true s)))).
  - symmetry. exact (oeqv_eq _ _ _ (T tr)).
  - rewrite k_text_flat by assumption. reflexivity.
Qed.
Lemma k_ok_D std3 s : plain (D true s) -> (forall c, In c s -> ~ In c err_apart) ->
  flat_map (merr std3) (D true s) = [] <-> flat_map (merr std3) s = [].
Proof.
  intros Hp Hs. destruct (exchanges_acts _ _ (order_exchanges ccc (flat true s)) (k_plain_flat s Hp)) as (_ & _ & T).
  unfold D at 1. rewrite <- T. now apply k_ok_flat.
Qed.
Lemma k_rtl_D s : (forall c, In c s -> ~ In c sided) -> has_rtl_char (D true s) = has_rtl_char s.
Proof.
  intros Hs. rewrite <- (k_rtl_flat s Hs). unfold has_rtl_char, D. symmetry. apply existsb_perm, order_perm.
Qed.

(** the fillers are errors *)
Lemma filler_err std3 c : In c fillers -> merr std3 c <> [].
Proof.
  assert (F : forallb (fun c => match fmap c with Some IM_Disallowed => true | _ => false end) fillers = true) by (vm_compute; reflexivity).
  intros H. rewrite forallb_forall in F. specialize (F c H). cbv beta in F. rewrite fmap_ok in F. unfold err_g.
  destruct (lookup MAPPING c) as [m|]; [|discriminate]. destruct m; try discriminate F. discriminate.
Qed.
Lemma no_errors_no_filler std3 s : flat_map (merr std3) s = [] -> forall c, In c s -> ~ In c fillers.
Proof.
  intros H c Hc Hf. apply (filler_err std3 c Hf). destruct (in_split _ _ Hc) as (p & q & ->).
  rewrite flat_map_app in H. cbn [flat_map] in H. apply app_nil_iff in H as [_ H]. now apply app_nil_iff in H as [H _].
Qed.

Section Two.
  Variables (a b : str).
  Hypothesis Ha : Forall scalar a.
  Hypothesis Hb : Forall scalar b.
  Hypothesis Hab : D true a = D true b.
  Hypothesis Hp : plain (D true a).
  Lemma k_two_text tr : (forall c, In c a \/ In c b -> ~ In c text_apart) ->
    C false (flat_map (mtext tr) a) = C false (flat_map (mtext tr) b).
  Proof.
    intros X. apply C_from_D. rewrite <- (k_text_D _ a Hp), Hab by auto. apply k_text_D; [|auto]. rewrite <- Hab. exact Hp.
  Qed.
  Lemma k_two_ok std3 : (forall c, In c a \/ In c b -> ~ In c err_apart) ->
    flat_map (merr std3) a = [] <-> flat_map (merr std3) b = [].
  Proof.
    intros X. rewrite <- (k_ok_D std3 a Hp), Hab by auto. apply k_ok_D; [|auto]. rewrite <- Hab. exact Hp.
  Qed.
  Lemma k_two_rtl : (forall c, In c a \/ In c b -> ~ In c sided) -> has_rtl_char a = has_rtl_char b.
  Proof. intros X. rewrite <- (k_rtl_D a), Hab by auto. apply k_rtl_D. auto. Qed.
  Hypothesis X : forall c, In c a \/ In c b -> ~ In c apart.
  Lemma k_two_accepted f t : processing a f = Ret (t, []) <-> processing b f = Ret (t, []).
  Proof.
    assert (X1 : forall c, In c a \/ In c b -> ~ In c err_apart).
    { intros c Hc E. apply (X c Hc). unfold err_apart in E. unfold apart. rewrite !in_app_iff in *. tauto. }
    assert (X2 : forall c, In c a \/ In c b -> ~ In c sided).
    { intros c Hc E. apply (X c Hc). unfold apart. rewrite !in_app_iff in *. tauto. }
    pose proof (k_two_ok (use_std3 f) X1) as K.
    rewrite !processing_eq by assumption. rewrite <- (k_two_rtl X2).
    assert (G : forall (o : outcome (str * list Error)) x, obind o (fun v => Ret (fst v, x ++ snd v)) = Ret (t, []) <-> o = Ret (t, []) /\ x = []).
    { intros [[u e]|] x; cbn [obind fst snd]; [|split; [discriminate|intros [? _]; discriminate]].
      split; [intros H; injection H as -> H; apply app_nil_iff in H as [-> ->]; auto|]. intros [H ->]. exact H. }
    rewrite !G, K. split; intros [H E]; (split; [|exact E]); rewrite <- H; f_equal; [symmetry|]; apply k_two_text;
      intros c Hc I; unfold text_apart in I; rewrite !in_app_iff in I; destruct I as [I|[I|I]];
      try (apply (X c Hc); unfold apart; rewrite !in_app_iff; tauto);
      pose proof (proj2 K E) as Ea; (destruct Hc as [Hc|Hc]; [exact (no_errors_no_filler _ a Ea c Hc I)|exact (no_errors_no_filler _ b E c Hc I)]).
  Qed.
End Two.

(** to_ascii succeeds by what processing accepts *)
Lemma ascii_by_processing checked f r s : to_ascii checked s f = Ret (inl r) <-> exists t, processing s f = Ret (t, []) /\
  exists l, each (ascii_label checked) (split_dot t) = Ret (l, []) /\ r = join_dot l /\ (verify_dns f = true -> dns_errors r = []).
Proof.
  unfold to_ascii. destruct (processing s f) as [[t e]|]; cbn [obind fst snd].
  2:{ split; [discriminate|]. intros (t & H & _). discriminate. }
  destruct (each (ascii_label checked) (split_dot t)) as [[l e']|] eqn:El; cbn [obind fst snd].
  2:{ split; [discriminate|]. intros (t' & H & l & H' & _). injection H as <- _. congruence. }
  split.
  - intros H. destruct (e ++ e' ++ _) eqn:Ee in H; [|discriminate]. injection H as <-.
    apply app_nil_iff in Ee as [-> Ee]. apply app_nil_iff in Ee as [-> Ee].
    exists t. split; [reflexivity|]. exists l. split; [assumption|]. split; [reflexivity|]. intros V. now rewrite V in Ee.
  - intros (t' & H & l' & H' & -> & V). injection H as <- ->. rewrite El in H'. injection H' as -> ->. cbn [app].
    destruct (verify_dns f); [rewrite V by reflexivity|]; reflexivity.
Qed.
Definition accepted_like (a b : str) (f : Flags) : Prop := forall t,
  (to_unicode a f = Ret (t, []) <-> to_unicode b f = Ret (t, [])) /\
  forall checked, (to_ascii checked a f = Ret (inl t) <-> to_ascii checked b f = Ret (inl t)).
Lemma like_by_processing a b f : (forall f t, processing a f = Ret (t, []) <-> processing b f = Ret (t, [])) -> accepted_like a b f.
Proof.
  intros H t. split; [apply H|]. intros checked. rewrite !ascii_by_processing.
  split; intros (u & P & R); exists u; (split; [|exact R]); now apply H.
Qed.

Lemma compatible_accepted a b d f : wf_str a -> wf_str b -> compatible a b -> nfkd a = Some d -> ~ In ypogegrammeni d ->
  (forall c, In c a \/ In c b -> ~ In c apart) -> forall t,
  (to_unicode a f = Ret (t, []) <-> to_unicode b f = Ret (t, [])) /\
  forall checked, (to_ascii checked a f = Ret (inl t) <-> to_ascii checked b f = Ret (inl t)).
Proof.
  unfold compatible. rewrite !nfkd_eq. intros Ha Hb E Ed Hy X. injection E as E. injection Ed as <-.
  apply like_by_processing. intros f' t. now apply k_two_accepted.
Qed.

(** *** The text does not depend on the direction *)
Lemma each_text f b1 b2 ls : forall v w, each (process_label b1 f) ls = Ret v -> each (process_label b2 f) ls = Ret w -> fst v = fst w.
Proof.
  assert (P : forall l v w, process_label b1 f l = Ret v -> process_label b2 f l = Ret w -> fst v = fst w).
  { intros l v w. unfold process_label. destruct (strip_prefix PUNYCODE_PREFIX l) as [p|].
    - destruct (decode p) as [[s|]|]; cbn [obind]; try discriminate.
      + destruct (validate s b1 _); cbn [obind]; [|discriminate]. destruct (validate s b2 _); cbn [obind]; [|discriminate].
        intros H1 H2. injection H1 as <-. injection H2 as <-. reflexivity.
      + intros H1 H2. injection H1 as <-. injection H2 as <-. reflexivity.
    - destruct (validate l b1 f); cbn [obind]; [|discriminate]. destruct (validate l b2 f); cbn [obind]; [|discriminate].
      intros H1 H2. injection H1 as <-. injection H2 as <-. reflexivity. }
  induction ls as [|l ls IH]; intros v w; cbn [each].
  - intros H1 H2. injection H1 as <-. injection H2 as <-. reflexivity.
  - destruct (process_label b1 f l) as [x|] eqn:E1; cbn [obind]; [|discriminate].
    destruct (process_label b2 f l) as [y|] eqn:E2; cbn [obind].
    2:{ discriminate. }
    destruct (each (process_label b1 f) ls) as [xs|]; cbn [obind]; [|discriminate].
    destruct (each (process_label b2 f) ls) as [ys|]; cbn [obind]; [|discriminate].
    intros H1 H2. injection H1 as <-. injection H2 as <-. cbn [fst]. f_equal; [now apply (P l)|now apply IH].
Qed.
Lemma after_text f b1 b2 n v w : after_mapping f b1 n = Ret v -> after_mapping f b2 n = Ret w -> fst v = fst w.
Proof.
  unfold after_mapping. destruct (if b1 then _ else _) as [x|]; cbn [obind]; [|discriminate].
  destruct (if b2 then _ else _) as [y|]; cbn [obind].
  2:{ discriminate. }
  destruct (each (process_label x f) _) as [p|] eqn:E1; cbn [obind]; [|discriminate].
  destruct (each (process_label y f) _) as [q|] eqn:E2; cbn [obind]; [|discriminate].
  intros H1 H2. injection H1 as <-. injection H2 as <-. cbn [fst]. f_equal. exact (each_text _ _ _ _ _ _ E1 E2).
Qed.
Lemma compatible_text a b d f t u e e' : wf_str a -> wf_str b -> compatible a b -> nfkd a = Some d -> ~ In ypogegrammeni d ->
  (forall c, In c a \/ In c b -> ~ In c (dotted ++ sigmas ++ fillers)) ->
  to_unicode a f = Ret (t, e) -> to_unicode b f = Ret (u, e') -> t = u.
Proof.
  unfold compatible. rewrite !nfkd_eq. intros Ha Hb E Ed Hy X. injection E as E. injection Ed as <-.
  unfold to_unicode. rewrite !processing_eq by assumption.
  rewrite (k_two_text a b E Hy _ X).
  destruct (after_mapping _ (has_rtl_char a) _) as [v|] eqn:E1; cbn [obind]; [|discriminate].
  destruct (after_mapping _ (has_rtl_char b) _) as [w|] eqn:E2; cbn [obind]; [|discriminate].
  intros H1 H2. injection H1 as <- _. injection H2 as <- _. exact (after_text _ _ _ _ _ _ E1 E2).
Qed.

(** ** The compatibility forms of a name *)
Lemma apart_decomposes : forallb (fun c => negb (leqb (decg fcanon fcompat true c) [c])) apart = true.
Proof. vm_compute. reflexivity. Qed.
Lemma apart_compose : forallb (fun t => negb (among apart (snd t))) triples = true.
Proof. vm_cast_no_check (eq_refl true). Qed.
Lemma apart_not_D s c : In c (D true s) -> ~ In c apart.
Proof.
  intros H E. pose proof apart_decomposes as X. rewrite forallb_forall in X. specialize (X c E). cbv beta in X.
  rewrite (decg_decompose _ _ fcanon_ok fcompat_ok) in X.
  pose proof (proj1 (Forall_forall _ _) (fixed_D true s) c H) as F. cbv beta in F.
  rewrite F in X. rewrite (proj2 (leqb_eq [c] [c]) eq_refl) in X. discriminate.
Qed.
Lemma apart_range c : In c apart -> ~ (0xAC00 <= c <= 0xD7A3).
Proof. unfold apart, dotted, sigmas, dropped, sided. cbn [app In]. lia. Qed.
Lemma apart_compose_closed a b r : ~ In a apart -> ~ In b apart -> compose a b = Some r -> ~ In r apart.
Proof.
  intros Ha Hb H. apply compose_cases in H as [H|[(l & v & _ & _ & _ & _ & ->)|H]].
  - intros E. apply (apart_range r E).
    assert (forall l v t, valid_block l v t -> 0xAC00 <= block l v t <= 0xD7A3) as G by (unfold valid_block, block; intros; lia).
    destruct H; apply G; [unfold valid_block; lia|assumption].
  - assumption.
  - intros E. pose proof apart_compose as X. rewrite forallb_forall in X. specialize (X _ H). cbn [snd] in X.
    apply negb_true_iff in X. assert (among apart r = true) as Y by (apply existsb_exists; exists r; split; [assumption|apply N.eqb_refl]). congruence.
Qed.
Lemma apart_not_C s c : In c (C true s) -> ~ In c apart.
Proof.
  intros H. assert (Forall (fun c => ~ In c apart) (C true s)) as F.
  { unfold C. apply crun_closed; [intros a b r Ha Hb E; now apply (apart_compose_closed a b)| |constructor|constructor].
    apply Forall_forall. intros x. apply apart_not_D. }
  rewrite Forall_forall in F. now apply F.
Qed.
Lemma nfkd_accepted s d f : wf_str s -> nfkd s = Some d -> ~ In ypogegrammeni d -> (forall c, In c s -> ~ In c apart) -> forall t,
  (to_unicode d f = Ret (t, []) <-> to_unicode s f = Ret (t, [])) /\
  forall checked, (to_ascii checked d f = Ret (inl t) <-> to_ascii checked s f = Ret (inl t)).
Proof.
  intros Hs Ed Hy X. rewrite nfkd_eq in Ed. injection Ed as <-.
  apply like_by_processing. intros f' t. apply k_two_accepted; try assumption.
  - now apply D_scalar.
  - apply D_idem.
  - rewrite D_idem. exact Hy.
  - intros c [Hc|Hc]; [exact (apart_not_D s c Hc)|auto].
Qed.
Lemma nfkc_accepted s d n f : wf_str s -> nfkd s = Some d -> ~ In ypogegrammeni d -> nfkc s = Some n -> (forall c, In c s -> ~ In c apart) -> forall t,
  (to_unicode n f = Ret (t, []) <-> to_unicode s f = Ret (t, [])) /\
  forall checked, (to_ascii checked n f = Ret (inl t) <-> to_ascii checked s f = Ret (inl t)).
Proof.
  intros Hs Ed Hy En X. rewrite nfkd_eq in Ed. injection Ed as <-. rewrite nfkc_eq in En. injection En as <-.
  assert (HD : wf_str (D true s)) by now apply D_scalar.
  assert (Hy' : plain (D true (C true s))).
  { rewrite D_C_strip. intros I. apply Hy. revert I. generalize 0%N. generalize (D true s). clear.
    induction l as [|c l IH]; intros st I; cbn [strip] in I; [exact I|]. destruct (_ && _); [right; eapply IH; exact I|].
    destruct I as [I|I]; [now left|right; eapply IH; exact I]. }
  apply like_by_processing. intros f' t.
  transitivity (processing (D true (C true s)) f' = Ret (t, [])).
  - symmetry. apply k_two_accepted.
    + apply D_scalar. now apply C_scalar.
    + now apply C_scalar.
    + apply D_idem.
    + rewrite D_idem. exact Hy'.
    + intros c [Hc|Hc]; [exact (apart_not_D _ c Hc)|exact (apart_not_C s c Hc)].
  - rewrite D_C_strip. transitivity (processing (D true s) f' = Ret (t, [])).
    + rewrite (proj1 (absorbs_processing f' _ _ (strip_absorbs (D true s)) HD)). reflexivity.
    + apply k_two_accepted; try assumption; [apply D_idem|rewrite D_idem; exact Hy|].
      intros c [Hc|Hc]; [exact (apart_not_D s c Hc)|auto].
Qed.

(** ** Where results differ *)
Definition accepts (s : str) (f : Flags) : option str := match to_unicode s f with Ret (t, []) => Some t | _ => None end.
Definition differs (c : N) : bool :=
  match accepts [0x30; c] (mkFlags false false false), accepts (D true [0x30; c]) (mkFlags false false false) with
  | Some t, Some u => negb (leqb t u)
  | None, None => false
  | _, _ => true
  end.
Lemma apart_differs : forallb differs apart = true.
Proof. vm_compute. reflexivity. Qed.
Lemma accepts_iff s f t : accepts s f = Some t <-> to_unicode s f = Ret (t, []).
Proof.
  unfold accepts. destruct (to_unicode s f) as [[u e]|]; [|split; discriminate].
  destruct e; split; try discriminate; congruence.
Qed.
Lemma acceptance_apart c : In c apart -> exists b, compatible [0x30; c] b /\
  ~ (forall t, to_unicode [0x30; c] (mkFlags false false false) = Ret (t, []) <-> to_unicode b (mkFlags false false false) = Ret (t, [])).
Proof.
  intros H. exists (D true [0x30; c]). split; [unfold compatible; rewrite !nfkd_eq, D_idem; reflexivity|].
  intros E. pose proof apart_differs as X. rewrite forallb_forall in X. specialize (X c H). unfold differs in X.
  set (f := mkFlags false false false) in *.
  assert (G : forall t, accepts [0x30; c] f = Some t <-> accepts (D true [0x30; c]) f = Some t).
  { intros t. rewrite !accepts_iff. apply E. }
  destruct (accepts [0x30; c] f) as [t|].
  - pose proof (proj1 (G t) eq_refl) as G1. rewrite G1 in X. rewrite (proj2 (leqb_eq t t) eq_refl) in X. discriminate.
  - destruct (accepts (D true [0x30; c]) f) as [u|]; [|discriminate]. pose proof (proj2 (G u) eq_refl). discriminate.
Qed.
Lemma filler_text c : In c fillers -> exists b t u e e', compatible [c] b /\
  to_unicode [c] (mkFlags true false false) = Ret (t, e) /\ to_unicode b (mkFlags true false false) = Ret (u, e') /\ t <> u.
Proof.
  intros [<-|[<-|[]]]; exists [0x1160]; do 4 eexists; (split; [vm_compute; reflexivity|]; split; [vm_compute; reflexivity|]; split; [vm_compute; reflexivity|congruence]).
Qed.

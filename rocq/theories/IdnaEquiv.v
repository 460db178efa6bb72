(** IDNA processing of canonically equivalent names. *)
From Coq Require Import List NArith ZArith Lia Bool Permutation Relations ZifyBool ZifyN.
From Verif Require Import Base RangeModel TableModel TableSpec TableProofs TableLemmas Enums EnumFacts TableTypes
  TablesNormal TablesIdna TablesBidi UcdModel UcdSpec UcdProofs TablePiecewise TableTree
  HangulModel HangulSpec HangulProofs NormSpec NormOrder NormModel NormTables NormBubble NormIter NormRecomp NormAlgebra NormFillerSpec NormFiller PieceTables
  PunyModel IdnaModel IdnaTables IdnaProofs IdnaProcess IdnaEquivSpec.
From Verif Require BidiModel SpellTables BidiEquiv.
Import ListNotations.
Open Scope N_scope.

(** ** The mapping as a pair of functions *)
Definition act_text (tr : bool) (c : N) (m : Mapping) : str :=
  match m with
  | IM_Ignored => []
  | IM_Mapped s | IM_DisallowedStd3Mapped s => s
  | IM_Deviation s => if tr then s else [c]
  | _ => [c]
  end.
Definition act_err (std3 : bool) (m : Mapping) : list Error :=
  match m with
  | IM_Disallowed => [DisallowedCharacter]
  | IM_DisallowedStd3Valid => if std3 then [DisallowedByStd3AsciiRules] else []
  | IM_DisallowedStd3Mapped _ => if std3 then [DisallowedMappedInStd3] else []
  | _ => []
  end.
Definition text_g (mp : N -> option Mapping) (tr : bool) (c : N) : str := match mp c with Some m => act_text tr c m | None => [] end.
Definition err_g (mp : N -> option Mapping) (std3 : bool) (c : N) : list Error := match mp c with Some m => act_err std3 m | None => [] end.
Notation mtext := (text_g (lookup MAPPING)).
Notation merr := (err_g (lookup MAPPING)).

Lemma map_char_eq c f : scalar c -> map_char c f = Ret (mtext (transitional f) c, merr (use_std3 f) c).
Proof.
  intros Hc. unfold map_char, text_g, err_g. destruct (mapping_total c Hc) as (m & Em). rewrite Em. rewrite mapping_lookup in Em.
  destruct (lookup MAPPING c) as [m'|]; [|discriminate]. injection Em as ->. cbn [obind]. f_equal.
  destruct m; cbn [act_text act_err]; try reflexivity. now destruct (transitional f).
Qed.
Lemma map_all_eq f s : Forall scalar s -> map_all s f = Ret (flat_map (mtext (transitional f)) s, flat_map (merr (use_std3 f)) s).
Proof.
  induction 1 as [|c s Hc Hs IH]; cbn [map_all flat_map]; [reflexivity|]. rewrite (map_char_eq c f Hc), IH. reflexivity.
Qed.

(** ** What the tables say *)
Definition err_code (e : Error) : N :=
  match e with PunycodeError => 0 | ValidityCriteria => 1 | DisallowedByStd3AsciiRules => 2 | DisallowedMappedInStd3 => 3
  | DisallowedCharacter => 4 | TooLongForDns => 5 | TooShortForDns => 6 end.
Lemma err_code_inj l : forall m, map err_code l = map err_code m -> l = m.
Proof.
  induction l as [|a l IH]; intros [|b m] H; cbn [map] in H; try discriminate; [reflexivity|].
  injection H as H1 H2. f_equal; [destruct a, b; cbn in H1; congruence|auto].
Qed.
Definition no_errors (l : list Error) : bool := match l with [] => true | _ => false end.
Definition among (l : list N) (c : N) : bool := existsb (N.eqb c) l.

Section Check.
  Variable mp : N -> option Mapping.
  Variable dec : bool -> N -> list N.
  Definition same_text (tr : bool) (c : N) : bool :=
    leqb (flat_map (dec false) (flat_map (text_g mp tr) (dec false c))) (flat_map (dec false) (text_g mp tr c)).
  Definition same_err (std3 : bool) (c : N) : bool :=
    leqb (map err_code (flat_map (err_g mp std3) (dec false c))) (map err_code (err_g mp std3 c)).
  Definition same_ok (std3 : bool) (c : N) : bool :=
    eqb (no_errors (flat_map (err_g mp std3) (dec false c))) (no_errors (err_g mp std3 c)).
  Definition maps_alike (c : N) : bool :=
    same_text false c && same_text true c &&
    (among other_kind c || among dropped c || (same_err false c && same_err true c)) &&
    (among dropped c || (same_ok false c && same_ok true c)).
End Check.
Lemma text_g_ext mp mp' (Hm : forall c, mp c = mp' c) tr c : text_g mp tr c = text_g mp' tr c.
Proof. unfold text_g. now rewrite Hm. Qed.
Lemma err_g_ext mp mp' (Hm : forall c, mp c = mp' c) std3 c : err_g mp std3 c = err_g mp' std3 c.
Proof. unfold err_g. now rewrite Hm. Qed.
Lemma maps_alike_facts mp dec mp' dec' (Hm : forall c, mp c = mp' c) (Hd : forall k c, dec k c = dec' k c) c :
  maps_alike mp dec c = true ->
  (forall tr, flat_map (dec' false) (flat_map (text_g mp' tr) (dec' false c)) = flat_map (dec' false) (text_g mp' tr c)) /\
  (~ In c other_kind -> ~ In c dropped -> forall std3, flat_map (err_g mp' std3) (dec' false c) = err_g mp' std3 c) /\
  (~ In c dropped -> forall std3, flat_map (err_g mp' std3) (dec' false c) = [] <-> err_g mp' std3 c = []).
Proof.
  assert (A : forall l, among l c = true -> In c l).
  { intros l H. apply existsb_exists in H as (x & Hx & E). apply N.eqb_eq in E. now subst. }
  assert (B : forall l, no_errors l = true <-> l = []) by (intros [|]; cbn; split; congruence).
  unfold maps_alike. intros H. apply andb_true_iff in H as [H H4]. apply andb_true_iff in H as [H H3]. apply andb_true_iff in H as [H1 H2].
  assert (T : forall tr, same_text mp dec tr c = true) by (intros [|]; assumption).
  split; [|split].
  - intros tr. specialize (T tr). unfold same_text in T. apply leqb_eq in T.
    rewrite <- (text_g_ext mp mp' Hm), <- !(flat_map_ext _ _ (Hd false)).
    rewrite <- (flat_map_ext _ _ (text_g_ext mp mp' Hm tr)), <- Hd. exact T.
  - intros N1 N2 std3. apply orb_true_iff in H3 as [H3|H3].
    + apply orb_true_iff in H3 as [H3|H3]; exfalso; auto.
    + apply andb_true_iff in H3. assert (E : same_err mp dec std3 c = true) by (destruct std3; apply H3).
      unfold same_err in E. apply leqb_eq, err_code_inj in E.
      rewrite <- (err_g_ext mp mp' Hm), <- (flat_map_ext _ _ (err_g_ext mp mp' Hm std3)), <- Hd. exact E.
  - intros N2 std3. apply orb_true_iff in H4 as [H4|H4]; [exfalso; auto|].
    apply andb_true_iff in H4. assert (E : same_ok mp dec std3 c = true) by (destruct std3; apply H4).
    unfold same_ok in E. apply eqb_prop in E.
    rewrite <- (err_g_ext mp mp' Hm), <- (flat_map_ext _ _ (err_g_ext mp mp' Hm std3)), <- Hd, <- !B, E. reflexivity.
Qed.

Definition map_tree := tree_of (entries MAPPING).
Definition fmap (c : N) := tree_find map_tree c.
Lemma map_tree_complete : tree_complete (entries MAPPING) = true.
Proof. vm_cast_no_check (eq_refl true). Qed.
Lemma fmap_ok c : fmap c = lookup MAPPING c.
Proof. unfold fmap, map_tree. exact (tree_lookup MAPPING c wf_MAPPING map_tree_complete). Qed.
Definition alike_ok (c : N) : bool := maps_alike fmap (decg fcanon fcompat) c.
Lemma alike_check : check_entries (entries CANONICAL_DECOMPOSITION_MAPPING) (fun c _ => alike_ok c) = true.
Proof. vm_cast_no_check (eq_refl true). Qed.
Definition alike (c : N) : Prop :=
  (forall tr, flat false (flat_map (mtext tr) (decompose false c)) = flat false (mtext tr c)) /\
  (~ In c other_kind -> ~ In c dropped -> forall std3, flat_map (merr std3) (decompose false c) = merr std3 c) /\
  (~ In c dropped -> forall std3, flat_map (merr std3) (decompose false c) = [] <-> merr std3 c = []).
Lemma alike_sound c : alike_ok c = true -> alike c.
Proof. exact (maps_alike_facts fmap (decg fcanon fcompat) (lookup MAPPING) decompose fmap_ok (decg_decompose _ _ fcanon_ok fcompat_ok) c). Qed.

Definition map_valid (a b : Mapping) : bool := match a, b with IM_Valid, IM_Valid => true | _, _ => false end.
Lemma map_valid_eq a b : map_valid a b = true -> a = b.
Proof. destruct a, b; cbn; congruence. Qed.
Lemma syllables_valid : constant_on map_valid (entries MAPPING) 0xAC00 0xD7A3 IM_Valid = true.
Proof. vm_cast_no_check (eq_refl true). Qed.
Lemma leading_valid : constant_on map_valid (entries MAPPING) 0x1100 0x1112 IM_Valid = true.
Proof. vm_cast_no_check (eq_refl true). Qed.
Lemma vowel_valid : constant_on map_valid (entries MAPPING) 0x1161 0x11C2 IM_Valid = true.
Proof. vm_cast_no_check (eq_refl true). Qed.
Lemma valid_acts c : lookup MAPPING c = Some IM_Valid -> (forall tr, mtext tr c = [c]) /\ forall std3, merr std3 c = [].
Proof. intros H. unfold text_g, err_g. rewrite H. split; reflexivity. Qed.
Lemma jamo_valid l v t x : valid_block l v t -> In x (jamo_of l v t) -> lookup MAPPING x = Some IM_Valid.
Proof.
  intros (Hl & Hv & Ht) Hx.
  assert (0x1100 <= x <= 0x1112 \/ 0x1161 <= x <= 0x11C2) as [G|G].
  { unfold jamo_of, leading, vowel, trailing in Hx. destruct t; cbn [In] in Hx; lia. }
  - exact (constant_on_sound _ map_valid_eq MAPPING _ _ _ x wf_MAPPING leading_valid (proj1 G) (proj2 G)).
  - exact (constant_on_sound _ map_valid_eq MAPPING _ _ _ x wf_MAPPING vowel_valid (proj1 G) (proj2 G)).
Qed.
Lemma syllable_valid l v t : valid_block l v t -> lookup MAPPING (block l v t) = Some IM_Valid.
Proof.
  intros (Hl & Hv & Ht).
  apply (constant_on_sound _ map_valid_eq MAPPING _ _ _ _ wf_MAPPING syllables_valid); unfold block; lia.
Qed.
Lemma all_valid s : (forall x, In x s -> lookup MAPPING x = Some IM_Valid) ->
  (forall tr, flat_map (mtext tr) s = s) /\ forall std3, flat_map (merr std3) s = [].
Proof.
  induction s as [|c s IH]; intros H; [split; reflexivity|].
  destruct IH as [I1 I2]; [intros x Hx; apply H; now right|]. destruct (valid_acts c (H c (or_introl eq_refl))) as [V1 V2].
  split; intros; cbn [flat_map]; [rewrite V1, I1|rewrite V2, I2]; reflexivity.
Qed.
Lemma alike_all c : alike c.
Proof.
  destruct (canonical_decomposition c) as [l|] eqn:Ec.
  - apply alike_sound. exact (check_entries_sound _ _ c l wf_CANONICAL_DECOMPOSITION_MAPPING alike_check Ec).
  - destruct (is_syllable c) eqn:Es.
    + apply block_cover in Es as (l & v & t & Hb & ->). unfold alike. rewrite decompose_block_eq by assumption.
      destruct (all_valid (jamo_of l v t) (fun x => jamo_valid l v t x Hb)) as [J1 J2].
      destruct (valid_acts _ (syllable_valid l v t Hb)) as [V1 V2].
      split; [|split].
      * intros tr. rewrite J1, V1. cbn [flat_map]. rewrite app_nil_r, decompose_block_eq by assumption.
        apply flat_fixed. apply Forall_forall. intros x Hx. apply (decompose_fixed false (block l v t)).
        rewrite decompose_block_eq by assumption. exact Hx.
      * intros _ _ std3. rewrite J2, V2. reflexivity.
      * intros _ std3. rewrite J2, V2. reflexivity.
    + assert (decompose false c = [c]) as E by (apply decompose_stable; split; [assumption|]; split; [assumption|discriminate]).
      unfold alike. rewrite E. cbn [flat_map]. split; [|split]; intros; rewrite app_nil_r; reflexivity.
Qed.

(** *** Combining characters *)
Definition mapped_marks : CharDataTable unit := Range [(mkRange 0x340 0x341, tt); (mkRange 0x343 0x345, tt)].
Lemma wf_mapped_marks : wf_table mapped_marks.
Proof. apply wf_entriesb_sound. vm_compute. reflexivity. Qed.
Lemma mapped_marks_in c : lookup mapped_marks c = Some tt -> In c [0x340; 0x341; 0x343; 0x344; 0x345].
Proof.
  rewrite lookup_scan by exact wf_mapped_marks. intros H. apply scan_some in H as (e & [<-|[<-|[]]] & Hc & _);
    unfold covers in Hc; cbn in Hc; cbn [In]; lia.
Qed.
Lemma marks_check : check3 CANONICAL_COMBINING_CLASS_VALUES MAPPING mapped_marks
  (fun k m e => negb (nz k) || isSome e || match m with Some IM_Valid => true | _ => false end) = true.
Proof. vm_cast_no_check (eq_refl true). Qed.
Definition mark_maps (mp : N -> option Mapping) (dec : bool -> N -> list N) (c : N) : bool :=
  match mp c with Some (IM_Mapped s) => leqb (flat_map (dec false) s) (dec false c) | _ => false end.
Lemma mark_maps_facts mp dec mp' dec' (Hm : forall c, mp c = mp' c) (Hd : forall k c, dec k c = dec' k c) c :
  mark_maps mp dec c = true ->
  (forall tr, flat_map (dec' false) (text_g mp' tr c) = dec' false c) /\ forall std3, err_g mp' std3 c = [].
Proof.
  unfold mark_maps, text_g, err_g. rewrite <- Hm. destruct (mp c) as [m|]; [|discriminate]. destruct m; try discriminate.
  intros H. apply leqb_eq in H. cbn [act_text act_err]. rewrite <- (flat_map_ext _ _ (Hd false)), <- Hd. auto.
Qed.
Definition mark_ok (c : N) : bool := mark_maps fmap (decg fcanon fcompat) c.
Lemma four_marks : forallb mark_ok [0x340; 0x341; 0x343; 0x344] = true.
Proof. vm_cast_no_check (eq_refl true). Qed.
Lemma mark_sound c : mark_ok c = true -> (forall tr, flat false (mtext tr c) = decompose false c) /\ forall std3, merr std3 c = [].
Proof. exact (mark_maps_facts fmap (decg fcanon fcompat) (lookup MAPPING) decompose fmap_ok (decg_decompose _ _ fcanon_ok fcompat_ok) c). Qed.
Lemma mark_acts c : ccc c <> 0 -> c <> ypogegrammeni ->
  (forall tr, flat false (mtext tr c) = decompose false c) /\ forall std3, merr std3 c = [].
Proof.
  intros Hc Hy. pose proof (piecewise3 _ _ _ _ wf_CANONICAL_COMBINING_CLASS_VALUES wf_MAPPING wf_mapped_marks marks_check c) as H.
  cbv beta in H. rewrite (ccc_nz c Hc) in H. cbn [negb orb] in H. apply orb_true_iff in H as [H|H].
  - destruct (lookup mapped_marks c) as [[]|] eqn:E; [|discriminate]. apply mapped_marks_in in E.
    apply mark_sound. pose proof four_marks as F. rewrite forallb_forall in F. apply F.
    unfold ypogegrammeni in Hy. cbn [In] in E |- *. lia.
  - assert (lookup MAPPING c = Some IM_Valid) as V by (destruct (lookup MAPPING c) as [m|]; [destruct m|]; congruence).
    destruct (valid_acts c V) as [V1 V2]. split; [|exact V2]. intros tr. rewrite V1. cbn [flat_map]. apply app_nil_r.
Qed.

(** ** Mapping canonically equivalent texts *)
Definition plain (s : str) : Prop := ~ In ypogegrammeni s.
Lemma exchange_plain l m : exchange ccc l m -> plain l -> plain m.
Proof.
  intros [p a b q _] H Hm. apply H. rewrite !in_app_iff in *. cbn [In] in *. tauto.
Qed.
Lemma text_exchange tr l m : exchange ccc l m -> plain l ->
  oeqv ccc (flat false (flat_map (mtext tr) l)) (flat false (flat_map (mtext tr) m)).
Proof.
  intros [p a b q [H1 H2]] Hp.
  assert (a <> ypogegrammeni /\ b <> ypogegrammeni) as [Ha Hb].
  { split; intros E; apply Hp; rewrite in_app_iff; cbn [In]; auto. }
  destruct (mark_acts a) as [A _]; [lia|assumption|]. destruct (mark_acts b) as [B _]; [lia|assumption|].
  rewrite !flat_map_app. cbn [flat_map]. rewrite !flat_map_app, !A, !B.
  apply oeqv_app; [apply oeqv_refl|]. rewrite !app_assoc. apply oeqv_app; [|apply oeqv_refl].
  apply (oeqv_blocks _ _ (ccc a) (ccc b)); try assumption.
  - apply Forall_forall. intros x Hx. apply (decompose_class false a x); [lia|assumption].
  - apply Forall_forall. intros x Hx. apply (decompose_class false b x); [lia|assumption].
Qed.
Lemma err_exchange std3 l m : exchange ccc l m -> plain l -> flat_map (merr std3) l = flat_map (merr std3) m.
Proof.
  intros [p a b q [H1 H2]] Hp.
  assert (a <> ypogegrammeni /\ b <> ypogegrammeni) as [Ha Hb].
  { split; intros E; apply Hp; rewrite in_app_iff; cbn [In]; auto. }
  destruct (mark_acts a) as [_ A]; [lia|assumption|]. destruct (mark_acts b) as [_ B]; [lia|assumption|].
  rewrite !flat_map_app. cbn [flat_map]. rewrite !A, !B. reflexivity.
Qed.
Lemma exchanges_acts l m : clos_refl_trans _ (exchange ccc) l m -> plain l -> plain m /\
  (forall tr, oeqv ccc (flat false (flat_map (mtext tr) l)) (flat false (flat_map (mtext tr) m))) /\
  (forall std3, flat_map (merr std3) l = flat_map (merr std3) m).
Proof.
  induction 1 as [l m H|l|l m n H1 IH1 H2 IH2]; intros Hp.
  - split; [exact (exchange_plain l m H Hp)|]. split; intros; [now apply text_exchange|now apply err_exchange].
  - split; [assumption|]. split; intros; [apply oeqv_refl|reflexivity].
  - destruct (IH1 Hp) as (P1 & T1 & E1). destruct (IH2 P1) as (P2 & T2 & E2). split; [assumption|].
    split; intros; [eapply oeqv_trans; [apply T1|apply T2]|now rewrite E1].
Qed.
Lemma text_flat tr s : flat false (flat_map (mtext tr) (flat false s)) = flat false (flat_map (mtext tr) s).
Proof.
  induction s as [|c s IH]; [reflexivity|]. cbn [flat_map]. rewrite !flat_map_app, IH. f_equal. apply (alike_all c).
Qed.
Lemma err_flat std3 s : (forall c, In c s -> ~ In c other_kind /\ ~ In c dropped) ->
  flat_map (merr std3) (flat false s) = flat_map (merr std3) s.
Proof.
  induction s as [|c s IH]; intros H; [reflexivity|]. cbn [flat_map]. rewrite !flat_map_app, IH by (intros x Hx; apply H; now right).
  f_equal. apply (alike_all c); apply (H c); now left.
Qed.
Lemma app_nil_iff {A} (l m : list A) : l ++ m = [] <-> l = [] /\ m = [].
Proof. destruct l; cbn; split; [auto|intros [_ H]; exact H|discriminate|intros [H _]; discriminate]. Qed.
Lemma ok_flat std3 s : (forall c, In c s -> ~ In c dropped) ->
  flat_map (merr std3) (flat false s) = [] <-> flat_map (merr std3) s = [].
Proof.
  induction s as [|c s IH]; intros H; [reflexivity|]. cbn [flat_map]. rewrite !flat_map_app, !app_nil_iff, IH by (intros x Hx; apply H; now right).
  rewrite (proj2 (proj2 (alike_all c)) (H c (or_introl eq_refl)) std3). reflexivity.
Qed.

Lemma plain_flat s : plain (D false s) -> plain (flat false s).
Proof. intros H Hi. apply H. unfold D. exact (Permutation_in _ (order_perm ccc _) Hi). Qed.
Lemma text_D tr s : plain (D false s) -> D false (flat_map (mtext tr) (D false s)) = D false (flat_map (mtext tr) s).
Proof.
  intros Hp. destruct (exchanges_acts _ _ (order_exchanges ccc (flat false s)) (plain_flat s Hp)) as (_ & T & _).
  transitivity (order ccc (flat false (flat_map (mtext tr) (flat false s)))).
  - symmetry. exact (oeqv_eq _ _ _ (T tr)).
  - rewrite text_flat. reflexivity.
Qed.
Lemma err_D std3 s : plain (D false s) -> flat_map (merr std3) (D false s) = flat_map (merr std3) (flat false s).
Proof.
  intros Hp. destruct (exchanges_acts _ _ (order_exchanges ccc (flat false s)) (plain_flat s Hp)) as (_ & _ & T).
  symmetry. apply T.
Qed.

(** ** Processing *)
Definition after_mapping (f : Flags) (bidi : bool) (normalized : str) : outcome (str * list Error) :=
  let* b := if bidi then Ret true else bidi_labels (split_dot normalized) in
  let* v := each (process_label b f) (split_dot normalized) in
  Ret (join_dot (fst v), snd v).
Lemma processing_eq f s : Forall scalar s -> processing s f =
  obind (after_mapping f (has_rtl_char s) (C false (flat_map (mtext (transitional f)) s)))
    (fun v => Ret (fst v, flat_map (merr (use_std3 f)) s ++ snd v)).
Proof.
  intros Hs. unfold processing, after_mapping. rewrite (map_all_eq f s Hs). cbn [obind fst snd]. rewrite nfc__eq. cbn [obind].
  destruct (if has_rtl_char s then Ret true else _); cbn [obind]; [|reflexivity].
  destruct (each _ _); reflexivity.
Qed.
Lemma rtl_D s : has_rtl_char (D false s) = has_rtl_char s.
Proof. exact (proj1 (BidiEquiv.some_forms rtl_class s eq_refl eq_refl)). Qed.

Section Two.
  Variables (a b : str).
  Hypothesis Ha : Forall scalar a.
  Hypothesis Hb : Forall scalar b.
  Hypothesis Hab : D false a = D false b.
  Hypothesis Hp : plain (D false a).
  Lemma two_after f : after_mapping f (has_rtl_char a) (C false (flat_map (mtext (transitional f)) a)) =
    after_mapping f (has_rtl_char b) (C false (flat_map (mtext (transitional f)) b)).
  Proof.
    f_equal; [rewrite <- (rtl_D a), Hab; apply rtl_D|]. apply C_from_D.
    rewrite <- (text_D _ a Hp), Hab, text_D; [reflexivity|]. rewrite <- Hab. exact Hp.
  Qed.
  Lemma two_ok : (forall c, In c a -> ~ In c dropped) -> (forall c, In c b -> ~ In c dropped) -> forall std3,
    flat_map (merr std3) a = [] <-> flat_map (merr std3) b = [].
  Proof.
    intros Xa Xb std3. rewrite <- (ok_flat std3 a Xa), <- (ok_flat std3 b Xb), <- (err_D std3 a Hp), Hab.
    rewrite err_D; [reflexivity|]. rewrite <- Hab. exact Hp.
  Qed.
  Lemma two_err : (forall c, In c a -> ~ In c other_kind /\ ~ In c dropped) -> (forall c, In c b -> ~ In c other_kind /\ ~ In c dropped) ->
    forall std3, flat_map (merr std3) a = flat_map (merr std3) b.
  Proof.
    intros Xa Xb std3. rewrite <- (err_flat std3 a Xa), <- (err_flat std3 b Xb), <- (err_D std3 a Hp), Hab.
    rewrite err_D; [reflexivity|]. rewrite <- Hab. exact Hp.
  Qed.
  Lemma two_processing f : (forall c, In c a -> ~ In c other_kind /\ ~ In c dropped) -> (forall c, In c b -> ~ In c other_kind /\ ~ In c dropped) ->
    processing a f = processing b f.
  Proof. intros Xa Xb. rewrite !processing_eq by assumption. rewrite two_after, (two_err Xa Xb). reflexivity. Qed.
  (** the text, and whether there are errors *)
  Lemma two_text f : (exists t e1 e2, processing a f = Ret (t, e1) /\ processing b f = Ret (t, e2)) \/ (processing a f = Panic /\ processing b f = Panic).
  Proof.
    rewrite !processing_eq by assumption. rewrite two_after. destruct (after_mapping _ _ _) as [[t e]|]; cbn [obind fst snd]; [left|right; auto].
    exists t. eexists. eexists. split; reflexivity.
  Qed.
  Lemma two_accepted f : (forall c, In c a -> ~ In c dropped) -> (forall c, In c b -> ~ In c dropped) -> forall t,
    processing a f = Ret (t, []) <-> processing b f = Ret (t, []).
  Proof.
    intros Xa Xb t. pose proof (two_ok Xa Xb (use_std3 f)) as K. rewrite !processing_eq by assumption. rewrite two_after.
    destruct (after_mapping _ _ _) as [[u e]|]; cbn [obind fst snd]; [|reflexivity].
    assert (forall x, Ret (u, x ++ e) = Ret (t, []) <-> (u = t /\ e = []) /\ x = []) as G.
    { intros x. split; [intros H; injection H as -> H; apply app_nil_iff in H; tauto|]. intros [[-> ->] ->]. reflexivity. }
    rewrite !G, K. reflexivity.
  Qed.
  Lemma two_ascii checked f : (forall c, In c a -> ~ In c dropped) -> (forall c, In c b -> ~ In c dropped) -> forall r,
    to_ascii checked a f = Ret (inl r) <-> to_ascii checked b f = Ret (inl r).
  Proof.
    intros Xa Xb r.
    assert (G : forall s, to_ascii checked s f = Ret (inl r) <-> exists t, processing s f = Ret (t, []) /\
      exists l, each (ascii_label checked) (split_dot t) = Ret (l, []) /\ r = join_dot l /\ (verify_dns f = true -> dns_errors r = [])).
    { intros s. unfold to_ascii. destruct (processing s f) as [[t e]|]; cbn [obind fst snd].
      2:{ split; [discriminate|]. intros (t & H & _). discriminate. }
      destruct (each (ascii_label checked) (split_dot t)) as [[l e']|] eqn:El; cbn [obind fst snd].
      2:{ split; [discriminate|]. intros (t' & H & l & H' & _). injection H as <- _. congruence. }
      split.
      - intros H. destruct (e ++ e' ++ _) eqn:Ee in H; [|discriminate]. injection H as <-.
        apply app_nil_iff in Ee as [-> Ee]. apply app_nil_iff in Ee as [-> Ee].
        exists t. split; [reflexivity|]. exists l. split; [assumption|]. split; [reflexivity|]. intros V. now rewrite V in Ee.
      - intros (t' & H & l' & H' & -> & V). injection H as <- ->. rewrite El in H'. injection H' as -> ->. cbn [app].
        destruct (verify_dns f); [rewrite V by reflexivity|]; reflexivity. }
    rewrite !G. split; intros (t & H & R); exists t; (split; [|exact R]); now apply (two_accepted f Xa Xb).
  Qed.
End Two.

(** ** The normal forms of a name *)
Definition exceptions : list N := other_kind ++ dropped.
Lemma exceptions_canon : forallb (fun c => negb (leqb (decg fcanon fcompat false c) [c])) exceptions = true.
Proof. vm_compute. reflexivity. Qed.
Lemma exceptions_compose : forallb (fun t => negb (among exceptions (snd t))) triples = true.
Proof. vm_cast_no_check (eq_refl true). Qed.
Lemma exception_not_D s c : In c (D false s) -> ~ In c exceptions.
Proof.
  intros H E. pose proof exceptions_canon as X. rewrite forallb_forall in X. specialize (X c E). cbv beta in X.
  rewrite (decg_decompose _ _ fcanon_ok fcompat_ok) in X.
  pose proof (proj1 (Forall_forall _ _) (fixed_D false s) c H) as F. cbv beta in F.
  rewrite F in X. rewrite (proj2 (leqb_eq [c] [c]) eq_refl) in X. discriminate.
Qed.
Lemma exception_range c : In c exceptions -> ~ (0xAC00 <= c <= 0xD7A3).
Proof. unfold exceptions, other_kind, dropped. cbn [app In]. lia. Qed.
Lemma exception_compose a b r : ~ In a exceptions -> ~ In b exceptions -> compose a b = Some r -> ~ In r exceptions.
Proof.
  intros Ha Hb H. apply compose_cases in H as [H|[(l & v & _ & _ & _ & _ & ->)|H]].
  - intros E. apply (exception_range r E).
    assert (forall l v t, valid_block l v t -> 0xAC00 <= block l v t <= 0xD7A3) as G by (unfold valid_block, block; intros; lia).
    destruct H; apply G; [unfold valid_block; lia|assumption].
  - assumption.
  - intros E. pose proof exceptions_compose as X. rewrite forallb_forall in X. specialize (X _ H). cbn [snd] in X.
    apply negb_true_iff in X. assert (among exceptions r = true) as Y by (apply existsb_exists; exists r; split; [assumption|apply N.eqb_refl]). congruence.
Qed.
Lemma exception_not_C s c : In c (C false s) -> ~ In c exceptions.
Proof.
  intros H. assert (Forall (fun c => ~ In c exceptions) (C false s)) as F.
  { unfold C. apply crun_closed; [intros a b r Ha Hb E; now apply (exception_compose a b)| |constructor|constructor].
    apply Forall_forall. intros x. apply exception_not_D. }
  rewrite Forall_forall in F. now apply F.
Qed.
Lemma not_exceptions c : ~ In c exceptions -> ~ In c other_kind /\ ~ In c dropped.
Proof. unfold exceptions. rewrite in_app_iff. tauto. Qed.
Definition plain_name (s : str) : Prop := Forall (fun c => ~ In c exceptions) s.
Lemma plain_name_in s : plain_name s -> forall c, In c s -> ~ In c other_kind /\ ~ In c dropped.
Proof. unfold plain_name. rewrite Forall_forall. intros H c Hc. apply not_exceptions, H, Hc. Qed.
Lemma forms_plain s : plain_name (D false s) /\ plain_name (C false s).
Proof. split; apply Forall_forall; intros c; [apply exception_not_D|apply exception_not_C]. Qed.

(** ** Results *)
Lemma processing_flags s t f : (forall f, processing s f = processing t f) -> to_unicode s f = to_unicode t f /\ forall checked, to_ascii checked s f = to_ascii checked t f.
Proof. intros H. unfold to_unicode, to_ascii. rewrite !H. split; [reflexivity|]. intros. reflexivity. Qed.
Lemma nfd_plain a d : nfd a = Some d -> ~ In ypogegrammeni d -> plain (D false a).
Proof. rewrite nfd_eq. intros E H. injection E as <-. exact H. Qed.
Lemma nfd_same a b : nfd a = nfd b -> D false a = D false b.
Proof. rewrite !nfd_eq. congruence. Qed.

Lemma same_results a b d f : wf_str a -> wf_str b -> equivalent a b -> nfd a = Some d -> ~ In ypogegrammeni d ->
  (forall c, In c a \/ In c b -> ~ In c other_kind /\ ~ In c dropped) ->
  to_unicode a f = to_unicode b f /\ forall checked, to_ascii checked a f = to_ascii checked b f.
Proof.
  intros Ha Hb E Ed Hy X. apply processing_flags. intros f'.
  apply two_processing; try assumption; [now apply nfd_same|exact (nfd_plain a d Ed Hy)| |]; intros c Hc; apply X; auto.
Qed.
Lemma accepted_alike a b d f : wf_str a -> wf_str b -> equivalent a b -> nfd a = Some d -> ~ In ypogegrammeni d ->
  (forall c, In c a \/ In c b -> ~ In c dropped) -> forall t,
  (to_unicode a f = Ret (t, []) <-> to_unicode b f = Ret (t, [])) /\
  forall checked, (to_ascii checked a f = Ret (inl t) <-> to_ascii checked b f = Ret (inl t)).
Proof.
  intros Ha Hb E Ed Hy X t. assert (forall c, In c a -> ~ In c dropped) as Xa by auto. assert (forall c, In c b -> ~ In c dropped) as Xb by auto.
  pose proof (nfd_same a b E) as Hd. pose proof (nfd_plain a d Ed Hy) as Hp.
  split; [exact (two_accepted a b Ha Hb Hd Hp _ Xa Xb t)|]. intros checked. exact (two_ascii a b Ha Hb Hd Hp checked f Xa Xb t).
Qed.
Lemma unicode_text_alike a b d f t e : wf_str a -> wf_str b -> equivalent a b -> nfd a = Some d -> ~ In ypogegrammeni d ->
  to_unicode a f = Ret (t, e) -> exists e', to_unicode b f = Ret (t, e').
Proof.
  intros Ha Hb E Ed Hy H. unfold to_unicode in *.
  destruct (two_text a b Ha Hb (nfd_same a b E) (nfd_plain a d Ed Hy) (mkFlags (use_std3 f) false (verify_dns f))) as [(t' & e1 & e2 & P1 & P2)|[P1 _]]; [|congruence].
  rewrite H in P1. injection P1 as <- <-. eauto.
Qed.
Lemma nfd_results s d f : wf_str s -> nfd s = Some d -> ~ In ypogegrammeni d -> (forall c, In c s -> ~ In c other_kind /\ ~ In c dropped) ->
  to_unicode d f = to_unicode s f /\ forall checked, to_ascii checked d f = to_ascii checked s f.
Proof.
  intros Hs Ed Hy X. pose proof Ed as Ed'. rewrite nfd_eq in Ed'. injection Ed' as <-.
  apply processing_flags. intros f'. apply two_processing; try assumption.
  - now apply D_scalar.
  - apply D_idem.
  - rewrite D_idem. exact Hy.
  - apply plain_name_in, forms_plain.
Qed.
(** U+11A7, which composition drops after a leading consonant and a vowel, drops out of the name as well *)
Definition jamo_plain (c : N) : bool := (0x1113 <=? c) && (c <? 0x1161) || (0x1176 <=? c) && (c <? 0x11A7) ||
  match fmap c with Some IM_Valid => negb (rtl_class (SpellTables.fbidi c)) | _ => false end.
Lemma jamo_plain_all : forallb (fun n => jamo_plain (0x1100 + N.of_nat n)) (seq 0 0xA8) = true.
Proof. vm_cast_no_check (eq_refl true). Qed.
Lemma jamo_maps c : 0x1100 <= c < 0x1113 \/ 0x1161 <= c < 0x1176 \/ c = 0x11A7 -> (forall tr, mtext tr c = [c]) /\ (forall std3, merr std3 c = []) /\ rtl_class (bidi_class c) = false.
Proof.
  intros H. pose proof jamo_plain_all as J. rewrite forallb_forall in J. specialize (J (N.to_nat (c - 0x1100))).
  assert (I : In (N.to_nat (c - 0x1100)) (seq 0 0xA8)) by (apply in_seq; lia). specialize (J I). cbv beta in J.
  rewrite N2Nat.id in J. replace (0x1100 + (c - 0x1100)) with c in J by lia. unfold jamo_plain in J. rewrite fmap_ok, SpellTables.fbidi_ok in J.
  assert (F : (0x1113 <=? c) && (c <? 0x1161) || (0x1176 <=? c) && (c <? 0x11A7) = false) by lia. rewrite F in J. cbn [orb] in J.
  unfold text_g, err_g. destruct (lookup MAPPING c) as [[]|]; try discriminate J.
  split; [reflexivity|]. split; [reflexivity|]. apply negb_true_iff, J.
Qed.
Lemma absorb_processing f s t : wf_str s -> absorb s t -> processing s f = processing t f /\ wf_str t.
Proof.
  intros Hs A. pose proof A as A'. destruct A' as [p l v q Hl Hv].
  assert (Ht : wf_str (p ++ leading l :: vowel v :: q)).
  { unfold wf_str in *. rewrite Forall_forall in *. intros x Hx. apply Hs. rewrite !in_app_iff in *. cbn [In] in *. tauto. }
  split; [|exact Ht]. rewrite !processing_eq by assumption.
  destruct (jamo_maps (leading l)) as (T1 & E1 & R1); [unfold leading; lia|].
  destruct (jamo_maps (vowel v)) as (T2 & E2 & R2); [unfold vowel; lia|].
  destruct (jamo_maps 0x11A7) as (T3 & E3 & R3); [lia|].
  assert (HE : flat_map (merr (use_std3 f)) (p ++ leading l :: vowel v :: 0x11A7 :: q) = flat_map (merr (use_std3 f)) (p ++ leading l :: vowel v :: q)).
  { rewrite !flat_map_app. cbn [flat_map]. rewrite E1, E2, E3. reflexivity. }
  assert (HR : has_rtl_char (p ++ leading l :: vowel v :: 0x11A7 :: q) = has_rtl_char (p ++ leading l :: vowel v :: q)).
  { unfold has_rtl_char. rewrite !existsb_app. cbn [existsb]. rewrite R1, R2, R3. reflexivity. }
  assert (HC : C false (flat_map (mtext (transitional f)) (p ++ leading l :: vowel v :: 0x11A7 :: q)) =
    C false (flat_map (mtext (transitional f)) (p ++ leading l :: vowel v :: q))).
  { apply C_iff. apply strip_absorb. apply D_absorb. rewrite !flat_map_app. cbn [flat_map]. rewrite T1, T2, T3. cbn [app].
    exact (absorb_intro _ l v _ Hl Hv). }
  rewrite HE, HR, HC. reflexivity.
Qed.
Lemma absorbs_processing f s t : absorbs s t -> wf_str s -> processing s f = processing t f /\ wf_str t.
Proof.
  induction 1 as [s t H|s|s t u H1 IH1 H2 IH2]; intros Hs; [now apply absorb_processing|auto|].
  destruct (IH1 Hs) as [E1 Ht]. destruct (IH2 Ht) as [E2 Hu]. split; [congruence|exact Hu].
Qed.
Lemma nfc_results s d n f : wf_str s -> nfd s = Some d -> ~ In ypogegrammeni d -> nfc s = Some n ->
  (forall c, In c s -> ~ In c other_kind /\ ~ In c dropped) ->
  to_unicode n f = to_unicode s f /\ forall checked, to_ascii checked n f = to_ascii checked s f.
Proof.
  intros Hs Ed Hy En X. rewrite nfd_eq in Ed. injection Ed as <-. rewrite nfc_eq in En. injection En as <-.
  assert (HD : wf_str (D false s)) by now apply D_scalar.
  assert (Hy' : plain (D false (C false s))).
  { rewrite D_C_strip. intros I. apply Hy. revert I. generalize 0%N. generalize (D false s). clear.
    induction l as [|c l IH]; intros st I; cbn [strip] in I; [exact I|]. destruct (_ && _); [right; eapply IH; exact I|].
    destruct I as [I|I]; [now left|right; eapply IH; exact I]. }
  apply processing_flags. intros f'.
  transitivity (processing (D false (C false s)) f').
  - symmetry. apply two_processing.
    + apply D_scalar. now apply C_scalar.
    + now apply C_scalar.
    + apply D_idem.
    + rewrite D_idem. exact Hy'.
    + apply plain_name_in, forms_plain.
    + apply plain_name_in, forms_plain.
  - rewrite D_C_strip. transitivity (processing (D false s) f').
    + symmetry. exact (proj1 (absorbs_processing f' _ _ (strip_absorbs (D false s)) HD)).
    + apply two_processing; try assumption; [apply D_idem|rewrite D_idem; exact Hy|apply plain_name_in, forms_plain].
Qed.

(** ** Where results differ *)
Lemma kind_differs c : In c other_kind -> exists b t e e', equivalent [c] b /\
  to_unicode [c] (mkFlags true false false) = Ret (t, e) /\ to_unicode b (mkFlags true false false) = Ret (t, e') /\ e <> e'.
Proof.
  unfold other_kind. intros [<-|[<-|[]]].
  - exists [0x3B], [0x3B], [DisallowedMappedInStd3; ValidityCriteria], [DisallowedByStd3AsciiRules; ValidityCriteria]. vm_compute. repeat split; congruence.
  - exists [0x60], [0x60], [DisallowedMappedInStd3; ValidityCriteria], [DisallowedByStd3AsciiRules; ValidityCriteria]. vm_compute. repeat split; congruence.
Qed.
Lemma acceptance_differs c : In c dropped -> exists b t e, equivalent [c] b /\
  to_unicode [c] (mkFlags true false false) = Ret (t, e) /\ e <> [] /\ to_unicode b (mkFlags true false false) = Ret (t, []).
Proof.
  unfold dropped. intros H. exists (D false [c]), (D false [c]), [DisallowedCharacter].
  destruct H as [<-|[<-|[<-|[<-|[<-|[]]]]]]; vm_compute; repeat split; congruence.
Qed.
Lemma texts_differ : exists a b t u, equivalent a b /\ to_unicode a (mkFlags true false false) = Ret (t, []) /\
  to_unicode b (mkFlags true false false) = Ret (u, []) /\ t <> u.
Proof.
  exists [0x1FB3; 0x316], [0x3B1; 0x316; 0x345], [0x3B1; 0x3B9; 0x316], [0x3B1; 0x316; 0x3B9]. vm_compute. repeat split; congruence.
Qed.

(** What each generated file says, from the data files. *)
From Coq Require Import String List NArith Lia Bool PeanoNat ZifyBool ZifyNat ZifyN Permutation.
From Verif Require Import Base RangeModel TableModel TableSpec TableProofs TextModel TableGenModel TableGenSpec TableGenProofs
  GenRegex GenModel GenSpec GenBinarySpec GenMap GenProofs GenBinary GenDataModel GenDataSpec GenDataTables GenDataCompose GenDataNames
  GenIdnaSpec GenIdna GenListModel GenListSpec GenList GenSegModel GenSegSpec GenSegTests.
From Verif Require Import RustSpec PrintModel PrintSpec PrintLex PrintProofs PrintFiles.
Import ListNotations.
Open Scope list_scope.
Open Scope N_scope.

(** * Sets *)
Lemma set_says t P : wf_table t -> (forall c, scalar c -> exists b, tcontains t c = Ret b /\ (b = true <-> P c)) ->
  says (file_of (table_text unit_text t)) (fun c x => P c /\ x = Tuple []).
Proof.
  intros Hw H. eapply says_ext; [apply (table_says unit_text (fun _ => Tuple [])); [exact Hw|]|].
  - intros c v _ _. apply reads_source, reads_unit.
  - intros c Hc x. cbv beta. destruct (H c Hc) as (b & Hb & Hiff). rewrite (tcontains_find t c Hw) in Hb.
    rewrite (find_scan t c Hw). destruct (TableSpec.scan (entries t) c) as [[]|]; injection Hb as <-.
    + split; [intros (v & _ & ->); split; [apply Hiff; reflexivity|reflexivity]|]. intros [_ ->]. exists tt. auto.
    + split; [intros (v & E & _); discriminate E|]. intros [Hp _]. apply Hiff in Hp. discriminate Hp.
Qed.

(** * Maps *)
Lemma map_says {V} (display : V -> str) (val : V -> expr) t (g : N -> option V) : wf_table t ->
  (forall c, scalar c -> find t c = Ret (g c)) ->
  (forall c v, scalar c -> g c = Some v -> source (display v) (val v)) ->
  says (file_of (table_text display t)) (fun c x => exists v, g c = Some v /\ x = val v).
Proof.
  intros Hw Hf Hr. eapply says_ext; [apply (table_says display val); [exact Hw|]|].
  - intros c v Hc E. rewrite (Hf c Hc) in E. injection E as E. exact (Hr c v Hc E).
  - intros c Hc x. cbv beta. rewrite (Hf c Hc). split; intros (v & E & ->); exists v; split; try reflexivity; congruence.
Qed.

Lemma last_row_in f c r : last_row f c = Some r -> In r (rows f).
Proof. unfold last_row. intros H. apply List.find_some in H. destruct H as [H _]. apply in_rev, H. Qed.

Lemma tells_prints {V} o (g : N -> option V) display val : tells o g ->
  (forall c v, scalar c -> g c = Some v -> source (display v) (val v)) ->
  prints_map o display (fun c x => exists v, g c = Some v /\ x = val v).
Proof. intros (t & -> & Hw & Hf) Hr. exists t. split; [reflexivity|]. apply map_says; assumption. Qed.
Lemma tells_set_prints o P : tells_set o P -> prints_set o P.
Proof. intros (t & -> & Hw & Hf). exists t. split; [reflexivity|]. apply set_says; assumption. Qed.

(** * Binary properties *)
Lemma core_prints uword uspace f name : In name core_names -> name <> "Grapheme_Link"%string ->
  ascii_classes uword uspace -> good_file word_value after_name f -> listed core_names f ->
  prints_set (emit_field uword uspace DERIVED_CORE_ARMS (field name) (file_text f)) (given f (letters name)).
Proof. intros H1 H2 H3 H4 H5. apply tells_set_prints. exact (core_ok uword uspace f name H1 H2 H3 H4 H5). Qed.
Lemma emoji_prints uword uspace f name : In name emoji_names ->
  ascii_classes uword uspace -> good_file word_value after_name f -> listed emoji_names f ->
  prints_set (emit_field uword uspace EMOJI_ARMS (field name) (file_text f)) (given f (letters name)).
Proof. intros H1 H2 H3 H4. apply tells_set_prints. exact (emoji_ok uword uspace f name H1 H2 H3 H4). Qed.

(** * Breaks, ages, blocks *)
Lemma breaks_print prefix f : good_file word_value after_word f -> rust_name (chars_of prefix) ->
  Forall (fun r => rust_name (value r)) (rows f) ->
  prints_map (emit_breaks (file_text f)) (break_text prefix)
    (fun c x => exists r, last_row f c = Some r /\ x = Name [chars_of prefix; value r]).
Proof.
  intros Hf Hp Hv. destruct (emit_breaks_ok f Hf) as (t & Et & Hw & Ha). exists t. split; [exact Et|].
  eapply says_ext; [apply (map_says (break_text prefix) (fun v => Name [chars_of prefix; v]) t _ Hw Ha)|].
  - intros c v Hc E. destruct (last_row f c) as [r|] eqn:Er; [|discriminate E]. injection E as <-.
    apply reads_source, reads_break; [exact Hp|]. rewrite Forall_forall in Hv. apply Hv. eapply last_row_in. exact Er.
  - intros c Hc x. cbv beta. destruct (last_row f c) as [r|]; cbn.
    + split; [intros (v & [= <-] & ->); eauto|intros (r' & [= <-] & ->); eauto].
    + split; intros (v & E & _); discriminate E.
Qed.

Lemma blocks_print f : block_file f -> Forall (fun r => unescaped (value r)) (rows f) ->
  prints_map (emit_blocks (file_text f)) quoted_text (fun c x => exists r, last_row f c = Some r /\ x = Text (value r)).
Proof.
  intros Hf Hv. destruct (emit_blocks_ok f Hf) as (t & Et & Hw & Ha). exists t. split; [exact Et|].
  eapply says_ext; [apply (map_says quoted_text Text t _ Hw Ha)|].
  - intros c v Hc E. destruct (last_row f c) as [r|] eqn:Er; [|discriminate E]. injection E as <-.
    apply reads_source, reads_quoted. rewrite Forall_forall in Hv. apply Hv. eapply last_row_in. exact Er.
  - intros c Hc x. cbv beta. destruct (last_row f c) as [r|]; cbn.
    + split; [intros (v & [= <-] & ->); eauto|intros (r' & [= <-] & ->); eauto].
    + split; intros (v & E & _); discriminate E.
Qed.

Lemma dot_split a b x y : Forall is_digit a -> Forall is_digit b -> a ++ 0x2E :: x = b ++ 0x2E :: y -> a = b /\ x = y.
Proof.
  revert b. induction a as [|c a IH]; intros [|d b] Ha Hb E; cbn in E.
  - injection E as ->. auto.
  - injection E as <- _. inversion Hb as [|? ? D]; subst. unfold is_digit in D. lia.
  - injection E as -> _. inversion Ha as [|? ? D]; subst. unfold is_digit in D. lia.
  - injection E as -> E. inversion Ha; inversion Hb; subst. destruct (IH b) as [-> ->]; auto.
Qed.
Lemma no_dot a x b : Forall is_digit b -> a ++ 0x2E :: x = b -> False.
Proof.
  intros Hb <-. apply Forall_app in Hb. destruct Hb as [_ Hb]. inversion Hb as [|? ? D]; subst. unfold is_digit in D. lia.
Qed.
Lemma version_parts a b m a' b' m' : Forall is_digit a -> Forall is_digit b -> (forall x, m = Some x -> Forall is_digit x) ->
  Forall is_digit a' -> Forall is_digit b' -> (forall x, m' = Some x -> Forall is_digit x) ->
  GenSpec.version_text a b m = GenSpec.version_text a' b' m' -> a = a' /\ b = b' /\ m = m'.
Proof.
  intros Ha Hb Hm Ha' Hb' Hm' E. unfold GenSpec.version_text in E. cbn [app] in E.
  apply dot_split in E; [|assumption..]. destruct E as [-> E]. split; [reflexivity|].
  destruct m as [x|], m' as [y|]; cbn [app] in E.
  - apply dot_split in E; [|assumption..]. destruct E as [-> ->]. auto.
  - rewrite app_nil_r in E. exfalso. eapply no_dot; [|exact E]. exact Hb'.
  - rewrite app_nil_r in E. exfalso. eapply no_dot; [|symmetry; exact E]. exact Hb.
  - rewrite !app_nil_r in E. auto.
Qed.

Lemma version_small t v : version_value t -> is_version t v -> exists a b c, v = (a, b, c) /\ a <= 0xFFFF /\ b <= 0xFFFF /\ c <= 0xFFFF.
Proof.
  intros (a & b & m & -> & Ha & Hb & Hm) (a' & b' & m' & E & Ha' & Hb' & Hm' & ->).
  apply version_parts in E; try assumption; [|apply Ha|apply Hb|intros x Ex; apply (Hm x Ex)].
  destruct E as (<- & <- & <-). do 3 eexists. split; [reflexivity|].
  destruct Ha as (_ & _ & Ha), Hb as (_ & _ & Hb). split; [lia|]. split; [lia|].
  destruct m as [x|]; [|lia]. destruct (Hm x eq_refl) as (_ & _ & Hx). lia.
Qed.

Lemma version_fun t v v' : is_version t v -> is_version t v' -> v = v'.
Proof.
  intros (a & b & m & -> & Ha & Hb & Hm & ->) (a' & b' & m' & E & Ha' & Hb' & Hm' & ->).
  apply version_parts in E; try assumption. destruct E as (<- & <- & <-). reflexivity.
Qed.

Lemma row_value {vo to} f r : good_file vo to f -> In r (rows f) -> vo (value r).
Proof.
  intros H I. unfold rows in I. apply in_flat_map in I as (l & Il & Ir). unfold good_file in H. rewrite Forall_forall in H. specialize (H l Il).
  destruct l as [r'|t]; [|destruct Ir]. destruct Ir as [->|[]]. apply H.
Qed.

Lemma age_print f : good_file version_value after_version f ->
  prints_map (emit_age_values (file_text f)) version_text
    (fun c x => exists r v, last_row f c = Some r /\ is_version (value r) v /\ x = version_expr v).
Proof.
  intros Hf. destruct (emit_age_ok f Hf) as (t & Et & Hw & Ha). exists t. split; [exact Et|].
  assert (Hv : forall c r, last_row f c = Some r -> version_value (value r)).
  { intros c r E. eapply row_value; [exact Hf|]. eapply last_row_in. exact E. }
  eapply says_ext; [apply (table_says version_text version_expr t Hw)|].
  - intros c v Hc E. destruct (Ha c Hc) as (o & Eo & Ho). rewrite E in Eo. injection Eo as <-.
    destruct (last_row f c) as [r|] eqn:Er; [|discriminate Ho]. destruct Ho as (v' & [= <-] & Hver).
    destruct (version_small _ _ (Hv c r Er) Hver) as (a & b & d & -> & H1 & H2 & H3).
    apply reads_source, reads_version; assumption.
  - intros c Hc x. cbv beta. destruct (Ha c Hc) as (o & Eo & Ho). rewrite Eo. destruct (last_row f c) as [r|] eqn:Er.
    + destruct Ho as (v & -> & Hver). split.
      * intros (v' & [= <-] & ->). eauto.
      * intros (r' & v' & [= <-] & Hver' & ->). exists v. split; [reflexivity|]. rewrite (version_fun _ _ _ Hver Hver'). reflexivity.
    + subst o. split; [intros (v & E & _); discriminate E|intros (r & v & E & _); discriminate E].
Qed.

(** * UnicodeData.txt *)
Lemma info_good f c d : good_data f -> info_of f c = Some d -> info_ok d.
Proof.
  intros [Hf _] H. unfold info_of in H. destruct (List.find (item_covers c) f) as [i|] eqn:Ei; [|discriminate H].
  apply List.find_some in Ei. destruct Ei as [Ei _]. rewrite Forall_forall in Hf. specialize (Hf i Ei).
  injection H as <-. destruct i; apply Hf.
Qed.

Lemma category_prints f : good_data f -> Forall (fun i => rust_name (gc (item_info i))) f ->
  prints_map (obind (data_from_str (data_text f)) emit_general_category) plain_text
    (fun c x => exists d, info_of f c = Some d /\ x = Name [gc d]).
Proof.
  intros Hf Hn. destruct (tells_prints _ _ plain_text (fun v => Name [v]) (general_category_ok f Hf)) as (t & E & S0).
  - intros c v _ H. unfold info_of in H. destruct (List.find (item_covers c) f) as [i|] eqn:Ei; [|discriminate H].
    injection H as <-. apply List.find_some in Ei. destruct Ei as [Ei _]. rewrite Forall_forall in Hn.
    apply reads_source, reads_name, Hn, Ei.
  - exists t. split; [exact E|]. eapply says_ext; [exact S0|]. intros c _ x. cbv beta. destruct (info_of f c) as [d|]; cbn.
    + split; [intros (v & [= <-] & ->); eauto|intros (d' & [= <-] & ->); eauto].
    + split; intros (v & K & _); discriminate K.
Qed.

Lemma bidi_prints f : good_data f -> Forall (fun i => rust_name (bc (item_info i))) f ->
  prints_map (obind (data_from_str (data_text f)) emit_bidi_class) plain_text
    (fun c x => exists w, bidi_class_of f c = Some w /\ x = Name [w]).
Proof.
  intros Hf Hn. apply (tells_prints _ _ plain_text (fun v => Name [v]) (bidi_class_ok f Hf)).
  intros c v _ H. apply reads_source, reads_name. unfold bidi_class_of, info_of in H.
  destruct (List.find (item_covers c) f) as [i|] eqn:Ei; cbn in H.
  - injection H as <-. apply List.find_some in Ei. destruct Ei as [Ei _]. rewrite Forall_forall in Hn. apply Hn, Ei.
  - unfold default_class in H.
    repeat match type of H with (if ?b then _ else _) = _ => destruct b end; try discriminate H; injection H as <-; fixed_name.
Qed.

Lemma class_prints f : good_data f ->
  prints_map (obind (data_from_str (data_text f)) emit_canonical_combining_class) class_text
    (fun c x => exists n, class_of f c = Some n /\ x = Call (path ["CanonicalCombiningClass"]%string) [Number n]).
Proof.
  intros Hf. apply (tells_prints _ _ class_text (fun n => Call (path ["CanonicalCombiningClass"]%string) [Number n]) (combining_class_ok f Hf)).
  intros c v _ H. apply reads_source, reads_class. unfold class_of in H. destruct (info_of f c) as [d|] eqn:Ed; [|discriminate H].
  destruct (info_good f c d Hf Ed) as (_ & (_ & _ & Hd) & _). destruct (dec_number (ccc d) =? 0); [discriminate H|].
  injection H as <-. lia.
Qed.

Lemma canonical_prints f : good_data f ->
  prints_map (obind (data_from_str (data_text f)) (fun es => Ret (emit_canonical_decomposition_mapping es))) chars_text
    (fun c x => exists m, canonical f c = Some m /\ x = chars_expr m).
Proof.
  intros Hf. apply (tells_prints _ _ chars_text chars_expr (canonical_ok f Hf)).
  intros c v _ H. apply reads_source, reads_chars. exact (mapping_scalar f c v Hf H).
Qed.

Lemma compatible_prints f : good_data f ->
  (forall i t, In i f -> tag (item_info i) = Some t -> rust_name (titled t)) ->
  prints_map (obind (data_from_str (data_text f)) (fun es => Ret (emit_compatibility_decomposition_mapping es))) compat_text
    (fun c x => exists t m, compatible f c = Some (t, m) /\ x = Tuple [Name [titled t]; chars_expr m]).
Proof.
  intros Hf Hn.
  destruct (tells_prints _ _ compat_text (fun v => Tuple [Name [titled (fst v)]; chars_expr (snd v)]) (compatible_ok f Hf)) as (t & E & S0).
  - intros c v _ H. unfold compatible in H. destruct (info_of f c) as [d|] eqn:Ed; [|discriminate H].
    destruct (tag d) as [w|] eqn:Et; [|discriminate H]. injection H as <-.
    apply reads_source, reads_compat; cbn [fst snd].
    + unfold info_of in Ed. destruct (List.find (item_covers c) f) as [i|] eqn:Ei; [|discriminate Ed]. injection Ed as <-.
      apply List.find_some in Ei. destruct Ei as [Ei _]. exact (Hn i w Ei Et).
    + destruct (info_good f c d Hf Ed) as (_ & _ & _ & _ & Hm & _). apply Forall_map. eapply Forall_impl; [|exact Hm].
      intros u [_ Hu]. exact Hu.
  - exists t. split; [exact E|]. eapply says_ext; [exact S0|]. intros c _ x. cbv beta. split.
    + intros ([w m] & K & ->). exists w, m. auto.
    + intros (w & m & K & ->). exists (w, m). auto.
Qed.

Lemma composition_prints f x : good_data f -> exclusion_file x -> short_mappings f -> distinct_mappings f x ->
  exists t, obind (data_from_str (data_text f)) (fun es => obind (exclusions_from_str (file_text x)) (fun s =>
              emit_canonical_composition_mapping es s)) = Ret t /\
  exists e, (forall e', source (file_of (table_text nested_text t)) e' <-> e' = e) /\
    forall a b, scalar a -> scalar b -> forall y,
      (exists inner, gives e a inner /\ gives inner b y) <->
      exists c, y = Character c /\ scalar c /\ canonical f c = Some [a; b] /\ ~ excluded x c.
Proof.
  intros H1 H2 H3 H4. destruct (composition_full f x H1 H2 H3 H4) as (t & E & Hw & Hin & H). exists t. split; [exact E|].
  set (val := fun inner : CharDataTable N => table_of Character inner).
  assert (Hr : readable nested_text val t).
  { intros a inner Ha Hf. destruct (Hin a inner Hf) as (l & -> & _ & Hwi). apply reads_source, reads_pairs.
    apply Forall_forall. intros [b c] I. cbn [fst snd].
    assert (Hb : scalar b).
    { destruct Hwi as [_ Hok]. rewrite Forall_forall in Hok. specialize (Hok (b, b, c)). apply Hok.
      cbn [entries]. apply in_map_iff. exists (b, c). auto. }
    split; [exact Hb|]. destruct (H a b) as (o & Eo & Ho). unfold composed in Eo. rewrite Hf in Eo. cbn [obind] in Eo.
    assert (Eb : find (Direct l) b = Ret (Some c)).
    { apply (entry_found (Direct l) (b, b, c) b Hwi); [|unfold covers; cbn; lia]. cbn [entries]. apply in_map_iff. exists (b, c). auto. }
    rewrite Eb in Eo. injection Eo as <-. apply (Ho c). reflexivity. }
  exists (table_of val t). split; [apply table_source; assumption|].
  intros a b Ha Hb y. destruct (H a b) as (o & Eo & Ho). unfold composed in Eo. split.
  - intros (inner & Hg & Hy). apply (table_gives val t a inner Hw Ha) in Hg. destruct Hg as (u & Hf & ->).
    destruct (Hin a u Hf) as (l & -> & _ & Hwi). apply (table_gives Character (Direct l) b y Hwi Hb) in Hy.
    destruct Hy as (c & Hfc & ->). rewrite Hf in Eo. cbn [obind] in Eo. rewrite Hfc in Eo. injection Eo as <-.
    exists c. split; [reflexivity|]. apply Ho. reflexivity.
  - intros (c & -> & Hc). apply Ho in Hc. subst o. destruct (find t a) as [[u|]|] eqn:Hf; cbn [obind] in Eo; try discriminate Eo.
    destruct (Hin a u Hf) as (l & -> & _ & Hwi). exists (table_of Character (Direct l)). split.
    + apply (table_gives val t a _ Hw Ha). exists (Direct l). auto.
    + apply (table_gives Character (Direct l) b _ Hwi Hb). exists c. auto.
Qed.

(** * Names *)
Lemma identifier_name p : p <> [] -> Forall name_char p -> p <> [0x2D] -> (forall d r, p = d :: r -> ~ is_digit d) -> rust_name (identifier p).
Proof.
  intros Hne Hc Hh Hd. pose proof (identifier_chars p Hc) as Hi.
  split; [split|split].
  - destruct p; [contradiction|discriminate].
  - eapply Forall_impl; [|exact Hi]. intros c H. unfold identifier_char in H. unfold word_char, digit_char. lia.
  - intros c r E. destruct p as [|d p]; [discriminate E|]. cbn in E. injection E as <- _. specialize (Hd d p eq_refl).
    unfold is_digit in Hd. unfold digit_char. destruct (N.eqb_spec d 0x2D); lia.
  - assert (K : forallb (fun w => String.eqb w "_" || existsb (fun c => 0x61 <=? c) (chars_of w)) kept = true) by (vm_compute; reflexivity).
    rewrite forallb_forall in K.
    intros I. apply in_map_iff in I as (w & E & Iw). specialize (K w Iw). apply orb_true_iff in K.
    destruct K as [K|K]; [apply String.eqb_eq in K; subst w|apply existsb_exists in K; destruct K as (c & Ic & Hl)].
    + destruct p as [|d [|d' p]]; [contradiction| |discriminate E]. cbn in E. injection E as E.
      destruct (N.eqb_spec d 0x2D) as [->|Hn]; [congruence|]. inversion Hc as [|? ? Hd']; subst. unfold name_char in Hd'. lia.
    + rewrite E in Ic. rewrite Forall_forall in Hi. specialize (Hi c Ic). unfold identifier_char in Hi. lia.
Qed.

Lemma names_print f : good_data f -> good_names f -> pronounceable f ->
  exists es, data_from_str (data_text f) = Ret es /\ NoDup (map fst (emit_name_values es)) /\
    (forall ds, Permutation ds (emit_name_values es) ->
       forall ds', source_consts (file_of (consts_text ds)) ds' <-> ds' = ds) /\
    says (file_of (table_text names_text (emit_name_map es)))
      (fun c x => exists n is ps, name_of f c = Some n /\ joined 0x20 ps = n /\
         Forall2 (fun i p => In (i, p) (emit_name_values es)) is ps /\ x = names_expr is).
Proof.
  intros Hf Hn Hp. destruct (names_ok f Hf Hn) as (es & Ees & Hnd & _ & Hw & Hm). exists es.
  pose proof (pieces_used f es Hf Hn Ees) as Hu.
  assert (Hi : forall i p, In (i, p) (emit_name_values es) -> rust_name i /\ unescaped p /\ i = identifier p /\ p <> [] /\ Forall name_char p).
  { intros i p I. destruct (Hu i p I) as (-> & c & n & ws & Hc & En & -> & Hws & Ip).
    destruct (Hp c ws p Hc En Hws Ip) as [Hh Hd]. rewrite Forall_forall in Hws. destruct (Hws p Ip) as [Hne Hch].
    split; [apply identifier_name; assumption|]. split; [|auto].
    eapply Forall_impl; [|exact Hch]. intros d Hdc. unfold name_char in Hdc. lia. }
  split; [exact Ees|]. split; [exact Hnd|]. split.
  - intros ds P ds'. apply consts_iff. apply Forall_forall. intros [i p] I. apply (Permutation_in _ P) in I.
    destruct (Hi i p I) as (H1 & H2 & _). split; assumption.
  - eapply says_ext; [apply (table_says names_text names_expr _ Hw)|].
    + intros c v Hc E. apply reads_source, reads_names. specialize (Hm c Hc). destruct (name_of f c) as [n|]; [|congruence].
      destruct Hm as (is & ps & Ei & F & _). rewrite Ei in E. injection E as <-.
      clear - F Hi. induction F as [|i p is ps H _ IH]; constructor; [apply (Hi i p H)|exact IH].
    + intros c Hc x. cbv beta. specialize (Hm c Hc). destruct (name_of f c) as [n|] eqn:En.
      * destruct Hm as (is & ps & Ei & F & Ej). split.
        -- intros (v & E & ->). rewrite Ei in E. injection E as <-. exists n, is, ps. auto.
        -- intros (n' & is' & ps' & [= <-] & Ej' & F' & ->). exists is. split; [exact Ei|].
           assert (G : forall a b, Forall2 (fun i p => In (i, p) (emit_name_values es)) a b ->
             a = map identifier b /\ Forall (fun w => w <> [] /\ Forall name_char w) b).
           { clear - Hi. intros a b F. induction F as [|i p a b H _ [IH1 IH2]]; [split; [reflexivity|constructor]|].
             destruct (Hi i p H) as (_ & _ & -> & H1 & H2). cbn. rewrite IH1. split; [reflexivity|]. constructor; auto. }
           destruct (G _ _ F) as [-> W], (G _ _ F') as [-> W']. do 2 f_equal.
           assert (T : ps' = ps); [|congruence].
           destruct ps as [|w ps], ps' as [|w' ps']; [reflexivity| | |].
           ++ exfalso. destruct (joined_ne (w' :: ps') ltac:(discriminate) W') as (y & z & Ey & _). rewrite Ej', <- Ej in Ey. discriminate Ey.
           ++ exfalso. destruct (joined_ne (w :: ps) ltac:(discriminate) W) as (y & z & Ey & _). rewrite Ej, <- Ej' in Ey. discriminate Ey.
           ++ rewrite <- (pieces_ok (w :: ps)) by (assumption || discriminate).
              rewrite <- (pieces_ok (w' :: ps')) by (assumption || discriminate). congruence.
      * split; [intros (v & E & _); congruence|intros (n & _ & _ & K & _); discriminate K].
Qed.

(** * The other files *)
Lemma jamo_prints f : good_listing jamo_row_ok f ->
  prints_map (emit_jamo (listing show_jamo f)) quoted_text (fun c x => exists w, jamo_of f c = Some w /\ x = Text w).
Proof.
  intros Hf. apply (tells_prints _ (jamo_of f) quoted_text Text (jamo_answers f Hf)).
  intros c v _ H. apply reads_source, reads_quoted. unfold jamo_of in H.
  destruct (List.find _ _) as [r|] eqn:Er; [|discriminate H]. injection H as <-. apply List.find_some in Er. destruct Er as [Er _].
  apply in_rev in Er. pose proof (items_good _ _ Hf) as Hg. rewrite Forall_forall in Hg. destruct (Hg r Er) as (_ & _ & Hl & _).
  eapply Forall_impl; [|exact Hl]. intros d Hd. unfold is_letter in Hd. lia.
Qed.

Lemma firsts_in {A} dec (l : list A) x : In x (firsts dec l) <-> In x l.
Proof. unfold firsts. rewrite <- in_rev, nodup_In, <- in_rev. reflexivity. Qed.

Lemma aliases_print f n ty : good_listing alias_row_ok f -> In (n, ty) alias_types ->
  prints_map (emit_aliases ty (listing show_alias f)) texts_text
    (fun c x => aliases_listed f n c <> [] /\ x = texts_expr (aliases_listed f n c)).
Proof.
  intros Hf Hn.
  destruct (tells_prints _ (fun c => unless_empty (aliases_listed f n c)) texts_text texts_expr (alias_answers f n ty Hf Hn)) as (t & E & S0).
  - intros c v _ H. apply reads_source, reads_texts. unfold unless_empty in H.
    destruct (aliases_listed f n c) as [|a l] eqn:Ea; [discriminate H|]. injection H as <-. rewrite <- Ea.
    apply Forall_forall. intros w I. unfold aliases_listed in I. apply firsts_in, in_map_iff in I as (r & <- & I).
    apply filter_In in I as [I _]. pose proof (items_good _ _ Hf) as Hg. rewrite Forall_forall in Hg. destruct (Hg r I) as (_ & Hl & _).
    eapply Forall_impl; [|exact Hl]. intros d Hd. unfold in_alias, is_letter, is_digit in Hd. lia.
  - exists t. split; [exact E|]. eapply says_ext; [exact S0|]. intros c _ x. cbv beta. unfold unless_empty.
    destruct (aliases_listed f n c) as [|a l].
    + split; [intros (v & K & _); discriminate K|intros [K _]; contradiction].
    + split; [intros (v & [= <-] & ->); split; [discriminate|reflexivity]|]. intros [_ ->]. eauto.
Qed.

Lemma alias_types_print f : good_listing alias_row_ok f ->
  prints_map (emit_alias_types (listing show_alias f)) (fun l => names_text (map lit l))
    (fun c x => exists l, l <> [] /\ Forall2 (fun n ty => In (n, ty) alias_types) (types_listed f c) l /\
       x = names_expr (map chars_of l)).
Proof.
  intros Hf. destruct (alias_types_answers f Hf) as (t & E & Hw & Ha). exists t. split; [exact E|].
  assert (U : forall ns l l', Forall2 (fun n ty => In (n, ty) alias_types) ns l ->
    Forall2 (fun n ty => In (n, ty) alias_types) ns l' -> l = l').
  { induction ns as [|n ns IH]; intros l l' F F'; inversion F as [|? ty ? la I F0]; inversion F' as [|? ty' ? lb I' F1]; subst; [reflexivity|].
    rewrite (IH _ _ F0 F1). f_equal. cbn in I, I'.
    repeat (destruct I as [I|I]; [injection I as <- <-; repeat (destruct I' as [I'|I']; [congruence|]); destruct I'|]). destruct I. }
  eapply says_ext; [apply (table_says _ (fun l => names_expr (map chars_of l)) t Hw)|].
  - intros c v Hc Ef. destruct (Ha c Hc) as (l & El & F). rewrite Ef in El. injection El as El.
    assert (El' : l = v) by (destruct l; [discriminate El|injection El as ->; reflexivity]). subst l.
    assert (Em : map lit v = map chars_of v) by (apply map_ext; intros w; apply lit_chars). rewrite Em.
    apply reads_source, reads_names, Forall_map.
    clear - F. induction F as [|n ty ns l I _ IH]; constructor; [|exact IH].
    cbn in I. repeat (destruct I as [[= <- <-]|I]; [fixed_name|]). destruct I.
  - intros c Hc x. cbv beta. destruct (Ha c Hc) as (l & El & F). rewrite El. split.
    + intros (v & K & ->). exists l. destruct l as [|a l]; [discriminate K|]. injection K as <-. split; [discriminate|]. auto.
    + intros (l' & Hne & F' & ->). rewrite (U _ _ _ F' F). exists l. split; [|reflexivity].
      rewrite (U _ _ _ F' F) in Hne. destruct l; [contradiction|reflexivity].
Qed.

Lemma row_says_fun r v v' : row_says r v -> row_says r v' -> v = v'.
Proof.
  destruct v as [w o], v' as [w' o']. intros (s & I & Es & Eo) (s' & I' & Es' & Eo'). cbn [fst snd] in *.
  rewrite Es in Es'. cbn in I, I'.
  repeat (destruct I as [I|I];
    [injection I as <- <-; repeat (destruct I' as [I'|I']; [injection I' as <- <-; first [discriminate Es'|congruence]|]); destruct I'|]). destruct I.
Qed.

Lemma last_idna_ok f c r : idna_file f -> last_idna_row f c = Some r -> idna_row_ok r.
Proof.
  intros Hf H. unfold last_idna_row in H. apply List.find_some in H. destruct H as [H _]. apply in_rev in H.
  unfold idna_rows in H. apply in_flat_map in H as (l & Il & Ir). unfold idna_file in Hf. rewrite Forall_forall in Hf. specialize (Hf l Il).
  destruct l; [|destruct Ir]. destruct Ir as [->|[]]. exact Hf.
Qed.

Lemma idna_prints f : idna_file f ->
  prints_map (emit_idna_mapping (idna_text f)) mapping_text
    (fun c x => exists r v, last_idna_row f c = Some r /\ row_says r v /\ x = mapping_expr v).
Proof.
  intros Hf. destruct (idna_answers f Hf) as (t & E & Hw & Ha). exists t. split; [exact E|].
  assert (Hs : forall c r v, last_idna_row f c = Some r -> row_says r v -> source (mapping_text v) (mapping_expr v)).
  { intros c r v El (s & I & Es & Eo). apply reads_source. unfold mapping_expr. apply reads_mapping.
    - clear - I. destruct v as [w o]. cbn in I. cbn [fst].
      repeat (destruct I as [[= <- <-]|I]; [fixed_name|]). destruct I.
    - intros m Em. assert (Ex := eq_trans (eq_sym Em) Eo). cbv beta in Ex. clear Eo Em. destruct (existsb _ _); [|discriminate Ex]. injection Ex as ->.
      pose proof (last_idna_ok f c r Hf El) as Hr. destruct Hr as (_ & _ & _ & _ & _ & _ & _ & _ & Hm & _).
      unfold row_mapping, more_ok in *. destruct (more r) as [[[[p mp] q] o]|]; [|constructor].
      destruct Hm as (_ & Hm & _). apply Forall_map. eapply Forall_impl; [|exact Hm]. intros u [_ Hu]. exact Hu. }
  eapply says_ext; [apply (table_says mapping_text mapping_expr t Hw)|].
  - intros c v Hc Ef. apply (Ha c Hc) in Ef. destruct (last_idna_row f c) as [r|] eqn:Er; [|discriminate Ef].
    destruct Ef as (v' & [= <-] & Hv). exact (Hs c r v Er Hv).
  - intros c Hc x. cbv beta. split.
    + intros (v & Ef & ->). apply (Ha c Hc) in Ef. destruct (last_idna_row f c) as [r|]; [|discriminate Ef].
      destruct Ef as (v' & [= <-] & Hv). eauto.
    + intros (r & v & Er & Hv & ->). exists v. split; [|reflexivity]. apply (Ha c Hc). rewrite Er. eauto.
Qed.

(** * Tests and versions *)
Lemma normal_tests_print f : good_listing test_row_ok f ->
  exists ts, tests_from_str (listing show_test f) = Ret ts /\
  forall e, source (file_of (normal_tests_text ts)) e <-> e = Slice (map (fun r => normal_test_expr (test_says r)) (items f)).
Proof.
  intros Hf. exists (map test_says (items f)). split; [apply tests_ok, Hf|]. intros e. rewrite <- (map_map test_says normal_test_expr).
  apply file_iff, reads_normal_tests. apply Forall_map. eapply Forall_impl; [|apply items_good, Hf].
  intros r [Hr _]. unfold normal_test_ok, test_says. cbn [map].
  assert (K : forall l : list str, l <> [] /\ Forall character_code l -> Forall scalar (map GenSpec.hex_number l)).
  { intros l [_ H]. apply Forall_map. eapply Forall_impl; [|exact H]. intros u [_ Hu]. exact Hu. }
  inversion Hr as [|? ? H1 Hr1]; subst. inversion Hr1 as [|? ? H2 Hr2]; subst. inversion Hr2 as [|? ? H3 Hr3]; subst.
  inversion Hr3 as [|? ? H4 Hr4]; subst. inversion Hr4 as [|? ? H5 _]; subst.
  constructor; [apply K, H1|]. constructor; [apply K, H2|]. constructor; [apply K, H3|]. constructor; [apply K, H4|].
  constructor; [apply K, H5|]. constructor.
Qed.

Lemma concat_scalar ls s : concat ls = s -> Forall scalar s -> Forall (Forall scalar) ls.
Proof.
  intros <-. induction ls as [|l ls IH]; cbn; intros H; constructor; apply Forall_app in H; [apply H|apply IH, H].
Qed.
Lemma usable_scalar f l : In l (usable_tests f) -> Forall scalar (test_chars_of l).
Proof.
  intros H. assert (K : forallb (fun x => scalarb (GenSpec.hex_number (code x))) l = true).
  { induction f as [|[sp sp' l'|t] f IH]; cbn in H; [destruct H| |auto].
    destruct (forallb _ l') eqn:E; [|auto]. destruct H as [<-|H]; auto. }
  apply Forall_map. rewrite forallb_forall in K. apply Forall_forall. intros x I. specialize (K x I). apply scalarb_spec, K.
Qed.

Lemma words_print uword uspace : (forall c, c < 128 -> uword c = GenRegex.word c) -> (forall c, c < 128 -> uspace c = space c) ->
  (forall b, uword (sign b) = false /\ uspace (sign b) = false) ->
  forall f, Forall good_test_line f ->
  exists out, emit_words uword uspace (tests_text f) = Ret out /\
    Forall2 (fun l o => fst o = test_chars_of l /\ divides (test_chars_of l) (break_after l) (snd o)) (usable_tests f) out /\
    forall e, source (file_of (word_tests_text out)) e <-> e = Slice (map word_test_expr out).
Proof.
  intros H1 H2 H3 f Hf. destruct (words_written uword uspace H1 H2 H3 f Hf) as (out & E & F). exists out.
  split; [exact E|]. split; [exact F|]. intros e. apply file_iff, reads_word_tests.
  assert (K : forall l, In l (usable_tests f) -> Forall scalar (test_chars_of l)) by apply usable_scalar.
  clear E e. revert F K. generalize (usable_tests f). intros ls F. induction F as [|l o ls out0 [Ho Hd] _ IH]; intros K; constructor.
  - assert (Kl := K l (or_introl eq_refl)). split; [exact (eq_ind_r (Forall scalar) Kl Ho)|]. eapply concat_scalar; [apply Hd|exact Kl].
  - exact (IH (fun l' Il => K l' (or_intror Il))).
Qed.

Lemma graphemes_print uword uspace : (forall c, c < 128 -> uword c = GenRegex.word c) -> (forall c, c < 128 -> uspace c = space c) ->
  (forall b, uword (sign b) = false /\ uspace (sign b) = false) ->
  forall f, Forall good_test_line f ->
  exists out, emit_graphemes uword uspace (tests_text f) = Ret out /\
    Forall2 (fun l o => let '(s, extended, legacy) := o in
        s = test_chars_of l /\ divides s (break_after l) extended /\
        match legacy with
        | None => forall k r, (0 < k < length l)%nat -> rule_after l k r -> ~ extended_only r
        | Some ls => divides s (fun k => break_after l k \/ exists r, rule_after l k r /\ extended_only r) ls
        end) (usable_tests f) out /\
    forall e, source (file_of (grapheme_tests_text out)) e <-> e = Slice (map grapheme_test_expr out).
Proof.
  intros H1 H2 H3 f Hf. destruct (graphemes_written uword uspace H1 H2 H3 f Hf) as (out & E & F). exists out.
  split; [exact E|]. split; [exact F|]. intros e. apply file_iff, reads_grapheme_tests.
  assert (K : forall l, In l (usable_tests f) -> Forall scalar (test_chars_of l)) by apply usable_scalar.
  clear E e. revert F K. generalize (usable_tests f). intros ls F.
  induction F as [|l [[s ext] leg] ls out0 (Ho & Hd & Hl) _ IH]; intros K; constructor.
  - assert (Kl := K l (or_introl eq_refl)). apply (eq_ind_r (Forall scalar) Kl) in Ho as Ks. clear Kl. rename Ks into Kl. split; [exact Kl|]. split; [eapply concat_scalar; [apply Hd|exact Kl]|].
    destruct leg as [ll|]; [|exact I]. eapply concat_scalar; [apply Hl|exact Kl].
  - exact (IH (fun l' Il => K l' (or_intror Il))).
Qed.

Lemma version_source a b c : a <= 0xFFFF -> b <= 0xFFFF -> c <= 0xFFFF ->
  forall e, source (version_file (a, b, c)) e <-> e = version_expr (a, b, c).
Proof. intros H1 H2 H3 e. apply file_iff, reads_version; assumption. Qed.

Lemma number_small a : number_value a -> dec_number a <= 0xFFFF.
Proof. intros (_ & _ & H). lia. Qed.

Lemma version_prints udigit : ascii_digits udigit -> forall pre a b c post,
  number_value a -> number_value b -> number_value c -> after_number post ->
  first_place (letters "for Version ") pre (a ++ [0x2E] ++ b ++ [0x2E] ++ c ++ post) ->
  exists v, version_from_str udigit (pre ++ letters "for Version " ++ a ++ [0x2E] ++ b ++ [0x2E] ++ c ++ post) = Ret v /\
  forall e, source (version_file v) e <-> e = version_expr (dec_number a, dec_number b, dec_number c).
Proof.
  intros H0 pre a b c post Ha Hb Hc Hp Hf. eexists. split; [apply version_ok; assumption|].
  apply version_source; apply number_small; assumption.
Qed.
Lemma emoji_version_prints udigit : ascii_digits udigit -> forall pre a b post,
  number_value a -> number_value b -> dec_number a < 0x100 -> dec_number b < 0x100 -> after_number post ->
  first_place (letters "Unicode Emoji, Version ") pre (a ++ [0x2E] ++ b ++ post) ->
  exists v, emoji_version_from_str udigit (pre ++ letters "Unicode Emoji, Version " ++ a ++ [0x2E] ++ b ++ post) = Ret v /\
  forall e, source (version_file v) e <-> e = version_expr (dec_number a, dec_number b, 0).
Proof.
  intros H0 pre a b post Ha Hb Ha' Hb' Hp Hf. eexists. split; [apply emoji_version_ok; assumption|].
  apply version_source; lia.
Qed.


(** * What is printed for the values *)
Lemma values_read :
  (forall v, source (unit_text v) (Tuple [])) /\
  (forall w, rust_name w -> source (plain_text w) (Name [w])) /\
  (forall p w, rust_name (chars_of p) -> rust_name w -> source (break_text p w) (Name [chars_of p; w])) /\
  (forall a b c, a <= 0xFFFF -> b <= 0xFFFF -> c <= 0xFFFF -> source (version_text (a, b, c)) (version_expr (a, b, c))) /\
  (forall w, unescaped w -> source (quoted_text w) (Text w)) /\
  (forall n, n <= 255 -> source (class_text n) (Call (path ["CanonicalCombiningClass"]%string) [Number n])) /\
  (forall l, Forall scalar l -> source (chars_text l) (chars_expr l)) /\
  (forall l, Forall (fun p => scalar (fst p) /\ scalar (snd p)) l ->
     source (pairs_text l) (table_of Character (Direct l))) /\
  (forall w l, rust_name (titled w) -> Forall scalar l -> source (compat_text (w, l)) (Tuple [Name [titled w]; chars_expr l])) /\
  (forall l, Forall rust_name l -> source (names_text l) (names_expr l)) /\
  (forall l, Forall unescaped l -> source (texts_text l) (texts_expr l)) /\
  (forall v, rust_name (chars_of (fst v)) -> (forall m, snd v = Some m -> Forall scalar m) ->
     source (mapping_text v) (mapping_expr v)).
Proof.
  split; [intros; apply reads_source, reads_unit|].
  split; [intros; apply reads_source, reads_name; assumption|].
  split; [intros; apply reads_source, reads_break; assumption|].
  split; [intros; apply reads_source, reads_version; assumption|].
  split; [intros; apply reads_source, reads_quoted; assumption|].
  split; [intros; apply reads_source, reads_class; assumption|].
  split; [intros; apply reads_source, reads_chars; assumption|].
  split; [intros; apply reads_source, reads_pairs; assumption|].
  split; [intros w l H1 H2; apply reads_source; exact (reads_compat (w, l) H1 H2)|].
  split; [intros; apply reads_source, reads_names; assumption|].
  split; [intros; apply reads_source, reads_texts; assumption|].
  intros; apply reads_source, reads_mapping; assumption.
Qed.

Lemma tests_read :
  (forall ts, Forall (fun t => Forall scalar (fst t) /\ Forall (Forall scalar) (snd t)) ts ->
     forall e, source (file_of (word_tests_text ts)) e <-> e = Slice (map word_test_expr ts)) /\
  (forall ts, Forall (fun t => let '(s, ext, leg) := t in Forall scalar s /\ Forall (Forall scalar) ext /\
                match leg with Some l => Forall (Forall scalar) l | None => True end) ts ->
     forall e, source (file_of (grapheme_tests_text ts)) e <-> e = Slice (map grapheme_test_expr ts)) /\
  (forall ts, Forall (fun t => let '(a, b, c, d, e) := t in Forall (Forall scalar) [a; b; c; d; e]) ts ->
     forall e, source (file_of (normal_tests_text ts)) e <-> e = Slice (map normal_test_expr ts)).
Proof.
  split; [intros ts H e; apply file_iff, reads_word_tests, H|].
  split; [intros ts H e; apply file_iff, reads_grapheme_tests, H|intros ts H e; apply file_iff, reads_normal_tests, H].
Qed.

(** Reading files that list binary properties. *)
From Coq Require Import String Ascii List NArith ZArith Lia Bool PeanoNat Sorted ZifyBool ZifyNat ZifyN.
From Verif Require Import Base RangeModel TableModel TableSpec TableTree TableProofs TextModel TableGenModel TableGenSpec
  TableGenProofs GenRegex GenModel GenSpec GenBinarySpec GenLemmas GenMap GenProofs.
Import ListNotations.
Open Scope N_scope.
Open Scope list_scope.

Section binary.
Variable uword uspace : N -> bool.
Hypothesis classes : ascii_classes uword uspace.

Lemma uspace_blank c : is_blank c -> uspace c = true.
Proof. intros H. apply classes; unfold is_blank in H; lia. Qed.

Definition BINARY_REST : re :=
  Seq (Cap 1 hex46) (Seq (Opt (Seq dot (Seq dot (Cap 2 hex46))))
    (Seq (plus (Cls uspace)) (Seq semicolon (Seq (plus (Cls uspace))
      (Cap 3 (plus (Cls uword))))))).

Lemma binary_reads r : good_row word_value after_name r ->
  reads BINARY_REST (row_text r) (Some (row_caps r)).
Proof.
  intros H. pose proof H as (Hl & Hh & Hp & Hpn & Hp' & Hpn' & [Hvn Hv] & Ht & Hn). split.
  - eapply row_no_newline; [exact H|]. now apply word_no_newline.
  - exists (row_head r), (tail r). split; [apply row_text_head|]. split; [now apply row_head_ne|]. intros u.
    change (row_caps r) with ([(3%nat, value r)] ++ range_caps (lo r) (hi r)). unfold row_head, BINARY_REST.
    assert (forall p, Forall is_blank p -> Forall (fun c => uspace c = true) p) as Hsp.
    { intros p. apply Forall_impl. apply uspace_blank. }
    apply (loose_range_eats _ _ _ (pad r) (pad' r ++ value r ++ tail r ++ 10 :: u)); auto.
    + now rewrite <- !app_assoc.
    + eapply not_starting_forall; eauto. apply blank_not_hex.
    + apply (eats_seq _ _ _ _ _ [] [(3%nat, value r)]).
      { apply eats_plus; auto. cbn. destruct (classes 0x3B) as [_ ->]; lia. }
      apply (eats_seq _ _ _ _ _ [] [(3%nat, value r)]); [apply eats_lit|].
      apply (eats_seq _ _ _ _ _ [] [(3%nat, value r)]).
      { apply eats_plus; auto. eapply not_starting_forall; eauto. cbv beta. intros c Hc K.
        assert (c < 128) by (unfold is_word, is_digit in Hc; lia).
        apply classes in K; [|assumption]. unfold is_word, is_digit in Hc. lia. }
      apply eats_cap, eats_plus; [exact Hvn| |].
      * eapply Forall_impl; [|exact Hv]. intros c Hc. apply classes; [|exact Hc].
        unfold is_word, is_digit in Hc. lia.
      * destruct (tail r) as [|c t]; cbn.
        -- destruct (classes 10) as [-> _]; [lia|]. unfold is_word, is_digit. lia.
        -- cbn in Ht. destruct (classes c) as [-> _]; tauto.
Qed.

(** The sets after reading some rows. *)
Definition apply_row (a : arms) (props : fields) (r : row) : fields :=
  match arm a (value r) with
  | Ret (Some name) => extend props name (range_chars (closed (low r) (high r)))
  | _ => props
  end.

Lemma binary_file a f : good_file word_value after_name f ->
  Forall (fun r => scalar (low r) /\ scalar (high r) /\ arm a (value r) <> Panic) (rows f) ->
  binary_from_str uword uspace a (file_text f) = Ret (fold_left (apply_row a) (rows f) (fun _ => [])).
Proof.
  intros H Hr. unfold binary_from_str.
  change (BINARY_PROPERTIES_REGEX uword uspace) with (Seq Bol BINARY_REST).
  erewrite file_captures; [|apply starts_fails; exact I| | |exact H].
  - eapply (ofold_map _ _ _ (fun r => good_row word_value after_name r /\
      scalar (low r) /\ scalar (high r) /\ arm a (value r) <> Panic)).
    + intros props r ((Hl & Hh & _) & Hsl & Hsh & Ha). unfold binary_step.
      rewrite row_caps_1, row_caps_2, row_caps_3. cbn [obind].
      rewrite (hex_char_ok (lo r) Hl Hsl). cbn [obind]. fold (low r).
      assert (match hi r with None => Ret (low r) | Some t => hex_char t end = Ret (high r)) as ->.
      { unfold high in *. destruct (hi r) as [h|]; [|reflexivity]. apply hex_char_ok; auto. }
      cbn [obind]. unfold apply_row. destruct (arm a (value r)) as [[n|]|]; [reflexivity|reflexivity|congruence].
    + pose proof (rows_good _ _ H) as G. rewrite Forall_forall in *. auto.
  - intros t Ht. now apply starts_fails.
  - intros r. apply binary_reads.
Qed.
End binary.

Lemma apply_rows a rs : forall x,
  let s := fold_left (apply_row a) rs (fun _ => []) x in
  sorted_set s /\
  forall c, In c s <-> scalar c /\ exists r, In r rs /\ arm a (value r) = Ret (Some x) /\ low r <= c <= high r.
Proof.
  cbn. induction rs as [|r rs IH] using rev_ind; intros x.
  - cbn. split; [apply sorted_set_nil|]. intros c. split; [intros []|intros (_ & ? & [] & _)].
  - rewrite fold_left_app. cbn [fold_left]. specialize (IH x). destruct IH as [IHs IHi].
    set (p := fold_left _ rs _) in *. unfold apply_row.
    assert (forall c, (exists r0, In r0 (rs ++ [r]) /\ arm a (value r0) = Ret (Some x) /\ low r0 <= c <= high r0) <->
      (exists r0, In r0 rs /\ arm a (value r0) = Ret (Some x) /\ low r0 <= c <= high r0) \/
      (arm a (value r) = Ret (Some x) /\ low r <= c <= high r)) as Happ.
    { intros c. setoid_rewrite in_app_iff. cbn [In]. split.
      - intros (r0 & [Hin|[<-|[]]] & K); [left; eauto|right; exact K].
      - intros [(r0 & Hin & K)|K]; eauto. }
    setoid_rewrite Happ. clear Happ.
    destruct (arm a (value r)) as [[n|]|] eqn:E.
    + unfold extend. destruct (String.eqb_spec x n) as [->|Hne].
      * destruct (set_list (range_chars (closed (low r) (high r)))) with (s := p n) as [H1 H2]; [|exact IHs|].
        { apply filter_scalar. }
        split; [exact H1|]. intros c. rewrite H2, in_range_chars, IHi. cbn [closed r_low r_high]. tauto.
      * split; [exact IHs|]. intros c. rewrite IHi. intuition congruence.
    + split; [exact IHs|]. intros c. rewrite IHi. intuition congruence.
    + split; [exact IHs|]. intros c. rewrite IHi. intuition congruence.
Qed.

Lemma emit_field_ok uword uspace a f x : ascii_classes uword uspace ->
  good_file word_value after_name f ->
  Forall (fun r => scalar (low r) /\ scalar (high r) /\ arm a (value r) <> Panic) (rows f) ->
  exists t, emit_field uword uspace a x (file_text f) = Ret t /\ wf_table t /\
    forall c, scalar c -> exists b, tcontains t c = Ret b /\
      (b = true <-> exists r, In r (rows f) /\ arm a (value r) = Ret (Some x) /\ low r <= c <= high r).
Proof.
  intros Hc Hf Hr. unfold emit_field. rewrite binary_file by assumption. cbn [obind].
  destruct (apply_rows a (rows f) x) as [Hs Hi].
  destruct (to_set_ok _ Hs) as (l & E & Hw & _ & Hl).
  exists (Range l). split; [exact E|]. split; [exact Hw|]. intros c Hsc.
  specialize (Hl c). rewrite tcontains_find in * by exact Hw. eexists. split; [reflexivity|].
  specialize (Hi c). transitivity (In c (fold_left (apply_row a) (rows f) (fun _ => []) x)).
  - rewrite <- Hl. split; congruence.
  - rewrite Hi. tauto.
Qed.

(** * The arms *)
Lemma text_inj s : forall t, text s = text t -> s = t.
Proof.
  induction s as [|a s IH]; intros [|b t] E; try discriminate; [reflexivity|]. cbn in E. injection E as E1 E2.
  f_equal; [|auto]. rewrite <- (ascii_N_embedding a), <- (ascii_N_embedding b). congruence.
Qed.

Lemma arm_in a s o : arm a s = Ret o -> exists n, In (n, o) a /\ s = text n.
Proof.
  induction a as [|[n o'] a IH]; cbn; [discriminate|].
  destruct (str_eqb s (text n)) eqn:E.
  - intros [= ->]. apply str_eqb_spec in E. eauto.
  - intros H. apply IH in H as (m & Hin & ->). eauto.
Qed.

Lemma in_arm a n o : NoDup (map fst a) -> In (n, o) a -> arm a (text n) = Ret o.
Proof.
  induction a as [|[n' o'] a IH]; cbn; [intros _ []|]. intros Hnd Hin. inversion Hnd as [|? ? Hni Hnd']; subst.
  destruct Hin as [[= -> ->]|Hin].
  - rewrite (proj2 (str_eqb_spec _ _) eq_refl). reflexivity.
  - destruct (str_eqb (text n) (text n')) eqn:E.
    + apply str_eqb_spec, text_inj in E. subst. exfalso. apply Hni. change n' with (fst (n', o)). now apply in_map.
    + now apply IH.
Qed.

Lemma arm_iff a : NoDup (map fst a) -> forall s o, arm a s = Ret o <-> exists n, In (n, o) a /\ s = text n.
Proof.
  intros H s o. split; [apply arm_in|]. intros (n & Hin & ->). now apply in_arm.
Qed.

Definition feeds (a : arms) (name : string) : bool :=
  forallb (fun e => match snd e with
                    | Some x => Bool.eqb (String.eqb (fst e) name) (String.eqb x (field name))
                    | None => negb (String.eqb (fst e) name)
                    end) a.

Lemma feeds_iff a name : NoDup (map fst a) -> feeds a name = true -> In name (map fst a) ->
  forall s, arm a s = Ret (Some (field name)) <-> s = text name.
Proof.
  intros Hnd Hfd Hin s. rewrite arm_iff by exact Hnd. unfold feeds in Hfd. rewrite forallb_forall in Hfd. split.
  - intros (n & Hn & ->). specialize (Hfd _ Hn). cbn in Hfd. rewrite String.eqb_refl in Hfd.
    apply Bool.eqb_prop in Hfd. apply String.eqb_eq in Hfd. now subst.
  - intros ->. apply in_map_iff in Hin as ((n & o) & E & Hn). cbn in E. subst n.
    specialize (Hfd _ Hn) as K. cbn in K. rewrite String.eqb_refl in K. destruct o as [x|]; [|discriminate].
    apply Bool.eqb_prop in K. symmetry in K. apply String.eqb_eq in K. subst x. eauto.
Qed.

Lemma listed_arms a names f : map fst a = names -> NoDup names -> listed names f ->
  Forall (fun r => scalar (low r) /\ scalar (high r) /\ arm a (value r) <> Panic) (rows f).
Proof.
  intros En Hnd. apply Forall_impl. intros r ((n & Hn & Ev) & Hl & Hh). split; [exact Hl|]. split; [exact Hh|].
  subst names. apply in_map_iff in Hn as ((n' & o) & E & Hn). cbn in E. subst n'.
  change (letters n) with (text n) in Ev. rewrite Ev, (in_arm a n o); auto. discriminate.
Qed.

Lemma emit_name_ok a names uword uspace f name : map fst a = names -> NoDup names ->
  feeds a name = true -> In name names ->
  ascii_classes uword uspace -> good_file word_value after_name f -> listed names f ->
  exists t, emit_field uword uspace a (field name) (file_text f) = Ret t /\ wf_table t /\
    forall c, scalar c -> exists b, tcontains t c = Ret b /\ (b = true <-> given f (letters name) c).
Proof.
  intros En Hnd Hfd Hin Hc Hf Hl.
  destruct (emit_field_ok uword uspace a f (field name) Hc Hf (listed_arms a names f En Hnd Hl)) as (t & E & Hw & Ht).
  exists t. split; [exact E|]. split; [exact Hw|]. intros c Hsc. destruct (Ht c Hsc) as (b & Eb & Hb).
  exists b. split; [exact Eb|]. rewrite Hb. unfold given. subst names. change (letters name) with (text name).
  setoid_rewrite (feeds_iff a name Hnd Hfd Hin). reflexivity.
Qed.

Definition nodupb (l : list string) : bool :=
  (fix go l := match l with [] => true | x :: l' => negb (existsb (String.eqb x) l') && go l' end) l.

Lemma nodupb_ok l : nodupb l = true -> NoDup l.
Proof.
  induction l as [|x l IH]; cbn; [constructor|]. intros H. apply andb_true_iff in H as [H1 H2].
  constructor; [|auto]. intros Hin. apply negb_true_iff in H1.
  assert (existsb (String.eqb x) l = true) by (apply existsb_exists; exists x; split; [exact Hin|apply String.eqb_refl]).
  congruence.
Qed.

Lemma all_feed a names p : forallb (fun n => implb (p n) (feeds a n)) names = true ->
  forall n, In n names -> p n = true -> feeds a n = true.
Proof.
  intros H n Hn Hp. rewrite forallb_forall in H. specialize (H n Hn). rewrite Hp in H. exact H.
Qed.

Lemma core_ok uword uspace f name : In name core_names -> name <> "Grapheme_Link"%string ->
  ascii_classes uword uspace -> good_file word_value after_name f -> listed core_names f ->
  exists t, emit_field uword uspace DERIVED_CORE_ARMS (field name) (file_text f) = Ret t /\ wf_table t /\
    forall c, scalar c -> exists b, tcontains t c = Ret b /\ (b = true <-> given f (letters name) c).
Proof.
  intros Hin Hne. apply (emit_name_ok _ core_names); auto.
  - apply nodupb_ok. vm_compute. reflexivity.
  - apply (all_feed DERIVED_CORE_ARMS core_names (fun n => negb (String.eqb n "Grapheme_Link")) eq_refl); [exact Hin|].
    apply negb_true_iff. now apply String.eqb_neq.
Qed.

Lemma emoji_ok uword uspace f name : In name emoji_names ->
  ascii_classes uword uspace -> good_file word_value after_name f -> listed emoji_names f ->
  exists t, emit_field uword uspace EMOJI_ARMS (field name) (file_text f) = Ret t /\ wf_table t /\
    forall c, scalar c -> exists b, tcontains t c = Ret b /\ (b = true <-> given f (letters name) c).
Proof.
  intros Hin. apply (emit_name_ok _ emoji_names); auto.
  - apply nodupb_ok. vm_compute. reflexivity.
  - apply (all_feed EMOJI_ARMS emoji_names (fun n => true) eq_refl); [exact Hin|reflexivity].
Qed.

Lemma prop_list_ok uword uspace f name : In name prop_list_names ->
  name <> "Dash"%string -> name <> "Hyphen"%string ->
  ascii_classes uword uspace -> good_file word_value after_name f -> listed prop_list_names f ->
  exists t, emit_field uword uspace PROP_LIST_ARMS (field name) (file_text f) = Ret t /\ wf_table t /\
    forall c, scalar c -> exists b, tcontains t c = Ret b /\ (b = true <-> given f (letters name) c).
Proof.
  intros Hin Hn1 Hn2. apply (emit_name_ok _ prop_list_names); auto.
  - apply nodupb_ok. vm_compute. reflexivity.
  - apply (all_feed PROP_LIST_ARMS prop_list_names (fun n => negb (String.eqb n "Dash") && negb (String.eqb n "Hyphen")) eq_refl);
      [exact Hin|].
    apply andb_true_iff. split; apply negb_true_iff; now apply String.eqb_neq.
Qed.

Lemma dash_ok uword uspace f :
  ascii_classes uword uspace -> good_file word_value after_name f -> listed prop_list_names f ->
  exists t, emit_field uword uspace PROP_LIST_ARMS "dash" (file_text f) = Ret t /\ wf_table t /\
    forall c, scalar c -> exists b, tcontains t c = Ret b /\
      (b = true <-> given f (letters "Dash") c \/ given f (letters "Hyphen") c).
Proof.
  intros Hc Hf Hl.
  assert (NoDup prop_list_names) as Hnd by (apply nodupb_ok; vm_compute; reflexivity).
  destruct (emit_field_ok uword uspace PROP_LIST_ARMS f "dash" Hc Hf
    (listed_arms PROP_LIST_ARMS prop_list_names f eq_refl Hnd Hl)) as (t & E & Hw & Ht).
  exists t. split; [exact E|]. split; [exact Hw|]. intros c Hsc. destruct (Ht c Hsc) as (b & Eb & Hb).
  exists b. split; [exact Eb|]. rewrite Hb. unfold given.
  change letters with text. assert (forall s, arm PROP_LIST_ARMS s = Ret (Some "dash"%string) <-> s = text "Dash" \/ s = text "Hyphen") as K.
  { intros s. rewrite arm_iff by exact Hnd. split.
    - intros (n & Hn & ->). cbn in Hn.
      repeat (destruct Hn as [Hn|Hn]; [injection Hn as <-; try discriminate; auto|]). destruct Hn.
    - intros [->| ->]; eexists; (split; [|reflexivity]); cbn; tauto. }
  setoid_rewrite K. split.
  - intros (r & Hin & [Ev|Ev] & Hc'); [left|right]; eauto.
  - intros [(r & Hin & Ev & Hc')|(r & Hin & Ev & Hc')]; eauto.
Qed.

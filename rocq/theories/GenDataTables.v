(** The tables written from UnicodeData.txt. *)
From Coq Require Import String Ascii List NArith ZArith Lia Bool PeanoNat Sorted ZifyBool ZifyNat ZifyN.
From Verif Require Import Base RangeModel TableModel TableSpec TableTree TableProofs TextModel TableGenModel TableGenSpec
  TableGenProofs GenRegex GenModel GenSpec GenBinarySpec GenLemmas GenMap GenProofs GenDataModel GenDataSpec GenDataRead
  GenDataEntries.
Import ListNotations.
Open Scope N_scope.
Open Scope list_scope.

(** * Collecting *)
Definition functional {V} (l : list (N * V)) : Prop := forall c v w, In (c, v) l -> In (c, w) l -> v = w.

Lemma collect_map_ok {V} (l : list (N * V)) : Forall (fun e => scalar (fst e)) l -> functional l ->
  sorted_map (collect_map l) /\ forall c v, In (c, v) (collect_map l) <-> In (c, v) l.
Proof.
  unfold collect_map. induction l as [|[k x] l IH] using rev_ind; intros Hs Hf.
  - split; [apply sorted_map_nil|]. cbn. tauto.
  - rewrite fold_left_app. cbn [fold_left fst snd]. apply Forall_app in Hs as [Hs Hk]. inversion Hk; subst.
    destruct IH as [IHs IHi]; [exact Hs|intros c v w H1' H2'; eapply Hf; apply in_or_app; left; eauto|].
    split; [now apply map_insert_sorted|]. intros c v. rewrite map_insert_in by exact IHs. rewrite IHi, in_app_iff.
    cbn [In]. split.
    + intros [[-> ->]|[_ H]]; auto.
    + intros [H|[[= <- <-]|[]]]; [|auto]. destruct (N.eq_dec c k) as [->|Hne]; [|auto].
      left. split; [reflexivity|]. eapply Hf; apply in_or_app; [left; exact H|right; now left].
Qed.

Lemma collect_set_ok l : Forall scalar l -> sorted_set (collect_set l) /\ forall c, In c (collect_set l) <-> In c l.
Proof.
  intros H. destruct (set_list l H [] sorted_set_nil) as [H1 H2]. split; [exact H1|]. intros c.
  unfold collect_set. rewrite H2. cbn. tauto.
Qed.

(** * Entries by character *)
Lemma sorted_cover f : increasing f -> forall i c, Forall item_ok f -> In i f -> item_covers c i = true ->
  List.find (item_covers c) f = Some i.
Proof.
  induction 1 as [|j f Hf IH Hj]; intros i c Hok Hin Hc; [destruct Hin|]. inversion Hok; subst. cbn.
  destruct Hin as [->|Hin]; [now rewrite Hc|].
  rewrite Forall_forall in Hj. specialize (Hj i Hin).
  replace (item_covers c j) with false; [auto|]. unfold item_covers in *. lia.
Qed.

Lemma find_in f i c : List.find (item_covers c) f = Some i -> In i f /\ item_covers c i = true.
Proof. apply List.find_some. Qed.

Definition item_entry (c : N) (i : item) : UnicodeDataEntry := entry_of c (item_name i) (item_info i).

Lemma entries_iff f : good_data f -> forall e, In e (flat_map item_entries f) <->
  scalar (character e) /\ exists i, List.find (item_covers (character e)) f = Some i /\ e = item_entry (character e) i.
Proof.
  intros [Hok Hinc] e. rewrite in_flat_map. split.
  - intros (i & Hi & He). rewrite Forall_forall in Hok. specialize (Hok i Hi) as Hoki.
    apply in_item_entries in He as (Hs & Hc & E); [|exact Hoki]. split; [exact Hs|]. exists i. split; [|exact E].
    apply sorted_cover; auto. now apply Forall_forall.
  - intros (Hs & i & Hi & E). apply find_in in Hi as [Hi Hc]. exists i. split; [exact Hi|].
    rewrite Forall_forall in Hok. apply in_item_entries; auto.
Qed.

(** What [g] says of the entry of a character. *)
Definition answer {V} (f : list item) (g : UnicodeDataEntry -> option V) (c : N) : option V :=
  match List.find (item_covers c) f with Some i => g (item_entry c i) | None => None end.

Definition pairs {V} (g : UnicodeDataEntry -> option V) (es : list UnicodeDataEntry) : list (N * V) :=
  flat_map (fun x => match g x with Some v => [(character x, v)] | None => [] end) es.

Lemma pairs_in {V} f (g : UnicodeDataEntry -> option V) : good_data f -> forall c v,
  In (c, v) (pairs g (flat_map item_entries f)) <-> scalar c /\ answer f g c = Some v.
Proof.
  intros Hf c v. unfold pairs, answer. rewrite in_flat_map. split.
  - intros (e & He & Hin). destruct (g e) as [w|] eqn:E; [|destruct Hin]. destruct Hin as [[= <- <-]|[]].
    apply entries_iff in He as (Hs & i & -> & Ee); [|exact Hf]. split; [exact Hs|]. rewrite <- Ee. exact E.
  - intros (Hs & E). destruct (List.find (item_covers c) f) as [i|] eqn:Ei; [|discriminate].
    exists (item_entry c i). split.
    + apply entries_iff; [exact Hf|]. cbn. split; [exact Hs|]. exists i. auto.
    + rewrite E. now left.
Qed.

Lemma pairs_map {V} f (g : UnicodeDataEntry -> option V) : good_data f ->
  let m := collect_map (pairs g (flat_map item_entries f)) in
  sorted_map m /\ forall c v, In (c, v) m <-> scalar c /\ answer f g c = Some v.
Proof.
  intros Hf m. destruct (collect_map_ok (pairs g (flat_map item_entries f))) as [H1 H2].
  - apply Forall_forall. intros [c v] H. apply pairs_in in H; [|exact Hf]. apply H.
  - intros c v w H1 H2. apply pairs_in in H1 as [_ H1]; [|exact Hf]. apply pairs_in in H2 as [_ H2]; [|exact Hf]. congruence.
  - split; [exact H1|]. intros c v. subst m. rewrite H2. now apply pairs_in.
Qed.

Lemma pairs_all {V} (h : UnicodeDataEntry -> V) es :
  map (fun x => (character x, h x)) es = pairs (fun x => Some (h x)) es.
Proof. unfold pairs. induction es as [|e es IH]; cbn; [reflexivity|]. now rewrite IH. Qed.

Lemma pairs_filter {V} p (h : UnicodeDataEntry -> V) es :
  map (fun x => (character x, h x)) (filter p es) = pairs (fun x => if p x then Some (h x) else None) es.
Proof.
  unfold pairs. induction es as [|e es IH]; cbn; [reflexivity|]. destruct (p e); cbn; now rewrite IH.
Qed.

Lemma chars_filter p es :
  map character (filter p es) = map fst (pairs (fun x => if p x then Some tt else None) es).
Proof.
  unfold pairs. induction es as [|e es IH]; cbn; [reflexivity|]. destruct (p e); cbn; now rewrite IH.
Qed.

Lemma chars_set f p : good_data f ->
  let s := collect_set (map character (filter p (flat_map item_entries f))) in
  sorted_set s /\ forall c, In c s <-> scalar c /\ exists i, List.find (item_covers c) f = Some i /\ p (item_entry c i) = true.
Proof.
  intros Hf s. subst s. rewrite chars_filter.
  set (g := fun x => if p x then Some tt else None).
  destruct (collect_set_ok (map fst (pairs g (flat_map item_entries f)))) as [H1 H2].
  - apply Forall_forall. intros c H. apply in_map_iff in H as ((c' & v) & <- & H). apply pairs_in in H; [|exact Hf]. apply H.
  - split; [exact H1|]. intros c. rewrite H2, in_map_iff. unfold answer in *. split.
    + intros ((c' & v) & <- & H). apply pairs_in in H as [Hs H]; [|exact Hf]. split; [exact Hs|].
      unfold answer, g in H. cbn [fst] in *. destruct (List.find _ f) as [i|]; [|discriminate]. exists i.
      split; [reflexivity|]. destruct (p _); [reflexivity|discriminate].
    + intros (Hs & i & Hi & Hp). exists (c, tt). split; [reflexivity|]. apply pairs_in; [exact Hf|]. split; [exact Hs|].
      unfold answer, g. now rewrite Hi, Hp.
Qed.

Lemma info_of_find f c : info_of f c = option_map item_info (List.find (item_covers c) f).
Proof. reflexivity. Qed.

Lemma tells_set_iff e (P Q : N -> Prop) : (forall c, Q c <-> P c) -> tells_set e Q -> tells_set e P.
Proof.
  intros H (t & E & Hw & Ht). exists t. split; [exact E|]. split; [exact Hw|]. intros c Hc.
  destruct (Ht c Hc) as (b & Eb & Hb). exists b. split; [exact Eb|]. now rewrite Hb.
Qed.

Lemma set_answers s (P : N -> Prop) : sorted_set s -> (forall c, scalar c -> (In c s <-> P c)) ->
  tells_set (to_range_char_set s) P.
Proof.
  intros Hs Hi. destruct (to_set_ok _ Hs) as (l & E & Hw & _ & Hl).
  exists (Range l). split; [exact E|]. split; [exact Hw|]. intros c Hsc.
  specialize (Hl c). rewrite tcontains_find in * by exact Hw. eexists. split; [reflexivity|].
  rewrite <- Hi, <- Hl by exact Hsc. split; congruence.
Qed.

Lemma general_category_ok f : good_data f ->
  tells (obind (data_from_str (data_text f)) emit_general_category) (fun c => option_map gc (info_of f c)).
Proof.
  intros Hf. rewrite data_from_str_ok by apply Hf. cbn [obind]. unfold emit_general_category.
  rewrite (pairs_all general_category). destruct (pairs_map f (fun x => Some (general_category x)) Hf) as [H1 H2].
  destruct (range_table_answers str_eqb str_eqb_spec _ _ H1 H2) as (l & E & Hw & Hl).
  exists (Range l). split; [exact E|]. split; [exact Hw|]. intros c Hc. rewrite Hl by exact Hc. f_equal.
  unfold answer, info_of. now destruct (List.find _ f).
Qed.

Lemma neqb_spec a b : (a =? b) = true <-> a = b.
Proof. apply N.eqb_eq. Qed.

Lemma combining_class_ok f : good_data f ->
  tells (obind (data_from_str (data_text f)) emit_canonical_combining_class)
    (class_of f).
Proof.
  intros Hf. rewrite data_from_str_ok by apply Hf. cbn [obind]. unfold emit_canonical_combining_class.
  rewrite (pairs_filter _ canonical_combining_class). destruct (pairs_map f
    (fun x => if negb (canonical_combining_class x =? 0) then Some (canonical_combining_class x) else None) Hf) as [H1 H2].
  destruct (range_table_answers N.eqb neqb_spec _ _ H1 H2) as (l & E & Hw & Hl).
  exists (Range l). split; [exact E|]. split; [exact Hw|]. intros c Hc. rewrite Hl by exact Hc. f_equal.
  unfold answer, class_of, info_of. destruct (List.find _ f) as [i|]; [|reflexivity]. cbn.
  destruct (_ =? 0); reflexivity.
Qed.

Lemma one_of_spec l s : one_of l s = true <-> exists x, In x l /\ s = letters x.
Proof.
  unfold one_of. rewrite existsb_exists. split; intros (x & Hx & E); exists x; (split; [exact Hx|]); now apply str_eqb_spec.
Qed.

Lemma chars_tell f p (P : info -> Prop) : good_data f ->
  (forall c n d, p (entry_of c n d) = true <-> P d) ->
  tells_set (to_range_char_set (collect_set (map character (filter p (flat_map item_entries f)))))
    (fun c => exists d, info_of f c = Some d /\ P d).
Proof.
  intros Hf Hp. destruct (chars_set f p Hf) as [H1 H2]. apply set_answers; [exact H1|].
  intros c Hc. rewrite H2. unfold info_of. split.
  - intros (_ & i & -> & E). exists (item_info i). split; [reflexivity|]. now apply Hp in E.
  - intros (d & E & Hd). split; [exact Hc|]. destruct (List.find _ f) as [i|]; [|discriminate]. injection E as <-.
    exists i. split; [reflexivity|]. now apply Hp.
Qed.

Lemma categories_ok f l : good_data f ->
  tells_set (to_range_char_set (collect_set (map character
      (filter (fun x => one_of l (general_category x)) (flat_map item_entries f)))))
    (is_category f l).
Proof.
  intros Hf. eapply tells_set_iff; [|apply (chars_tell f _ (fun d => exists x, In x l /\ gc d = letters x) Hf)].
  - intros c. unfold is_category. split.
    + intros (d & E & x & Hx & Ex). now exists d, x.
    + intros (d & x & E & Hx & Ex). exists d. split; [exact E|]. now exists x.
  - intros c n d. cbn. apply one_of_spec.
Qed.

Lemma mark_ok f : good_data f ->
  tells_set (obind (data_from_str (data_text f)) emit_general_category_mark)
    (is_category f ["Mn"; "Mc"; "Me"]%string).
Proof. intros Hf. rewrite data_from_str_ok by apply Hf. now apply categories_ok. Qed.

Lemma numeric_ok f : good_data f ->
  tells_set (obind (data_from_str (data_text f)) emit_numeric)
    (is_category f ["Nd"; "Nl"; "No"]%string).
Proof. intros Hf. rewrite data_from_str_ok by apply Hf. now apply categories_ok. Qed.

Lemma control_ok f : good_data f ->
  tells_set (obind (data_from_str (data_text f)) emit_control)
    (fun c => exists d, info_of f c = Some d /\ gc d = letters "Cc").
Proof.
  intros Hf. rewrite data_from_str_ok by apply Hf. apply (chars_tell f _ (fun d => gc d = letters "Cc") Hf). intros c n d. cbn [general_category entry_of].
  apply str_eqb_spec.
Qed.

Lemma mirrored_ok f : good_data f ->
  tells_set (obind (data_from_str (data_text f)) emit_bidi_mirrored)
    (fun c => exists d, info_of f c = Some d /\ mirrored d = true).
Proof.
  intros Hf. rewrite data_from_str_ok by apply Hf. apply (chars_tell f _ (fun d => mirrored d = true) Hf). intros c n d. reflexivity.
Qed.

(** * Bidi classes *)
Lemma map_get_in {V} (m : list (N * V)) k : sorted_map m -> forall v, map_get k m = Some v <-> In (k, v) m.
Proof.
  intros [Hs _]. induction m as [|[k' v'] m IH]; intros v; cbn in *; [split; [discriminate|intros []]|].
  inversion Hs as [|? ? Hs' Hf]; subst. specialize (IH Hs').
  destruct (N.eqb_spec k k') as [->|Hne].
  - split; [intros [= ->]; auto|]. intros [[= ->]|H]; [reflexivity|]. rewrite Forall_forall in Hf.
    specialize (Hf k'). exfalso. assert (k' < k'); [|lia]. apply Hf. change k' with (fst (k', v)). now apply in_map.
  - rewrite IH. split; [auto|]. intros [[= <- <-]|H]; [congruence|exact H].
Qed.

Lemma or_insert_list {V} (v : V) l : Forall scalar l -> forall m (g : N -> option V), sorted_map m ->
  (forall c x, In (c, x) m <-> scalar c /\ g c = Some x) ->
  let m' := fold_left (fun m p => map_or_insert p v m) l m in
  sorted_map m' /\ forall c x, In (c, x) m' <-> scalar c /\
    match g c with Some y => Some y | None => if existsb (N.eqb c) l then Some v else None end = Some x.
Proof.
  induction 1 as [|p l Hp Hl IH]; intros m g Hm Hg; cbn [fold_left].
  - split; [exact Hm|]. intros c x. rewrite Hg. cbn. now destruct (g c).
  - set (g' := fun c => match g c with Some y => Some y | None => if c =? p then Some v else None end).
    destruct (IH (map_or_insert p v m) g') as [H1 H2].
    + unfold map_or_insert. destruct (map_get p m); [exact Hm|now apply map_insert_sorted].
    + intros c x. unfold map_or_insert, g'. destruct (map_get p m) as [w|] eqn:E.
      * apply map_get_in in E; [|exact Hm]. apply Hg in E as [_ E]. rewrite Hg.
        destruct (N.eqb_spec c p) as [->|]; [rewrite E; tauto|]. now destruct (g c).
      * rewrite map_insert_in by exact Hm. rewrite Hg.
        destruct (N.eqb_spec c p) as [->|Hne].
        -- destruct (g p) as [w|] eqn:Eg.
           { assert (In (p, w) m) as K by (apply Hg; auto). apply map_get_in in K; [congruence|exact Hm]. }
           split; [intros [[_ ->]|[K _]]; [auto|congruence]|intros [_ [= ->]]; auto].
        -- destruct (g c); tauto.
    + split; [exact H1|]. intros c x. rewrite H2. unfold g'. cbn [existsb]. destruct (g c); [tauto|].
      destruct (c =? p); cbn; tauto.
Qed.

Lemma listed_range a b c : scalar c ->
  existsb (N.eqb c) (filter scalarb (u32_range a (b + 1))) = (a <=? c) && (c <=? b).
Proof.
  intros Hs. apply scalarb_spec in Hs. apply eq_iff_eq_true. rewrite existsb_exists. split.
  - intros (y & Hy & Ey). apply filter_In in Hy as [Hy _]. apply in_u32_range in Hy. lia.
  - intros K. exists c. split; [|apply N.eqb_refl]. apply filter_In. split; [apply in_u32_range; lia|exact Hs].
Qed.

Lemma or_insert_all {V} (ds : list (N * N * V)) : forall m (g : N -> option V), sorted_map m ->
  (forall c x, In (c, x) m <-> scalar c /\ g c = Some x) ->
  let m' := fold_left (fun m d => match d with (start, stop, v) =>
                 fold_left (fun m p => match char_from_u32 p with
                                       | Some c => map_or_insert c v m
                                       | None => m
                                       end) (u32_range start (stop + 1)) m end) ds m in
  sorted_map m' /\ forall c x, In (c, x) m' <-> scalar c /\
    match g c with
    | Some y => Some y
    | None => option_map snd (List.find (fun d => (fst (fst d) <=? c) && (c <=? snd (fst d))) ds)
    end = Some x.
Proof.
  induction ds as [|[[a b] v] ds IH]; intros m g Hm Hg; cbn [fold_left].
  - split; [exact Hm|]. intros c x. rewrite Hg. cbn. now destruct (g c).
  - rewrite (char_from_u32_filter (fun m c => map_or_insert c v m)).
    destruct (or_insert_list v _ (filter_scalar (u32_range a (b + 1))) m g Hm Hg) as [H1 H2].
    destruct (IH _ _ H1 H2) as [H3 H4]. split; [exact H3|]. intros c x. rewrite H4. cbn [List.find fst snd].
    destruct (g c) as [y|]; [tauto|].
    split; intros [Hs E]; (split; [exact Hs|]).
    + rewrite listed_range in E by exact Hs. destruct ((a <=? c) && (c <=? b)); exact E.
    + rewrite listed_range by exact Hs. destruct ((a <=? c) && (c <=? b)); exact E.
Qed.


Lemma defaults_ok c :
  option_map snd (List.find (fun d : N * N * str => (fst (fst d) <=? c) && (c <=? snd (fst d)))
    (map (fun d => (fst d, text (snd d))) BIDI_CLASS_DEFAULTS)) = default_class c.
Proof.
  unfold default_class, within, BIDI_CLASS_DEFAULTS. cbn [map List.find fst snd].
  do 13 (match goal with |- context [(?a <=? c) && (c <=? ?b)] =>
    destruct ((a <=? c) && (c <=? b)); cbn [orb]; [reflexivity|] end).
  reflexivity.
Qed.

Lemma bidi_class_ok f : good_data f ->
  tells (obind (data_from_str (data_text f)) emit_bidi_class) (bidi_class_of f).
Proof.
  intros Hf. rewrite data_from_str_ok by apply Hf. cbn [obind]. unfold emit_bidi_class.
  rewrite (pairs_all bidi_class). destruct (pairs_map f (fun x => Some (bidi_class x)) Hf) as [H1 H2].
  destruct (or_insert_all (map (fun d => (fst d, text (snd d))) BIDI_CLASS_DEFAULTS) _ _ H1 H2) as [H3 H4].
  assert (forall m, fold_left (fun m d => match d with (start, stop, v) =>
                 fold_left (fun m p => match char_from_u32 p with
                                       | Some c => map_or_insert c (text v) m
                                       | None => m
                                       end) (u32_range start (stop + 1)) m end) BIDI_CLASS_DEFAULTS m =
    fold_left (fun m d => match d with (start, stop, v) =>
                 fold_left (fun m p => match char_from_u32 p with
                                       | Some c => map_or_insert c v m
                                       | None => m
                                       end) (u32_range start (stop + 1)) m end)
      (map (fun d => (fst d, text (snd d))) BIDI_CLASS_DEFAULTS) m) as E0.
  { intros m. generalize BIDI_CLASS_DEFAULTS as l. intros l. revert m. clear. induction l as [|[[a b] v] l IH]; intros m.
    - reflexivity.
    - cbn [map fold_left fst snd]. apply IH. }
  rewrite E0. clear E0.
  destruct (range_table_answers str_eqb str_eqb_spec _ _ H3 H4) as (l & E & Hw & Hl).
  exists (Range l). split; [exact E|]. split; [exact Hw|]. intros c Hc. rewrite Hl by exact Hc. f_equal.
  rewrite defaults_ok. unfold answer, bidi_class_of, info_of. now destruct (List.find _ f).
Qed.

(** * Decompositions *)
Definition is_canonical (x : UnicodeDataEntry) : option str :=
  match decomposition_type x with None => decomposition_mapping x | Some _ => None end.

Lemma canonical_pairs es :
  flat_map (fun x => match decomposition_type x, decomposition_mapping x with
                     | None, Some d => [(character x, d)]
                     | _, _ => []
                     end) es = pairs is_canonical es.
Proof.
  unfold pairs, is_canonical. apply flat_map_ext. intros x. destruct (decomposition_type x); [reflexivity|].
  now destruct (decomposition_mapping x).
Qed.

Lemma canonical_answer f c : answer f is_canonical c = canonical f c.
Proof.
  unfold answer, canonical, info_of, is_canonical. destruct (List.find _ f) as [i|]; [|reflexivity]. cbn.
  destruct (tag (item_info i)); [reflexivity|]. now destruct (mapping (item_info i)).
Qed.

Lemma decomposition_map_ok f : good_data f ->
  let m := decomposition_map (flat_map item_entries f) in
  sorted_map m /\ forall c v, In (c, v) m <-> scalar c /\ canonical f c = Some v.
Proof.
  intros Hf m. subst m. unfold decomposition_map. rewrite canonical_pairs.
  destruct (pairs_map f is_canonical Hf) as [H1 H2]. split; [exact H1|]. intros c v. rewrite H2. now rewrite canonical_answer.
Qed.

Lemma canonical_ok f : good_data f ->
  tells (obind (data_from_str (data_text f)) (fun es => Ret (emit_canonical_decomposition_mapping es))) (canonical f).
Proof.
  intros Hf. rewrite data_from_str_ok by apply Hf. cbn [obind]. unfold emit_canonical_decomposition_mapping.
  destruct (decomposition_map_ok f Hf) as [H1 H2]. destruct (direct_table_answers _ _ H1 H2) as [Hw Hl].
  eexists. split; [reflexivity|]. auto.
Qed.

Lemma compatible_ok f : good_data f ->
  tells (obind (data_from_str (data_text f)) (fun es => Ret (emit_compatibility_decomposition_mapping es))) (compatible f).
Proof.
  intros Hf. rewrite data_from_str_ok by apply Hf. cbn [obind]. unfold emit_compatibility_decomposition_mapping.
  set (g := fun x => match decomposition_type x, decomposition_mapping x with
                     | Some t, Some d => Some (t, d) | _, _ => None end).
  replace (flat_map _ (flat_map item_entries f)) with (pairs g (flat_map item_entries f)).
  2:{ unfold pairs, g. apply flat_map_ext. intros x. destruct (decomposition_type x); [|reflexivity].
      now destruct (decomposition_mapping x). }
  destruct (pairs_map f g Hf) as [H1 H2]. destruct (direct_table_answers _ _ H1 H2) as [Hw Hl].
  eexists. split; [reflexivity|]. split; [exact Hw|]. intros c Hc. rewrite Hl by exact Hc. f_equal.
  unfold answer, compatible, info_of, g. destruct (List.find (item_covers c) f) as [i|] eqn:Ei; [|reflexivity]. cbn.
  apply find_in in Ei as [Ei _]. destruct Hf as [Hf _]. rewrite Forall_forall in Hf. specialize (Hf i Ei).
  assert (info_ok (item_info i)) as Hi by (destruct i; apply Hf).
  destruct Hi as (_ & _ & _ & _ & _ & Hm & _). destruct (tag (item_info i)) as [t|]; [|reflexivity].
  destruct (mapping (item_info i)); [|reflexivity]. exfalso. now apply Hm.
Qed.

(** Names and alphanumeric characters. *)
From Coq Require Import String Ascii List NArith ZArith Lia Bool PeanoNat Sorted ZifyBool ZifyNat ZifyN.
From Verif Require Import Base RangeModel TableModel TableSpec TableTree TableProofs TextModel TableGenModel TableGenSpec
  TableGenProofs GenRegex GenModel GenSpec GenBinarySpec GenLemmas GenMap GenProofs GenBinary GenDataModel GenDataSpec
  GenDataRead GenDataEntries GenDataTables.
Import ListNotations.
Open Scope N_scope.
Open Scope list_scope.

(** * Alphanumeric characters *)
Lemma alphanumeric_ok uword uspace f p : good_data f ->
  ascii_classes uword uspace -> good_file word_value after_name p -> listed core_names p ->
  tells_set (obind (data_from_str (data_text f)) (fun es =>
             obind (binary_from_str uword uspace DERIVED_CORE_ARMS (file_text p)) (fun props =>
             emit_alphanumeric es (props "alphabetic"%string))))
    (fun c => is_category f ["Nd"; "Nl"; "No"]%string c \/ given p (letters "Alphabetic") c).
Proof.
  intros Hf Hu Hp Hl. rewrite data_from_str_ok by apply Hf. cbn [obind].
  assert (NoDup core_names) as Hnd by (apply nodupb_ok; vm_compute; reflexivity).
  rewrite binary_file; [|exact Hu|exact Hp|exact (listed_arms DERIVED_CORE_ARMS core_names p eq_refl Hnd Hl)].
  cbn [obind]. destruct (apply_rows DERIVED_CORE_ARMS (rows p) "alphabetic") as [Ha1 Ha2].
  set (al := fold_left (apply_row DERIVED_CORE_ARMS) (rows p) (fun _ => []) "alphabetic"%string) in *. clearbody al.
  unfold emit_alphanumeric, get_alphanumeric, get_numeric.
  destruct (chars_set f (fun x => one_of ["Nd"; "Nl"; "No"]%string (general_category x)) Hf) as [Hn1 Hn2].
  destruct (set_list al (proj2 Ha1) _ Hn1) as [Hs1 Hs2].
  apply set_answers; [exact Hs1|]. intros c Hc. rewrite Hs2, Hn2, Ha2.
  assert (forall s, arm DERIVED_CORE_ARMS s = Ret (Some (field "Alphabetic")) <-> s = text "Alphabetic") as Hfd.
  { apply feeds_iff; [exact Hnd|reflexivity|]. apply (in_map fst DERIVED_CORE_ARMS ("Alphabetic", Some "alphabetic")%string).
    vm_compute. tauto. }
  change (field "Alphabetic") with "alphabetic"%string in Hfd. setoid_rewrite Hfd.
  unfold given, is_category, info_of. change (letters "Alphabetic") with (text "Alphabetic"). split.
  - intros [(_ & r & H)|(_ & i & -> & E)]; [right; eauto|left].
    apply one_of_spec in E as (x & Hx & E). exists (item_info i), x. auto.
  - intros [(d & x & E & Hx & Ed)|(r & H)]; [right|left; split; [exact Hc|eauto]]. split; [exact Hc|].
    destruct (List.find _ f) as [i|]; [|discriminate]. injection E as <-. exists i. split; [reflexivity|].
    apply one_of_spec. exists x. auto.
Qed.

(** * Names *)
Lemma identifier_inj v w : Forall name_char v -> Forall name_char w -> identifier v = identifier w -> v = w.
Proof.
  unfold identifier. intros Hv. revert w. induction Hv as [|c v Hc Hv IH]; intros [|d w] Hw E; cbn in E; try congruence.
  inversion Hw as [|? ? Hd Hw']; subst. injection E as E1 E2. f_equal; [|now apply IH].
  unfold name_char in *. destruct (N.eqb_spec c 0x2D), (N.eqb_spec d 0x2D); lia.
Qed.

Lemma identifier_chars w : Forall name_char w -> Forall identifier_char (identifier w).
Proof.
  intros H. unfold identifier. apply Forall_map. eapply Forall_impl; [|exact H]. cbn. intros c Hc.
  unfold name_char, identifier_char in *. destruct (N.eqb_spec c 0x2D); lia.
Qed.

(** Each once. *)
Definition once (s : list str) (l : list str) : list str :=
  fold_left (fun s p => if existsb (str_eqb p) s then s else s ++ [p]) l s.

Lemma existsb_str p s : existsb (str_eqb p) s = true <-> In p s.
Proof.
  rewrite existsb_exists. split; [intros (q & Hq & E); apply str_eqb_spec in E; now subst|].
  intros H. exists p. split; [exact H|now apply str_eqb_spec].
Qed.

Lemma nodup_snoc {A} (x : A) l : NoDup l -> ~ In x l -> NoDup (l ++ [x]).
Proof.
  intros H1 Hb. induction H1 as [|k l' Hk H1 IH]; cbn; [constructor; [intros []|constructor]|].
  cbn in Hb. constructor; [|apply IH; tauto]. rewrite in_app_iff. cbn. intros [K|[K|[]]]; [auto|]. subst. tauto.
Qed.

Lemma once_ok l : forall s, NoDup s -> NoDup (once s l) /\ forall p, In p (once s l) <-> In p s \/ In p l.
Proof.
  unfold once. induction l as [|p l IH]; intros s Hs; cbn [fold_left].
  - split; [exact Hs|]. cbn. tauto.
  - destruct (existsb (str_eqb p) s) eqn:E.
    + destruct (IH s Hs) as [H1 H2]. split; [exact H1|]. intros q. rewrite H2. cbn [In]. apply existsb_str in E.
      split; [tauto|]. intros [H|[<-|H]]; auto.
    + assert (~ In p s) as Hn by (intros K; apply existsb_str in K; congruence).
      destruct (IH (s ++ [p]) (nodup_snoc p s Hs Hn)) as [H1 H2]. split; [exact H1|]. intros q. rewrite H2, in_app_iff.
      cbn [In]. intuition.
Qed.

Lemma joined_ne ws : ws <> [] -> Forall (fun w : str => w <> [] /\ Forall name_char w) ws ->
  exists c t, joined 0x20 ws = c :: t /\ name_char c.
Proof.
  destruct ws as [|w ws]; [congruence|]. intros _ H. inversion H as [|? ? [Hn Hw] _]; subst.
  destruct w as [|c w]; [congruence|]. inversion Hw; subst. destruct ws; cbn; eauto.
Qed.

Lemma pieces_ok ws : ws <> [] -> Forall (fun w : str => w <> [] /\ Forall name_char w) ws ->
  split_whitespace (joined 0x20 ws) = ws.
Proof.
  intros Hne H. unfold split_whitespace. rewrite split_space_joined; [|exact Hne|].
  - induction H as [|w ws [Hw _] H IH]; [reflexivity|]. cbn. destruct w; [congruence|]. f_equal.
    destruct ws; [reflexivity|]. apply IH. discriminate.
  - eapply Forall_impl; [|exact H]. intros w [_ Hw] K. rewrite Forall_forall in Hw. specialize (Hw _ K).
    unfold name_char in Hw. lia.
Qed.

Definition named (x : UnicodeDataEntry) : option (list str) :=
  if negb (starts_with (name x) 0x3C) then Some (split_whitespace (name x)) else None.

Lemma named_of f c : good_data f -> good_names f ->
  match name_of f c with
  | None => answer f named c = None
  | Some n => exists ws, answer f named c = Some ws /\ n = joined 0x20 ws /\ Forall (fun w => w <> [] /\ Forall name_char w) ws
  end.
Proof.
  intros [Hf _] Hn. unfold name_of, answer. destruct (List.find (item_covers c) f) as [i|] eqn:Ei; [|reflexivity].
  apply find_in in Ei as [Ei _]. destruct i as [cp n d|a b l d].
  - unfold named, item_entry. cbn [name entry_of item_name].
    destruct (Hn cp n d Ei) as [(ws & Hne & -> & Hws)|(t & ->)].
    + destruct (joined_ne ws Hne Hws) as (x & t & E & Hx). pose proof (pieces_ok ws Hne Hws) as Hp. rewrite E in *. cbn [starts_with].
      assert ((x =? 0x3C) = false) as -> by (unfold name_char in Hx; lia). cbn [negb]. exists ws. rewrite Hp. auto.
    + reflexivity.
  - unfold named, item_entry. cbn [name entry_of item_name]. reflexivity.
Qed.

Lemma names_ok f : good_data f -> good_names f ->
  exists es, data_from_str (data_text f) = Ret es /\
    NoDup (map fst (emit_name_values es)) /\
    (forall i p, In (i, p) (emit_name_values es) -> Forall identifier_char i) /\
    wf_table (emit_name_map es) /\
    forall c, scalar c ->
      match name_of f c with
      | None => find (emit_name_map es) c = Ret None
      | Some n => exists is ps, find (emit_name_map es) c = Ret (Some is) /\
          Forall2 (fun i p => In (i, p) (emit_name_values es)) is ps /\ joined 0x20 ps = n
      end.
Proof.
  intros Hf Hn. exists (flat_map item_entries f). split; [apply data_from_str_ok, Hf|].
  set (es := flat_map item_entries f).
  assert (name_pieces es = pairs named es) as Enp.
  { unfold name_pieces. rewrite pairs_filter. reflexivity. }
  unfold emit_name_values, emit_name_map. rewrite Enp. fold (once [] (flat_map snd (pairs named es))).
  destruct (once_ok (flat_map snd (pairs named es)) [] (NoDup_nil _)) as [Hnd Hin].
  set (vs := once [] (flat_map snd (pairs named es))) in *. clearbody vs.
  assert (forall c ws, In (c, ws) (pairs named es) -> Forall (fun w => w <> [] /\ Forall name_char w) ws) as Hw.
  { intros c ws H. apply pairs_in in H as [_ H]; [|exact Hf]. pose proof (named_of f c Hf Hn) as K.
    destruct (name_of f c); [|congruence]. destruct K as (ws' & K & _ & Hws). congruence. }
  assert (forall p, In p vs -> Forall name_char p) as Hvs.
  { intros p Hp. apply Hin in Hp as [[]|Hp]. apply in_flat_map in Hp as ((c & ws) & H1 & H2). apply Hw in H1.
    rewrite Forall_forall in H1. apply (H1 p H2). }
  split; [|split; [|split]].
  - rewrite map_map. cbn. clear - Hnd Hvs. induction Hnd as [|p vs Hp Hnd IH]; cbn; [constructor|].
    constructor; [|apply IH; intros q Hq; apply Hvs; now right]. intros K. apply in_map_iff in K as (q & E & Hq).
    apply identifier_inj in E; [subst; auto|apply Hvs; now right|apply Hvs; now left].
  - intros i p H. apply in_map_iff in H as (q & [= <- <-] & Hq). now apply identifier_chars, Hvs.
  - set (g := fun x => option_map (map identifier) (named x)).
    assert (map (fun e : N * list str => (fst e, map identifier (snd e))) (pairs named es) = pairs g es) as ->.
    { unfold pairs, g. clear. induction es as [|x es IH]; cbn; [reflexivity|]. destruct (named x); cbn; now rewrite IH. }
    destruct (pairs_map f g Hf) as [H1 H2]. now destruct (direct_table_answers _ _ H1 H2).
  - set (g := fun x => option_map (map identifier) (named x)).
    assert (map (fun e : N * list str => (fst e, map identifier (snd e))) (pairs named es) = pairs g es) as ->.
    { unfold pairs, g. clear. induction es as [|x es IH]; cbn; [reflexivity|]. destruct (named x); cbn; now rewrite IH. }
    destruct (pairs_map f g Hf) as [H1 H2]. destruct (direct_table_answers _ _ H1 H2) as [_ Hl].
    intros c Hc. specialize (Hl c Hc). fold es in Hl. rewrite Hl.
    assert (answer f g c = option_map (map identifier) (answer f named c)) as ->.
    { unfold answer, g. now destruct (List.find _ f). }
    pose proof (named_of f c Hf Hn) as K. destruct (name_of f c) as [n|].
    + destruct K as (ws & K & -> & Hws). rewrite K. exists (map identifier ws), ws. split; [reflexivity|]. split; [|reflexivity].
      assert (In (c, ws) (pairs named es)) as Hp by (apply pairs_in; auto).
      assert (forall p, In p ws -> In p vs) as Hsub.
      { intros p Hp'. apply Hin. right. apply in_flat_map. exists (c, ws). auto. }
      clear - Hsub. induction ws as [|w ws IH]; cbn; constructor.
      * apply in_map_iff. exists w. split; [reflexivity|]. apply Hsub. now left.
      * apply IH. intros p Hp. apply Hsub. now right.
    + now rewrite K.
Qed.

(** The declared pieces are words of names. *)
Lemma pieces_used f es : good_data f -> good_names f -> data_from_str (data_text f) = Ret es ->
  forall i p, In (i, p) (emit_name_values es) -> i = identifier p /\
    exists c n ws, scalar c /\ name_of f c = Some n /\ n = joined 0x20 ws /\
      Forall (fun w => w <> [] /\ Forall name_char w) ws /\ In p ws.
Proof.
  intros Hf Hn E i p H. rewrite data_from_str_ok in E by apply Hf. injection E as <-.
  set (es := flat_map item_entries f) in *.
  assert (name_pieces es = pairs named es) as Enp.
  { unfold name_pieces. rewrite pairs_filter. reflexivity. }
  unfold emit_name_values in H. rewrite Enp in H. fold (once [] (flat_map snd (pairs named es))) in H.
  destruct (once_ok (flat_map snd (pairs named es)) [] (NoDup_nil _)) as [_ Hin].
  apply in_map_iff in H as (q & [= <- <-] & Hq). split; [reflexivity|].
  apply Hin in Hq as [[]|Hq]. apply in_flat_map in Hq as ((c & ws) & H1 & H2).
  apply pairs_in in H1 as [Hc H1]; [|exact Hf]. pose proof (named_of f c Hf Hn) as K.
  destruct (name_of f c) as [n|] eqn:En; [|congruence]. destruct K as (ws' & K & Ej & Hws).
  assert (ws' = ws) as -> by congruence. exists c, n, ws. auto.
Qed.

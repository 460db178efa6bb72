(** The readers of Jamo.txt, NameAliases.txt, NormalizationTest.txt and ReadMe.txt. *)
From Coq Require Import String Ascii List NArith ZArith Lia Bool PeanoNat Sorted ZifyBool ZifyNat ZifyN.
From Verif Require Import Base RangeModel TableModel TableSpec TableTree TableProofs TextModel TableGenModel TableGenSpec
  TableGenProofs GenRegex GenModel GenSpec GenBinarySpec GenLemmas GenMap GenProofs GenBinary GenDataModel GenDataSpec GenDataRead
  GenDataEntries GenDataTables GenDataCompose GenIdnaSpec GenIdna GenListModel GenListSpec.
Import ListNotations.
Open Scope N_scope.
Open Scope list_scope.

Local Notation nocap := (@nil (nat * str)).

Lemma listing_captures {A} rest (ok : A -> Prop) (show : A -> str) (caps : A -> list (nat * str)) f :
  (forall t, not_starting is_hex t -> fails rest t) ->
  (forall a, ok a -> reads rest (show a) (Some (caps a))) ->
  good_listing ok f ->
  captures_iter (Seq Bol rest) (listing show f) = map caps (items f).
Proof.
  intros F Hr Hf.
  set (pr := fun l => match l with Item a => (show a, Some (caps a)) | Note t => (t, None) end).
  assert (listing show f = concat (map (fun l : str * option (list (nat * str)) => fst l ++ [10]) (map pr f))) as ->.
  { unfold listing. f_equal. rewrite map_map. apply map_ext. intros []; reflexivity. }
  rewrite captures_lines; [|now apply F|].
  - clear. unfold items. induction f as [|[r|t] f IH]; cbn; [reflexivity| |]; now rewrite IH.
  - apply Forall_map. eapply Forall_impl; [|exact Hf]. intros [r|t]; cbn.
    + apply Hr.
    + intros [Hn Hs]. split; [exact Hn|]. intros u. apply F. apply not_starting_tail; [exact Hs|].
      intros K. now apply K.
Qed.

Lemma items_good {A} (ok : A -> Prop) f : good_listing ok f -> Forall ok (items f).
Proof. unfold items. induction 1 as [|[r|t] f H Hf IH]; cbn; [constructor|now constructor|exact IH]. Qed.

Lemma starts_code rest t : not_starting is_hex t -> fails (Seq (Cap 1 hex46) rest) t.
Proof. intros H. apply fails_seq, fails_cap, hex46_fails, H. Qed.

Lemma alpha_iff c : alpha c = true <-> is_letter c.
Proof. unfold alpha, is_letter. lia. Qed.
Lemma blank_iff c : blank c = true <-> is_blank c.
Proof. unfold blank, is_blank. lia. Qed.

Lemma Forall_class (p : N -> bool) (q : N -> Prop) w : (forall c, p c = true <-> q c) -> Forall q w -> Forall (fun c => p c = true) w.
Proof. intros H. apply Forall_impl. intros c. apply H. Qed.
Lemma starting_class (p : N -> bool) (q : N -> Prop) w : (forall c, p c = true <-> q c) ->
  not_starting q w -> not_starting (fun c => p c = true) w.
Proof. intros H. apply not_starting_iff. intros c. symmetry. apply H. Qed.

(** * Jamo.txt *)
Definition JAMO_REST : re := Seq (Cap 1 hex46) (Seq semicolon (Seq blanks (Cap 2 (Star (Cls alpha))))).
Definition jamo_caps (r : jamo_row) : list (nat * str) := [(2%nat, jname r); (1%nat, jcode r)].

Lemma letter_not_blank c : is_letter c -> ~ is_blank c.
Proof. unfold is_letter, is_blank. lia. Qed.

Lemma letters_no_newline w : Forall is_letter w -> no_newline w.
Proof. intros H K. rewrite Forall_forall in H. apply H in K. unfold is_letter in K. lia. Qed.

Lemma jamo_reads r : jamo_row_ok r -> reads JAMO_REST (show_jamo r) (Some (jamo_caps r)).
Proof.
  intros ([Hc Hsc] & Hp & Hn & Ht & Ht' & Hnl). split.
  - unfold show_jamo. apply no_newline_app; [apply hex_no_newline, Hc|]. apply no_newline_app; [now apply one_no_newline|].
    apply no_newline_app; [now apply blank_no_newline|]. apply no_newline_app; [now apply letters_no_newline|exact Hnl].
  - exists (jcode r ++ [0x3B] ++ jpad r ++ jname r), (jtail r). split; [|split].
    + unfold show_jamo. now rewrite <- !app_assoc.
    + destruct Hc as [_ Hl]. destruct (jcode r); [cbn in Hl; lia|discriminate].
    + intros u. unfold JAMO_REST, jamo_caps. change [(2%nat, jname r); (1%nat, jcode r)] with ([(2%nat, jname r)] ++ [(1%nat, jcode r)]).
      apply eats_seq; [apply code_eats; [exact Hc|apply semi_not_hex]|].
      apply eats_seq0; [apply eats_lit|]. apply eats_seq0.
      * apply eats_star; [now apply (Forall_class _ is_blank); [apply blank_iff|]|].
        apply (starting_class _ is_blank); [apply blank_iff|]. destruct (jname r) as [|c w] eqn:E.
        -- cbn [app]. apply not_starting_tail; [now apply Ht'|]. unfold is_blank. lia.
        -- inversion Hn; subst. now apply letter_not_blank.
      * change [(2%nat, jname r)] with ((2%nat, jname r) :: nocap). apply eats_cap, eats_star.
        -- now apply (Forall_class _ is_letter); [apply alpha_iff|].
        -- apply (starting_class _ is_letter); [apply alpha_iff|]. apply not_starting_tail; [exact Ht|]. unfold is_letter. lia.
Qed.

Definition code_pick {A V} (code : A -> str) (val : A -> V) (l : list A) (c : N) : option V :=
  option_map val (List.find (fun r => hex_number (code r) =? c) (rev l)).

Lemma code_map_ok {A V} (code : A -> str) (val : A -> V) l : Forall (fun r => scalar (hex_number (code r))) l ->
  let m := fold_left (fun m r => map_insert (hex_number (code r)) (val r) m) l [] in
  sorted_map m /\ forall c v, In (c, v) m <-> scalar c /\ code_pick code val l c = Some v.
Proof.
  cbn. induction l as [|r l IH] using rev_ind; intros H.
  - split; [apply sorted_map_nil|]. intros c v. cbn. intuition discriminate.
  - rewrite fold_left_app. cbn [fold_left]. apply Forall_app in H as [H Hr]. inversion Hr as [|? ? Hr' _]; subst.
    destruct (IH H) as [IHs IHi]. split; [now apply map_insert_sorted|]. intros c v.
    rewrite map_insert_in by exact IHs. rewrite IHi. unfold code_pick. rewrite rev_app_distr. cbn [rev app List.find].
    destruct (N.eqb_spec (hex_number (code r)) c) as [<-|Hne].
    + cbn. split.
      * intros [[_ ->]|[K _]]; [auto|congruence].
      * intros [_ [= <-]]. auto.
    + intuition congruence.
Qed.

Lemma jamo_answers f : good_listing jamo_row_ok f -> exists t, emit_jamo (listing show_jamo f) = Ret t /\ wf_table t /\
  forall c, scalar c -> find t c = Ret (jamo_of f c).
Proof.
  intros Hf. unfold emit_jamo, jamo_from_str. change JAMO_REGEX with (Seq Bol JAMO_REST).
  rewrite (listing_captures JAMO_REST jamo_row_ok show_jamo jamo_caps) by (auto using jamo_reads || apply starts_code).
  rewrite (ofold_map jamo_step jamo_caps (fun m r => map_insert (hex_number (jcode r)) (jname r) m) jamo_row_ok).
  - cbn [obind]. destruct (code_map_ok jcode jname (items f)) as [H1 H2].
    { eapply Forall_impl; [|now apply (items_good jamo_row_ok)]. intros r [[_ H] _]. exact H. }
    destruct (direct_table_answers _ _ H1 H2) as [Hw Hl]. eexists. split; [reflexivity|]. split; [exact Hw|exact Hl].
  - intros m r [[Hc Hs] _]. unfold jamo_step, jamo_caps, index. cbn [get Nat.eqb obind].
    rewrite hex_char_ok by assumption. reflexivity.
  - now apply items_good.
Qed.

(** * NameAliases.txt *)
Definition ALIAS_REST : re :=
  Seq (Cap 1 hex46)
    (Seq semicolon (Seq (Cap 2 (Star (Cls (fun c => alnum c || (c =? 0x20) || (c =? 0x2D)))))
      (Seq semicolon (Cap 3 (Star (Cls alpha)))))).
Definition alias_caps (r : alias_row) : list (nat * str) :=
  [(3%nat, letters (atype r)); (2%nat, alias r); (1%nat, acode r)].

Lemma in_alias_iff c : (alnum c || (c =? 0x20) || (c =? 0x2D)) = true <-> in_alias c.
Proof. unfold alnum, alpha, digit, in_alias, is_letter, is_digit. lia. Qed.

Lemma type_letters s : In s (map fst alias_types) -> Forall is_letter (letters s).
Proof.
  intros Hs. apply Forall_forall. intros c Hc. apply alpha_iff. revert c Hc. apply forallb_forall. cbn in Hs.
  repeat (destruct Hs as [<-|Hs]; [reflexivity|]). destruct Hs.
Qed.

Lemma alias_reads r : alias_row_ok r -> reads ALIAS_REST (show_alias r) (Some (alias_caps r)).
Proof.
  intros ([Hc Hsc] & Ha & Hty & Ht & Hnl). pose proof (type_letters _ Hty) as Hl. split.
  - unfold show_alias. apply no_newline_app; [apply hex_no_newline, Hc|]. apply no_newline_app; [now apply one_no_newline|].
    apply no_newline_app; [|apply no_newline_app; [now apply one_no_newline|]].
    + intros K. rewrite Forall_forall in Ha. apply Ha in K. unfold in_alias, is_letter, is_digit in K. lia.
    + apply no_newline_app; [now apply letters_no_newline|exact Hnl].
  - exists (acode r ++ [0x3B] ++ alias r ++ [0x3B] ++ letters (atype r)), (atail r). split; [|split].
    + unfold show_alias. now rewrite <- !app_assoc.
    + destruct Hc as [_ Hn]. destruct (acode r); [cbn in Hn; lia|discriminate].
    + intros u. unfold ALIAS_REST, alias_caps.
      change [(3%nat, letters (atype r)); (2%nat, alias r); (1%nat, acode r)]
        with (([(3%nat, letters (atype r))] ++ [(2%nat, alias r)]) ++ [(1%nat, acode r)]).
      apply eats_seq; [apply code_eats; [exact Hc|apply semi_not_hex]|].
      apply eats_seq0; [apply eats_lit|]. apply eats_seq.
      * change [(2%nat, alias r)] with ((2%nat, alias r) :: nocap). apply eats_cap, eats_star.
        -- now apply (Forall_class _ in_alias); [apply in_alias_iff|].
        -- cbn. discriminate.
      * apply eats_seq0; [apply eats_lit|].
        change [(3%nat, letters (atype r))] with ((3%nat, letters (atype r)) :: nocap). apply eats_cap, eats_star.
        -- now apply (Forall_class _ is_letter); [apply alpha_iff|].
        -- apply (starting_class _ is_letter); [apply alpha_iff|]. apply not_starting_tail; [exact Ht|]. unfold is_letter. lia.
Qed.

Section collect.
  Context {A : Type} (eqb : A -> A -> bool) (dec : forall a b : A, {a = b} + {a <> b}).
  Hypothesis eqb_spec : forall a b, eqb a b = true <-> a = b.

  Lemma firsts_snoc l v : firsts dec (l ++ [v]) = if in_dec dec v l then firsts dec l else firsts dec l ++ [v].
  Proof.
    unfold firsts. rewrite rev_app_distr. cbn [rev app nodup]. destruct (in_dec dec v (rev l)) as [H|H]; destruct (in_dec dec v l) as [K|K].
    - reflexivity.
    - exfalso. apply K. now apply in_rev.
    - exfalso. apply H. now apply in_rev in K.
    - reflexivity.
  Qed.
  Lemma in_firsts l v : In v (firsts dec l) <-> In v l.
  Proof. unfold firsts. rewrite <- in_rev, nodup_In, <- in_rev. reflexivity. Qed.
  Lemma firsts_nil l : firsts dec l = [] <-> l = [].
  Proof.
    split; [|now intros ->]. destruct l as [|v l]; [reflexivity|]. intros E.
    assert (In v (firsts dec (v :: l))) as H by (apply in_firsts; now left). rewrite E in H. destruct H.
  Qed.

  Definition at_char (l : list (N * A)) (c : N) : list A := map snd (filter (fun e => fst e =? c) l).

  Lemma collect_ok l : Forall (fun e => scalar (fst e)) l ->
    let m := fold_left (fun m e => insert_or_append eqb (fst e) (snd e) m) l [] in
    sorted_map m /\ forall c v, In (c, v) m <-> scalar c /\ unless_empty (firsts dec (at_char l c)) = Some v.
  Proof.
    cbn. induction l as [|[k a] l IH] using rev_ind; intros H.
    - split; [apply sorted_map_nil|]. intros c v. cbn. intuition discriminate.
    - rewrite fold_left_app. cbn [fold_left fst snd]. apply Forall_app in H as [H Hr]. inversion Hr as [|? ? Hk _]; subst.
      destruct (IH H) as [IHs IHi]. cbn [fst] in Hk. set (m := fold_left _ l []) in *. unfold insert_or_append.
      assert (forall c, at_char (l ++ [(k, a)]) c = at_char l c ++ if k =? c then [a] else []) as Eat.
      { intros c. unfold at_char. rewrite filter_app, map_app. cbn [filter fst]. destruct (k =? c); reflexivity. }
      destruct (map_get k m) as [vs|] eqn:G.
      + apply map_get_in in G; [|exact IHs]. apply IHi in G as [_ G].
        assert (firsts dec (at_char l k) = vs /\ vs <> []) as [Efs Hvs].
        { unfold unless_empty in G. destruct (firsts dec (at_char l k)) eqn:E; [discriminate|]. injection G as <-. now split. }
        assert (existsb (eqb a) vs = true <-> In a (at_char l k)) as Hex.
        { rewrite <- (in_firsts (at_char l k)), Efs, existsb_exists. split.
          - intros (x & Hx & E). apply eqb_spec in E. now subst.
          - intros Hx. exists a. split; [exact Hx|now apply eqb_spec]. }
        destruct (existsb (eqb a) vs) eqn:E.
        * split; [exact IHs|]. intros c v. rewrite IHi, Eat. destruct (N.eqb_spec k c) as [<-|Hne]; [|now rewrite app_nil_r].
          rewrite firsts_snoc. destruct (in_dec dec a (at_char l k)) as [_|K]; [reflexivity|]. exfalso. apply K. now apply Hex.
        * split; [now apply map_insert_sorted|]. intros c v. rewrite map_insert_in by exact IHs. rewrite IHi, Eat.
          destruct (N.eqb_spec k c) as [<-|Hne].
          -- rewrite firsts_snoc. destruct (in_dec dec a (at_char l k)) as [K|_]; [apply Hex in K; discriminate|].
             rewrite Efs. destruct vs as [|x vs]; [congruence|]. cbn [unless_empty app]. split.
             ++ intros [[_ ->]|[K _]]; [auto|congruence].
             ++ intros [_ [= <-]]. auto.
          -- rewrite app_nil_r. intuition congruence.
      + assert (at_char l k = []) as E0.
        { destruct (at_char l k) as [|x xs] eqn:E; [reflexivity|]. exfalso.
          destruct (firsts dec (at_char l k)) as [|y ys] eqn:Ef.
          - apply (proj1 (firsts_nil _)) in Ef. congruence.
          - assert (In (k, y :: ys) m) as K by (apply IHi; rewrite Ef; auto).
            apply map_get_in in K; [congruence|exact IHs]. }
        split; [now apply map_insert_sorted|]. intros c v. rewrite map_insert_in by exact IHs. rewrite IHi, Eat.
        destruct (N.eqb_spec k c) as [<-|Hne].
        * rewrite E0. cbn. split; [intros [[_ ->]|[K _]]; [auto|congruence]|intros [_ [= <-]]; auto].
        * rewrite app_nil_r. intuition congruence.
  Qed.
End collect.

Definition type_name (s : string) : string :=
  match alias_label alias_labels (letters s) with Ret v => v | Panic => EmptyString end.

Lemma alias_label_ok s : In s (map fst alias_types) ->
  alias_label alias_labels (letters s) = Ret (type_name s) /\ In (s, type_name s) alias_types.
Proof. intros Hs. cbn in Hs. repeat (destruct Hs as [<-|Hs]; [split; [reflexivity|cbn; tauto]|]). destruct Hs. Qed.

Lemma type_name_inj s s' : In s (map fst alias_types) -> In s' (map fst alias_types) -> type_name s = type_name s' -> s = s'.
Proof.
  intros Hs Hs'. cbn in Hs, Hs'.
  repeat (destruct Hs as [<-|Hs]; [repeat (destruct Hs' as [<-|Hs']; [first [reflexivity|discriminate]|]); destruct Hs'|]).
  destruct Hs.
Qed.

Definition alias_apply (d : NameAliasesData) (r : alias_row) : NameAliasesData :=
  let chr := hex_number (acode r) in
  mkAliases (insert_or_append String.eqb chr (type_name (atype r)) (name_alias_types d))
    (fun n => if String.eqb n (type_name (atype r)) then insert_or_append str_eqb chr (alias r) (aliases_of_type d n)
              else aliases_of_type d n).

Lemma alias_file f : good_listing alias_row_ok f ->
  aliases_from_str (listing show_alias f) = Ret (fold_left alias_apply (items f) (mkAliases [] (fun _ => []))).
Proof.
  intros Hf. unfold aliases_from_str. change ALIAS_REGEX with (Seq Bol ALIAS_REST).
  rewrite (listing_captures ALIAS_REST alias_row_ok show_alias alias_caps) by (auto using alias_reads || apply starts_code).
  apply (ofold_map alias_step alias_caps alias_apply alias_row_ok).
  - intros m r ([Hc Hs] & _ & Ht & _). unfold alias_step, alias_caps, index. cbn [get Nat.eqb obind].
    rewrite hex_char_ok by assumption. cbn [obind]. rewrite (proj1 (alias_label_ok _ Ht)). reflexivity.
  - now apply items_good.
Qed.

Lemma alias_fold_types l : forall d, name_alias_types (fold_left alias_apply l d) =
  fold_left (fun m e => insert_or_append String.eqb (fst e) (snd e) m)
    (map (fun r => (hex_number (acode r), type_name (atype r))) l) (name_alias_types d).
Proof. induction l as [|r l IH]; intros d; [reflexivity|]. cbn [fold_left map fst snd]. rewrite IH. reflexivity. Qed.

Lemma alias_fold_names ty l : forall d, aliases_of_type (fold_left alias_apply l d) ty =
  fold_left (fun m e => insert_or_append str_eqb (fst e) (snd e) m)
    (map (fun r => (hex_number (acode r), alias r)) (filter (fun r => String.eqb ty (type_name (atype r))) l))
    (aliases_of_type d ty).
Proof.
  induction l as [|r l IH]; intros d; [reflexivity|]. cbn [fold_left filter]. rewrite IH. unfold alias_apply. cbn [aliases_of_type].
  destruct (String.eqb ty (type_name (atype r))); reflexivity.
Qed.

Lemma filter_filter {A} (p q : A -> bool) l : filter p (filter q l) = filter (fun x => q x && p x) l.
Proof.
  induction l as [|x l IH]; cbn; [reflexivity|]. destruct (q x) eqn:E; cbn; [destruct (p x); now rewrite IH|exact IH].
Qed.

Lemma filter_map {A B} (g : A -> B) p l : filter p (map g l) = map g (filter (fun x => p (g x)) l).
Proof. induction l as [|x l IH]; cbn; [reflexivity|]. destruct (p (g x)); cbn; now rewrite IH. Qed.

Lemma nodup_map_inj {A B} (da : forall a b : A, {a = b} + {a <> b}) (db : forall a b : B, {a = b} + {a <> b}) (g : A -> B) l :
  (forall x y, In x l -> In y l -> g x = g y -> x = y) -> nodup db (map g l) = map g (nodup da l).
Proof.
  induction l as [|x l IH]; intros H; [reflexivity|]. cbn [map nodup].
  assert (nodup db (map g l) = map g (nodup da l)) as E by (apply IH; intros; apply H; auto using in_cons).
  destruct (in_dec db (g x) (map g l)) as [K|K], (in_dec da x l) as [K'|K'].
  - exact E.
  - exfalso. apply K'. apply in_map_iff in K as (y & Ey & Hy). assert (x = y) as ->; [|exact Hy].
    apply H; auto using in_eq, in_cons.
  - exfalso. apply K. now apply in_map.
  - cbn [map]. now rewrite E.
Qed.

Lemma firsts_map_inj {A B} (da : forall a b : A, {a = b} + {a <> b}) (db : forall a b : B, {a = b} + {a <> b}) (g : A -> B) l :
  (forall x y, In x l -> In y l -> g x = g y -> x = y) -> firsts db (map g l) = map g (firsts da l).
Proof.
  intros H. unfold firsts. rewrite <- map_rev, (nodup_map_inj da), map_rev; [reflexivity|].
  intros x y Hx Hy. apply H; now apply in_rev.
Qed.

Lemma alias_answers f n ty : good_listing alias_row_ok f -> In (n, ty) alias_types ->
  exists t, emit_aliases ty (listing show_alias f) = Ret t /\ wf_table t /\
    forall c, scalar c -> find t c = Ret (unless_empty (aliases_listed f n c)).
Proof.
  intros Hf Hn. unfold emit_aliases. rewrite alias_file by exact Hf. cbn [obind]. rewrite alias_fold_names. cbn [aliases_of_type].
  pose proof (items_good _ _ Hf) as Hg.
  set (l := map _ _).
  destruct (collect_ok str_eqb (list_eq_dec N.eq_dec) str_eqb_spec l) as [H1 H2].
  { subst l. apply Forall_map. cbn [fst]. rewrite Forall_forall in *. intros r Hr. apply filter_In in Hr as [Hr _].
    now apply Hg in Hr as [[_ Hr] _]. }
  assert (forall c v, In (c, v) (fold_left (fun m e => insert_or_append str_eqb (fst e) (snd e) m) l []) <->
    scalar c /\ unless_empty (aliases_listed f n c) = Some v) as H3.
  { intros c v. rewrite H2. unfold aliases_listed.
    assert (at_char l c = map alias (filter (fun r => of_char c r && String.eqb (atype r) n) (items f))) as ->; [|reflexivity].
    subst l. unfold at_char. rewrite filter_map, map_map, filter_filter.
    cbn [fst snd]. f_equal. apply filter_ext_in. intros r Hr. rewrite andb_comm. unfold of_char. f_equal.
    rewrite Forall_forall in Hg. apply Hg in Hr as (_ & _ & Ht & _).
    assert (In n (map fst alias_types)) as Hn' by (change n with (fst (n, ty)); now apply in_map).
    assert (ty = type_name n) as -> by (cbn in Hn; repeat (destruct Hn as [[= <- <-]|Hn]; [reflexivity|]); destruct Hn).
    destruct (String.eqb_spec (type_name n) (type_name (atype r))) as [E|E], (String.eqb_spec (atype r) n) as [E'|E']; auto.
    - apply type_name_inj in E; congruence.
    - congruence. }
  destruct (direct_table_answers _ _ H1 H3) as [Hw Hl]. eexists. split; [reflexivity|]. split; [exact Hw|exact Hl].
Qed.

(** The library's names of a list of types. *)
Lemma alias_types_answers f : good_listing alias_row_ok f ->
  exists t, emit_alias_types (listing show_alias f) = Ret t /\ wf_table t /\
    forall c, scalar c -> exists l, find t c = Ret (unless_empty l) /\
      Forall2 (fun n ty => In (n, ty) alias_types) (types_listed f c) l.
Proof.
  intros Hf. unfold emit_alias_types. rewrite alias_file by exact Hf. cbn [obind]. rewrite alias_fold_types. cbn [name_alias_types].
  pose proof (items_good _ _ Hf) as Hg.
  set (l := map _ _).
  destruct (collect_ok String.eqb string_dec String.eqb_eq l) as [H1 H2].
  { subst l. apply Forall_map. cbn [fst]. rewrite Forall_forall in *. intros r Hr. now apply Hg in Hr as [[_ Hr] _]. }
  destruct (direct_table_answers _ _ H1 H2) as [Hw Hl]. eexists. split; [reflexivity|]. split; [exact Hw|].
  intros c Hc. eexists. split; [now apply Hl|].
  assert (forall s, In s (map atype (filter (of_char c) (items f))) -> In s (map fst alias_types)) as Hin.
  { intros s Hs. apply in_map_iff in Hs as (r & <- & Hr). apply filter_In in Hr as [Hr _].
    rewrite Forall_forall in Hg. now apply Hg in Hr as (_ & _ & Ht & _). }
  assert (at_char l c = map type_name (map atype (filter (of_char c) (items f)))) as ->.
  { subst l. unfold at_char. rewrite filter_map, !map_map. reflexivity. }
  rewrite (firsts_map_inj string_dec).
  2:{ intros x y Hx Hy. apply type_name_inj; auto. }
  unfold types_listed. assert (forall s, In s (firsts string_dec (map atype (filter (of_char c) (items f)))) -> In s (map fst alias_types)) as Hin'.
  { intros s Hs. apply in_firsts in Hs. auto. }
  induction (firsts string_dec (map atype (filter (of_char c) (items f)))) as [|s ss IH]; [constructor|].
  cbn [map]. constructor; [apply alias_label_ok, Hin'; now left|]. apply IH. intros x Hx. apply Hin'. now right.
Qed.

(** * NormalizationTest.txt *)
Definition TEST_REST : re :=
  fld (Cap 1 SEQUENCE) (fld (Cap 2 SEQUENCE) (fld (Cap 3 SEQUENCE) (fld (Cap 4 SEQUENCE)
    (fld (Cap 5 SEQUENCE) (Seq (lit 0x20) (lit 0x23)))))).
Definition test_caps (r : test_row) : list (nat * str) :=
  [(5%nat, joined 0x20 (t5 r)); (4%nat, joined 0x20 (t4 r)); (3%nat, joined 0x20 (t3 r));
   (2%nat, joined 0x20 (t2 r)); (1%nat, joined 0x20 (t1 r))].

Lemma sequence_eats n l u : l <> [] /\ Forall character_code l ->
  eats (Cap n SEQUENCE) (joined 0x20 l) (0x3B :: u) [(n, joined 0x20 l)].
Proof.
  intros [Hne Hl]. change [(n, joined 0x20 l)] with ((n, joined 0x20 l) :: nocap). apply eats_cap.
  apply (codes_eats l); [exact Hne|now apply character_code_points|apply semi_not_hex|].
  apply fails_seq, fails_lit. cbn. discriminate.
Qed.

Lemma test_reads r : test_row_ok r -> reads TEST_REST (show_test r) (Some (test_caps r)).
Proof.
  intros [H Hn]. inversion H as [|? ? H1 H']; subst. inversion H' as [|? ? H2 H'']; subst. inversion H'' as [|? ? H3 H3']; subst.
  inversion H3' as [|? ? H4 H4']; subst. inversion H4' as [|? ? H5 _]; subst. clear H H' H'' H3' H4'.
  assert (forall l, l <> [] /\ Forall character_code l -> no_newline (joined 0x20 l)) as J.
  { intros l [_ Hl]. now apply GenIdna.joined_no_newline, character_code_points. }
  split.
  - unfold show_test. do 5 (apply no_newline_app; [now apply J|]; apply no_newline_app; [unfold no_newline; cbn; lia|]). exact Hn.
  - exists (joined 0x20 (t1 r) ++ 0x3B :: joined 0x20 (t2 r) ++ 0x3B :: joined 0x20 (t3 r) ++ 0x3B ::
      joined 0x20 (t4 r) ++ 0x3B :: joined 0x20 (t5 r) ++ 0x3B :: [0x20] ++ [0x23]), (tnote r). split; [|split].
    + unfold show_test. repeat rewrite <- app_assoc. cbn [app]. repeat (rewrite <- app_assoc; cbn [app]). reflexivity.
    + destruct (joined 0x20 (t1 r)); discriminate.
    + intros u. unfold TEST_REST, test_caps.
      change [(5%nat, joined 0x20 (t5 r)); (4%nat, joined 0x20 (t4 r)); (3%nat, joined 0x20 (t3 r)); (2%nat, joined 0x20 (t2 r)); (1%nat, joined 0x20 (t1 r))]
        with (((((nocap ++ [(5%nat, joined 0x20 (t5 r))]) ++ [(4%nat, joined 0x20 (t4 r))]) ++ [(3%nat, joined 0x20 (t3 r))])
              ++ [(2%nat, joined 0x20 (t2 r))]) ++ [(1%nat, joined 0x20 (t1 r))]).
      do 5 (apply eats_fld; [now apply sequence_eats|]).
      apply eats_seq0; apply eats_lit.
Qed.

Lemma test_chars_ok l : l <> [] /\ Forall character_code l -> omap hex_char (split_whitespace (joined 0x20 l)) = Ret (map hex_number l).
Proof.
  intros [Hne Hl]. unfold split_whitespace. rewrite split_space_joined; [|exact Hne|].
  - match goal with |- context [filter ?p l] => assert (filter p l = l) as -> end.
    { clear Hne. induction Hl as [|w l [[_ Hw] _] Hl IH]; [reflexivity|]. cbn [filter]. destruct w; [cbn in Hw; lia|]. now rewrite IH. }
    apply omap_map. eapply Forall_impl; [|exact Hl]. intros t [H1 H2]. now apply hex_char_ok.
  - eapply Forall_impl; [|exact Hl]. intros t [[H1 _] _]. now apply hex_no_space.
Qed.

Lemma tests_ok f : good_listing test_row_ok f -> tests_from_str (listing show_test f) = Ret (map test_says (items f)).
Proof.
  intros Hf. unfold tests_from_str. change NORMALIZATION_TEST_REGEX with (Seq Bol TEST_REST).
  rewrite (listing_captures TEST_REST test_row_ok show_test test_caps).
  - rewrite (ofold_map test_step test_caps (fun l r => l ++ [test_says r]) test_row_ok).
    + f_equal. assert (forall l acc, fold_left (fun l r => l ++ [test_says r]) l acc = acc ++ map test_says l) as K.
      { induction l as [|r l IH]; intros acc; cbn [fold_left map]; [now rewrite app_nil_r|]. rewrite IH, <- app_assoc. reflexivity. }
      apply K.
    + intros l r [H _]. inversion H as [|? ? H1 H']; subst. inversion H' as [|? ? H2 H'']; subst. inversion H'' as [|? ? H3 H3']; subst.
      inversion H3' as [|? ? H4 H4']; subst. inversion H4' as [|? ? H5 _]; subst.
      unfold test_step, test_chars, test_caps, index. cbn [get Nat.eqb obind].
      rewrite !test_chars_ok by assumption. reflexivity.
    + now apply items_good.
  - intros t Ht. apply fails_seq, fails_cap, fails_seq, hex46_fails, Ht.
  - apply test_reads.
  - exact Hf.
Qed.

(** * ReadMe.txt *)
Lemma captures_first r pre : forall n b w u g, (length (pre ++ w ++ u) < n)%nat ->
  (forall p q, pre = p ++ q -> q <> [] -> fails r (q ++ w ++ u)) -> eats r w u g ->
  hd_error (captures_loop n r b (pre ++ w ++ u)) = Some g.
Proof.
  induction pre as [|c pre IH]; intros n b w u g Hn Hf He; (destruct n as [|n]; [lia|]).
  - cbn [app captures_loop]. rewrite He. cbn [hd_error groups]. now rewrite app_nil_r.
  - cbn [app captures_loop]. change (c :: pre ++ w ++ u) with ((c :: pre) ++ w ++ u) at 1.
    rewrite (Hf [] (c :: pre)) by (reflexivity || discriminate). cbn [hd_error]. apply IH; [cbn in Hn; lia| |exact He].
    intros p q E Hq. apply (Hf (c :: p)); [cbn; now rewrite E|exact Hq].
Qed.

Lemma marker_fails c s rest pre : first_place (c :: s) pre rest -> forall r p q, pre = p ++ q -> q <> [] ->
  fails (Seq (lits c s) r) (q ++ (c :: s) ++ rest).
Proof.
  intros Hp r p q E Hq. apply fails_seq, fails_lang. intros w v Hw Ev. apply lang_lits_inv in Hw. subst w.
  assert (length pre <= length p)%nat as K.
  { apply (Hp p v). rewrite E, <- app_assoc, Ev. reflexivity. }
  rewrite E, app_length in K. destruct q; [congruence|]. cbn in K. lia.
Qed.

Section version.
  Variable udigit : N -> bool.
  Hypothesis Hd : ascii_digits udigit.

  Lemma number_eats n t u : number_value t -> after_number u -> eats (Cap n (plus (Cls udigit))) t u [(n, t)].
  Proof.
    intros (Hne & Ht & _) Hu. change [(n, t)] with ((n, t) :: nocap). apply eats_cap, eats_plus; [exact Hne| |].
    - eapply Forall_impl; [|exact Ht]. intros c Hc. apply Hd; [unfold is_digit in Hc; lia|exact Hc].
    - destruct u as [|c u]; [exact I|]. destruct Hu as [H1 H2]. cbn. intros K. apply H2. now apply Hd.
  Qed.

  Lemma dot_eats u : eats dot [0x2E] u [].
  Proof. now apply eats_cls. Qed.

  Lemma small_number t max : number_value t -> dec_number t <= max -> max < 0x10000 -> unwrap (parse_dec max t) = Ret (dec_number t).
  Proof. intros (Hne & Ht & _) Hm Hmax. rewrite parse_dec_number by assumption. reflexivity. Qed.

  Lemma after_dot u : after_number (0x2E :: u).
  Proof. unfold after_number, is_digit. lia. Qed.

  Lemma version_ok pre a b c post :
    number_value a -> number_value b -> number_value c -> after_number post ->
    first_place (letters "for Version ") pre (a ++ [0x2E] ++ b ++ [0x2E] ++ c ++ post) ->
    version_from_str udigit (pre ++ letters "for Version " ++ a ++ [0x2E] ++ b ++ [0x2E] ++ c ++ post) =
      Ret (dec_number a, dec_number b, dec_number c).
  Proof.
    intros Ha Hb Hc Hp Hf. unfold version_from_str, captures, captures_iter.
    set (w := letters "for Version " ++ a ++ [0x2E] ++ b ++ [0x2E] ++ c).
    assert (pre ++ letters "for Version " ++ a ++ [0x2E] ++ b ++ [0x2E] ++ c ++ post = pre ++ w ++ post) as E.
    { subst w. now rewrite <- !app_assoc. }
    rewrite E, (captures_first _ pre _ _ w post [(3%nat, c); (2%nat, b); (1%nat, a)]).
    - unfold index. cbn [get Nat.eqb obind].
      rewrite (small_number a) by (assumption || (destruct Ha as (_ & _ & ?); lia) || lia). cbn [obind].
      rewrite (small_number b) by (assumption || (destruct Hb as (_ & _ & ?); lia) || lia). cbn [obind].
      rewrite (small_number c) by (assumption || (destruct Hc as (_ & _ & ?); lia) || lia). reflexivity.
    - lia.
    - intros p q Eq Hq. assert (w ++ post = letters "for Version " ++ a ++ [0x2E] ++ b ++ [0x2E] ++ c ++ post) as ->.
      { subst w. now rewrite <- !app_assoc. }
      apply (marker_fails 0x66 (text "or Version ") _ pre Hf _ p q Eq Hq).
    - subst w. unfold VERSION_REGEX.
      change [(3%nat, c); (2%nat, b); (1%nat, a)] with ((([(3%nat, c)] ++ [(2%nat, b)]) ++ [(1%nat, a)])).
      apply eats_seq0; [apply (eats_lits (text "or Version "))|].
      apply eats_seq; [apply number_eats; [exact Ha|apply after_dot]|]. apply eats_seq0; [apply dot_eats|].
      apply eats_seq; [apply number_eats; [exact Hb|apply after_dot]|]. apply eats_seq0; [apply dot_eats|].
      now apply number_eats.
  Qed.

  Lemma emoji_version_ok pre a b post :
    number_value a -> number_value b -> dec_number a < 0x100 -> dec_number b < 0x100 -> after_number post ->
    first_place (letters "Unicode Emoji, Version ") pre (a ++ [0x2E] ++ b ++ post) ->
    emoji_version_from_str udigit (pre ++ letters "Unicode Emoji, Version " ++ a ++ [0x2E] ++ b ++ post) =
      Ret (dec_number a, dec_number b, 0).
  Proof.
    intros Ha Hb Ha' Hb' Hp Hf. unfold emoji_version_from_str, captures, captures_iter.
    set (w := letters "Unicode Emoji, Version " ++ a ++ [0x2E] ++ b).
    assert (pre ++ letters "Unicode Emoji, Version " ++ a ++ [0x2E] ++ b ++ post = pre ++ w ++ post) as E.
    { subst w. now rewrite <- !app_assoc. }
    rewrite E, (captures_first _ pre _ _ w post [(2%nat, b); (1%nat, a)]).
    - unfold index. cbn [get Nat.eqb obind].
      rewrite (small_number a) by (assumption || lia). cbn [obind].
      rewrite (small_number b) by (assumption || lia). reflexivity.
    - lia.
    - intros p q Eq Hq. assert (w ++ post = letters "Unicode Emoji, Version " ++ a ++ [0x2E] ++ b ++ post) as ->.
      { subst w. now rewrite <- !app_assoc. }
      apply (marker_fails 0x55 (text "nicode Emoji, Version ") _ pre Hf _ p q Eq Hq).
    - subst w. unfold EMOJI_VERSION_REGEX.
      change [(2%nat, b); (1%nat, a)] with ([(2%nat, b)] ++ [(1%nat, a)]).
      apply eats_seq0; [apply (eats_lits (text "nicode Emoji, Version "))|].
      apply eats_seq; [apply number_eats; [exact Ha|apply after_dot]|]. apply eats_seq0; [apply dot_eats|].
      now apply number_eats.
  Qed.
End version.

(** The file of composition exclusions and the table of compositions. *)
From Coq Require Import String Ascii List NArith ZArith Lia Bool PeanoNat Sorted ZifyBool ZifyNat ZifyN.
From Verif Require Import Base RangeModel TableModel TableSpec TableTree TableProofs TextModel TableGenModel TableGenSpec
  TableGenProofs GenRegex GenModel GenSpec GenBinarySpec GenLemmas GenMap GenProofs GenDataModel GenDataSpec GenDataRead
  GenDataEntries GenDataTables.
Import ListNotations.
Open Scope N_scope.
Open Scope list_scope.

(** * The exclusions *)
Lemma range_eats rest l h w u g :
  code_point l -> (forall t, h = Some t -> code_point t) ->
  not_starting (fun c => is_hex c \/ c = 0x2E) (w ++ u) ->
  eats rest w u g ->
  eats (Seq hex_range rest) (range_text l h ++ w) u (g ++ range_caps l h).
Proof.
  intros Hl Hh Hns Hr. apply eats_seq; [|exact Hr]. unfold hex_range, range_text, range_caps.
  assert (not_starting is_hex (w ++ u)) as Hns1 by (destruct (w ++ u); cbn in *; tauto).
  apply eats_seq.
  - apply eats_cap. apply hex46_eats; [exact Hl|]. destruct h as [t|]; [|exact Hns1]. cbn. intros K. now apply K.
  - destruct h as [t|].
    + apply eats_opt. rewrite <- (app_nil_l [(2%nat, t)]). cbn [app].
      change (0x2E :: 0x2E :: t) with ([0x2E] ++ [0x2E] ++ t).
      change [(2%nat, t)] with (([(2%nat, t)] ++ []) ++ @nil (nat * str)).
      apply eats_seq; [now apply eats_cls|]. apply eats_seq; [now apply eats_cls|].
      apply eats_cap, hex46_eats; [now apply Hh|exact Hns1].
    + apply eats_opt_no. apply fails_seq, fails_lit. destruct (w ++ u); cbn in *; tauto.
Qed.


Lemma blank_space c : is_blank c -> space c = true.
Proof. intros [->| ->]; reflexivity. Qed.

Definition EXCLUSIONS_REST : re :=
  Seq hex_range (Seq spaces (Seq semicolon
    (Seq (lits 0x20 (text "Full_Composition_Exclusion")) (Seq (lit 0x20) (lit 0x23))))).

Definition FCE : str := letters "Full_Composition_Exclusion".

Lemma FCE_word : Forall is_word FCE.
Proof.
  apply Forall_forall. intros c H. apply word_iff. revert c H. apply forallb_forall. reflexivity.
Qed.

Lemma exclusion_no_newline r : exclusion_row r -> no_newline (row_text r).
Proof.
  intros (Hl & Hh & Hp & Hp' & [_ Hv] & _ & Ht & _). rewrite row_text_head. unfold row_head, range_text. rewrite Hp'.
  repeat apply no_newline_app; auto using blank_no_newline, word_no_newline.
  - now apply hex_no_newline, Hl.
  - destruct (hi r) as [h|]; [|unfold no_newline; now intros []].
    apply no_newline_app; [unfold no_newline; cbn; lia|]. now apply hex_no_newline, (Hh h).
  - unfold no_newline; cbn; lia.
  - unfold no_newline; cbn; lia.
Qed.

Lemma exclusion_reads r : exclusion_row r -> value r = FCE ->
  reads EXCLUSIONS_REST (row_text r) (Some (range_caps (lo r) (hi r))).
Proof.
  intros H E. split; [now apply exclusion_no_newline|].
  destruct H as (Hl & Hh & Hp & Hp' & _ & _ & _ & Ht). destruct (Ht E) as [t Et].
  exists (range_text (lo r) (hi r) ++ pad r ++ [0x3B] ++ (0x20 :: FCE) ++ [0x20; 0x23]), t. split; [|split].
  - rewrite row_text_head. unfold row_head. rewrite Hp', E, Et. repeat (rewrite <- app_assoc; cbn [app]). reflexivity.
  - destruct Hl as [_ Hl]. unfold range_text. destruct (lo r); [cbn in Hl; lia|discriminate].
  - intros u. unfold EXCLUSIONS_REST. change (range_caps (lo r) (hi r)) with ([] ++ range_caps (lo r) (hi r)).
    apply range_eats; auto.
    + destruct (pad r) as [|c p]; [cbn; intros [K|K]; [now apply K|lia]|]. inversion Hp; subst. cbn.
      intros [K|K]; [now apply (blank_not_hex c)|]. unfold is_blank in *. lia.
    + change (@nil (nat * str)) with (@nil (nat * str) ++ @nil (nat * str)). apply eats_seq.
      * apply eats_star; [|cbn; discriminate]. eapply Forall_impl; [|exact Hp]. apply blank_space.
      * change (@nil (nat * str)) with (@nil (nat * str) ++ @nil (nat * str)). apply eats_seq; [apply eats_lit|].
        change (@nil (nat * str)) with (@nil (nat * str) ++ @nil (nat * str)). apply eats_seq; [apply eats_lits|].
        change [0x20; 0x23] with ([0x20] ++ [0x23]).
        change (@nil (nat * str)) with (@nil (nat * str) ++ @nil (nat * str)). apply eats_seq; apply eats_lit.
Qed.

(** Splitting at the first character outside a class is unique. *)
Lemma split_once (p : N -> Prop) a b x y : Forall p a -> Forall p b -> not_starting p x -> not_starting p y ->
  x <> [] -> y <> [] -> a ++ x = b ++ y -> a = b /\ x = y.
Proof.
  intros Ha. revert b. induction Ha as [|c a Hc Ha IH]; intros b Hb Hx Hy Nx Ny E.
  - destruct b as [|d b]; [auto|]. cbn in E. subst x. inversion Hb; subst. cbn in Hx. tauto.
  - destruct b as [|d b].
    + cbn in E. subst y. cbn in Hy. tauto.
    + injection E as <- E. inversion Hb; subst. destruct (IH b) as [-> ->]; auto.
Qed.

Lemma lang_range w : lang hex_range w -> Forall (fun c => is_hex c \/ c = 0x2E) w.
Proof.
  intros H. apply lang_seq_inv in H as (a & b & -> & Ha & Hb). apply lang_cap_inv, lang_hex46_inv in Ha.
  apply Forall_app. split; [eapply Forall_impl; [|exact Ha]; auto|].
  apply lang_opt_inv in Hb as [->|Hb]; [constructor|].
  apply lang_seq_inv in Hb as (x & y & -> & Hx & Hy). apply lang_lit_inv in Hx as ->.
  apply lang_seq_inv in Hy as (x & z & -> & Hx & Hz). apply lang_lit_inv in Hx as ->.
  apply lang_cap_inv, lang_hex46_inv in Hz. constructor; [auto|]. constructor; [auto|].
  eapply Forall_impl; [|exact Hz]. auto.
Qed.

Lemma exclusion_skips r : exclusion_row r -> value r <> FCE -> reads EXCLUSIONS_REST (row_text r) None.
Proof.
  intros H E. split; [now apply exclusion_no_newline|]. intros u. apply fails_lang. intros w v Hw Ew.
  destruct H as (Hl & Hh & Hp & Hp' & [Hvn Hv] & Ha & _).
  apply lang_seq_inv in Hw as (a & w1 & -> & Hra & Hw).
  apply lang_seq_inv in Hw as (b & w2 & -> & Hb & Hw). apply lang_star_inv in Hb.
  apply lang_seq_inv in Hw as (s & w3 & -> & Hs & Hw). apply lang_lit_inv in Hs as ->.
  apply lang_seq_inv in Hw as (n & w4 & -> & Hn & Hw). apply lang_lits_inv in Hn as ->.
  apply lang_seq_inv in Hw as (x & y & -> & Hx & Hy). apply lang_lit_inv in Hx as ->. apply lang_lit_inv in Hy as ->.
  apply lang_range in Hra. rewrite row_text_head in Ew. unfold row_head in Ew. rewrite Hp' in Ew.
  repeat rewrite <- app_assoc in Ew.
  set (range := fun c => is_hex c \/ c = 0x2E) in *.
  assert (forall c, space c = true -> ~ range c) as Hsr.
  { intros c Hc [K|K]; [|subst c; discriminate]. apply xdigit_iff in K.
    unfold space, xdigit, digit in *. lia. }
  assert (Forall range (range_text (lo r) (hi r))) as Hrt.
  { unfold range_text. apply Forall_app. split.
    - eapply Forall_impl; [|apply Hl]. unfold range. auto.
    - destruct (hi r) as [h|]; [|constructor]. constructor; [unfold range; auto|]. constructor; [unfold range; auto|].
      eapply Forall_impl; [|apply (Hh h eq_refl)]. unfold range; auto. }
  assert (~ range 0x3B) as Hsemi by (intros [K|K]; [now apply K|lia]).
  apply (split_once range) in Ew as [_ Ew]; auto.
  2:{ destruct (pad r) as [|c p]; [exact Hsemi|]. inversion Hp; subst. cbn. apply Hsr. now apply blank_space. }
  2:{ destruct b as [|c b']; [exact Hsemi|]. inversion Hb; subst. cbn. now apply Hsr. }
  2:{ destruct (pad r); discriminate. }
  2:{ destruct b; discriminate. }
  apply (split_once (fun c => space c = true)) in Ew as [_ Ew]; auto; try discriminate.
  2:{ eapply Forall_impl; [|exact Hp]. apply blank_space. }
  injection Ew as Ew.
  change (value r ++ tail r ++ 10 :: u = FCE ++ [0x20] ++ [0x23] ++ v) in Ew.
  apply (split_once is_word) in Ew as [Ew _]; auto.
  - apply FCE_word.
  - apply not_starting_tail; [exact Ha|]. unfold is_word, is_digit. lia.
  - cbn. unfold is_word, is_digit. lia.
  - destruct (tail r); discriminate.
  - discriminate.
Qed.

Lemma exclusions_ok x : exclusion_file x -> exists s, exclusions_from_str (file_text x) = Ret s /\
  sorted_set s /\ forall c, In c s <-> scalar c /\ excluded x c.
Proof.
  intros Hx. unfold exclusions_from_str. change EXCLUSIONS_REGEX with (Seq Bol EXCLUSIONS_REST).
  set (o := fun r : row => if str_eqb (value r) FCE then Some (range_caps (lo r) (hi r)) else None).
  set (pr := fun l => match l with Data r => (row_text r, o r) | Other t => (t, None) end).
  assert (file_text x = concat (map (fun l : str * option (list (nat * str)) => fst l ++ [10]) (map pr x))) as ->.
  { unfold file_text. f_equal. rewrite map_map. apply map_ext. intros []; reflexivity. }
  rewrite captures_lines.
  2:{ apply fails_seq, fails_seq, fails_cap, hex46_fails. exact I. }
  2:{ apply Forall_map. eapply Forall_impl; [|exact Hx]. intros [r|t]; cbn [pr fst snd].
      - intros H. unfold o. destruct (str_eqb (value r) FCE) eqn:E.
        + apply exclusion_reads; [exact H|]. now apply str_eqb_spec.
        + apply exclusion_skips; [exact H|]. intros K. apply str_eqb_spec in K. congruence.
      - intros [Hn Hs]. split; [exact Hn|]. intros u. apply fails_seq, fails_seq, fails_cap, hex46_fails.
        apply not_starting_tail; [exact Hs|]. intros K. now apply K. }
  set (rs := filter (fun r => str_eqb (value r) FCE) (rows x)).
  assert (flat_map (fun l : str * option (list (nat * str)) => match snd l with Some g => [g] | None => [] end) (map pr x) =
          map (fun r => range_caps (lo r) (hi r)) rs) as ->.
  { subst rs. clear. unfold rows. induction x as [|[r|t] x IH]; cbn [map flat_map filter app pr snd]; [reflexivity| |exact IH].
    unfold o at 1. destruct (str_eqb (value r) FCE); cbn [app map]; rewrite <- IH; reflexivity. }
  erewrite (ofold_map exclusions_step _
    (fun s r => fold_left (fun s c => set_insert c s) (filter scalarb (u32_range (low r) (high r + 1))) s) exclusion_row).
  2:{ intros s r (Hl & Hh & _). unfold exclusions_step. rewrite range_caps_1, range_caps_2. cbn [obind].
      rewrite hex_code_point by exact Hl. cbn [obind]. fold (low r). rewrite end_or_ok by exact Hh. cbn [obind].
      f_equal. apply (char_from_u32_filter (fun s c => set_insert c s)). }
  2:{ subst rs. pose proof (rows_good _ _ Hx) as G. rewrite Forall_forall in *. intros r Hr. apply filter_In in Hr as [Hr _]. auto. }
  eexists. split; [reflexivity|].
  assert (forall l s, sorted_set s ->
    let s' := fold_left (fun s r => fold_left (fun s c => set_insert c s) (filter scalarb (u32_range (low r) (high r + 1))) s) l s in
    sorted_set s' /\ forall c, In c s' <-> In c s \/ (scalar c /\ exists r, In r l /\ low r <= c <= high r)) as K.
  { clear. induction l as [|r l IH]; intros s Hs; cbn [fold_left].
    - split; [exact Hs|]. intros c. split; [auto|]. intros [H|(_ & r & [] & _)]; exact H.
    - destruct (set_list (filter scalarb (u32_range (low r) (high r + 1))) (filter_scalar _) s Hs) as [H1 H2].
      destruct (IH _ H1) as [H3 H4]. split; [exact H3|]. intros c. rewrite H4, H2, filter_In, in_u32_range, scalarb_spec.
      split.
      + intros [[[Hr Hsc]|H]|(Hsc & r' & Hr' & Hc)]; [right; split; [exact Hsc|]; exists r; split; [now left|lia]|auto|].
        right. split; [exact Hsc|]. exists r'. split; [now right|exact Hc].
      + intros [H|(Hsc & r' & [<-|Hr'] & Hc)]; [auto|left; left; split; [lia|exact Hsc]|].
        right. split; [exact Hsc|]. exists r'. auto. }
  destruct (K rs [] sorted_set_nil) as [H1 H2]. split; [exact H1|]. intros c. rewrite H2. unfold excluded, given.
  cbn [In]. split.
  - intros [[]|(Hs & r & Hr & Hc)]. split; [exact Hs|]. exists r. apply filter_In in Hr as [Hr E].
    apply str_eqb_spec in E. auto.
  - intros (Hs & r & Hr & E & Hc). right. split; [exact Hs|]. exists r. split; [|exact Hc]. apply filter_In.
    split; [exact Hr|]. now apply str_eqb_spec.
Qed.

Lemma set_contains_in c s : set_contains c s = true <-> In c s.
Proof.
  unfold set_contains. rewrite existsb_exists. split.
  - intros (y & Hy & E). apply N.eqb_eq in E. now subst.
  - intros H. exists c. split; [exact H|apply N.eqb_refl].
Qed.

(** * Sorting by the second character *)
Lemma insert_by_key_ok p l : sorted_map l -> scalar (fst p) -> ~ In (fst p) (map fst l) ->
  sorted_map (insert_by_key p l) /\ forall q, In q (insert_by_key p l) <-> q = p \/ In q l.
Proof.
  intros [Hs Hc] Hp Hn. induction l as [|q l IH]; cbn [insert_by_key].
  - split; [|cbn; intuition]. split; cbn; [repeat constructor|constructor; [exact Hp|constructor]].
  - cbn in Hs, Hc, Hn. inversion Hs as [|? ? Hs' Hf]; inversion Hc as [|? ? Hq Hc']; subst.
    destruct (N.ltb_spec (fst p) (fst q)) as [Hlt|Hge].
    + split; [|cbn; intuition]. split; cbn.
      * constructor; [exact Hs|]. constructor; [exact Hlt|]. eapply Forall_impl; [|exact Hf]. cbn. lia.
      * constructor; [exact Hp|exact Hc].
    + destruct IH as [[IH1 IH2] IH3]; auto. split.
      * split; cbn.
        -- constructor; [exact IH1|]. apply Forall_forall. intros k Hk. apply in_map_iff in Hk as (z & <- & Hz).
           apply IH3 in Hz as [->|Hz].
           ++ assert (fst q <> fst p) by tauto. lia.
           ++ rewrite Forall_forall in Hf. apply Hf. now apply in_map.
        -- constructor; [exact Hq|exact IH2].
      * intros z. cbn [In]. rewrite IH3. intuition.
Qed.

Lemma sort_by_key_ok l : NoDup (map fst l) -> Forall scalar (map fst l) ->
  sorted_map (sort_by_key l) /\ forall q, In q (sort_by_key l) <-> In q l.
Proof.
  unfold sort_by_key. induction l as [|p l IH] using rev_ind; intros Hn Hs.
  - split; [split; constructor|]. cbn. tauto.
  - rewrite fold_left_app. cbn [fold_left]. rewrite map_app in Hn, Hs. cbn [map] in Hn, Hs.
    apply Forall_app in Hs as [Hs Hp]. inversion Hp; subst.
    apply NoDup_remove in Hn as [Hn Hni]. rewrite app_nil_r in Hn, Hni.
    destruct IH as [IH1 IH2]; auto.
    destruct (insert_by_key_ok p _ IH1 H1) as [H3 H4].
    + intros K. apply Hni. apply in_map_iff in K as (q & E & Hq). rewrite <- E. apply in_map. now apply IH2.
    + split; [exact H3|]. intros q. rewrite H4, IH2, in_app_iff. cbn [In]. intuition.
Qed.

(** * Compositions *)
Definition picks (ex : list N) (l : list (N * str)) (lead : N) : list (N * N) :=
  flat_map (fun e => match snd e with
                     | [a; b] => if (a =? lead) && negb (set_contains (fst e) ex) then [(b, fst e)] else []
                     | _ => []
                     end) l.

Lemma picks_in ex l lead b c : In (b, c) (picks ex l lead) <-> In (c, [lead; b]) l /\ ~ In c ex.
Proof.
  unfold picks. rewrite in_flat_map. split.
  - intros ((c' & m) & Hin & H). cbn [fst snd] in H. destruct m as [|a [|b' [|? ?]]]; try destruct H.
    destruct (N.eqb_spec a lead) as [->|]; [|destruct H]. destruct (set_contains c' ex) eqn:E; [destruct H|].
    cbn in H. destruct H as [[= <- <-]|[]]. split; [exact Hin|]. intros K. apply set_contains_in in K. congruence.
  - intros [Hin Hn]. exists (c, [lead; b]). split; [exact Hin|]. cbn [fst snd]. rewrite N.eqb_refl.
    destruct (set_contains c ex) eqn:E; [apply set_contains_in in E; tauto|]. now left.
Qed.

Definition pairable (e : N * str) : Prop :=
  match snd e with [_] => True | [a; _] => scalar a | _ => False end.

Lemma composition_fold ex l : Forall pairable l -> exists m,
  ofold (composition_step ex) [] l = Ret m /\ sorted_map m /\
  forall lead v, In (lead, v) m <-> v <> [] /\ v = picks ex l lead.
Proof.
  induction l as [|e l IH] using rev_ind; intros Hp.
  - exists []. split; [reflexivity|]. split; [apply sorted_map_nil|]. intros lead v. cbn. split; [intros []|].
    intros [H E]. congruence.
  - apply Forall_app in Hp as [Hp He]. inversion He as [|? ? He' _]; subst.
    destruct (IH Hp) as (m & E & Hs & Hm). 
    assert (forall lead, picks ex (l ++ [e]) lead = picks ex l lead ++ picks ex [e] lead) as Ha.
    { intros lead. unfold picks. now rewrite flat_map_app. }
    assert (forall x, ofold (composition_step ex) x (l ++ [e]) =
              obind (ofold (composition_step ex) x l) (fun m => composition_step ex m e)) as Ho.
    { clear. induction l as [|y l IH]; intros x; cbn.
      - now destruct (composition_step ex x e).
      - destruct (composition_step ex x y); cbn; [apply IH|reflexivity]. }
    rewrite Ho, E. cbn [obind]. destruct e as [c d]. unfold composition_step, pairable in *. cbn [snd] in He'.
    destruct d as [|a [|b [|? ?]]]; try tauto.
    + exists m. split; [reflexivity|]. split; [exact Hs|]. intros lead v. rewrite Ha, Hm. cbn. now rewrite app_nil_r.
    + destruct (set_contains c ex) eqn:Ec.
      * exists m. split; [reflexivity|]. split; [exact Hs|]. intros lead v. rewrite Ha, Hm. cbn. rewrite Ec, andb_false_r.
        cbn. now rewrite app_nil_r.
      * eexists. split; [reflexivity|]. split; [now apply map_insert_sorted|]. intros lead v.
        rewrite map_insert_in by exact Hs. rewrite Ha, Hm. cbn [picks flat_map fst snd]. rewrite Ec. cbn [negb].
        rewrite andb_true_r, app_nil_r, N.eqb_sym.
        assert (match map_get a m with Some v => v | None => [] end = picks ex l a) as Eg.
        { destruct (map_get a m) as [w|] eqn:G.
          - apply map_get_in in G; [|exact Hs]. now apply Hm in G.
          - destruct (picks ex l a) as [|q w] eqn:K; [reflexivity|].
            assert (In (a, q :: w) m) as G' by (apply Hm; split; [discriminate|now rewrite K]).
            apply map_get_in in G'; [congruence|exact Hs]. }
        rewrite Eg. destruct (N.eqb_spec lead a) as [->|Hne].
        -- split.
           ++ intros [[_ ->]|[K _]]; [|congruence]. split; [|reflexivity]. now destruct (picks ex l a).
           ++ intros [_ ->]. auto.
        -- rewrite app_nil_r. split; [intros [[K _]|[_ H]]; [congruence|exact H]|auto].
Qed.

Lemma mapping_scalar f c m : good_data f -> canonical f c = Some m -> Forall scalar m.
Proof.
  intros [Hf _] H. unfold canonical, info_of in H. destruct (List.find (item_covers c) f) as [i|] eqn:Ei; [|discriminate].
  apply find_in in Ei as [Ei _]. rewrite Forall_forall in Hf. specialize (Hf i Ei).
  assert (info_ok (item_info i)) as (_ & _ & _ & _ & Hm & _) by (destruct i; apply Hf). cbn in H.
  destruct (tag (item_info i)); [discriminate|]. destruct (mapping (item_info i)) eqn:E; [discriminate|].
  rewrite <- E in *. injection H as <-. apply Forall_map. eapply Forall_impl; [|exact Hm]. now intros t [_ Ht].
Qed.

Lemma canonical_ne f c m : canonical f c = Some m -> m <> [].
Proof.
  unfold canonical. destruct (info_of f c) as [d|]; [|discriminate]. destruct (tag d); [discriminate|].
  destruct (mapping d); [discriminate|]. now intros [= <-].
Qed.

Lemma picks_nodup ex l lead : NoDup (map fst l) ->
  (forall c c' b, In (c, [lead; b]) l -> In (c', [lead; b]) l -> ~ In c ex -> ~ In c' ex -> c = c') ->
  NoDup (map fst (picks ex l lead)).
Proof.
  induction l as [|e l IH] using rev_ind; intros Hn Hd; [constructor|].
  rewrite map_app in Hn. cbn [map] in Hn. apply NoDup_remove in Hn as [Hn Hni]. rewrite app_nil_r in Hn, Hni.
  unfold picks. rewrite flat_map_app, map_app. fold (picks ex l lead) (picks ex [e] lead).
  assert (NoDup (map fst (picks ex l lead))) as H1.
  { apply IH; [exact Hn|]. intros c c' b H1 H2. apply Hd with (b := b); apply in_or_app; auto. }
  destruct (picks ex [e] lead) as [|[b c] q] eqn:E; [cbn; now rewrite app_nil_r|].
  assert (In (b, c) (picks ex [e] lead)) as Hin by (rewrite E; now left). apply picks_in in Hin as [[Hin|[]] Hc].
  assert (q = []) as ->.
  { subst e. cbn in E. destruct ((lead =? lead) && negb (set_contains c ex)); cbn in E; congruence. }
  cbn [map fst]. subst e. cbn [fst] in Hni. 
  assert (~ In b (map fst (picks ex l lead))) as Hb.
  { intros K. apply in_map_iff in K as ((b' & c') & <- & K). apply picks_in in K as [K Hc']. cbn [fst] in *.
    assert (c' = c).
    { apply (Hd c' c b'); auto; apply in_or_app; [now left|right; now left]. }
    subst c'. apply Hni. change c with (fst (c, [lead; b'])). now apply in_map. }
  clear - H1 Hb. induction H1 as [|k l' Hk H1 IH]; cbn; [constructor; [intros []|constructor]|].
  cbn in Hb. constructor; [|apply IH; tauto]. rewrite in_app_iff. cbn. intros [K|[K|[]]]; [auto|]. subst. tauto.
Qed.

Lemma sorted_nodup l : StronglySorted N.lt l -> NoDup l.
Proof.
  induction 1 as [|x l Hs IH Hf]; constructor; [|exact IH]. intros K. rewrite Forall_forall in Hf. specialize (Hf x K). lia.
Qed.

Lemma composition_full f x : good_data f -> exclusion_file x -> short_mappings f -> distinct_mappings f x ->
  exists t, obind (data_from_str (data_text f)) (fun es => obind (exclusions_from_str (file_text x)) (fun s =>
              emit_canonical_composition_mapping es s)) = Ret t /\ wf_table t /\
  (forall a inner, find t a = Ret (Some inner) -> exists l, inner = Direct l /\ l <> [] /\ wf_table inner) /\
  forall a b, exists o, composed t a b = Ret o /\
    forall c, o = Some c <-> scalar c /\ canonical f c = Some [a; b] /\ ~ excluded x c.
Proof.
  intros Hf Hx Hshort Hd. rewrite data_from_str_ok by apply Hf. cbn [obind].
  destruct (exclusions_ok x Hx) as (ex & -> & Hexs & Hex). cbn [obind].
  unfold emit_canonical_composition_mapping. destruct (decomposition_map_ok f Hf) as [HDs HD].
  set (D := decomposition_map (flat_map item_entries f)) in *. clearbody D.
  destruct (composition_fold ex D) as (m & -> & Hm & HM).
  { apply Forall_forall. intros [c d] Hin. apply HD in Hin as [Hc Hin]. specialize (Hshort c d Hc Hin) as Hlen.
    apply canonical_ne in Hin as Hne. apply (mapping_scalar f c d Hf) in Hin.
    destruct d as [|a [|b [|? ?]]]; cbn in Hlen; [congruence|exact I|now inversion Hin|lia]. }
  cbn [obind].
  assert (forall lead v, In (lead, v) m -> sorted_map (sort_by_key v) /\ forall q, In q (sort_by_key v) <-> In q v) as Hin.
  { intros lead v H. apply HM in H as [_ ->]. apply sort_by_key_ok.
    - apply picks_nodup; [apply sorted_nodup, HDs|]. intros c c' b H1 H2 N1 N2.
      apply HD in H1 as [S1 H1]. apply HD in H2 as [S2 H2]. apply (Hd c c' lead b); auto.
      + intros K. apply N1, Hex. auto.
      + intros K. apply N2, Hex. auto.
    - apply Forall_forall. intros k Hk. apply in_map_iff in Hk as ((b & c) & <- & Hk). apply picks_in in Hk as [Hk _].
      apply HD in Hk as [_ Hk]. apply (mapping_scalar f c _ Hf) in Hk. inversion Hk as [|? ? _ Hk']; subst. now inversion Hk'. }
  set (mm := map (fun e => (fst e, Direct (sort_by_key (snd e)))) m).
  assert (sorted_map mm) as Hmm.
  { unfold sorted_map, mm. rewrite map_map. exact Hm. }
  destruct (to_direct_ok mm Hmm) as [Hw Hfind].
  eexists. split; [reflexivity|]. split; [exact Hw|]. split.
  { intros a inner H. apply Hfind in H. unfold mm in H. apply in_map_iff in H as ((lead & v) & [= -> <-] & Hv).
    destruct (Hin a v Hv) as [Hsv Hiv]. exists (sort_by_key v). split; [reflexivity|]. split.
    - apply HM in Hv as [Hne Ev]. subst v. destruct (picks ex D a) as [|q qs] eqn:Eq; [congruence|].
      intros E. assert (In q (sort_by_key (q :: qs))) as K by (apply Hiv; now left). rewrite E in K. destruct K.
    - now destruct (to_direct_ok _ Hsv). }
  intros a b. unfold composed.
  rewrite find_scan by exact Hw. cbn [obind].
  destruct (scan (entries (to_direct_char_table mm)) a) as [inner|] eqn:Ea.
  - assert (In (a, inner) mm) as Hina by (apply Hfind; rewrite find_scan by exact Hw; now rewrite Ea).
    unfold mm in Hina. apply in_map_iff in Hina as ((lead & v) & [= -> <-] & Hv).
    destruct (Hin a v Hv) as [Hsv Hiv]. apply HM in Hv as [_ Ev].
    destruct (to_direct_ok _ Hsv) as [Hwi Hfi]. unfold to_direct_char_table in *.
    rewrite find_scan by exact Hwi. eexists. split; [reflexivity|]. intros c.
    specialize (Hfi b c). rewrite find_scan in Hfi by exact Hwi. rewrite Hiv in Hfi.
    assert (In (b, c) v <-> (scalar c /\ canonical f c = Some [a; b]) /\ ~ (scalar c /\ excluded x c)) as K
      by (rewrite Ev, picks_in, HD, Hex; reflexivity). rewrite K in Hfi.
    assert (forall o o' : option N, Ret o = Ret o' <-> o = o') as R by (split; congruence). rewrite R in Hfi.
    transitivity ((scalar c /\ canonical f c = Some [a; b]) /\ ~ (scalar c /\ excluded x c)); [exact Hfi|tauto].
  - exists None. split; [reflexivity|]. intros c. split; [discriminate|]. intros (H1 & H2 & H3). exfalso.
    assert (In (b, c) (picks ex D a)) as Hp. { apply picks_in. rewrite HD, Hex. tauto. }
    assert (In (a, picks ex D a) m) as K. { apply HM. split; [|reflexivity]. intros E. rewrite E in Hp. destruct Hp. }
    assert (In (a, Direct (sort_by_key (picks ex D a))) mm) as K'.
    { unfold mm. apply in_map_iff. exists (a, picks ex D a). auto. }
    apply Hfind in K'. rewrite find_scan in K' by exact Hw. congruence.
Qed.

Lemma composition_ok f x : good_data f -> exclusion_file x -> short_mappings f -> distinct_mappings f x ->
  exists t, obind (data_from_str (data_text f)) (fun es => obind (exclusions_from_str (file_text x)) (fun s =>
              emit_canonical_composition_mapping es s)) = Ret t /\ wf_table t /\
  forall a b, exists o, composed t a b = Ret o /\
    forall c, o = Some c <-> scalar c /\ canonical f c = Some [a; b] /\ ~ excluded x c.
Proof.
  intros H1 H2 H3 H4. destruct (composition_full f x H1 H2 H3 H4) as (t & E & Hw & _ & H). eauto.
Qed.

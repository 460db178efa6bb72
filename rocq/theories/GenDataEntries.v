(** The entries read from UnicodeData.txt. *)
From Coq Require Import String Ascii List NArith ZArith Lia Bool PeanoNat Sorted ZifyBool ZifyNat ZifyN.
From Verif Require Import Base RangeModel TableModel TextModel TableGenModel GenRegex GenModel GenSpec GenBinarySpec
  GenLemmas GenMap GenProofs GenDataModel GenDataSpec GenDataRead.
Import ListNotations.
Open Scope N_scope.
Open Scope list_scope.

Lemma get_capo k j o rest :
  get k (capo j o ++ rest) =
  if Nat.eqb j k then match o with Some t => Some t | None => get k rest end else get k rest.
Proof. destruct o as [t|]; cbn; destruct (Nat.eqb j k); reflexivity. Qed.

Lemma get_decomposition k d rest :
  get k (decomposition_caps d ++ rest) =
  if Nat.eqb 7 k then match mapping d with [] => get k (capo 6 (tag d) ++ rest) | l => Some (joined 0x20 l) end
  else get k (capo 6 (tag d) ++ rest).
Proof.
  unfold decomposition_caps. rewrite <- app_assoc. destruct (mapping d) as [|w l]; cbn [app].
  - destruct (Nat.eqb 7 k); reflexivity.
  - cbn [get]. destruct (Nat.eqb 7 k); reflexivity.
Qed.

Ltac gets :=
  unfold index, caps; rewrite <- (app_nil_r (capo 1 _));
  repeat (rewrite get_capo || rewrite get_decomposition); cbn [Nat.eqb get].

Lemma caps_1 cp n d : index 1 (caps cp n d) = Ret cp. Proof. gets. reflexivity. Qed.
Lemma caps_2 cp n d : index 2 (caps cp n d) = Ret n. Proof. gets. reflexivity. Qed.
Lemma caps_3 cp n d : index 3 (caps cp n d) = Ret (gc d). Proof. gets. reflexivity. Qed.
Lemma caps_4 cp n d : index 4 (caps cp n d) = Ret (ccc d). Proof. gets. reflexivity. Qed.
Lemma caps_5 cp n d : index 5 (caps cp n d) = Ret (bc d). Proof. gets. reflexivity. Qed.
Lemma caps_6 cp n d : get 6 (caps cp n d) = tag d. Proof. gets. now destruct (tag d). Qed.
Lemma caps_7 cp n d : get 7 (caps cp n d) = match mapping d with [] => None | l => Some (joined 0x20 l) end.
Proof. gets. reflexivity. Qed.
Lemma caps_8 cp n d : get 8 (caps cp n d) = option_map (fun c => [c]) (decimal d).
Proof. gets. now destruct (decimal d). Qed.
Lemma caps_9 cp n d : get 9 (caps cp n d) = option_map (fun c => [c]) (digit_ d).
Proof. gets. now destruct (digit_ d). Qed.
Lemma caps_10 cp n d : get 10 (caps cp n d) = numeric d. Proof. gets. now destruct (numeric d). Qed.
Lemma caps_11 cp n d : index 11 (caps cp n d) = Ret (if mirrored d then [0x59] else [0x4E]).
Proof. gets. reflexivity. Qed.
Lemma caps_12 cp n d : get 12 (caps cp n d) = old_name d. Proof. gets. now destruct (old_name d). Qed.
Lemma caps_13 cp n d : get 13 (caps cp n d) = upper d. Proof. gets. now destruct (upper d). Qed.
Lemma caps_14 cp n d : get 14 (caps cp n d) = lower_ d. Proof. gets. now destruct (lower_ d). Qed.
Lemma caps_15 cp n d : get 15 (caps cp n d) = title d. Proof. gets. now destruct (title d). Qed.

(** The entry for a line. *)
Definition entry_of (c : N) (n : str) (d : info) : UnicodeDataEntry :=
  mkEntry c n (gc d) (dec_number (ccc d)) (bc d) (tag d)
    (match mapping d with [] => None | l => Some (map hex_number l) end)
    (option_map (fun c => c - 0x30) (decimal d)) (option_map (fun c => c - 0x30) (digit_ d))
    (numeric d) (mirrored d) (old_name d)
    (option_map hex_number (upper d)) (option_map hex_number (lower_ d))
    (match title d with None => option_map hex_number (upper d) | Some t => Some (hex_number t) end).

Lemma split_space_word w : ~ In 0x20 w -> split_space w = [w].
Proof.
  induction w as [|c w IH]; cbn; [reflexivity|]. intros H.
  replace (c =? 0x20) with false by (symmetry; apply N.eqb_neq; intros ->; tauto).
  rewrite IH by tauto. reflexivity.
Qed.

Lemma split_space_cons w s : ~ In 0x20 w -> split_space (w ++ 0x20 :: s) = w :: split_space s.
Proof.
  induction w as [|c w IH]; cbn [app split_space In]; intros H; [reflexivity|].
  replace (c =? 0x20) with false by (symmetry; apply N.eqb_neq; intros ->; tauto).
  rewrite IH by tauto. reflexivity.
Qed.

Lemma split_space_joined l : l <> [] -> Forall (fun w => ~ In 0x20 w) l -> split_space (joined 0x20 l) = l.
Proof.
  induction l as [|w l IH]; [congruence|]. intros _ H. inversion H as [|? ? Hw Hl]; subst.
  destruct l as [|v l].
  - cbn. now apply split_space_word.
  - change (joined 0x20 (w :: v :: l)) with (w ++ 0x20 :: joined 0x20 (v :: l)).
    rewrite split_space_cons by assumption. rewrite IH; [reflexivity|discriminate|exact Hl].
Qed.

Lemma hex_no_space t : Forall is_hex t -> ~ In 0x20 t.
Proof. intros H K. rewrite Forall_forall in H. specialize (H _ K). now apply H. Qed.

Lemma omap_map {A B} (f : A -> outcome B) g l : Forall (fun x => f x = Ret (g x)) l -> omap f l = Ret (map g l).
Proof. induction 1 as [|x l Hx Hl IH]; cbn; [reflexivity|]. rewrite Hx, IH. reflexivity. Qed.

Lemma ooption_hex o : opt_ok character_code o -> ooption hex_char o = Ret (option_map hex_number o).
Proof. destruct o as [t|]; cbn; [|reflexivity]. intros [H1 H2]. now rewrite hex_char_ok. Qed.

Lemma ooption_digit o : (forall c, o = Some c -> is_digit c) ->
  ooption (fun t => unwrap (parse_dec 0xFF t)) (option_map (fun c => [c]) o) = Ret (option_map (fun c => c - 0x30) o).
Proof.
  destruct o as [c|]; cbn [option_map ooption]; [|reflexivity]. intros H. specialize (H c eq_refl).
  assert (dec_number [c] = c - 0x30) as E by (unfold dec_number; cbn [map numeral length N.of_nat]; change (10 ^ 0) with 1; lia).
  rewrite parse_dec_number; [rewrite E; reflexivity|discriminate|auto|rewrite E; unfold is_digit in H; lia].
Qed.

Lemma data_entry_ok c cp n d : info_ok d -> data_entry c (caps cp n d) = Ret (entry_of c n d).
Proof.
  intros (Hgc & (Hcne & Hcd & Hcb) & Hbc & Ht & Hm & Htm & Hdec & Hdig & Hnum & Hold & Hup & Hlow & Hti).
  unfold data_entry. rewrite caps_2. cbn [obind]. rewrite caps_3. cbn [obind]. rewrite caps_4. cbn [obind].
  rewrite parse_dec_number by (assumption || lia). cbn [obind unwrap].
  rewrite caps_5. cbn [obind]. rewrite caps_7.
  assert (ooption (fun t => omap hex_char (split_space t)) match mapping d with [] => None | l => Some (joined 0x20 l) end
          = Ret match mapping d with [] => None | l => Some (map hex_number l) end) as ->.
  { destruct (mapping d) as [|w l] eqn:E; [reflexivity|]. cbn [ooption]. rewrite split_space_joined; [|discriminate|].
    - rewrite (omap_map _ hex_number); [reflexivity|]. eapply Forall_impl; [|exact Hm].
      intros t [H1 H2]. now apply hex_char_ok.
    - eapply Forall_impl; [|exact Hm]. intros t [[H1 _] _]. now apply hex_no_space. }
  cbn [obind]. rewrite caps_8, ooption_digit by assumption. cbn [obind].
  rewrite caps_9, ooption_digit by assumption. cbn [obind]. rewrite caps_11. cbn [obind].
  rewrite caps_13, ooption_hex by assumption. cbn [obind].
  rewrite caps_14, ooption_hex by assumption. cbn [obind].
  rewrite caps_15, ooption_hex by assumption. cbn [obind].
  rewrite caps_6, caps_10, caps_12. unfold entry_of. repeat f_equal.
  - destruct (mirrored d); reflexivity.
  - destruct (title d); reflexivity.
Qed.

(** * Ranges *)
Lemma ends_with_spec s t : ends_with s t = true <-> ends s t.
Proof.
  unfold ends_with, ends. rewrite andb_true_iff, Nat.leb_le, str_eqb_spec. split.
  - intros [Hl E]. exists (firstn (length s - length t) s). rewrite <- E at 2. symmetry. apply firstn_skipn.
  - intros (p & ->). rewrite app_length. split; [lia|].
    replace (length p + length t - length t)%nat with (length p) by lia.
    rewrite skipn_app, skipn_all, Nat.sub_diag. reflexivity.
Qed.

Lemma find_char_app c p s : ~ In c p -> find_char c (p ++ c :: s) = Some (length p).
Proof.
  induction p as [|d p IH]; cbn; intros H; [now rewrite N.eqb_refl|].
  replace (d =? c) with false by (symmetry; apply N.eqb_neq; tauto). now rewrite IH by tauto.
Qed.

Lemma drain_label_ok label mid : ~ In 0x2C label -> ~ In 0x3E label -> ~ In 0x3E mid ->
  drain_label ([0x3C] ++ label ++ 0x2C :: mid ++ [0x3E]) = Ret ([0x3C] ++ label ++ [0x3E]).
Proof.
  intros H1 H2 H3. unfold drain_label.
  replace ([0x3C] ++ label ++ 0x2C :: mid ++ [0x3E]) with ((0x3C :: label) ++ 0x2C :: mid ++ [0x3E]) at 1 by reflexivity.
  rewrite find_char_app by (cbn; intros [K|K]; [lia|auto]). cbn [unwrap obind].
  replace ([0x3C] ++ label ++ 0x2C :: mid ++ [0x3E]) with ((0x3C :: label ++ 0x2C :: mid) ++ 0x3E :: []) at 1
    by (cbn; now rewrite <- app_assoc).
  rewrite find_char_app.
  2: { cbn [In]. rewrite in_app_iff. cbn [In]. intros [K|[K|[K|K]]]; [lia|auto|lia|auto]. }
  cbn [unwrap obind]. replace (Nat.ltb _ _) with false.
  2: { symmetry. apply Nat.ltb_ge. cbn [length]. rewrite app_length. lia. }
  f_equal. replace ([0x3C] ++ label ++ 0x2C :: mid ++ [0x3E]) with ((0x3C :: label) ++ 0x2C :: mid ++ [0x3E]) at 1 by reflexivity.
  rewrite firstn_app, Nat.sub_diag, firstn_all. cbn [firstn]. rewrite app_nil_r.
  replace ([0x3C] ++ label ++ 0x2C :: mid ++ [0x3E]) with ((0x3C :: label ++ 0x2C :: mid) ++ [0x3E])
    by (cbn; now rewrite <- app_assoc).
  rewrite skipn_app, skipn_all, Nat.sub_diag. cbn [skipn app]. reflexivity.
Qed.

Definition span_name (label : str) : str := [0x3C] ++ label ++ [0x3E].

Lemma first_drain label : ~ In 0x2C label -> ~ In 0x3E label -> drain_label (first_name label) = Ret (span_name label).
Proof.
  intros H1 H2. apply (drain_label_ok label (letters " First")); auto. cbn. lia.
Qed.
Lemma last_drain label : ~ In 0x2C label -> ~ In 0x3E label -> drain_label (last_name label) = Ret (span_name label).
Proof.
  intros H1 H2. apply (drain_label_ok label (letters " Last")); auto. cbn. lia.
Qed.

Lemma first_ends label : ends_with (first_name label) (text ", First>") = true.
Proof. apply ends_with_spec. exists ([0x3C] ++ label). unfold first_name. now rewrite <- app_assoc. Qed.
Lemma last_ends label : ends_with (last_name label) (text ", Last>") = true.
Proof. apply ends_with_spec. exists ([0x3C] ++ label). unfold last_name. now rewrite <- app_assoc. Qed.
Lemma last_not_first label : ends_with (last_name label) (text ", First>") = false.
Proof.
  destruct (ends_with _ _) eqn:E; [|reflexivity]. apply ends_with_spec in E as (p & E).
  apply (f_equal (@rev N)) in E. unfold last_name in E. rewrite !rev_app_distr in E. discriminate E.
Qed.
Lemma filled_first label : plain label -> filled (first_name label).
Proof.
  intros [H1 H2]. split; [discriminate|]. unfold first_name. split.
  - rewrite !in_app_iff. cbn. intros [?|[?|?]]; [lia|auto|lia].
  - unfold no_newline. rewrite !in_app_iff. cbn. intros [?|[?|?]]; [lia|auto|lia].
Qed.
Lemma filled_last label : plain label -> filled (last_name label).
Proof.
  intros [H1 H2]. split; [discriminate|]. unfold last_name. split.
  - rewrite !in_app_iff. cbn. intros [?|[?|?]]; [lia|auto|lia].
  - unfold no_newline. rewrite !in_app_iff. cbn. intros [?|[?|?]]; [lia|auto|lia].
Qed.

Definition item_rows (i : item) : list (str * str * info) :=
  match i with
  | One cp n d => [(cp, n, d)]
  | Span f l label d => [(f, first_name label, d); (l, last_name label, d)]
  end.

Definition item_entries (i : item) : list UnicodeDataEntry :=
  match i with
  | One cp n d => if scalarb (hex_number cp) then [entry_of (hex_number cp) n d] else []
  | Span f l label d =>
      if scalarb (hex_number f) then
        [entry_of (hex_number f) (span_name label) d] ++
        map (fun k => entry_of k (span_name label) d) (filter scalarb (u32_range (hex_number f) (hex_number l))) ++
        [entry_of (hex_number l) (span_name label) d]
      else []
  end.

Definition capr (r : str * str * info) : list (nat * str) := match r with (cp, n, d) => caps cp n d end.

Lemma ends_no n t : ~ ends n t -> ends_with n t = false.
Proof. intros H. destruct (ends_with n t) eqn:E; [|reflexivity]. apply ends_with_spec in E. contradiction. Qed.

Lemma item_step i es start : item_ok i ->
  exists start', ofold data_step (es, start) (map capr (item_rows i)) = Ret (es ++ item_entries i, start').
Proof.
  destruct i as [cp n d|f l label d]; cbn [item_ok item_rows map ofold capr item_entries].
  - intros (Hcp & Hn & H1 & H2 & Hd). unfold data_step. rewrite caps_1. cbn [obind].
    rewrite hex_code_point by exact Hcp. cbn [obind]. unfold char_from_u32.
    destruct (scalarb (hex_number cp)); cbn [obind].
    + rewrite data_entry_ok by exact Hd. cbn [obind name entry_of].
      change (text ", First>") with (letters ", First>"). change (text ", Last>") with (letters ", Last>").
      rewrite !ends_no by assumption. cbn [obind]. eauto.
    + rewrite app_nil_r. eauto.
  - intros (Hf & Hl & Hlt & _ & Hsc & Hpl & Hc & Ha & Hd). unfold data_step at 1. rewrite caps_1. cbn [obind].
    rewrite hex_code_point by exact Hf. cbn [obind]. unfold char_from_u32.
    rewrite <- !scalarb_spec in Hsc.
    destruct (scalarb (hex_number f)) eqn:E; cbn [obind].
    + rewrite data_entry_ok by exact Hd. cbn [obind name entry_of]. rewrite first_ends, first_drain by assumption.
      cbn [obind]. unfold data_step. rewrite caps_1. cbn [obind]. rewrite hex_code_point by exact Hl. cbn [obind].
      unfold char_from_u32. rewrite (proj1 Hsc eq_refl). rewrite data_entry_ok by exact Hd. cbn [obind name entry_of].
      rewrite last_not_first, last_ends. replace (hex_number f <? hex_number l) with true by lia.
      rewrite last_drain by assumption. cbn [obind]. rewrite <- app_assoc. eauto.
    + unfold data_step. rewrite caps_1. cbn [obind]. rewrite hex_code_point by exact Hl. cbn [obind].
      unfold char_from_u32. destruct (scalarb (hex_number l)); [now discriminate (proj2 Hsc eq_refl)|]. cbn [obind].
      rewrite app_nil_r. eauto.
Qed.

Lemma ofold_app {A B} (f : A -> B -> outcome A) l1 l2 a :
  ofold f a (l1 ++ l2) = obind (ofold f a l1) (fun a' => ofold f a' l2).
Proof.
  revert a. induction l1 as [|x l1 IH]; intros a; cbn; [reflexivity|]. destruct (f a x); cbn; [apply IH|reflexivity].
Qed.

Lemma items_step f : Forall item_ok f -> forall es start,
  exists start', ofold data_step (es, start) (map capr (flat_map item_rows f)) = Ret (es ++ flat_map item_entries f, start').
Proof.
  induction 1 as [|i f Hi Hf IH]; intros es start; cbn [flat_map map].
  - cbn. rewrite app_nil_r. eauto.
  - rewrite map_app, ofold_app. destruct (item_step i es start Hi) as (st & ->). cbn [obind].
    rewrite app_assoc. apply IH.
Qed.

Lemma data_captures f : Forall item_ok f ->
  captures_iter UNICODE_DATA_REGEX (data_text f) = map capr (flat_map item_rows f).
Proof.
  intros Hf. change UNICODE_DATA_REGEX with (Seq Bol DATA_REST).
  set (pr := fun r : str * str * info => match r with (cp, n, d) => (info_text cp n d, Some (caps cp n d)) end).
  assert (data_text f = concat (map (fun l : str * option (list (nat * str)) => fst l ++ [10]) (map pr (flat_map item_rows f)))) as ->.
  { unfold data_text. f_equal. rewrite map_map.
    assert (flat_map item_lines f = map (fun r => fst (pr r)) (flat_map item_rows f)) as ->.
    { clear. induction f as [|[|] f IH]; cbn; [reflexivity| |]; now rewrite IH. }
    now rewrite map_map. }
  rewrite captures_lines.
  - clear. induction (flat_map item_rows f) as [|[[cp n] d] l IH]; cbn; [reflexivity|]. now rewrite IH.
  - apply fails_seq, fails_cap, hex46_fails. exact I.
  - apply Forall_map, Forall_flat_map. eapply Forall_impl; [|exact Hf]. intros [cp n d|a b label d]; cbn.
    + intros (H1 & H2 & _ & _ & H3). constructor; [|constructor]. now apply line_reads.
    + intros (H1 & H2 & _ & _ & _ & H3 & _ & _ & H4).
      constructor; [|constructor; [|constructor]]; apply line_reads; auto;
        [now apply filled_first|now apply filled_last].
Qed.

Lemma data_from_str_ok f : Forall item_ok f -> data_from_str (data_text f) = Ret (flat_map item_entries f).
Proof.
  intros Hf. unfold data_from_str. rewrite data_captures by exact Hf.
  destruct (items_step f Hf [] None) as (st & ->). reflexivity.
Qed.

(** * What the entries say *)
Definition item_name (i : item) : str :=
  match i with One _ n _ => n | Span _ _ label _ => span_name label end.

Lemma in_item_entries i e : item_ok i -> (In e (item_entries i) <->
  scalar (character e) /\ item_covers (character e) i = true /\ e = entry_of (character e) (item_name i) (item_info i)).
Proof.
  intros Hi. unfold item_covers. destruct i as [cp n d|f l label d]; cbn [item_entries item_low item_high item_name item_info].
  - destruct (scalarb (hex_number cp)) eqn:E; cbn [In].
    + split.
      * intros [<-|[]]. cbn [character entry_of]. split; [now apply scalarb_spec|]. split; [lia|reflexivity].
      * intros (_ & Hc & ->). left. cbn [character entry_of] in *. f_equal. lia.
    + split; [intros []|]. intros (Hs & Hc & _). assert (character e = hex_number cp) as Ec by lia.
      rewrite Ec in Hs. apply scalarb_spec in Hs. congruence.
  - destruct Hi as (Hf & Hl & Hlt & Hmax & Hsc & _). rewrite <- !scalarb_spec in Hsc.
    destruct (scalarb (hex_number f)) eqn:E.
    + apply proj1 in Hsc. specialize (Hsc eq_refl). rewrite !in_app_iff, in_map_iff. cbn [In]. split.
      * intros [[<-|[]]|[(k & <- & Hk)|[<-|[]]]]; cbn [character entry_of].
        -- split; [now apply scalarb_spec|]. split; [lia|reflexivity].
        -- apply filter_In in Hk as [Hk Hs]. apply in_u32_range in Hk. split; [now apply scalarb_spec|]. split; [lia|reflexivity].
        -- split; [now apply scalarb_spec|]. split; [lia|reflexivity].
      * intros (Hs & Hc & Ee). set (c := character e) in *. clearbody c. subst e.
        destruct (N.eq_dec c (hex_number l)) as [->|Hne]; [auto|].
        right. left. exists c. split; [reflexivity|]. apply filter_In. split; [apply in_u32_range; lia|now apply scalarb_spec].
    + split; [intros []|]. intros (Hs & Hc & _). exfalso.
      (* both ends are surrogates, or beyond the last code point *)
      assert (~ scalar (hex_number f)) as H1 by (rewrite <- scalarb_spec; congruence).
      assert (~ scalar (hex_number l)) as H2.
      { rewrite <- scalarb_spec. intros K. apply Hsc in K. discriminate. }
      unfold scalar in *. lia.
Qed.

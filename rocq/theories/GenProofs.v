(** Reading files that list values or binary properties for ranges. *)
From Coq Require Import String List NArith ZArith Lia Bool PeanoNat Sorted ZifyBool ZifyNat ZifyN.
From Verif Require Import Base RangeModel TableModel TableSpec TextModel TableGenModel TableGenSpec
  TableGenProofs GenRegex GenModel GenSpec GenLemmas GenMap.
Import ListNotations.
Open Scope N_scope.
Open Scope list_scope.

(** * Numbers *)
Lemma to_digit16_value c : to_digit16 c = hex_value_of c.
Proof.
  unfold to_digit16, hex_value_of. destruct (_ && _); [reflexivity|].
  destruct ((0x61 <=? c) && (c <=? 0x66)) eqn:E1, ((0x41 <=? c) && (c <=? 0x46)) eqn:E2;
    try reflexivity; try (f_equal; lia); lia.
Qed.

Lemma radix_loop_number t : forall acc, Forall is_hex t ->
  acc * 16 ^ N.of_nat (length t) + hex_number t <= 0xFFFFFFFF ->
  radix_loop 0xFFFFFFFF acc t = Some (acc * 16 ^ N.of_nat (length t) + hex_number t).
Proof.
  induction t as [|c t IH]; intros acc Hf Hm; cbn [radix_loop].
  - unfold hex_number. cbn. f_equal. lia.
  - inversion Hf as [|? ? Hc Hf']; subst. rewrite to_digit16_value. unfold hex_number in *. cbn [map numeral length] in *.
    unfold is_hex in Hc. destruct (hex_value_of c) as [d|] eqn:E; [|congruence].
    rewrite map_length in *.
    assert (16 ^ N.of_nat (S (length t)) = 16 * 16 ^ N.of_nat (length t)) as P.
    { rewrite Nat2N.inj_succ, N.pow_succ_r'. reflexivity. }
    rewrite P in *. set (q := 16 ^ N.of_nat (length t)) in *. set (n := numeral 16 _) in *.
    assert (1 <= q) by (unfold q; assert (16 ^ N.of_nat (length t) <> 0) by (apply N.pow_nonzero; lia); lia).
    assert (acc * 16 + d <= (acc * 16 + d) * q) by nia.
    replace (acc * 16 + d <=? 0xFFFFFFFF) with true by lia.
    rewrite IH; [f_equal; lia|assumption|lia].
Qed.

Lemma numeral_bound (base : N) ds : 1 <= base -> Forall (fun d => d < base) ds ->
  numeral base ds < base ^ N.of_nat (length ds).
Proof.
  intros Hb H. induction H as [|d ds Hd Hds IH]; cbn [numeral length]; [cbn; lia|].
  rewrite Nat2N.inj_succ, N.pow_succ_r'. nia.
Qed.

Lemma hex_number_bound t : code_point t -> hex_number t < 0x1000000.
Proof.
  intros [Hf Hl]. unfold hex_number.
  assert (Forall (fun d => d < 16) (map (fun c => match hex_value_of c with Some d => d | None => 0 end) t)) as Hd.
  { apply Forall_map. eapply Forall_impl; [|exact Hf]. intros c _. unfold hex_value_of.
    
    repeat match goal with |- context[if ?b then _ else _] => destruct b eqn:? end; lia. }
  apply numeral_bound in Hd; [|lia]. rewrite map_length in Hd.
  assert (16 ^ N.of_nat (length t) <= 16 ^ 6) by (apply N.pow_le_mono_r; lia).
  change (16 ^ 6) with 0x1000000 in *. lia.
Qed.

Lemma hex_code_point t : code_point t -> hex t = Ret (hex_number t).
Proof.
  intros H. pose proof (hex_number_bound t H) as Hb. destruct H as [Hf Hl]. unfold hex.
  assert (from_str_radix16 0xFFFFFFFF t = radix_loop 0xFFFFFFFF 0 t) as ->.
  { unfold from_str_radix16. destruct t as [|c t]; [cbn in Hl; lia|].
    inversion Hf as [|? ? Hc _]; subst.
    destruct (N.eq_dec c 0x2B) as [->|Hne]; [exfalso; apply Hc; reflexivity|].
    destruct c as [|p]; [reflexivity|].
    repeat (try reflexivity; try (exfalso; apply Hne; reflexivity); destruct p as [p|p|]). }
  rewrite radix_loop_number; [reflexivity|exact Hf|lia].
Qed.

Lemma hex_char_ok t : code_point t -> scalar (hex_number t) -> hex_char t = Ret (hex_number t).
Proof.
  intros H Hs. unfold hex_char. rewrite hex_code_point by assumption. cbn.
  unfold to_char, char_from_u32. apply scalarb_spec in Hs. rewrite Hs. reflexivity.
Qed.

Lemma dec_loop_number max t : forall acc, Forall is_digit t ->
  acc * 10 ^ N.of_nat (length t) + dec_number t <= max ->
  dec_loop max acc t = Some (acc * 10 ^ N.of_nat (length t) + dec_number t).
Proof.
  induction t as [|c t IH]; intros acc Hf Hm; cbn [dec_loop].
  - unfold dec_number. cbn. f_equal. lia.
  - inversion Hf as [|? ? Hc Hf']; subst. unfold is_digit in Hc. unfold digit.
    replace ((0x30 <=? c) && (c <=? 0x39)) with true by lia. cbv zeta.
    unfold dec_number in *. cbn [map numeral length] in *. rewrite map_length in *.
    assert (10 ^ N.of_nat (S (length t)) = 10 * 10 ^ N.of_nat (length t)) as P.
    { rewrite Nat2N.inj_succ, N.pow_succ_r'. reflexivity. }
    rewrite P in *. set (q := 10 ^ N.of_nat (length t)) in *. set (n := numeral 10 _) in *.
    assert (1 <= q) by (unfold q; assert (10 ^ N.of_nat (length t) <> 0) by (apply N.pow_nonzero; lia); lia).
    set (d := c - 0x30) in *.
    assert (acc * 10 + d <= (acc * 10 + d) * q) by nia.
    replace (acc * 10 + d <=? max) with true by lia.
    rewrite IH; [f_equal; lia|assumption|lia].
Qed.

Lemma parse_dec_number max t : t <> [] -> Forall is_digit t -> dec_number t <= max ->
  parse_dec max t = Some (dec_number t).
Proof.
  intros Hne Hf Hm. unfold parse_dec. destruct t as [|c t]; [congruence|].
  inversion Hf as [|? ? Hc _]; subst. unfold is_digit in Hc. replace (c =? 0x2B) with false by lia.
  rewrite dec_loop_number; [f_equal; lia|exact Hf|lia].
Qed.

(** * One row *)
Lemma blank_iff c : blank c = true <-> is_blank c.
Proof. unfold blank, is_blank. lia. Qed.
Lemma word_iff c : word c = true <-> is_word c.
Proof. unfold word, alnum, alpha, digit, is_word, is_digit. lia. Qed.
Lemma digit_iff c : digit c = true <-> is_digit c.
Proof. unfold digit, is_digit. lia. Qed.
Lemma blank_not_hex c : is_blank c -> ~ is_hex c.
Proof. intros [->| ->] H; now apply H. Qed.
Lemma blank_not_word c : is_blank c -> ~ is_word c.
Proof. unfold is_blank, is_word, is_digit. lia. Qed.
Lemma is_hex_word c : is_hex c -> is_word c.
Proof. rewrite <- xdigit_iff. unfold xdigit, digit, is_word, is_digit. lia. Qed.

Lemma Forall_iff {A} (P Q : A -> Prop) l : (forall x, P x <-> Q x) -> Forall P l -> Forall Q l.
Proof. intros H. apply Forall_impl. intros x. apply H. Qed.

Lemma not_starting_app (p : N -> Prop) t u : not_starting p t -> t <> [] -> not_starting p (t ++ u).
Proof. destruct t; [congruence|auto]. Qed.

Lemma not_starting_forall (p q : N -> Prop) t u : t <> [] -> Forall q t -> (forall c, q c -> ~ p c) ->
  not_starting p (t ++ u).
Proof. intros Hne Hf H. destruct t as [|c t]; [congruence|]. inversion Hf; subst. cbn. auto. Qed.

Lemma not_starting_tail (p : N -> Prop) t u : not_starting p t -> ~ p 10 -> not_starting p (t ++ 10 :: u).
Proof. destruct t; cbn; auto. Qed.

Definition range_caps (l : str) (h : option str) : list (nat * str) :=
  match h with None => [] | Some t => [(2%nat, t)] end ++ [(1%nat, l)].

Definition range_text (l : str) (h : option str) : str :=
  l ++ match h with None => [] | Some t => [0x2E; 0x2E] ++ t end.

(** [hex..hex] read with dots that match anything. *)
Lemma loose_range_eats rest l h pad z w u g :
  code_point l -> (forall t, h = Some t -> code_point t) ->
  Forall is_blank pad -> pad <> [] -> w ++ u = pad ++ 0x3B :: z -> not_starting is_hex z ->
  eats rest w u g ->
  eats (Seq (Cap 1 hex46) (Seq (Opt (Seq dot (Seq dot (Cap 2 hex46)))) rest))
       (range_text l h ++ w) u (g ++ range_caps l h).
Proof.
  intros Hl Hh Hp Hpne E Hz Hr. unfold range_text, range_caps.
  rewrite (app_assoc g), <- (app_assoc l).
  assert (not_starting is_hex (w ++ u)) as Hns.
  { rewrite E. eapply not_starting_forall; eauto. apply blank_not_hex. }
  apply eats_seq.
  - apply eats_cap. apply hex46_eats; [exact Hl|]. rewrite <- app_assoc.
    destruct h as [t|]; [|exact Hns]. cbn. intros K. now apply K.
  - apply eats_seq; [|exact Hr].
    destruct h as [t|].
    + apply eats_opt. rewrite <- (app_nil_l [(2%nat, t)]). cbn [app].
      change (0x2E :: 0x2E :: t) with ([0x2E] ++ [0x2E] ++ t).
      change [(2%nat, t)] with (([(2%nat, t)] ++ []) ++ @nil (nat * str)).
      apply eats_seq; [now apply eats_cls|]. apply eats_seq; [now apply eats_cls|].
      apply eats_cap, hex46_eats; [now apply Hh|exact Hns].
    + apply eats_opt_no. rewrite E.
      destruct pad as [|c1 pad]; [congruence|]. cbn [app]. apply fails_cls_seq.
      inversion Hp as [|? ? _ Hp']; subst. destruct pad as [|c2 pad]; cbn [app]; apply fails_cls_seq; apply fails_cap, hex46_fails.
      * exact Hz.
      * inversion Hp' as [|? ? _ Hp'']; subst. destruct pad as [|c3 pad]; cbn.
        -- intros K. now apply K.
        -- inversion Hp''; subst. now apply blank_not_hex.
Qed.

Lemma no_newline_app s t : no_newline s -> no_newline t -> no_newline (s ++ t).
Proof. unfold no_newline. rewrite in_app_iff. tauto. Qed.
Lemma no_newline_forall (p : N -> Prop) t : Forall p t -> ~ p 10 -> no_newline t.
Proof. intros Hf H K. rewrite Forall_forall in Hf. auto. Qed.

Lemma hex_no_newline t : Forall is_hex t -> no_newline t.
Proof. intros H. apply (no_newline_forall is_hex t H). intros K. now apply K. Qed.
Lemma blank_no_newline t : Forall is_blank t -> no_newline t.
Proof. intros H. apply (no_newline_forall is_blank t H). unfold is_blank. lia. Qed.
Lemma word_no_newline t : Forall is_word t -> no_newline t.
Proof. intros H. apply (no_newline_forall is_word t H). unfold is_word, is_digit. lia. Qed.

Definition row_head (r : row) : str :=
  range_text (lo r) (hi r) ++ pad r ++ [0x3B] ++ pad' r ++ value r.

Lemma row_text_head r : row_text r = row_head r ++ tail r.
Proof. unfold row_text, row_head, range_text. now rewrite <- !app_assoc. Qed.

Definition row_caps (r : row) : list (nat * str) := (3%nat, value r) :: range_caps (lo r) (hi r).

Lemma row_head_ne r : code_point (lo r) -> row_head r <> [].
Proof. intros [_ H] E. unfold row_head, range_text in E. destruct (lo r); [cbn in H; lia|discriminate]. Qed.

Lemma row_no_newline vo to r : good_row vo to r -> no_newline (value r) -> no_newline (row_text r).
Proof.
  intros (Hl & Hh & Hp & _ & Hp' & _ & _ & _ & Ht) Hv. rewrite row_text_head. unfold row_head, range_text.
  repeat apply no_newline_app; auto using blank_no_newline.
  - now apply hex_no_newline, Hl.
  - destruct (hi r) as [h|]; [|unfold no_newline; now intros []].
    apply no_newline_app; [unfold no_newline; cbn; lia|]. now apply hex_no_newline, (Hh h).
  - unfold no_newline; cbn; lia.
Qed.

(** The common prefix of the expressions with blanks as separators; [val] is the
    expression for the value. *)
Lemma blank_row_eats val r z gv :
  code_point (lo r) -> (forall h, hi r = Some h -> code_point h) ->
  Forall is_blank (pad r) -> pad r <> [] -> Forall is_blank (pad' r) -> pad' r <> [] ->
  not_starting is_blank (value r ++ z) -> eats val (value r) z gv ->
  eats (Seq (Cap 1 hex46) (Seq (Opt (Seq dot (Seq dot (Cap 2 hex46))))
          (Seq blanks (Seq semicolon (Seq blanks val))))) (row_head r) z (gv ++ range_caps (lo r) (hi r)).
Proof.
  intros Hl Hh Hp Hpn Hp' Hpn' Hns Hv. unfold row_head.
  apply (loose_range_eats _ _ _ (pad r) (pad' r ++ value r ++ z)); auto.
  - now rewrite <- !app_assoc.
  - eapply not_starting_forall; eauto. apply blank_not_hex.
  - rewrite <- (app_nil_r gv) at 1.
    apply eats_seq.
    + apply eats_star; [eapply Forall_iff; [|exact Hp]; intros; now rewrite blank_iff|]. cbn. discriminate.
    + rewrite <- (app_nil_r gv). apply eats_seq; [apply eats_lit|].
      rewrite <- (app_nil_r gv). apply eats_seq; [|exact Hv].
      apply eats_star; [eapply Forall_iff; [|exact Hp']; intros; now rewrite blank_iff|].
      revert Hns. apply not_starting_iff. intros c. now rewrite blank_iff.
Qed.

(** * Whole files *)
Lemma file_captures rest (good : row -> Prop) (caps : row -> list (nat * str)) f :
  fails rest [] ->
  (forall t, not_starting is_hex t -> fails rest t) ->
  (forall r, good r -> reads rest (row_text r) (Some (caps r))) ->
  Forall (fun l => match l with
                   | Data r => good r
                   | Other t => no_newline t /\ not_starting is_hex t
                   end) f ->
  captures_iter (Seq Bol rest) (file_text f) = map caps (rows f).
Proof.
  intros F0 F Hr Hf.
  set (pr := fun l => match l with Data r => (row_text r, Some (caps r)) | Other t => (t, None) end).
  assert (file_text f = concat (map (fun l : str * option (list (nat * str)) => fst l ++ [10]) (map pr f))) as ->.
  { unfold file_text. f_equal. rewrite map_map. apply map_ext. intros []; reflexivity. }
  rewrite captures_lines; [|exact F0|].
  - clear. unfold rows. induction f as [|[r|t] f IH]; cbn; [reflexivity| |]; now rewrite IH.
  - apply Forall_map. eapply Forall_impl; [|exact Hf]. intros [r|t]; cbn.
    + apply Hr.
    + intros [Hn Hs]. split; [exact Hn|]. intros u. apply F. apply not_starting_tail; [exact Hs|].
      intros K. now apply K.
Qed.

Lemma starts_fails rest t : not_starting is_hex t -> fails (Seq (Cap 1 hex46) rest) t.
Proof. intros H. now apply fails_seq, fails_cap, hex46_fails. Qed.

Lemma ofold_map {A B C} (f : A -> C -> outcome A) (g : B -> C) (h : A -> B -> A) (P : B -> Prop) l :
  (forall a b, P b -> f a (g b) = Ret (h a b)) -> Forall P l ->
  forall a, ofold f a (map g l) = Ret (fold_left h l a).
Proof.
  intros H Hl. induction Hl as [|b l Hb Hl IH]; intros a; cbn; [reflexivity|]. rewrite H by exact Hb. apply IH.
Qed.

Lemma rows_good (good : row -> Prop) f :
  Forall (fun l => match l with
                   | Data r => good r
                   | Other t => no_newline t /\ not_starting is_hex t
                   end) f -> Forall good (rows f).
Proof.
  intros H. unfold rows. induction H as [|[r|t] f Hl Hf IH]; cbn; auto.
Qed.

Lemma range_caps_1 l h : index 1 (range_caps l h) = Ret l.
Proof. destruct h; reflexivity. Qed.
Lemma range_caps_2 l h : get 2 (range_caps l h) = h.
Proof. destruct h; reflexivity. Qed.

Lemma row_caps_1 r : index 1 (row_caps r) = Ret (lo r).
Proof. unfold row_caps, range_caps. destruct (hi r); reflexivity. Qed.
Lemma row_caps_2 r : get 2 (row_caps r) = hi r.
Proof. unfold row_caps, range_caps. destruct (hi r); reflexivity. Qed.
Lemma row_caps_3 r : index 3 (row_caps r) = Ret (value r).
Proof. reflexivity. Qed.

Lemma end_or_ok r : (forall h, hi r = Some h -> code_point h) -> end_or (low r) (hi r) = Ret (high r).
Proof.
  intros H. unfold end_or, high. destruct (hi r) as [h|] eqn:E; [|reflexivity]. now apply hex_code_point, H.
Qed.

(** ** Grapheme, word and sentence break files *)
Lemma break_reads r : good_row word_value after_word r ->
  reads (Seq (Cap 1 hex46) (Seq (Opt (Seq dot (Seq dot (Cap 2 hex46))))
          (Seq blanks (Seq semicolon (Seq blanks (Cap 3 (plus (Cls word)))))))) (row_text r) (Some (row_caps r)).
Proof.
  intros H. pose proof H as (Hl & Hh & Hp & Hpn & Hp' & Hpn' & [Hvn Hv] & Ht & Hn). split.
  - eapply row_no_newline; [exact H|]. now apply word_no_newline.
  - exists (row_head r), (tail r). split; [apply row_text_head|]. split; [now apply row_head_ne|]. intros u.
    change (row_caps r) with ([(3%nat, value r)] ++ range_caps (lo r) (hi r)).
    apply blank_row_eats; auto.
    + eapply not_starting_forall; eauto. intros c Hc K. now apply (blank_not_word c).
    + apply eats_cap, eats_plus; [exact Hvn|eapply Forall_iff; [|exact Hv]; intros; now rewrite word_iff|].
      apply not_starting_tail; [|discriminate]. revert Ht. apply not_starting_iff. intros c. now rewrite word_iff.
Qed.

Lemma break_file f : good_file word_value after_word f ->
  break_from_str (file_text f) =
  Ret (fold_left (fun m r => insert_points (low r) (high r) (value r) m) (rows f) []).
Proof.
  intros H. unfold break_from_str, BREAK_REGEX. erewrite file_captures; [|apply starts_fails; exact I| | |exact H].
  - eapply ofold_map; [|apply rows_good; exact H].
    intros m r (Hl & Hh & _). unfold break_step.
    rewrite row_caps_1, row_caps_2, row_caps_3. cbn [obind]. rewrite hex_code_point by exact Hl. cbn [obind].
    fold (low r). rewrite end_or_ok by exact Hh. reflexivity.
  - intros t Ht. now apply starts_fails.
  - intros r. apply break_reads.
Qed.

Definition says {V} (emit : outcome (CharDataTable V)) (f : N -> option V) : Prop :=
  exists t, emit = Ret t /\ wf_table t /\ forall c, scalar c -> find t c = Ret (f c).

Lemma emit_breaks_ok f : good_file word_value after_word f ->
  exists t, emit_breaks (file_text f) = Ret t /\ wf_table t /\
    forall c, scalar c -> find t c = Ret (option_map value (last_row f c)).
Proof.
  intros H. unfold emit_breaks. rewrite break_file by exact H. cbn [obind].
  destruct (rows_map_ok value (rows f)) as [Hs Hi].
  destruct (range_table_answers str_eqb str_eqb_spec _ (pick value (rows f)) Hs Hi) as (l & E & Hw & Hl).
  exists (Range l). auto.
Qed.

(** ** DerivedAge.txt *)
Definition version_caps (major minor : str) (micro : option str) : list (nat * str) :=
  match micro with None => [] | Some m => [(5%nat, m)] end ++ [(4%nat, minor); (3%nat, major)].

Definition VERSION : re :=
  Seq (Cap 3 (plus (Cls digit))) (Seq (lit 0x2E) (Seq (Cap 4 (plus (Cls digit)))
          (Opt (Seq (lit 0x2E) (Cap 5 (plus (Cls digit))))))).

Lemma digits_eats n t u : t <> [] -> Forall is_digit t -> not_starting is_digit u ->
  eats (Cap n (plus (Cls digit))) t u [(n, t)].
Proof.
  intros Hne Hf Hu. apply eats_cap, eats_plus; [exact Hne| |].
  - eapply Forall_iff; [|exact Hf]. intros; now rewrite digit_iff.
  - revert Hu. apply not_starting_iff. intros. now rewrite digit_iff.
Qed.

Lemma version_eats a b m u : number_value a -> number_value b -> (forall t, m = Some t -> number_value t) ->
  not_starting (fun c => is_digit c \/ c = 0x2E) u ->
  eats VERSION (version_text a b m) u (version_caps a b m).
Proof.
  intros (Ha & Ha' & _) (Hb & Hb' & _) Hm Hu. unfold VERSION, version_text, version_caps.
  assert (not_starting is_digit u) as Hu1 by (destruct u; cbn in *; tauto).
  assert (not_starting (fun c => c = 0x2E) u) as Hu2 by (destruct u; cbn in *; tauto).
  set (o := match m with None => [] | Some t => [(5%nat, t)] end).
  replace (o ++ [(4%nat, b); (3%nat, a)]) with (((o ++ [(4%nat, b)]) ++ []) ++ [(3%nat, a)])
    by now rewrite app_nil_r, <- app_assoc.
  apply eats_seq; [apply digits_eats; auto; cbn; unfold is_digit; lia|].
  apply eats_seq; [apply eats_lit|].
  apply eats_seq.
  - apply digits_eats; auto. destruct m as [t|]; [cbn; unfold is_digit; lia|exact Hu1].
  - subst o. destruct m as [t|].
    + apply eats_opt. change [(5%nat, t)] with ([(5%nat, t)] ++ @nil (nat * str)).
      destruct (Hm t eq_refl) as (Ht & Ht' & _).
      apply eats_seq; [apply eats_lit|now apply digits_eats].
    + apply eats_opt_no, fails_seq, fails_lit, Hu2.
Qed.

Lemma good_row_val vo to r : good_row vo to r -> vo (value r).
Proof. now intros (_ & _ & _ & _ & _ & _ & H & _). Qed.

Lemma not_starting_version p a b m u : number_value a -> (forall c, is_digit c -> ~ p c) ->
  not_starting p (version_text a b m ++ u).
Proof.
  intros (Ha & Hf & _) Hp. unfold version_text. rewrite <- app_assoc. eapply not_starting_forall; eauto.
Qed.

Lemma version_no_newline t : version_value t -> no_newline t.
Proof.
  intros (a & b & m & -> & (_ & Ha & _) & (_ & Hb & _) & Hm). unfold version_text.
  assert (forall s, Forall is_digit s -> no_newline s) as K.
  { intros s Hs. apply (no_newline_forall is_digit s Hs). unfold is_digit. lia. }
  repeat apply no_newline_app; auto; [unfold no_newline; cbn; lia|].
  destruct m as [t|]; [|now intros []]. apply no_newline_app; [unfold no_newline; cbn; lia|].
  apply K. now apply Hm.
Qed.

(** A version is read in only one way. *)
Lemma split_at (p : N -> Prop) s : forall t s' t', Forall p s -> Forall p t ->
  not_starting p s' -> not_starting p t' -> s ++ s' = t ++ t' -> s = t /\ s' = t'.
Proof.
  induction s as [|c s IH]; intros t s' t' Hs Ht Hs' Ht' E.
  - destruct t as [|d t]; [auto|]. cbn in E. subst s'. inversion Ht; subst. now cbn in Hs'.
  - inversion Hs; subst. destruct t as [|d t].
    + cbn in E. subst t'. now cbn in Ht'.
    + cbn in E. injection E as -> E. inversion Ht; subst. destruct (IH t s' t') as [-> ->]; auto.
Qed.

Lemma version_unique a b m a' b' m' :
  Forall is_digit a -> Forall is_digit b -> (forall t, m = Some t -> Forall is_digit t) ->
  Forall is_digit a' -> Forall is_digit b' -> (forall t, m' = Some t -> Forall is_digit t) ->
  version_text a b m = version_text a' b' m' -> a = a' /\ b = b' /\ m = m'.
Proof.
  intros Ha Hb Hm Ha' Hb' Hm' E. unfold version_text in E.
  apply (split_at is_digit) in E as [-> E]; auto; try (cbn; unfold is_digit; lia).
  cbn in E. injection E as E.
  assert (forall m : option str, not_starting is_digit (match m with None => [] | Some t => [0x2E] ++ t end)) as K.
  { intros [t|]; cbn; unfold is_digit; [lia|exact I]. }
  apply (split_at is_digit) in E as [-> E]; auto; try apply K.
  split; [reflexivity|]. split; [reflexivity|].
  destruct m, m'; try discriminate; [|reflexivity]. injection E as ->. reflexivity.
Qed.

Fixpoint cut (acc : str) (s : str) : list str :=
  match s with [] => [acc] | c :: s' => if c =? 0x2E then acc :: cut [] s' else cut (acc ++ [c]) s' end.

(** The numbers of a version, cut at the dots. *)
Definition age_of (t : str) : N * N * N :=
  match map dec_number (cut [] t) with
  | [x; y] => (x, y, 0)
  | [x; y; z] => (x, y, z)
  | _ => (0, 0, 0)
  end.

Lemma cut_digits s : forall acc t, Forall is_digit s -> cut acc (s ++ t) = cut (acc ++ s) t.
Proof.
  induction s as [|c s IH]; intros acc t H; [now rewrite app_nil_r|]. inversion H as [|? ? Hc Hs]; subst.
  unfold is_digit in Hc. cbn [app cut]. replace (c =? 0x2E) with false by lia.
  rewrite IH by assumption. now rewrite <- app_assoc.
Qed.

Lemma age_of_version a b m : Forall is_digit a -> Forall is_digit b -> (forall t, m = Some t -> Forall is_digit t) ->
  age_of (version_text a b m) = (dec_number a, dec_number b, match m with None => 0 | Some t => dec_number t end).
Proof.
  intros Ha Hb Hm. unfold age_of, version_text. rewrite cut_digits by exact Ha. cbn [app cut].
  change (0x2E =? 0x2E) with true. cbv iota. rewrite cut_digits by exact Hb. destruct m as [t|].
  - cbn [app cut]. change (0x2E =? 0x2E) with true. cbv iota.
    rewrite <- (app_nil_r t) at 1. rewrite cut_digits by now apply Hm. reflexivity.
  - reflexivity.
Qed.

Lemma age_row_reads r : good_row version_value after_version r ->
  exists a b m, value r = version_text a b m /\ number_value a /\ number_value b /\
    (forall t, m = Some t -> number_value t) /\
    reads (Seq (Cap 1 hex46) (Seq (Opt (Seq dot (Seq dot (Cap 2 hex46))))
            (Seq blanks (Seq semicolon (Seq blanks VERSION)))))
      (row_text r) (Some (version_caps a b m ++ range_caps (lo r) (hi r))).
Proof.
  intros H. pose proof H as (Hl & Hh & Hp & Hpn & Hp' & Hpn' & (a & b & m & E & Ha & Hb & Hm) & Ht & Hn).
  exists a, b, m. split; [exact E|]. split; [exact Ha|]. split; [exact Hb|]. split; [exact Hm|]. split.
  - eapply row_no_newline; [exact H|]. apply version_no_newline. exists a, b, m. auto.
  - exists (row_head r), (tail r). split; [apply row_text_head|]. split; [now apply row_head_ne|]. intros u.
    apply blank_row_eats; auto.
    + rewrite E. apply not_starting_version; [exact Ha|]. unfold is_digit, is_blank. lia.
    + rewrite E. apply version_eats; auto. apply not_starting_tail; [exact Ht|]. unfold is_digit. lia.
Qed.

(** The groups of a row, computed from its text. *)
Definition age_caps (r : row) : list (nat * str) :=
  match cut [] (value r) with
  | [a; b] => version_caps a b None
  | [a; b; m] => version_caps a b (Some m)
  | _ => []
  end ++ range_caps (lo r) (hi r).

Lemma cut_version a b m : Forall is_digit a -> Forall is_digit b -> (forall t, m = Some t -> Forall is_digit t) ->
  cut [] (version_text a b m) = a :: b :: match m with None => [] | Some t => [t] end.
Proof.
  intros Ha Hb Hm. unfold version_text. rewrite cut_digits by exact Ha. cbn [app cut].
  change (0x2E =? 0x2E) with true. cbv iota. rewrite cut_digits by exact Hb. destruct m as [t|].
  - cbn [app cut]. change (0x2E =? 0x2E) with true. cbv iota.
    rewrite <- (app_nil_r t) at 1. rewrite cut_digits by now apply Hm. reflexivity.
  - reflexivity.
Qed.

Lemma age_caps_eq r a b m : value r = version_text a b m ->
  Forall is_digit a -> Forall is_digit b -> (forall t, m = Some t -> Forall is_digit t) ->
  age_caps r = version_caps a b m ++ range_caps (lo r) (hi r).
Proof. intros E Ha Hb Hm. unfold age_caps. rewrite E, cut_version by assumption. destruct m; reflexivity. Qed.

Lemma age_file f : good_file version_value after_version f ->
  age_from_str (file_text f) =
  Ret (fold_left (fun m r => insert_points (low r) (high r) (age_of (value r)) m) (rows f) []).
Proof.
  intros H. unfold age_from_str, AGE_REGEX.
  rewrite (file_captures _ (good_row version_value after_version) age_caps f).
  - eapply ofold_map; [|apply rows_good; exact H].
    intros mp r G. pose proof G as (Hl & Hh & _).
    destruct (age_row_reads r G) as (a & b & m & E & Ha & Hb & Hm & _).
    rewrite (age_caps_eq r a b m E) by (try apply Ha; try apply Hb; intros t Ht; now apply Hm).
    rewrite E, age_of_version; try apply Ha; try apply Hb; try (intros t Ht; now apply Hm).
    assert (index 1 (version_caps a b m ++ range_caps (lo r) (hi r)) = Ret (lo r)) as I1
      by (destruct m, (hi r); reflexivity).
    assert (get 2 (version_caps a b m ++ range_caps (lo r) (hi r)) = hi r) as I2
      by (destruct m, (hi r); reflexivity).
    assert (index 3 (version_caps a b m ++ range_caps (lo r) (hi r)) = Ret a) as I3
      by (destruct m, (hi r); reflexivity).
    assert (index 4 (version_caps a b m ++ range_caps (lo r) (hi r)) = Ret b) as I4
      by (destruct m, (hi r); reflexivity).
    assert (get 5 (version_caps a b m ++ range_caps (lo r) (hi r)) = m) as I5
      by (destruct m, (hi r); reflexivity).
    unfold age_step. rewrite I1, I2, I3, I4, I5. cbn [obind]. rewrite hex_code_point by exact Hl. cbn [obind].
    fold (low r). rewrite end_or_ok by exact Hh. cbn [obind].
    destruct Ha as (Ha1 & Ha2 & Ha3), Hb as (Hb1 & Hb2 & Hb3).
    rewrite parse_dec_number by (auto; lia). cbn [obind unwrap].
    rewrite parse_dec_number by (auto; lia). cbn [obind unwrap].
    destruct m as [t|]; [|reflexivity]. destruct (Hm t eq_refl) as (Ht1 & Ht2 & Ht3).
    rewrite parse_dec_number by (auto; lia). reflexivity.
  - apply starts_fails. exact I.
  - intros t Ht. now apply starts_fails.
  - intros r G. destruct (age_row_reads r G) as (a & b & m & E & Ha & Hb & Hm & R).
    rewrite (age_caps_eq r a b m E) by (try apply Ha; try apply Hb; intros t Ht; now apply Hm). exact R.
  - exact H.
Qed.

Lemma last_row_in f c r : last_row f c = Some r -> In r (rows f).
Proof. unfold last_row. intros H. apply find_some in H as [H _]. now apply in_rev. Qed.

Lemma emit_age_ok f : good_file version_value after_version f ->
  exists t, emit_age_values (file_text f) = Ret t /\ wf_table t /\
    forall c, scalar c ->
      exists o, find t c = Ret o /\
        match last_row f c with
        | None => o = None
        | Some r => exists v, o = Some v /\ is_version (value r) v
        end.
Proof.
  intros H. unfold emit_age_values. rewrite age_file by exact H. cbn [obind].
  destruct (rows_map_ok (fun r => age_of (value r)) (rows f)) as [Hs Hi].
  destruct (range_table_answers age_eqb age_eqb_spec _ (pick (fun r => age_of (value r)) (rows f)) Hs Hi)
    as (l & E & Hw & Hl).
  exists (Range l). split; [exact E|]. split; [exact Hw|]. intros c Hc.
  exists (option_map (fun r => age_of (value r)) (last_row f c)). split; [now apply Hl|].
  destruct (last_row f c) as [r|] eqn:El; [|reflexivity].
  eexists. split; [reflexivity|].
  apply last_row_in in El. pose proof (rows_good _ _ H) as G. rewrite Forall_forall in G. specialize (G r El).
  apply good_row_val in G as (a & b & m & -> & Ha & Hb & Hm).
  exists a, b, m. split; [reflexivity|].
  assert (Forall is_digit a) by apply Ha. assert (Forall is_digit b) by apply Hb.
  assert (forall t, m = Some t -> Forall is_digit t) by (intros t Ht; now apply Hm).
  repeat (split; [assumption|]). now apply age_of_version.
Qed.

(** ** Blocks.txt *)
Definition BLOCKS_REST : re :=
  Seq (Cap 1 hex46) (Seq dot (Seq dot (Seq (Cap 2 hex46)
    (Seq blanks (Seq semicolon (Seq blanks (Cap 3 (Star dot)))))))).

Lemma block_reads r : block_row r -> reads BLOCKS_REST (row_text r) (Some (row_caps r)).
Proof.
  intros (Hl & (h & Eh & Hh) & Hp & Hp' & Hv & Hv' & Ht). split.
  - unfold row_text. rewrite Eh, Ht.
    repeat apply no_newline_app; auto using blank_no_newline;
      try (apply hex_no_newline; apply Hl || apply Hh); unfold no_newline; cbn; lia.
  - exists (row_head r), (tail r). split; [apply row_text_head|]. split; [now apply row_head_ne|].
    intros u. rewrite Ht. cbn [app].
    unfold row_head, range_text, row_caps, range_caps, BLOCKS_REST. rewrite Eh.
    assert (not_starting is_hex (pad r ++ [0x3B] ++ pad' r ++ value r ++ 10 :: u)) as Hns.
    { destruct (pad r) as [|c p]; cbn.
      - intros K. now apply K.
      - inversion Hp; subst. now apply blank_not_hex. }
    rewrite <- !app_assoc. cbn [app].
    change ((3%nat, value r) :: [(2%nat, h); (1%nat, lo r)]) with
      ((((([(3%nat, value r)] ++ []) ++ [] ++ []) ++ [(2%nat, h)]) ++ []) ++ [] ++ [(1%nat, lo r)]).
    apply eats_seq.
    { apply eats_cap, hex46_eats; [exact Hl|]. cbn. intros K. now apply K. }
    change (0x2E :: 0x2E :: h ++ pad r ++ 0x3B :: pad' r ++ value r)
      with ([0x2E] ++ [0x2E] ++ h ++ pad r ++ [0x3B] ++ pad' r ++ value r).
    apply eats_seq; [now apply eats_cls|].
    apply (eats_seq _ _ _ _ _ [] ((([(3%nat, value r)] ++ []) ++ [] ++ []) ++ [(2%nat, h)])); [now apply eats_cls|].
    apply eats_seq.
    { apply eats_cap, hex46_eats; [exact Hh|]. rewrite <- !app_assoc. exact Hns. }
    apply (eats_seq _ _ _ _ _ [] ([(3%nat, value r)] ++ [])).
    { apply eats_star; [eapply Forall_iff; [|exact Hp]; intros; now rewrite blank_iff|]. cbn. discriminate. }
    apply eats_seq; [apply eats_lit|].
    apply (eats_seq _ _ _ _ _ [] [(3%nat, value r)]).
    { apply eats_star; [eapply Forall_iff; [|exact Hp']; intros; now rewrite blank_iff|].
      apply not_starting_tail; [|discriminate]. revert Hv'. apply not_starting_iff. intros. now rewrite blank_iff. }
    apply eats_cap, eats_star.
    + apply Forall_forall. intros c Hc. unfold no_newline in Hv. destruct (N.eq_dec c 10) as [->|]; [tauto|lia].
    + cbn. discriminate.
Qed.

Lemma blocks_file f : block_file f ->
  blocks_from_str (file_text f) =
  Ret (fold_left (fun m r => insert_points (low r) (high r) (value r) m) (rows f) []).
Proof.
  intros H. unfold blocks_from_str. change BLOCKS_REGEX with (Seq Bol BLOCKS_REST).
  erewrite file_captures; [|apply starts_fails; exact I| | |exact H].
  - eapply ofold_map; [|apply rows_good; exact H].
    intros m r (Hl & (h & Eh & Hh) & _). unfold blocks_step.
    rewrite row_caps_1, row_caps_3. cbn [obind]. rewrite hex_code_point by exact Hl. cbn [obind].
    unfold index. rewrite row_caps_2, Eh. cbn [obind]. rewrite hex_code_point by exact Hh. cbn [obind].
    unfold high. now rewrite Eh.
  - intros t Ht. now apply starts_fails.
  - intros r. apply block_reads.
Qed.

Lemma emit_blocks_ok f : block_file f ->
  exists t, emit_blocks (file_text f) = Ret t /\ wf_table t /\
    forall c, scalar c -> find t c = Ret (option_map value (last_row f c)).
Proof.
  intros H. unfold emit_blocks. rewrite blocks_file by exact H. cbn [obind].
  destruct (rows_map_ok value (rows f)) as [Hs Hi].
  destruct (range_table_answers str_eqb str_eqb_spec _ (pick value (rows f)) Hs Hi) as (l & E & Hw & Hl).
  exists (Range l). auto.
Qed.

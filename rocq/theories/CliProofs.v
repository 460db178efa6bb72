(** Proofs about the command-line writers and parsers. *)
From Coq Require Import List NArith ZArith Lia Bool ZifyBool ZifyNat ZifyN.
From Verif Require Import Base TextModel TextProofs CliModel CliSpec.
Import ListNotations.
Open Scope N_scope.
Ltac Zify.zify_post_hook ::= Z.div_mod_to_equations.

Lemma split_token keep sep t : Forall (fun c => sep c = false) t -> forall cur s,
  split_loop keep sep cur (t ++ s) = split_loop keep sep (rev t ++ cur) s.
Proof.
  induction 1 as [|c t Hc _ IH]; intros cur s; [reflexivity|].
  cbn [app split_loop]. rewrite Hc, IH. cbn [rev]. rewrite <- app_assoc. reflexivity.
Qed.

Lemma split_join keep sep toks : sep 0x20 = true ->
  Forall (fun t => t <> [] /\ Forall (fun c => sep c = false) t) toks -> toks <> [] ->
  regex_split keep sep (write_join_with_space (fun t => t) toks) = toks.
Proof.
  intros Hs Ht Hne. unfold regex_split, write_join_with_space.
  destruct toks as [|t toks]; [contradiction|clear Hne].
  cbn [join_loop app]. revert t Ht.
  induction toks as [|u toks IH]; intros t Ht.
  - inversion Ht as [|? ? [Hn Hf] _]; subst. cbn [join_loop]. rewrite split_token by exact Hf.
    rewrite app_nil_r. cbn [split_loop].
    destruct (rev t) as [|a l] eqn:E.
    + apply (f_equal (@rev N)) in E. rewrite rev_involutive in E. contradiction.
    + rewrite <- E, rev_involutive. reflexivity.
  - inversion Ht as [|? ? [Hn Hf] Ht']; subst. cbn [join_loop]. rewrite split_token by exact Hf.
    rewrite app_nil_r. cbn [app split_loop]. rewrite Hs, rev_involutive. f_equal.
    apply IH, Ht'.
Qed.

Lemma join_map {A} (f : A -> str) l : write_join_with_space f l = write_join_with_space (fun t => t) (map f l).
Proof.
  unfold write_join_with_space. generalize true.
  induction l as [|x l IH]; intros b; [reflexivity|]. cbn [map join_loop]. rewrite IH. reflexivity.
Qed.

Lemma join_loop_app {A} (f : A -> str) l m : l <> [] -> forall b,
  join_loop f b (l ++ m) = join_loop f b l ++ join_loop f false m.
Proof.
  intros Hne. induction l as [|x l IH]; intros b; [contradiction|].
  destruct l as [|y l].
  - cbn [app join_loop]. rewrite app_nil_r, <- !app_assoc. reflexivity.
  - specialize (IH ltac:(discriminate) false).
    change ((x :: y :: l) ++ m) with (x :: ((y :: l) ++ m)).
    cbn [join_loop] in IH |- *. rewrite IH. rewrite <- !app_assoc. reflexivity.
Qed.

Lemma join_loop_first {A} (f : A -> str) l b : l <> [] ->
  join_loop f b l = (if b then [] else [0x20]) ++ join_loop f true l.
Proof. destruct l as [|x l]; [contradiction|intros _]. reflexivity. Qed.

Lemma join_flat {A B} (f : B -> str) (g : A -> list B) l : Forall (fun x => g x <> []) l ->
  write_join_with_space (fun x => write_join_with_space f (g x)) l = write_join_with_space f (flat_map g l).
Proof.
  intros H. unfold write_join_with_space.
  assert (G : forall b, join_loop (fun x => join_loop f true (g x)) b l = join_loop f b (flat_map g l)); [|apply G].
  induction H as [|x l Hx H IH]; intros b; [reflexivity|].
  cbn [join_loop flat_map].
  rewrite join_loop_app by exact Hx. rewrite <- (IH false).
  rewrite (join_loop_first f (g x) b Hx), <- app_assoc. reflexivity.
Qed.

Lemma map_or_panic_map {A B} (f : str -> option A) (tok : B -> str) (v : B -> A) l :
  Forall (fun x => f (tok x) = Some (v x)) l -> map_or_panic f (map tok l) = Ret (map v l).
Proof.
  induction 1 as [|x l Hx _ IH]; [reflexivity|]. cbn [map map_or_panic]. rewrite Hx, IH. reflexivity.
Qed.

Section word.
Variable word : N -> bool.
Hypothesis law : ascii_word_law word.

Lemma word_hex c : upper_hex_char c = true -> word c = true.
Proof. intros H. unfold upper_hex_char in H. apply law; [lia|]. lia. Qed.

Lemma fmt_upper_w_chars w n : n <= 0xFFFFFFFF -> Forall (fun c => upper_hex_char c = true) (fmt_upper_hex_w w n).
Proof.
  intros H. destruct (fmt_upper_w_digits w n H) as (ds & -> & Hf & _).
  rewrite Forall_map. eapply Forall_impl; [|exact Hf]. intros d Hd. apply upper_hex_digit_char, Hd.
Qed.

Lemma space_not_word : word 0x20 = false.
Proof. destruct (word 0x20) eqn:E; [|reflexivity]. apply law in E; lia. Qed.

Lemma codepoint_token c : scalar c ->
  write_char_as_codepoint c <> [] /\
  Forall (fun x => codepoint_separator word x = false) (write_char_as_codepoint c).
Proof.
  intros Hc. split; [discriminate|].
  assert (c <= 0x10FFFF) by (unfold scalar in Hc; lia).
  unfold write_char_as_codepoint. cbn [app].
  constructor; [|constructor].
  - unfold codepoint_separator. replace (word 0x55) with true; [reflexivity|]. symmetry. apply law; lia.
  - unfold codepoint_separator. rewrite orb_true_r. reflexivity.
  - eapply Forall_impl; [|apply fmt_upper_w_chars; lia]. cbv beta. intros a Ha.
    unfold codepoint_separator. rewrite (word_hex a Ha). reflexivity.
Qed.

Lemma hex_token w n : n <= 0xFFFFFFFF ->
  [0x30; 0x78] ++ fmt_upper_hex_w w n <> [] /\
  Forall (fun x => hex_separator word x = false) ([0x30; 0x78] ++ fmt_upper_hex_w w n).
Proof.
  intros Hn. split; [discriminate|]. cbn [app].
  constructor; [|constructor].
  - unfold hex_separator. replace (word 0x30) with true; [reflexivity|]. symmetry. apply law; lia.
  - unfold hex_separator. replace (word 0x78) with true; [reflexivity|]. symmetry. apply law; lia.
  - eapply Forall_impl; [|apply fmt_upper_w_chars; exact Hn]. cbv beta. intros a Ha.
    unfold hex_separator. rewrite (word_hex a Ha). reflexivity.
Qed.

Lemma split_empty keep sep : regex_split keep sep [] = if keep then [[]] else [].
Proof. reflexivity. Qed.

Lemma codepoints_tokens keep s : Forall scalar s -> s <> [] \/ keep = false ->
  regex_split keep (codepoint_separator word) (write_as_codepoints s) = map write_char_as_codepoint s.
Proof.
  intros Hs Hne. destruct s as [|c s].
  - destruct Hne as [Hne| ->]; [contradiction|reflexivity].
  - unfold write_as_codepoints. rewrite join_map. apply split_join.
    + unfold codepoint_separator. rewrite space_not_word. reflexivity.
    + apply Forall_map. eapply Forall_impl; [|exact Hs]. intros a Ha. apply codepoint_token, Ha.
    + discriminate.
Qed.

Lemma hex_tokens keep w ns : Forall (fun n => n <= 0xFFFFFFFF) ns -> ns <> [] \/ keep = false ->
  regex_split keep (hex_separator word)
    (write_join_with_space (fun n => [0x30; 0x78] ++ fmt_upper_hex_w w n) ns)
  = map (fun n => [0x30; 0x78] ++ fmt_upper_hex_w w n) ns.
Proof.
  intros Hs Hne. destruct ns as [|c s].
  - destruct Hne as [Hne| ->]; [contradiction|reflexivity].
  - rewrite join_map. apply split_join.
    + unfold hex_separator. rewrite space_not_word. reflexivity.
    + apply Forall_map. eapply Forall_impl; [|exact Hs]. intros a Ha. apply hex_token, Ha.
    + discriminate.
Qed.

Theorem codepoints_round_trip keep s : Forall scalar s -> s <> [] \/ keep = false ->
  codepoints word keep (write_as_codepoints s) = Ret s.
Proof.
  intros Hs Hne. unfold codepoints. rewrite codepoints_tokens by assumption.
  rewrite (map_or_panic_map _ _ (fun c => c)); [rewrite map_id; reflexivity|].
  eapply Forall_impl; [|exact Hs]. cbv beta. intros c Hc.
  assert (c <= 0x10FFFF) by (unfold scalar in Hc; lia).
  assert (strip_codepoint_prefix (write_char_as_codepoint c) = fmt_upper_hex_w 4 c) as -> by reflexivity.
  rewrite from_str_fmt by lia.
  unfold char_from_u32. apply scalarb_spec in Hc. rewrite Hc. reflexivity.
Qed.

Lemma hex_numbers keep w max ns : Forall (fun n => n <= max) ns -> max <= 0xFFFFFFFF -> ns <> [] \/ keep = false ->
  map_or_panic (fun token => from_str_radix16 max (strip_hex_prefix token))
    (regex_split keep (hex_separator word)
       (write_join_with_space (fun n => [0x30; 0x78] ++ fmt_upper_hex_w w n) ns)) = Ret ns.
Proof.
  intros Hs Hm Hne. rewrite hex_tokens; [|eapply Forall_impl; [|exact Hs]; cbv beta; intros; lia|exact Hne].
  rewrite (map_or_panic_map _ _ (fun n => n)); [rewrite map_id; reflexivity|].
  eapply Forall_impl; [|exact Hs]. cbv beta. intros n Hn.
  assert (strip_hex_prefix ([0x30; 0x78] ++ fmt_upper_hex_w w n) = fmt_upper_hex_w w n) as -> by reflexivity.
  apply from_str_fmt; lia.
Qed.

Lemma Forall_flat_map' {A B} (P : B -> Prop) (Q : A -> Prop) (g : A -> list B) l :
  (forall x, Q x -> Forall P (g x)) -> Forall Q l -> Forall P (flat_map g l).
Proof.
  intros Hg. induction 1 as [|x l Hx _ IH]; [constructor|]. cbn [flat_map]. apply Forall_app. auto.
Qed.

Lemma flat_map_ne {A B} (g : A -> list B) l : Forall (fun x => g x <> []) l -> l <> [] -> flat_map g l <> [].
Proof.
  intros H Hne. destruct H as [|x l Hx H]; [contradiction|].
  cbn [flat_map]. intros E. apply app_eq_nil in E. tauto.
Qed.

Theorem utf8_hex_round_trip keep s : Forall scalar s -> s <> [] \/ keep = false ->
  utf8_hex word keep (write_as_utf8_hex s) = Ret s.
Proof.
  intros Hs Hne. unfold utf8_hex, write_as_utf8_hex, write_char_as_utf8_hex.
  assert (Hg : Forall (fun x => encode_utf8 x <> []) s).
  { eapply Forall_impl; [|exact Hs]. intros a Ha. apply encode_utf8_bytes, Ha. }
  rewrite (join_flat _ encode_utf8) by exact Hg.
  rewrite hex_numbers.
  - cbn [obind]. rewrite from_utf8_all by exact Hs. reflexivity.
  - eapply Forall_flat_map'; [|exact Hs]. intros x Hx. apply encode_utf8_bytes, Hx.
  - lia.
  - destruct Hne as [Hne| ->]; [left; apply flat_map_ne; assumption|right; reflexivity].
Qed.

Theorem utf16_hex_round_trip keep s : Forall scalar s -> s <> [] \/ keep = false ->
  utf16_hex word keep (write_as_utf16_hex s) = Ret s.
Proof.
  intros Hs Hne. unfold utf16_hex, write_as_utf16_hex, write_char_as_utf16_hex.
  assert (Hg : Forall (fun x => encode_utf16 x <> []) s).
  { eapply Forall_impl; [|exact Hs]. intros a Ha. apply encode_utf16_units, Ha. }
  rewrite (join_flat _ encode_utf16) by exact Hg.
  rewrite hex_numbers.
  - cbn [obind]. rewrite from_utf16_all by exact Hs. reflexivity.
  - eapply Forall_flat_map'; [|exact Hs]. intros x Hx. apply encode_utf16_units, Hx.
  - lia.
  - destruct Hne as [Hne| ->]; [left; apply flat_map_ne; assumption|right; reflexivity].
Qed.
End word.

Theorem empty_panics word :
  codepoints word true (write_as_codepoints []) = Panic /\
  utf8_hex word true (write_as_utf8_hex []) = Panic /\
  utf16_hex word true (write_as_utf16_hex []) = Panic.
Proof. repeat split. Qed.

(** * Parsers on arbitrary input: whatever they return is a valid string *)
Lemma map_or_panic_scalar (f : str -> option N) ts s : (forall t c, f t = Some c -> scalar c) ->
  map_or_panic f ts = Ret s -> Forall scalar s /\ length s = length ts.
Proof.
  intros Hf. revert s. induction ts as [|t ts IH]; intros s H; cbn [map_or_panic] in H.
  - injection H as <-. split; constructor.
  - destruct (f t) as [c|] eqn:E; [|discriminate].
    destruct (map_or_panic f ts) as [l|]; [|discriminate]. cbn [obind] in H. injection H as <-.
    destruct (IH l eq_refl) as [H1 H2]. split; [constructor; eauto|cbn; congruence].
Qed.

Lemma from_utf8_scalar bs s : from_utf8 bs = Some s -> Forall scalar s.
Proof.
  revert s. induction bs as [bs IH] using (induction_ltof1 _ (@length N)). unfold ltof in IH.
  intros s H. destruct bs as [|b0 r0]; cbn [from_utf8] in H.
  { injection H as <-. constructor. }
  assert (HS : forall c r, (length r < length (b0 :: r0))%nat -> scalar c ->
               option_map (cons c) (from_utf8 r) = Some s -> Forall scalar s).
  { intros c r Hl Hc E. destruct (from_utf8 r) as [s'|] eqn:E'; [|discriminate].
    cbn [option_map] in E. injection E as <-. constructor; [exact Hc|]. eapply IH; eassumption. }
  destruct (N.ltb_spec b0 0x80).
  { apply (HS b0 r0); [cbn; lia|unfold scalar; lia|exact H]. }
  destruct ((0xC2 <=? b0) && (b0 <=? 0xDF)) eqn:E1.
  { destruct r0 as [|b1 r1]; [discriminate|]. destruct (contb b1) eqn:C1; [|discriminate].
    refine (HS _ r1 _ _ H); [cbn; lia|]. unfold contb in C1. unfold scalar. lia. }
  destruct ((0xE0 <=? b0) && (b0 <=? 0xEF)) eqn:E2.
  { destruct r0 as [|b1 [|b2 r2]]; try discriminate. cbv zeta in H.
    match type of H with (if ?b then _ else _) = _ => destruct b eqn:C1 end; [|discriminate].
    apply andb_prop in C1. destruct C1 as [_ C1]. apply scalarb_spec in C1.
    refine (HS _ r2 _ C1 H). cbn; lia. }
  destruct ((0xF0 <=? b0) && (b0 <=? 0xF4)) eqn:E3; [|discriminate].
  destruct r0 as [|b1 [|b2 [|b3 r3]]]; try discriminate. cbv zeta in H.
  match type of H with (if ?b then _ else _) = _ => destruct b eqn:C1 end; [|discriminate].
  apply andb_prop in C1. destruct C1 as [_ C1]. apply scalarb_spec in C1.
  refine (HS _ r3 _ C1 H). cbn; lia.
Qed.

Lemma from_utf16_scalar us s : Forall (fun u => u <= 0xFFFF) us -> from_utf16 us = Some s -> Forall scalar s.
Proof.
  revert s. induction us as [us IH] using (induction_ltof1 _ (@length N)). unfold ltof in IH.
  intros s Hu H. destruct us as [|u r]; cbn [from_utf16] in H.
  { injection H as <-. constructor. }
  inversion Hu as [|? ? Hu0 Hur]; subst.
  assert (HS : forall c r', (length r' < length (u :: r))%nat -> Forall (fun u => u <= 0xFFFF) r' -> scalar c ->
               option_map (cons c) (from_utf16 r') = Some s -> Forall scalar s).
  { intros c r' Hl Hf Hc E. destruct (from_utf16 r') as [s'|] eqn:E'; [|discriminate].
    cbn [option_map] in E. injection E as <-. constructor; [exact Hc|]. eapply IH; eassumption. }
  destruct ((u <? 0xD800) || (0xDFFF <? u)) eqn:E1.
  { apply (HS u r); [cbn; lia|exact Hur|unfold scalar; lia|exact H]. }
  destruct (0xDC00 <=? u) eqn:E2; [discriminate|].
  destruct r as [|v r]; [discriminate|].
  destruct ((0xDC00 <=? v) && (v <=? 0xDFFF)) eqn:E3; [|discriminate].
  inversion Hur; subst. refine (HS _ r _ _ _ H); [cbn; lia|assumption|unfold scalar; lia].
Qed.

Lemma radix_loop_max max s : forall acc n, acc <= max -> radix_loop max acc s = Some n -> n <= max.
Proof.
  induction s as [|c s IH]; intros acc n Ha H; cbn [radix_loop] in H; [injection H as <-; exact Ha|].
  destruct (to_digit16 c); [|discriminate].
  destruct (N.leb_spec (acc * 16 + n0) max); [|discriminate]. eapply IH; eassumption.
Qed.

Lemma from_str_max max s n : from_str_radix16 max s = Some n -> n <= max.
Proof.
  unfold from_str_radix16. intros H.
  destruct s as [|c s]; [discriminate|].
  assert (X : radix_loop max 0 (c :: s) = Some n \/ radix_loop max 0 s = Some n).
  { destruct c as [|p]; [auto|]. do 6 (destruct p as [p|p|]; auto).
    destruct s; [discriminate|auto]. }
  destruct X as [X|X]; (eapply radix_loop_max; [|exact X]; lia).
Qed.

Theorem parsed_is_valid word keep x s :
  codepoints word keep x = Ret s \/ utf8_hex word keep x = Ret s \/ utf16_hex word keep x = Ret s ->
  Forall scalar s.
Proof.
  intros [H|[H|H]].
  - unfold codepoints in H. apply map_or_panic_scalar in H; [apply H|].
    intros t c. cbv beta. destruct (from_str_radix16 _ _); [|discriminate].
    unfold char_from_u32. destruct (scalarb n) eqn:E; [|discriminate]. intros [= <-]. apply scalarb_spec, E.
  - unfold utf8_hex in H. destruct (map_or_panic _ _) as [l|]; [|discriminate]. cbn [obind] in H.
    destruct (from_utf8 l) eqn:E; [|discriminate]. injection H as <-. eapply from_utf8_scalar, E.
  - unfold utf16_hex in H. destruct (map_or_panic _ _) as [l|] eqn:M; [|discriminate]. cbn [obind] in H.
    destruct (from_utf16 l) eqn:E; [|discriminate]. injection H as <-.
    refine (from_utf16_scalar l _ _ E). clear E. revert l M.
    generalize (regex_split keep (hex_separator word) x). intros ts. induction ts as [|t ts IH]; intros l M.
    + injection M as <-. constructor.
    + cbn [map_or_panic] in M. destruct (from_str_radix16 _ _) as [a|] eqn:F; [|discriminate].
      destruct (map_or_panic _ ts) as [l'|] eqn:M'; [|discriminate]. cbn [obind] in M. injection M as <-.
      constructor; [eapply from_str_max; exact F|apply IH; reflexivity].
Qed.

(** * Escaped output *)
Lemma hexval_lower d : d < 16 -> hexval (lower_hex_digit d) = Some d.
Proof. apply to_digit16_lower. Qed.

Lemma hex_number_digits ds : Forall (fun d => d < 16) ds -> ds <> [] ->
  hex_number (map lower_hex_digit ds) (value 0 ds).
Proof.
  induction ds as [|d ds IH] using rev_ind; intros Hf Hne; [contradiction|].
  apply Forall_app in Hf. destruct Hf as [Hf Hd]. inversion Hd; subst.
  rewrite map_app, value_app. cbn [map]. unfold value at 1. cbn [fold_left].
  destruct ds as [|e ds].
  - cbn [map app value fold_left]. constructor. apply hexval_lower. assumption.
  - apply hex_more; [apply IH; [exact Hf|discriminate]|apply hexval_lower; assumption].
Qed.

Lemma reads_escape_unicode c s t : c <= 0xFFFFFFFF -> reads s t -> reads (escape_unicode c ++ s) (c :: t).
Proof.
  intros Hc H. destruct (fmt_lower_digits c Hc) as (ds & E & Hcan & Hv).
  unfold escape_unicode. rewrite E, <- !app_assoc. cbn [app].
  apply (reads_unicode (map lower_hex_digit ds) c s t); [|exact H].
  rewrite <- Hv. apply hex_number_digits; [apply Hcan|apply canonical_nonempty, Hcan].
Qed.

Lemma reads_escape_default c s t : c <= 0xFFFFFFFF -> reads s t -> reads (escape_default c ++ s) (c :: t).
Proof.
  intros Hc H. unfold escape_default.
  destruct (N.eqb_spec c 0x09) as [->|]; [constructor; exact H|].
  destruct (N.eqb_spec c 0x0D) as [->|]; [constructor; exact H|].
  destruct (N.eqb_spec c 0x0A) as [->|]; [constructor; exact H|].
  destruct (N.eqb_spec c 0x27) as [->|]; [constructor; exact H|].
  destruct (N.eqb_spec c 0x22) as [->|]; [constructor; exact H|].
  destruct (N.eqb_spec c 0x5C) as [->|]; [constructor; exact H|].
  cbn [orb]. destruct ((0x20 <=? c) && (c <=? 0x7E)).
  - constructor; assumption.
  - apply reads_escape_unicode; assumption.
Qed.

Lemma reads_escape_debug literal c s t : c <= 0xFFFFFFFF -> reads s t ->
  reads (escape_debug literal c ++ s) (c :: t).
Proof.
  intros Hc H. unfold escape_debug.
  destruct (N.eqb_spec c 0) as [->|]; [constructor; exact H|].
  destruct (N.eqb_spec c 0x09) as [->|]; [constructor; exact H|].
  destruct (N.eqb_spec c 0x0D) as [->|]; [constructor; exact H|].
  destruct (N.eqb_spec c 0x0A) as [->|]; [constructor; exact H|].
  destruct (N.eqb_spec c 0x27) as [->|]; [constructor; exact H|].
  destruct (N.eqb_spec c 0x22) as [->|]; [constructor; exact H|].
  destruct (N.eqb_spec c 0x5C) as [->|]; [constructor; exact H|].
  cbn [orb]. destruct (literal c).
  - constructor; assumption.
  - apply reads_escape_unicode; assumption.
Qed.

Lemma quoted_denotes esc s : (forall c r t, scalar c -> reads r t -> reads (esc c ++ r) (c :: t)) ->
  Forall scalar s -> denotes (quoted esc s) s.
Proof.
  intros He Hs. exists (flat_map esc s). split; [reflexivity|].
  induction Hs as [|c s Hc _ IH]; [constructor|]. cbn [flat_map]. apply He; assumption.
Qed.

Lemma scalar_u32 c : scalar c -> c <= 0xFFFFFFFF.
Proof. unfold scalar. lia. Qed.

Theorem escapes_denote literal s : Forall scalar s ->
  denotes (write_with_control_n_unicode_braces_escape s) s /\
  denotes (write_with_control_braces_escape literal s) s /\
  denotes (write_with_all_braces_escape s) s.
Proof.
  intros Hs. repeat split; apply quoted_denotes; try exact Hs; intros c r t Hc H;
    apply scalar_u32 in Hc.
  - apply reads_escape_default; assumption.
  - apply reads_escape_debug; assumption.
  - apply reads_escape_unicode; assumption.
Qed.

(** The reader is deterministic, so no two texts share an escaped form. *)
Lemma hexval_not_brace c d : hexval c = Some d -> c <> 0x7D.
Proof. intros H ->. discriminate H. Qed.

Lemma hex_number_no_brace h n : hex_number h n -> Forall (fun c => c <> 0x7D) h.
Proof.
  induction 1 as [c d H|s n c d _ IH H].
  - constructor; [eapply hexval_not_brace; exact H|constructor].
  - apply Forall_app. split; [exact IH|]. constructor; [eapply hexval_not_brace; exact H|constructor].
Qed.

Lemma hex_number_nonempty h n : hex_number h n -> h <> [].
Proof. intros [c d H|s m c d _ H]; [discriminate|]. intros E. apply app_eq_nil in E. destruct E. discriminate. Qed.

Lemma hex_number_fun h n : hex_number h n -> forall m, hex_number h m -> n = m.
Proof.
  induction 1 as [c d H|s n c d H0 IH H]; intros m Hm.
  - inversion Hm as [c' d' H'|s' n' c' d' H0' H' E].
    + congruence.
    + exfalso. assert (s' = []) as ->.
      { destruct s'; [reflexivity|]. apply (f_equal (@length N)) in E. rewrite app_length in E. cbn in E. lia. }
      exact (hex_number_nonempty _ _ H0' eq_refl).
  - inversion Hm as [c' d' H' E|s' n' c' d' H0' H' E].
    + exfalso. assert (s = []) as ->.
      { destruct s; [reflexivity|]. apply (f_equal (@length N)) in E. rewrite app_length in E. cbn in E. lia. }
      exact (hex_number_nonempty _ _ H0 eq_refl).
    + apply app_inj_tail in E. destruct E as [-> ->]. rewrite (IH _ H0'). congruence.
Qed.

Lemma brace_split h : forall h' s s', Forall (fun c => c <> 0x7D) h -> Forall (fun c => c <> 0x7D) h' ->
  h ++ 0x7D :: s = h' ++ 0x7D :: s' -> h = h' /\ s = s'.
Proof.
  induction h as [|a h IH]; intros [|b h'] s s' H H' E.
  - cbn in E. split; [reflexivity|congruence].
  - cbn in E. injection E as <- E. inversion H'; subst. contradiction.
  - cbn in E. injection E as -> E. inversion H; subst. contradiction.
  - cbn in E. injection E as -> E. inversion H; inversion H'; subst.
    destruct (IH h' s s') as [-> ->]; auto.
Qed.

Lemma reads_fun s t : reads s t -> forall t', reads s t' -> t = t'.
Proof.
  induction 1 as [|c s t N1 N2 H IH|s t H IH|s t H IH|s t H IH|s t H IH|s t H IH|s t H IH|s t H IH|h n s t Hh H IH];
    intros t' H'; inversion H'; subst; try congruence;
    try (f_equal; apply IH; assumption);
    try match goal with X : hex_number ?a _, E : _ = _ |- _ => discriminate E end.
  - match goal with X : _ = ?h ++ 0x7D :: ?r |- _ => idtac end || idtac.
    assert (E : h0 ++ 0x7D :: s0 = h ++ 0x7D :: s) by (cbn in *; congruence).
    apply brace_split in E; [|eapply hex_number_no_brace; eassumption..].
    destruct E as [-> ->]. f_equal; [eapply hex_number_fun; eassumption|apply IH; assumption].
Qed.

Theorem escapes_injective s t : Forall scalar s -> Forall scalar t ->
  (write_with_control_n_unicode_braces_escape s = write_with_control_n_unicode_braces_escape t -> s = t) /\
  (forall literal, write_with_control_braces_escape literal s = write_with_control_braces_escape literal t -> s = t) /\
  (write_with_all_braces_escape s = write_with_all_braces_escape t -> s = t).
Proof.
  intros Hs Ht.
  assert (X : forall l, denotes l s -> denotes l t -> s = t).
  { intros l (b & -> & Hb) (b' & E & Hb'). cbn [app] in E. injection E as E.
    apply app_inj_tail in E. destruct E as [<- _]. eapply reads_fun; eassumption. }
  destruct (escapes_denote (fun _ => true) s Hs) as (D1 & _ & D3).
  destruct (escapes_denote (fun _ => true) t Ht) as (D1' & _ & D3').
  split; [|split].
  - intros E. rewrite <- E in D1'. exact (X _ D1 D1').
  - intros literal E. destruct (escapes_denote literal s Hs) as (_ & D2 & _).
    destruct (escapes_denote literal t Ht) as (_ & D2' & _). rewrite <- E in D2'. exact (X _ D2 D2').
  - intros E. rewrite <- E in D3'. exact (X _ D3 D3').
Qed.

(** The escaped forms of the first and third kind are pure ASCII. *)
Lemma lower_hex_ascii c : c <= 0xFFFFFFFF -> Forall (fun x => x < 128) (fmt_lower_hex c).
Proof.
  intros H. destruct (fmt_lower_digits c H) as (ds & -> & [Hf _] & _).
  apply Forall_map. eapply Forall_impl; [|exact Hf]. cbv beta. intros d Hd.
  unfold lower_hex_digit. destruct (N.ltb_spec d 10); lia.
Qed.

Lemma escape_unicode_ascii c : c <= 0xFFFFFFFF -> Forall (fun x => x < 128) (escape_unicode c).
Proof.
  intros H. unfold escape_unicode. cbn [app]. repeat (constructor; [lia|]).
  apply Forall_app. split; [apply lower_hex_ascii, H|]. repeat constructor; lia.
Qed.

Lemma escape_default_ascii c : c <= 0xFFFFFFFF -> Forall (fun x => x < 128) (escape_default c).
Proof.
  intros H. unfold escape_default.
  repeat match goal with |- context [if ?b then _ else _] => destruct b eqn:? end;
    try (apply escape_unicode_ascii; exact H); repeat (constructor; [lia|]); constructor.
Qed.

Theorem escapes_ascii s : Forall scalar s ->
  Forall (fun x => x < 128) (write_with_control_n_unicode_braces_escape s) /\
  Forall (fun x => x < 128) (write_with_all_braces_escape s).
Proof.
  intros Hs. unfold write_with_control_n_unicode_braces_escape, write_with_all_braces_escape, quoted.
  split; (apply Forall_app; split; [repeat constructor|]; apply Forall_app; split; [|repeat constructor]);
    (eapply Forall_flat_map'; [|exact Hs]); intros c Hc; apply scalar_u32 in Hc.
  - apply escape_default_ascii, Hc.
  - apply escape_unicode_ascii, Hc.
Qed.

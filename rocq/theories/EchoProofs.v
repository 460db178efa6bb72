(** Proofs about [unic-echo]. *)
From Coq Require Import String Ascii List NArith PeanoNat Bool Lia ZifyBool ZifyNat ZifyN.
From Verif Require Import Base TextModel TextProofs CliModel CliSpec CliProofs NameParseModel NameParseSpec NameParseProofs
  EchoModel EchoSpec.
Import ListNotations.
Open Scope list_scope.
Open Scope N_scope.

(** * Options *)
Lemma spelled_iff s : forall n, spelled s n <-> same_ci (without_hyphens s) n.
Proof.
  induction s as [|a s IH]; intros n; cbn [without_hyphens filter].
  - split; [intros H; inversion H; constructor|intros H; inversion H; constructor].
  - fold (without_hyphens s). destruct (N.eqb_spec a 0x2D) as [->|Ha]; cbn [negb].
    + rewrite <- IH. split; [intros H; inversion H; subst; [assumption|contradiction]|apply spelled_hyphen].
    + split.
      * intros H; inversion H; subst; [contradiction|]. constructor; [assumption|]. now apply IH.
      * intros H; inversion H; subst. apply spelled_letter; [assumption..|]. now apply IH.
Qed.

Definition lower (s : str) := map to_ascii_lowercase s.
Lemma eq_ci_lower s t : eq_ignore_ascii_case s t = str_eqb (lower s) (lower t).
Proof. revert t. induction s as [|a s IH]; intros [|b t]; cbn; try reflexivity. now rewrite IH. Qed.
Lemma arg_lower {A} (vs : list (string * A)) s :
  arg_enum vs s = match List.find (fun e => str_eqb (lower (without_hyphens s)) (lower (ident (fst e)))) vs with
                  | Some e => Some (snd e) | None => None end.
Proof.
  induction vs as [|[v a] vs IH]; [reflexivity|]. cbn [arg_enum List.find fst snd]. rewrite <- eq_ci_lower.
  destruct (eq_ignore_ascii_case _ _); [reflexivity|exact IH].
Qed.
Lemma lower_ci s t : same_ci s t <-> lower s = lower t.
Proof. rewrite <- eq_ci_iff, eq_ci_lower. apply str_eqb_eq. Qed.

Definition in_manner (f : InputFormat) : manner :=
  match f with I_Plain => AsText | I_Codepoint | I_Codepoints => AsCodes | I_Utf8Hex => AsBytes | I_Utf16Hex => AsWords end.
Definition out_manner (f : OutputFormat) : manner :=
  match f with
  | O_Plain => AsText | O_Codepoint | O_Codepoints => AsCodes | O_Utf8Hex => AsBytes | O_Utf16Hex => AsWords
  | O_BracesEscape | O_Js6Escape | O_RustEscape => AsAsciiLiteral
  | O_BracesEscapeAll | O_Js6EscapeAll | O_RustEscapeAll => AsEscapes
  | O_BracesEscapeControl | O_Js6EscapeControl | O_RustEscapeControl => AsLiteral
  end.

Lemma arg_enum_iff {A} (vs : list (string * A)) (mn : A -> manner) (ms : list (string * manner)) :
  map (fun e => (lower (ident (fst e)), mn (snd e))) vs = map (fun e => (lower (ident (fst e)), snd e)) ms ->
  NoDup (map (fun e => lower (ident (fst e))) vs) ->
  forall s m, (exists a, arg_enum vs s = Some a /\ mn a = m) <-> (exists name, In (name, m) ms /\ spelled s (ident name)).
Proof.
  intros E ND s m. rewrite arg_lower.
  transitivity (In (lower (without_hyphens s), m) (map (fun e => (lower (ident (fst e)), mn (snd e))) vs)).
  - clear E ms. induction vs as [|[v a] vs IH]; cbn [List.find map fst snd].
    + split; [intros (a & H & _); discriminate|intros []].
    + cbn [map fst] in ND. apply NoDup_cons_iff in ND as [N1 N2]. specialize (IH N2).
      destruct (str_eqb (lower (without_hyphens s)) (lower (ident v))) eqn:Q.
      * apply str_eqb_eq in Q. cbn [snd]. split.
        -- intros (b & [= <-] & <-). left. now rewrite Q.
        -- intros [H|H]; [injection H as _ <-; eauto|].
           exfalso. apply N1. rewrite <- Q. apply in_map_iff in H as (e & H & Hin). injection H as H _.
           rewrite <- H. now apply (in_map (fun e => lower (ident (fst e)))) in Hin.
      * rewrite IH. split; [now right|]. intros [H|H]; [|assumption]. injection H as H _.
        rewrite <- H in Q. rewrite (proj2 (str_eqb_eq _ _) eq_refl) in Q. discriminate.
  - rewrite E. rewrite in_map_iff. split.
    + intros ([n m'] & H & Hin). injection H as H1 H2. cbn [fst snd] in *. subst m'. exists n. split; [assumption|].
      apply spelled_iff, lower_ci. now symmetry.
    + intros (n & Hin & H). apply spelled_iff, lower_ci in H. exists (n, m). cbn [fst snd]. now rewrite H.
Qed.

Lemma input_format_iff arg m :
  (exists f, format_arg input_variants I_Plain arg = Some f /\ in_manner f = m) <-> asks ident input_manners arg m.
Proof.
  destruct arg as [s|]; cbn [format_arg asks].
  - apply arg_enum_iff; [vm_compute; reflexivity|]. vm_compute. repeat constructor; cbn; intuition discriminate.
  - split; [intros (f & [= <-] & <-); reflexivity|intros ->; now exists I_Plain].
Qed.
Lemma output_format_iff arg m :
  (exists f, format_arg output_variants O_Plain arg = Some f /\ out_manner f = m) <-> asks ident output_manners arg m.
Proof.
  destruct arg as [s|]; cbn [format_arg asks].
  - apply arg_enum_iff; [vm_compute; reflexivity|]. vm_compute. repeat constructor; cbn; intuition discriminate.
  - split; [intros (f & [= <-] & <-); reflexivity|intros ->; now exists O_Plain].
Qed.

Lemma asks_fun ms (ND : NoDup (map (fun e => lower (ident (fst e))) ms)) arg m m' :
  asks ident ms arg m -> asks ident ms arg m' -> m = m'.
Proof.
  destruct arg as [s|]; cbn [asks]; [|congruence].
  intros (n & H & P) (n' & H' & P'). apply spelled_iff, lower_ci in P. apply spelled_iff, lower_ci in P'.
  rewrite P in P'. clear P s. induction ms as [|[k v] ms IH]; [contradiction|].
  cbn [map fst] in ND. apply NoDup_cons_iff in ND as [N1 N2].
  destruct H as [H|H], H' as [H'|H'].
  - congruence.
  - injection H as -> ->. exfalso. apply N1. rewrite P'. now apply (in_map (fun e => lower (ident (fst e)))) in H'.
  - injection H' as -> ->. exfalso. apply N1. rewrite <- P'. now apply (in_map (fun e => lower (ident (fst e)))) in H.
  - now apply IH.
Qed.

(** * The text given *)
Lemma given_join l t : given l t <-> join_space l = t.
Proof.
  unfold given. split.
  - induction 1 as [|a o ->|a o b vs out -> _ IH]; [reflexivity..|]. cbn [join_space] in *. now rewrite IH.
  - intros <-. induction l as [|a l IH]; [constructor|]. destruct l as [|b l]; [now constructor|].
    cbn [join_space] in *. now constructor.
Qed.

(** * Writing *)
Lemma join_spaced {A} (f : A -> str) (shown : A -> str -> Prop) l : Forall (fun a => shown a (f a)) l ->
  spaced shown l (write_join_with_space f l).
Proof.
  unfold write_join_with_space. induction 1 as [|a l Ha Hl IH]; [constructor|]. destruct l as [|b l].
  - cbn [join_loop]. cbn [app]. rewrite app_nil_r. now constructor.
  - cbn [join_loop app] in *. now constructor.
Qed.

Lemma hex_number_upper ds : Forall (fun d => d < 16) ds -> ds <> [] -> hex_number (map upper_hex_digit ds) (value 0 ds).
Proof.
  induction ds as [|d ds IH] using rev_ind; intros Hf Hne; [contradiction|].
  apply Forall_app in Hf. destruct Hf as [Hf Hd]. inversion Hd; subst.
  assert (hexval (upper_hex_digit d) = Some d) by now apply to_digit16_upper.
  rewrite map_app, value_app. cbn [map]. unfold value at 1. cbn [fold_left].
  destruct ds as [|e ds].
  - cbn [map app]. now apply hex_one.
  - apply hex_more; [apply IH; [assumption|discriminate]|assumption].
Qed.

Lemma padded_fmt w n : n <= 0xFFFFFFFF -> (0 < w)%nat -> padded w (fmt_upper_hex_w w n) n.
Proof.
  intros H Hw. destruct (fmt_upper_w_digits w n H) as (ds & -> & Hf & Hv & Hne & Hl & Hc).
  unfold padded. rewrite map_length. split; [rewrite <- Hv; now apply hex_number_upper|]. split; [exact Hl|].
  intros L. specialize (Hc L). destruct (canonical_length ds Hc) as [Y _]; [|rewrite <- Hv; lia].
  intros Z. destruct Hc as [_ [->|(d & r & -> & Hd)]]; [cbn [List.length] in L; lia|].
  change (d :: r) with ([d] ++ r) in Z. rewrite value_app in Z.
  assert (Q : forall l a, a <= value a l).
  { clear. induction l as [|x l IH]; intros a; [unfold value; cbn; lia|].
    change (value a (x :: l)) with (value (a * 16 + x) l). specialize (IH (a * 16 + x)). lia. }
  specialize (Q r (value 0 [d])). unfold value at 1 in Q. cbn [fold_left] in Q. lia.
Qed.

Lemma unit_fmt w n : n <= 0xFFFFFFFF -> (0 < w)%nat -> n < 16 ^ N.of_nat w ->
  unit_shown w n ([0x30; 0x78] ++ fmt_upper_hex_w w n).
Proof.
  intros H Hw Hn. destruct (padded_fmt w n H Hw) as (A & B & C). exists (fmt_upper_hex_w w n).
  split; [reflexivity|]. split; [exact A|].
  destruct (Nat.lt_ge_cases w (List.length (fmt_upper_hex_w w n))) as [L|L]; [|lia]. specialize (C L).
  exfalso. assert (16 ^ N.of_nat w <= 16 ^ N.of_nat (List.length (fmt_upper_hex_w w n) - 1)); [|lia].
  apply N.pow_le_mono_r; lia.
Qed.

Lemma utf8_form_encode c : scalar c -> utf8_form c (encode_utf8 c).
Proof.
  intros Hc. assert (c <= 0x10FFFF) by (unfold scalar in Hc; lia). clear Hc. unfold encode_utf8.
  destruct (N.ltb_spec c 0x80); [now constructor|].
  pose proof (N.div_mod c 0x40 ltac:(discriminate)) as E1. pose proof (N.mod_lt c 0x40 ltac:(discriminate)) as L1.
  destruct (N.ltb_spec c 0x800).
  { assert (E : c = c / 0x40 * 64 + c mod 0x40) by lia. rewrite E at 1. constructor; [|exact L1]. lia. }
  pose proof (N.div_mod (c / 0x40) 0x40 ltac:(discriminate)) as E2.
  pose proof (N.mod_lt (c / 0x40) 0x40 ltac:(discriminate)) as L2.
  rewrite N.div_div in E2 by discriminate. change (0x40 * 0x40) with 0x1000 in E2.
  destruct (N.ltb_spec c 0x10000).
  { assert (E : c = (c / 0x1000 * 64 + (c / 0x40) mod 0x40) * 64 + c mod 0x40) by lia. rewrite E at 1.
    constructor; try assumption; lia. }
  pose proof (N.div_mod (c / 0x1000) 0x40 ltac:(discriminate)) as E3.
  pose proof (N.mod_lt (c / 0x1000) 0x40 ltac:(discriminate)) as L3.
  rewrite N.div_div in E3 by discriminate. change (0x1000 * 0x40) with 0x40000 in E3.
  assert (E : c = ((c / 0x40000 * 64 + (c / 0x1000) mod 0x40) * 64 + (c / 0x40) mod 0x40) * 64 + c mod 0x40) by lia.
  rewrite E at 1. constructor; try assumption; lia.
Qed.

Lemma utf16_form_encode c : scalar c -> utf16_form c (encode_utf16 c).
Proof.
  intros Hc. assert (c <= 0x10FFFF) by (unfold scalar in Hc; lia). clear Hc. unfold encode_utf16.
  destruct (N.ltb_spec c 0x10000); [now constructor|].
  pose proof (N.div_mod (c - 0x10000) 0x400 ltac:(discriminate)) as E1.
  pose proof (N.mod_lt (c - 0x10000) 0x400 ltac:(discriminate)) as L1.
  assert (E : c = 0x10000 + (c - 0x10000) / 0x400 * 0x400 + (c - 0x10000) mod 0x400) by lia. rewrite E at 1.
  constructor; [lia|exact L1].
Qed.

Lemma units_encode (form : N -> list N -> Prop) enc t : (forall c, scalar c -> form c (enc c)) -> Forall scalar t -> units form t (flat_map enc t).
Proof. intros F. induction 1 as [|c t Hc _ IH]; [constructor|]. cbn [flat_map]. constructor; auto. Qed.

Lemma utf8_form_bound c us : utf8_form c us -> Forall (fun u => u <= 0xFF) us.
Proof. destruct 1; repeat constructor; lia. Qed.
Lemma utf16_form_bound c us : utf16_form c us -> Forall (fun u => u <= 0xFFFF) us.
Proof. destruct 1; repeat constructor; lia. Qed.
Lemma units_bound (form : N -> list N -> Prop) k t us : (forall c us, form c us -> Forall (fun u => u <= k) us) -> units form t us -> Forall (fun u => u <= k) us.
Proof. intros F. induction 1; [constructor|]. apply Forall_app. eauto. Qed.

Lemma utf8_nonempty c : encode_utf8 c <> [].
Proof. unfold encode_utf8. repeat match goal with |- context [if ?b then _ else _] => destruct b end; discriminate. Qed.
Lemma utf16_nonempty c : encode_utf16 c <> [].
Proof. unfold encode_utf16. destruct (_ <? _); discriminate. Qed.

Lemma written_shows literal f t : Forall scalar t -> shows (out_manner f) t (write_output literal f t).
Proof.
  intros Ht. destruct (escapes_denote literal t Ht) as (D1 & D2 & D3). destruct (escapes_ascii t Ht) as (A1 & A2).
  assert (Codes : spaced code_shown t (write_as_codepoints t)).
  { apply join_spaced. eapply Forall_impl; [|exact Ht]. intros c Hc. exists (fmt_upper_hex_w 4 c).
    split; [reflexivity|]. apply padded_fmt; [now apply scalar_u32|lia]. }
  assert (All : all_escaped (write_with_all_braces_escape t) t).
  { exists (map escape_unicode t). split; [unfold write_with_all_braces_escape, quoted; now rewrite flat_map_concat_map|].
    clear -Ht. induction Ht as [|c t Hc _ IH]; [constructor|]. cbn [map]. constructor; [|exact IH].
    destruct (fmt_lower_digits c (scalar_u32 _ Hc)) as (ds & E & Hcan & Hv).
    exists (fmt_lower_hex c). split; [reflexivity|]. rewrite E, <- Hv.
    apply hex_number_digits; [apply Hcan|apply canonical_nonempty, Hcan]. }
  destruct f; cbn [out_manner shows write_output]; auto.
  - exists (flat_map encode_utf8 t). pose proof (units_encode _ _ t utf8_form_encode Ht) as U. split; [exact U|].
    unfold write_as_utf8_hex, write_char_as_utf8_hex.
    rewrite (join_flat _ encode_utf8) by (apply Forall_forall; intros; apply utf8_nonempty).
    apply join_spaced. apply (units_bound _ _ _ _ utf8_form_bound) in U.
    eapply Forall_impl; [|exact U]. cbv beta. intros u Hu. apply unit_fmt; [lia..|change (16 ^ N.of_nat 2) with 256; lia].
  - exists (flat_map encode_utf16 t). pose proof (units_encode _ _ t utf16_form_encode Ht) as U. split; [exact U|].
    unfold write_as_utf16_hex, write_char_as_utf16_hex.
    rewrite (join_flat _ encode_utf16) by (apply Forall_forall; intros; apply utf16_nonempty).
    apply join_spaced. apply (units_bound _ _ _ _ utf16_form_bound) in U.
    eapply Forall_impl; [|exact U]. cbv beta. intros u Hu. apply unit_fmt; [lia..|change (16 ^ N.of_nat 4) with 65536; lia].
Qed.

(** * Reading *)
Lemma split_clean keep sep o : Forall (fun x => sep x = false) o -> forall cur s,
  split_loop keep sep cur (o ++ s) = split_loop keep sep (rev o ++ cur) s.
Proof.
  induction 1 as [|a o Ha _ IH]; intros cur s; [reflexivity|]. cbn [app split_loop rev]. rewrite Ha, IH, <- app_assoc. reflexivity.
Qed.
Lemma split_entered keep sep (item : N -> str -> Prop) vs x :
  (forall a o, item a o -> o <> [] /\ Forall (fun c => sep c = false) o) -> (forall c, separator c -> sep c = true) ->
  entered item vs x -> vs <> [] \/ keep = false -> Forall2 item vs (regex_split keep sep x).
Proof.
  intros Hi Hs H. unfold regex_split. induction H as [|a o Ha|a o y b vs out Ha Hy H IH]; intros Hv.
  - destruct Hv as [Hv| ->]; [contradiction|constructor].
  - destruct (Hi _ _ Ha) as [Ne Cl]. rewrite <- (app_nil_r o), (split_clean _ _ _ Cl), app_nil_r. cbn [split_loop].
    destruct (rev o) eqn:E.
    + exfalso. apply Ne. rewrite <- (rev_involutive o), E. reflexivity.
    + rewrite <- E, rev_involutive. repeat constructor. exact Ha.
  - destruct (Hi _ _ Ha) as [Ne Cl]. rewrite (split_clean _ _ _ Cl), app_nil_r. cbn [app split_loop].
    rewrite (Hs _ Hy), rev_involutive. constructor; [exact Ha|]. apply IH. left. discriminate.
Qed.
Lemma map_or_panic_items {A B} (item : A -> str -> Prop) (f : str -> option B) (g : A -> B) vs toks :
  Forall2 item vs toks -> (forall a o, In a vs -> item a o -> f o = Some (g a)) -> map_or_panic f toks = Ret (map g vs).
Proof.
  induction 1 as [|a o vs toks Ha _ IH]; intros Hf; [reflexivity|]. cbn [map_or_panic map].
  rewrite (Hf a o (or_introl eq_refl) Ha), IH; [reflexivity|]. intros b p Hb. apply Hf. now right.
Qed.

Lemma hexval_digit c : hexval c = to_digit16 c. Proof. reflexivity. Qed.
Lemma radix_loop_app max s t : forall acc,
  radix_loop max acc (s ++ t) = match radix_loop max acc s with Some n => radix_loop max n t | None => None end.
Proof.
  induction s as [|c s IH]; intros acc; [reflexivity|]. cbn [app radix_loop]. destruct (to_digit16 c); [|reflexivity].
  destruct (_ <=? max); [apply IH|reflexivity].
Qed.
Lemma radix_hex max h n : hex_number h n -> n <= max -> radix_loop max 0 h = Some n.
Proof.
  induction 1 as [c d H|s n c d _ IH H]; intros Hn; rewrite hexval_digit in H.
  - cbn [radix_loop]. rewrite H. replace (0 * 16 + d) with d by lia. replace (d <=? max) with true by lia. reflexivity.
  - rewrite radix_loop_app, IH by lia. cbn [radix_loop]. rewrite H. replace (n * 16 + d <=? max) with true by lia. reflexivity.
Qed.
Definition hexb (c : N) : bool := match hexval c with Some _ => true | None => false end.
Lemma hexb_range c : hexb c = true -> 0x30 <= c <= 0x39 \/ 0x41 <= c <= 0x46 \/ 0x61 <= c <= 0x66.
Proof.
  unfold hexb, hexval. destruct ((0x30 <=? c) && (c <=? 0x39)) eqn:A; [lia|].
  destruct ((0x61 <=? c) && (c <=? 0x66)) eqn:B; [lia|]. destruct ((0x41 <=? c) && (c <=? 0x46)) eqn:C; [lia|discriminate].
Qed.
Lemma hex_chars h n : hex_number h n -> Forall (fun c => hexb c = true) h.
Proof.
  assert (X : forall c d, hexval c = Some d -> hexb c = true) by (intros c d H; unfold hexb; now rewrite H).
  induction 1 as [c d H|s n c d _ IH H]; [|apply Forall_app; split; [exact IH|]]; repeat constructor; eauto.
Qed.
Lemma from_str_hex max h n : hex_number h n -> n <= max -> from_str_radix16 max h = Some n.
Proof.
  intros H Hn. pose proof (radix_hex _ _ _ H Hn) as R. pose proof (hex_chars _ _ H) as C.
  pose proof (hex_number_nonempty _ _ H) as Ne. unfold from_str_radix16.
  destruct h as [|a h]; [contradiction|]. inversion C as [|? ? Ca _ E]; subst. apply hexb_range in Ca.
  assert (N1 : a <> 0x2B) by lia.
  destruct a as [|p]; [exact R|]. do 6 (destruct p as [p|p|]; try exact R). contradiction.
Qed.

Section word.
Variable word : N -> bool.
Hypothesis law : ascii_word_law word.

Lemma word_of c : 0x30 <= c <= 0x39 \/ 0x41 <= c <= 0x5A \/ c = 0x5F \/ 0x61 <= c <= 0x7A -> word c = true.
Proof. intros H. apply law; lia. Qed.
Lemma separator_word c : separator c -> word c = false.
Proof. intros [L H]. destruct (word c) eqn:E; [|reflexivity]. apply law in E; [|exact L]. exfalso. apply H. tauto. Qed.

Lemma hex_word h n : hex_number h n -> Forall (fun c => word c = true) h.
Proof. intros H. eapply Forall_impl; [|exact (hex_chars _ _ H)]. intros c Hc. apply hexb_range in Hc. apply word_of. lia. Qed.

Lemma code_entered_token a o : code_entered a o -> o <> [] /\ Forall (fun c => codepoint_separator word c = false) o.
Proof.
  intros (h & H & E). pose proof (hex_number_nonempty _ _ H) as Ne.
  assert (F : Forall (fun c => codepoint_separator word c = false) h).
  { eapply Forall_impl; [|exact (hex_word _ _ H)]. intros c Hc. unfold codepoint_separator. now rewrite Hc. }
  assert (U : codepoint_separator word 0x55 = false /\ codepoint_separator word 0x75 = false /\ codepoint_separator word 0x2B = false).
  { unfold codepoint_separator. rewrite (word_of 0x55), (word_of 0x75), orb_true_r by lia. auto. }
  destruct U as (U1 & U2 & U3).
  destruct E as [->|[->| ->]]; (split; [try assumption; discriminate|]); cbn [app]; auto.
Qed.
Lemma unit_entered_token a o : unit_entered a o -> o <> [] /\ Forall (fun c => hex_separator word c = false) o.
Proof.
  intros (h & H & E). pose proof (hex_number_nonempty _ _ H) as Ne.
  assert (F : Forall (fun c => hex_separator word c = false) h).
  { eapply Forall_impl; [|exact (hex_word _ _ H)]. intros c Hc. unfold hex_separator. now rewrite Hc. }
  assert (U : hex_separator word 0x30 = false /\ hex_separator word 0x78 = false /\ hex_separator word 0x58 = false).
  { unfold hex_separator. rewrite (word_of 0x30), (word_of 0x78), (word_of 0x58) by lia. auto. }
  destruct U as (U1 & U2 & U3).
  destruct E as [->|[->| ->]]; (split; [try assumption; discriminate|]); cbn [app]; auto.
Qed.

Lemma strip_code h n : hex_number h n -> strip_codepoint_prefix h = h.
Proof.
  intros H. pose proof (hex_chars _ _ H) as C. destruct h as [|a [|b h]]; [reflexivity..|].
  inversion C as [|? ? Ca _ E]; subst. apply hexb_range in Ca. cbn [strip_codepoint_prefix].
  replace ((a =? 0x55) || (a =? 0x75)) with false by lia. reflexivity.
Qed.
Lemma strip_unit h n : hex_number h n -> strip_hex_prefix h = h.
Proof.
  intros H. pose proof (hex_chars _ _ H) as C. destruct h as [|a [|b h]]; [reflexivity..|].
  inversion C as [|? ? _ Cb E]; subst. inversion Cb as [|? ? Cb' _ E]; subst. apply hexb_range in Cb'. cbn [strip_hex_prefix].
  replace ((b =? 0x78) || (b =? 0x58)) with false by lia. now rewrite andb_false_r.
Qed.

Lemma code_entered_value c o : scalar c -> code_entered c o ->
  match from_str_radix16 0xFFFFFFFF (strip_codepoint_prefix o) with Some n => char_from_u32 n | None => None end = Some c.
Proof.
  intros Hc (h & H & E).
  assert (strip_codepoint_prefix o = h) as ->.
  { destruct E as [->|[->| ->]]; [exact (strip_code _ _ H)|reflexivity..]. }
  rewrite (from_str_hex _ _ _ H (scalar_u32 _ Hc)). unfold char_from_u32.
  destruct (scalarb c) eqn:S'; [reflexivity|]. exfalso. unfold scalar in Hc. unfold scalarb in S'. lia.
Qed.
Lemma unit_entered_value max u o : u <= max -> unit_entered u o -> from_str_radix16 max (strip_hex_prefix o) = Some u.
Proof.
  intros Hu (h & H & E).
  assert (strip_hex_prefix o = h) as ->.
  { destruct E as [->|[->| ->]]; [exact (strip_unit _ _ H)|reflexivity..]. }
  exact (from_str_hex _ _ _ H Hu).
Qed.

Lemma utf8_form_unique c us : utf8_form c us -> us = encode_utf8 c.
Proof.
  assert (D : forall a b, b < 64 -> (a * 64 + b) / 0x40 = a /\ (a * 64 + b) mod 0x40 = b).
  { intros a b Hb. pose proof (N.div_mod (a * 64 + b) 0x40 ltac:(discriminate)).
    pose proof (N.mod_lt (a * 64 + b) 0x40 ltac:(discriminate)). lia. }
  intros [a Ha|a b Ha Hb|a b x Ha Hb Hx Hm|a b x d Ha Hb Hx Hd Hm]; unfold encode_utf8.
  - replace (a <? 0x80) with true by lia. reflexivity.
  - destruct (D a b Hb) as [-> ->]. destruct (N.ltb_spec (a * 64 + b) 0x80); [lia|].
    destruct (N.ltb_spec (a * 64 + b) 0x800); [reflexivity|lia].
  - change 0x1000 with (0x40 * 0x40). rewrite <- N.div_div by discriminate.
    destruct (D (a * 64 + b) x Hx) as [-> ->]. destruct (D a b Hb) as [-> ->].
    destruct (N.ltb_spec ((a * 64 + b) * 64 + x) 0x80); [lia|].
    destruct (N.ltb_spec ((a * 64 + b) * 64 + x) 0x800); [lia|].
    destruct (N.ltb_spec ((a * 64 + b) * 64 + x) 0x10000); [reflexivity|lia].
  - change 0x40000 with (0x40 * 0x40 * 0x40). change 0x1000 with (0x40 * 0x40). rewrite <- !N.div_div by discriminate.
    destruct (D ((a * 64 + b) * 64 + x) d Hd) as [-> ->]. destruct (D (a * 64 + b) x Hx) as [-> ->]. destruct (D a b Hb) as [-> ->].
    destruct (N.ltb_spec (((a * 64 + b) * 64 + x) * 64 + d) 0x80); [lia|].
    destruct (N.ltb_spec (((a * 64 + b) * 64 + x) * 64 + d) 0x800); [lia|].
    destruct (N.ltb_spec (((a * 64 + b) * 64 + x) * 64 + d) 0x10000); [lia|reflexivity].
Qed.
Lemma utf16_form_unique c us : utf16_form c us -> us = encode_utf16 c.
Proof.
  intros [a Ha|a b Ha Hb]; unfold encode_utf16.
  - replace (a <? 0x10000) with true by lia. reflexivity.
  - replace (0x10000 + a * 0x400 + b <? 0x10000) with false by lia.
    replace (0x10000 + a * 0x400 + b - 0x10000) with (a * 0x400 + b) by lia.
    pose proof (N.div_mod (a * 0x400 + b) 0x400 ltac:(discriminate)).
    pose proof (N.mod_lt (a * 0x400 + b) 0x400 ltac:(discriminate)).
    assert ((a * 0x400 + b) / 0x400 = a /\ (a * 0x400 + b) mod 0x400 = b) as [-> ->] by lia. reflexivity.
Qed.
Lemma units_unique (form : N -> list N -> Prop) enc t us : (forall c us, form c us -> us = enc c) -> units form t us -> us = flat_map enc t.
Proof. intros F. induction 1 as [|c us t vs H _ IH]; [reflexivity|]. cbn [flat_map]. now rewrite (F _ _ H), IH. Qed.

Lemma stands_read keep f x t : stands (in_manner f) x t -> Forall scalar t -> t <> [] \/ keep = false ->
  read_input word keep f x = Ret t.
Proof.
  intros H Ht Ne.
  assert (Codes : entered code_entered t x -> codepoints word keep x = Ret t).
  { intros E. unfold codepoints.
    rewrite (map_or_panic_items code_entered _ (fun c => c) t); [now rewrite map_id|..].
    - apply split_entered; try assumption; [exact code_entered_token|].
      intros c Hc. unfold codepoint_separator. rewrite (separator_word c Hc). destruct Hc as [_ Hc].
      replace (c =? 0x2B) with false by lia. reflexivity.
    - intros c o Hin Hc. rewrite Forall_forall in Ht. apply code_entered_value; [now apply Ht|assumption]. }
  assert (Units : forall us max, entered unit_entered us x -> Forall (fun u => u <= max) us -> us <> [] \/ keep = false ->
    map_or_panic (fun token => from_str_radix16 max (strip_hex_prefix token)) (regex_split keep (hex_separator word) x) = Ret us).
  { intros us max E B N1.
    rewrite (map_or_panic_items unit_entered _ (fun c => c) us); [now rewrite map_id|..].
    - apply split_entered; try assumption; [exact unit_entered_token|].
      intros c Hc. unfold hex_separator. now rewrite (separator_word c Hc).
    - intros c o Hin Hc. rewrite Forall_forall in B. apply unit_entered_value; [now apply B|assumption]. }
  destruct f; cbn [in_manner stands read_input] in *; auto.
  - now subst.
  - destruct H as (us & U & E). unfold utf8_hex.
    pose proof (units_unique _ _ _ _ utf8_form_unique U) as ->.
    rewrite (Units _ 0xFF E); cbn [obind].
    + now rewrite from_utf8_all.
    + exact (units_bound _ _ _ _ utf8_form_bound U).
    + destruct Ne as [Ne|Ne]; [left|now right]. apply flat_map_ne; [|exact Ne]. apply Forall_forall. intros; apply utf8_nonempty.
  - destruct H as (us & U & E). unfold utf16_hex.
    pose proof (units_unique _ _ _ _ utf16_form_unique U) as ->.
    rewrite (Units _ 0xFFFF E); cbn [obind].
    + now rewrite from_utf16_all.
    + exact (units_bound _ _ _ _ utf16_form_bound U).
    + destruct Ne as [Ne|Ne]; [left|now right]. apply flat_map_ne; [|exact Ne]. apply Forall_forall. intros; apply utf16_nonempty.
Qed.

(** What is shown may be entered. *)
Lemma spaced_entered (shown item : N -> str -> Prop) vs x : (forall a o, shown a o -> item a o) ->
  spaced shown vs x -> entered item vs x.
Proof.
  intros F. induction 1; constructor; auto. split; lia.
Qed.
Lemma code_shown_entered a o : code_shown a o -> code_entered a o.
Proof. intros (h & -> & H & _). exists h. auto. Qed.
Lemma unit_shown_entered w a o : unit_shown w a o -> unit_entered a o.
Proof. intros (h & -> & H & _). exists h. auto. Qed.
Lemma shows_stands f t x : shows (in_manner f) t x -> stands (in_manner f) x t.
Proof.
  destruct f; cbn [in_manner shows stands]; intros H; auto.
  - exact (spaced_entered _ _ _ _ code_shown_entered H).
  - exact (spaced_entered _ _ _ _ code_shown_entered H).
  - destruct H as (us & U & H). exists us. split; [exact U|]. exact (spaced_entered _ _ _ _ (unit_shown_entered 2) H).
  - destruct H as (us & U & H). exists us. split; [exact U|]. exact (spaced_entered _ _ _ _ (unit_shown_entered 4) H).
Qed.
End word.

(** * The program *)
Definition newline (n : bool) : str := if n then [] else [10].

Theorem echo_writes word keep literal args i o mi mo x t n : ascii_word_law word ->
  given args x -> asks ident input_manners i mi -> asks ident output_manners o mo ->
  stands mi x t -> Forall scalar t -> t <> [] \/ keep = false ->
  exists out, echo word keep literal args i o n = Written (out ++ newline n) /\ shows mo t out.
Proof.
  intros law G I O S' Ht Ne. apply given_join in G. apply input_format_iff in I as (fi & I & <-).
  apply output_format_iff in O as (fo & O & <-). unfold echo. rewrite I, G, (stands_read word law keep fi x t S' Ht Ne), O.
  exists (write_output literal fo t). split; [reflexivity|]. now apply written_shows.
Qed.

Theorem echo_rejects word keep literal args i o n :
  (~ exists mi, asks ident input_manners i mi) \/ (~ exists mo, asks ident output_manners o mo) ->
  echo word keep literal args i o n = Usage \/ echo word keep literal args i o n = Panicked.
Proof.
  intros H. unfold echo. destruct (format_arg input_variants I_Plain i) as [fi|] eqn:I; [|now left].
  destruct (read_input word keep fi (join_space args)); [|now right].
  destruct (format_arg output_variants O_Plain o) as [fo|] eqn:O; [|now left].
  exfalso. destruct H as [H|H]; apply H.
  - exists (in_manner fi). apply input_format_iff. now exists fi.
  - exists (out_manner fo). apply output_format_iff. now exists fo.
Qed.

(** Reading back what was written, from arguments divided in any way at spaces. *)
Theorem echo_converts word keep literal args args' f mi mo t a o n : ascii_word_law word ->
  given args t -> Forall scalar t -> t <> [] \/ keep = false ->
  asks ident input_manners (Some f) mi -> asks ident output_manners o mo ->
  echo word keep literal args None (Some f) true = Written a -> given args' a ->
  echo word keep literal args' (Some f) o n = echo word keep literal args None o n.
Proof.
  intros law G Ht Ne A O E G'. pose proof A as A'. apply input_format_iff in A' as (fi & I & <-).
  apply output_format_iff in O as (fo & O & <-).
  assert (Out : asks ident output_manners (Some f) (in_manner fi)).
  { destruct A as (name & Hin & Sp). exists name. split; [|exact Sp]. unfold output_manners. apply in_or_app. now left. }
  apply output_format_iff in Out as (fo' & F & M).
  apply given_join in G. apply given_join in G'. unfold echo in *. rewrite F in E. cbn [format_arg read_input] in *.
  rewrite G in *. injection E as E. rewrite app_nil_r in E.
  rewrite I, G', O. rewrite (stands_read word law keep fi a t); [reflexivity| |exact Ht|exact Ne].
  apply shows_stands. rewrite <- M, <- E. now apply written_shows.
Qed.

(** An empty place among code points or units ends the program. *)
Lemma panic_app {A} (f : str -> option A) l : In [] l -> f [] = None -> map_or_panic f l = Panic.
Proof.
  induction l as [|a l IH]; [intros []|]. intros [->|H] E; cbn [map_or_panic]; [now rewrite E|].
  destruct (f a); [|reflexivity]. now rewrite IH.
Qed.
Lemma split_empty_in keep sep x y b : sep x = true -> sep y = true -> forall a cur, In [] (split_loop keep sep cur (a ++ x :: y :: b)).
Proof.
  intros Hx Hy. induction a as [|c a IH]; intros cur; cbn [app split_loop].
  - rewrite Hx. right. cbn [split_loop]. rewrite Hy. now left.
  - destruct (sep c); [right|]; apply IH.
Qed.
Theorem echo_panics word keep literal args i o n m a x y b : ascii_word_law word ->
  given args (a ++ [x; y] ++ b) -> separator x -> separator y ->
  asks ident input_manners i m -> m <> AsText ->
  echo word keep literal args i o n = Panicked.
Proof.
  intros law G X Y I M. apply given_join in G. apply input_format_iff in I as (fi & I & <-). unfold echo. rewrite I, G.
  pose proof (separator_word word law x X) as Wx. pose proof (separator_word word law y Y) as Wy.
  assert (Sx : codepoint_separator word x = true).
  { unfold codepoint_separator. rewrite Wx. destruct X as [_ X]. replace (x =? 0x2B) with false by lia. reflexivity. }
  assert (Sy : codepoint_separator word y = true).
  { unfold codepoint_separator. rewrite Wy. destruct Y as [_ Y]. replace (y =? 0x2B) with false by lia. reflexivity. }
  assert (Hx : hex_separator word x = true) by (unfold hex_separator; now rewrite Wx).
  assert (Hy : hex_separator word y = true) by (unfold hex_separator; now rewrite Wy).
  assert (C : codepoints word keep (a ++ [x; y] ++ b) = Panic).
  { unfold codepoints. apply panic_app; [|reflexivity]. now apply split_empty_in. }
  assert (U : forall max, map_or_panic (fun token => from_str_radix16 max (strip_hex_prefix token))
                (regex_split keep (hex_separator word) (a ++ [x; y] ++ b)) = Panic).
  { intros max. apply panic_app; [|reflexivity]. now apply split_empty_in. }
  destruct fi; cbn [in_manner read_input] in *; [contradiction|..].
  - now rewrite C.
  - now rewrite C.
  - unfold utf8_hex. now rewrite U.
  - unfold utf16_hex. now rewrite U.
Qed.

(** Every string is spelled as at most one of the formats, so an option asks for one manner. *)
Theorem options_unambiguous arg m m' :
  (asks ident input_manners arg m -> asks ident input_manners arg m' -> m = m') /\
  (asks ident output_manners arg m -> asks ident output_manners arg m' -> m = m').
Proof.
  split; apply asks_fun; vm_compute; repeat constructor; cbn; intuition discriminate.
Qed.

(** Processing of whole domain names. *)
From Coq Require Import List NArith ZArith Lia Bool Permutation ZifyBool ZifyNat ZifyN.
From Verif Require Import Base Enums EnumFacts TableTypes UcdModel UcdLemmas HangulModel HangulSpec NormModel NormSpec NormOrder NormBubble NormTables NormIter NormRecomp NormAlgebra
  PunyModel PunySpec PunyProofs PunyDecode PunyEncode PunyLemmas IdnaModel IdnaSpec IdnaTables IdnaProofs.
Import ListNotations.
Open Scope N_scope.

Tactic Notation "bind" ident(H) ident(x) ident(E) := match type of H with obind ?e _ = _ => destruct e as [x|] eqn:E; [cbn [obind] in H|discriminate H] end.

(** ** Decoding and encoding, without any bound on the length *)
Lemma chk_ret x y : chk x = Ret y -> y = x /\ x <= U32_MAX.
Proof. unfold chk. destruct (x <=? U32_MAX) eqn:E; [|discriminate]. intros [= <-]. split; [reflexivity|lia]. Qed.
Lemma vec_insert_in l i c r : vec_insert l i c = Ret r -> forall x, In x r <-> x = c \/ In x l.
Proof.
  unfold vec_insert. destruct (_ <=? _); [|discriminate]. intros E x. injection E as <-.
  rewrite in_app_iff. cbn [In]. rewrite <- (firstn_skipn (N.to_nat i) l) at 3. rewrite in_app_iff.
  split; [intros [H|[<-|H]]; auto|intros [->|[H|H]]; auto].
Qed.
Lemma decode_loop_chars : forall fuel iter out cp bias i s, decode_loop fuel iter out cp bias i = Ret (Some s) ->
  forall x, In x s -> In x out \/ (scalar x /\ cp <= x).
Proof.
  induction fuel as [|fuel IH]; intros iter out cp bias i s H x Hx; cbn [decode_loop] in H; [discriminate H|].
  destruct iter as [|byte iter]; [injection H as <-; now left|].
  bind H o Eo. destruct o as [[i' iter']|]; [|discriminate H].
  bind H len1 E1. bind H d E2. bind H b E3.
  destruct (U32_MAX - cp <? i' / len1); [discriminate H|].
  bind H cp' E4. destruct (scalarb cp') eqn:Es; [|discriminate H].
  bind H out' E5. bind H i2 E6.
  apply chk_ret in E4 as [E4 _]. pose proof (vec_insert_in _ _ _ _ E5 x) as Hi.
  destruct (IH _ _ _ _ _ _ H x Hx) as [Ho|[Ho1 Ho2]].
  - apply Hi in Ho as [->|Ho]; [|now left]. right. split; [now apply scalarb_spec|]. rewrite E4. apply N.le_add_r.
  - right. split; [assumption|]. rewrite E4 in Ho2. apply (N.le_trans _ _ _ (N.le_add_r _ _) Ho2).
Qed.
Lemma rsplit_in : forall p a b, rsplit p = Some (a, b) -> forall c, In c a -> In c p.
Proof.
  induction p as [|x p IH]; intros a b H c Hc; cbn [rsplit] in H; [discriminate|].
  destruct (rsplit p) as [[a' b']|].
  - injection H as <- <-. destruct Hc as [->|Hc]; [now left|]. right. now apply (IH a' b').
  - destruct (x =? DELIMITER); [|discriminate]. injection H as <- _. destruct Hc.
Qed.
Lemma parts_in p c : In c (fst (parts p)) -> In c p.
Proof.
  unfold parts. destruct (rsplit p) as [[[|a0 a] b]|] eqn:E; cbn [fst]; [intros []| |intros []].
  intros H. now apply (rsplit_in _ _ _ E).
Qed.
Lemma decode_chars p s : decode p = Ret (Some s) -> forall c, In c s -> In c p \/ (scalar c /\ 128 <= c).
Proof.
  rewrite decode_parts. intros H c Hc. destruct (decode_loop_chars _ _ _ _ _ _ _ H c Hc) as [Hp|Hp]; [|now right].
  left. now apply parts_in.
Qed.
Lemma decode_scalars p s : Forall scalar p -> decode p = Ret (Some s) -> Forall scalar s.
Proof.
  intros Hp H. apply Forall_forall. intros c Hc. rewrite Forall_forall in Hp.
  destruct (decode_chars p s H c Hc) as [G|[G _]]; auto.
Qed.
Lemma rsplit_len : forall p a b, rsplit p = Some (a, b) -> len a + len b < len p.
Proof.
  induction p as [|x p IH]; intros a b H; cbn [rsplit] in H; [discriminate|].
  destruct (rsplit p) as [[a' b']|].
  - injection H as <- <-. specialize (IH _ _ eq_refl). rewrite !len_cons. lia.
  - destruct (x =? DELIMITER); [|discriminate]. injection H as <- <-. rewrite len_cons. change (len []) with 0. lia.
Qed.
Lemma decode_len p s : len p <= U32_MAX -> decode p = Ret (Some s) -> len s <= len p.
Proof.
  intros Hp H. destruct (decode_total p Hp) as (o & Eo & Ho). rewrite H in Eo. injection Eo as <-.
  destruct Ho as (ds & tr & Hd & He & _). apply expands_len_digits in He.
  assert (len ds = len (snd (parts p))) as E by (unfold len; f_equal; clear - Hd; induction Hd; cbn; congruence).
  assert (len (fst (parts p)) + len (snd (parts p)) <= len p); [|lia].
  unfold parts. destruct (rsplit p) as [[[|a0 a] b]|] eqn:Er; cbn [fst snd]; try (change (len []) with 0; lia).
  apply rsplit_len in Er. lia.
Qed.

Definition plain (c : N) : Prop := c < 128 /\ c <> 0x2E.
(** Letters, digits and the hyphen *)
Definition ldh (c : N) : Prop := 0x61 <= c <= 0x7A \/ 0x30 <= c <= 0x39 \/ c = 0x2D.
Lemma ldh_plain c : ldh c -> plain c.
Proof. unfold ldh, plain. lia. Qed.
Lemma digit_ldh v c : value_to_digit v = Ret c -> ldh c.
Proof.
  unfold value_to_digit, ldh. destruct (v <=? 25) eqn:E1; [intros [= <-]; lia|].
  destruct (v <=? 35) eqn:E2; [intros [= <-]; lia|discriminate].
Qed.
Lemma encode_delta_ldh : forall fuel q k bias ds, encode_delta fuel q k bias = Ret ds -> Forall ldh ds.
Proof.
  induction fuel as [|fuel IH]; intros q k bias ds H; cbn [encode_delta] in H; [discriminate H|].
  bind H t Et. destruct (q <? t).
  - bind H c Ec. injection H as <-. constructor; [|constructor]. now apply (digit_ldh q).
  - bind H r Er. destruct (r =? 0); [discriminate H|]. bind H c Ec. bind H k' Ek. bind H cs Ecs. injection H as <-.
    constructor; [|now apply (IH _ _ _ _ Ecs)]. eapply digit_ldh. exact Ec.
Qed.
Lemma encode_for_ldh checked : forall input cp bl st ds st', encode_for checked input cp bl st = Ret (Some (ds, st')) -> Forall ldh ds.
Proof.
  induction input as [|c input IH]; intros cp bl [delta bias processed] ds st' H; cbn [encode_for] in H.
  - injection H as <- _. constructor.
  - destruct (c <? cp).
    + bind H d Ed. destruct (d =? 0); [discriminate H|]. now apply IH in H.
    + destruct (c =? cp).
      * bind H d Ed. bind H p1 Ep. bind H b Eb. bind H o Eo. destruct o as [[ds' st'']|]; [|discriminate H].
        injection H as <- <-. apply Forall_app. split; [now apply encode_delta_ldh in Ed|]. now apply IH in Eo.
      * now apply IH in H.
Qed.
Lemma encode_while_ldh checked : forall fuel input cp bl il st ds, encode_while fuel checked input cp bl il st = Ret (Some ds) -> Forall ldh ds.
Proof.
  induction fuel as [|fuel IH]; intros input cp bl il [delta bias processed] ds H; cbn [encode_while] in H; [discriminate H|].
  destruct (processed <? il); [|injection H as <-; constructor].
  destruct (min_from cp input) as [m|]; [|discriminate H].
  bind H p1 E1. destruct (_ <? _); [discriminate H|]. bind H prod E2. bind H d E3. bind H o E4.
  destruct o as [[ds1 [d1 b1 q1]]|]; [|discriminate H]. bind H d2 E5. bind H cp' E6. bind H o E7.
  destruct o as [ds2|]; [|discriminate H]. injection H as <-. apply Forall_app.
  split; [now apply encode_for_ldh in E4|]. now apply IH in E7.
Qed.
Lemma encode_chars checked s p : encode checked s = Ret (Some p) -> Forall (fun c => (In c s /\ c < 128) \/ ldh c) p.
Proof.
  unfold encode. intros H. bind H o Eo. destruct o as [ds|]; [|discriminate H]. injection H as <-.
  assert (Forall (fun c => (In c s /\ c < 128) \/ ldh c) (filter is_ascii s)) as Hf.
  { apply Forall_forall. intros c Hc. apply filter_In in Hc as [H1 H2]. unfold is_ascii in H2. left. split; [assumption|lia]. }
  assert (ldh DELIMITER) as Hd by (unfold ldh, DELIMITER; lia).
  apply Forall_app. split.
  - destruct (0 <? _); [|assumption]. apply Forall_app. split; [assumption|]. constructor; [now right|constructor].
  - apply encode_while_ldh in Eo. eapply Forall_impl; [|exact Eo]. cbv beta. tauto.
Qed.
Lemma encode_plain checked s p : encode checked s = Ret (Some p) -> ~ In 0x2E s -> Forall plain p.
Proof.
  intros H Hs. eapply Forall_impl; [|exact (encode_chars _ _ _ H)]. cbv beta. intros c [[H1 H2]|H1]; [|now apply ldh_plain].
  split; [assumption|]. intros ->. contradiction.
Qed.

(** ** Mapping *)
Lemma map_char_total c f : scalar c -> exists t e, map_char c f = Ret (t, e) /\ Forall scalar t /\ (length t <= 18)%nat.
Proof.
  intros Hc. unfold map_char. destruct (mapping_total c Hc) as (m & Em). rewrite Em. cbn [obind].
  destruct (mapping_text c m Hc Em) as [H1 H2].
  assert (Forall scalar [c] /\ (length [c] <= 18)%nat) as [H3 H4] by (split; [apply Forall_cons; [assumption|constructor]|cbn; lia]).
  destruct m; cbn [text_of] in *; try destruct (transitional f); eexists _, _; (split; [reflexivity|]); auto.
Qed.
Lemma map_all_total d f : Forall scalar d ->
  exists t e, map_all d f = Ret (t, e) /\ Forall scalar t /\ (length t <= 18 * length d)%nat.
Proof.
  induction 1 as [|c d Hc Hd (t & e & IH1 & IH2 & IH3)]; cbn [map_all].
  - exists [], []. split; [reflexivity|]. split; [constructor|cbn; lia].
  - destruct (map_char_total c f Hc) as (t0 & e0 & -> & H1 & H2). cbn [obind]. rewrite IH1. cbn [obind fst snd].
    eexists _, _. split; [reflexivity|]. split; [apply Forall_app; now split|]. rewrite app_length. cbn [length]. lia.
Qed.

(** ** Loops over labels *)
Lemma each_inv {A} (step : A -> outcome (str * list Error)) : forall ls outs es, each step ls = Ret (outs, es) ->
  Forall2 (fun l o => exists e, step l = Ret (o, e)) ls outs /\
  (es = [] <-> Forall2 (fun l o => step l = Ret (o, [])) ls outs).
Proof.
  induction ls as [|l ls IH]; intros outs es H; cbn [each] in H.
  - injection H as <- <-. split; [constructor|]. split; [constructor|reflexivity].
  - bind H a Ea. bind H b Eb. injection H as <- <-. destruct a as [o e], b as [os es]. cbn [fst snd].
    destruct (IH os es eq_refl) as [H1 H2]. split.
    + constructor; [eauto|assumption].
    + split.
      * intros E. apply app_eq_nil in E as [-> ->]. constructor; [assumption|]. now apply H2.
      * intros E. inversion E as [|? ? ? ? E1 E2]; subst. rewrite Ea in E1. injection E1 as ->. apply H2 in E2 as ->. reflexivity.
Qed.
Lemma each_ok {A} (step : A -> outcome (str * list Error)) ls outs :
  Forall2 (fun l o => step l = Ret (o, [])) ls outs -> each step ls = Ret (outs, []).
Proof. induction 1 as [|l o ls outs H H1 IH]; cbn [each]; [reflexivity|]. rewrite H, IH. reflexivity. Qed.
Lemma each_total {A} (step : A -> outcome (str * list Error)) ls : (forall l, In l ls -> exists r, step l = Ret r) ->
  exists outs es, each step ls = Ret (outs, es).
Proof.
  induction ls as [|l ls IH]; intros H; cbn [each]; [eauto|].
  destruct (H l (or_introl eq_refl)) as (r & ->). cbn [obind].
  destruct IH as (outs & es & ->); [intros x Hx; apply H; now right|]. cbn [obind]. eauto.
Qed.
Lemma each_ext {A} (s1 s2 : A -> outcome (str * list Error)) ls : (forall l, In l ls -> s1 l = s2 l) -> each s1 ls = each s2 ls.
Proof.
  induction ls as [|l ls IH]; intros H; cbn [each]; [reflexivity|]. rewrite (H l) by now left. rewrite IH; [reflexivity|].
  intros x Hx. apply H. now right.
Qed.
Lemma Forall2_in_r {A B} (R : A -> B -> Prop) : forall l m, Forall2 R l m -> forall y, In y m -> exists x, In x l /\ R x y.
Proof. induction 1 as [|x y l m H H1 IH]; intros z []; [subst; exists x; split; [now left|assumption]|]. destruct (IH z H0) as (w & Hw & Hr). exists w. split; [now right|assumption]. Qed.
Lemma Forall2_in_l {A B} (R : A -> B -> Prop) : forall l m, Forall2 R l m -> forall x, In x l -> exists y, In y m /\ R x y.
Proof. induction 1 as [|x y l m H H1 IH]; intros z []; [subst; exists y; split; [now left|assumption]|]. destruct (IH z H0) as (w & Hw & Hr). exists w. split; [now right|assumption]. Qed.
Lemma Forall2_nonempty {A B} (R : A -> B -> Prop) l m : Forall2 R l m -> l <> [] -> m <> [].
Proof. intros H. destruct H; [intros X; contradiction|discriminate]. Qed.

(** ** One label *)
Lemma process_label_chars b f l o e : process_label b f l = Ret (o, e) -> Forall scalar l -> ~ In 0x2E l ->
  Forall scalar o /\ ~ In 0x2E o.
Proof.
  unfold process_label. intros H Hs Hd. destruct (strip_prefix PUNYCODE_PREFIX l) as [p|] eqn:Ep.
  - apply strip_prefix_some in Ep as ->. bind H o' Eo. apply Forall_app in Hs as [_ Hs]. destruct o' as [s|].
    + bind H e' Ee. injection H as <- _. split; [now apply (decode_scalars p)|]. intros Hin.
      destruct (decode_chars _ _ Eo _ Hin) as [G|[_ G]]; [|lia]. apply Hd. apply in_or_app. now right.
    + injection H as <- _. split; [constructor|intros []].
  - bind H e' Ee. injection H as <- _. now split.
Qed.
Definition no_trans (f : Flags) : Flags := mkFlags (use_std3 f) false (verify_dns f).
(** The flags with which the text of a label is validated. *)
Definition flags_for (f : Flags) (l : str) : Flags :=
  match strip_prefix PUNYCODE_PREFIX l with Some _ => no_trans f | None => f end.
Lemma process_label_ok b f l o : process_label b f l = Ret (o, []) -> Forall scalar l ->
  label_ok (flags_for f l) b o /\
  match strip_prefix PUNYCODE_PREFIX l with Some p => decode p = Ret (Some o) | None => o = l end.
Proof.
  unfold process_label, flags_for. intros H Hs. destruct (strip_prefix PUNYCODE_PREFIX l) as [p|] eqn:Ep.
  - apply strip_prefix_some in Ep as ->. bind H o' Eo. apply Forall_app in Hs as [_ Hs]. destruct o' as [s|]; [|discriminate H].
    bind H e' Ee. injection H as <- ->. split; [|reflexivity].
    destruct (validate_total s b (no_trans f) (decode_scalars _ _ Hs Eo)) as (e & Ev & He).
    unfold no_trans in Ev. rewrite Ev in Ee. injection Ee as ->. now apply He.
  - bind H e' Ee. injection H as <- ->. split; [|reflexivity].
    destruct (validate_total l b f Hs) as (e & Ev & He). rewrite Ev in Ee. injection Ee as ->. now apply He.
Qed.
Lemma process_label_intro b f l o : Forall scalar o ->
  match strip_prefix PUNYCODE_PREFIX l with Some p => decode p = Ret (Some o) | None => o = l end ->
  label_ok (flags_for f l) b o -> process_label b f l = Ret (o, []).
Proof.
  unfold process_label, flags_for. intros Hs H Hok. destruct (strip_prefix PUNYCODE_PREFIX l) as [p|].
  - rewrite H. cbn [obind]. destruct (validate_total o b (no_trans f) Hs) as (e & Ev & He).
    unfold no_trans in Ev. rewrite Ev. apply He in Hok as ->. reflexivity.
  - subst o. destruct (validate_total l b f Hs) as (e & Ev & He). rewrite Ev. apply He in Hok as ->. reflexivity.
Qed.
Lemma permitted_weaken f f' c : use_std3 f' = use_std3 f -> transitional f' = false -> permitted_f f c -> permitted_f f' c.
Proof. unfold permitted_f. intros -> -> [H|[[_ H]|H]]; auto. Qed.
Lemma label_ok_valid f b l : label_ok f b l -> ~ In 0x2E l -> valid_label (use_std3 f) l.
Proof.
  intros [->|(H1 & H2 & H3 & H4 & H5 & H6)] Hd.
  - split; [reflexivity|]. split; [discriminate|]. split; [intros a; destruct a; discriminate|]. split; [discriminate|].
    split; [constructor|intros []].
  - split; [rewrite nfc_eq; f_equal; exact H1|]. split; [assumption|]. split; [assumption|]. split; [assumption|].
    split; [|assumption]. eapply Forall_impl; [|exact H5]. intros c. unfold permitted_f, permitted. tauto.
Qed.

(** ** The whole domain *)
Record processed (d : str) (f : Flags) (m : str) (em : list Error) (b : bool) (outs : list str) (es : list Error) : Prop := {
  pr_map : map_all d f = Ret (m, em);
  pr_map_scalar : Forall scalar m;
  pr_map_len : (length m <= 18 * length d)%nat;
  pr_bidi : (if has_rtl_char d then Ret true else bidi_labels (split_dot (C false m))) = Ret b;
  pr_each : each (process_label b f) (split_dot (C false m)) = Ret (outs, es);
  pr_labels : labels_of (join_dot outs) outs;
  pr_scalar : Forall (Forall scalar) outs;
  pr_split : Forall (Forall scalar) (split_dot (C false m)) }.

Lemma split_scalar s : Forall scalar s -> Forall (Forall scalar) (split_dot s).
Proof.
  rewrite Forall_forall. intros H. apply Forall_forall. intros l Hl. apply Forall_forall. intros c Hc. apply H. now apply (split_in s l).
Qed.
Lemma processing_inv d f u e : Forall scalar d -> processing d f = Ret (u, e) ->
  exists m em b outs es, processed d f m em b outs es /\ u = join_dot outs /\ e = em ++ es.
Proof.
  intros Hd H. unfold processing in H. destruct (map_all_total d f Hd) as (m & em & Em & Hm & Hlen).
  rewrite Em in H. cbn [obind fst snd] in H. rewrite nfc__eq in H. cbn [obind] in H.
  bind H b Eb. bind H v Ev. injection H as <- <-. destruct v as [outs es]. cbn [fst snd].
  pose proof (split_scalar (C false m) (C_scalar false m Hm)) as Hsp.
  destruct (labels_no_dot _ _ (split_labels (C false m))) as [Hnd Hne].
  destruct (each_inv _ _ _ _ Ev) as [H1 H2].
  exists m, em, b, outs, es. split; [|split; reflexivity].
  assert (Forall (fun o => Forall scalar o /\ ~ In 0x2E o) outs) as Ho.
  { apply Forall_forall. intros o Ho. destruct (Forall2_in_r _ _ _ H1 o Ho) as (l & Hl & el & El).
    rewrite Forall_forall in Hsp, Hnd. apply (process_label_chars b f l o el El); auto. }
  constructor; try assumption.
  - apply join_labels; [now apply (Forall2_nonempty _ _ _ H1)|]. eapply Forall_impl; [|exact Ho]. cbv beta. tauto.
  - eapply Forall_impl; [|exact Ho]. cbv beta. tauto.
Qed.
Lemma processed_eq d f m em b outs es : processed d f m em b outs es -> processing d f = Ret (join_dot outs, em ++ es).
Proof.
  intros [H1 _ _ H2 H3 _ _ _]. unfold processing. rewrite H1. cbn [obind fst snd]. rewrite nfc__eq. cbn [obind].
  rewrite H2. cbn [obind]. rewrite H3. reflexivity.
Qed.
Lemma processed_outs d f m em b outs : processed d f m em b outs [] ->
  Forall2 (fun l o => process_label b f l = Ret (o, [])) (split_dot (C false m)) outs.
Proof. intros H. destruct (each_inv _ _ _ _ (pr_each _ _ _ _ _ _ _ H)) as [_ G]. now apply G. Qed.
Lemma processed_valid d f m em b outs : processed d f m em b outs [] -> Forall (valid_label (use_std3 f)) outs.
Proof.
  intros H. pose proof (processed_outs _ _ _ _ _ _ H) as H2. apply Forall_forall. intros o Ho.
  destruct (Forall2_in_r _ _ _ H2 o Ho) as (l & Hl & El).
  pose proof (pr_split _ _ _ _ _ _ _ H) as Hsp. rewrite Forall_forall in Hsp.
  destruct (process_label_ok _ _ _ _ El (Hsp l Hl)) as [G _].
  destruct (labels_no_dot _ _ (pr_labels _ _ _ _ _ _ _ H)) as [Hnd _]. rewrite Forall_forall in Hnd.
  pose proof (label_ok_valid _ _ _ G (Hnd o Ho)) as V. unfold flags_for in V. destruct (strip_prefix _ l); exact V.
Qed.

(** ** Converting to ASCII *)
Lemma ascii_forallb u : forallb is_ascii u = true <-> Forall (fun c => c < 128) u.
Proof. rewrite forallb_forall, Forall_forall. unfold is_ascii. split; intros H c Hc; specialize (H c Hc); lia. Qed.
Lemma ascii_label_chars checked o x e : ascii_label checked o = Ret (x, e) -> ~ In 0x2E o -> Forall plain x.
Proof.
  unfold ascii_label. intros H Hd. destruct (forallb is_ascii o) eqn:Ea.
  - injection H as <- _. apply ascii_forallb in Ea. rewrite Forall_forall in *. intros c Hc. split; [now apply Ea|]. intros ->. contradiction.
  - bind H p Ep. destruct p as [p|]; injection H as <- _; [|constructor].
    repeat (apply Forall_cons; [unfold plain; lia|]). now apply (encode_plain checked o).
Qed.
Lemma ascii_label_ok checked o x : ascii_label checked o = Ret (x, []) -> Forall scalar o -> len o <= U32_MAX -> a_label o x.
Proof.
  unfold ascii_label, a_label. intros H Hs Hlen. destruct (forallb is_ascii o) eqn:Ea.
  - injection H as <-. left. split; [now apply ascii_forallb|reflexivity].
  - right. split; [intros G; apply ascii_forallb in G; congruence|]. bind H p Ep. destruct p as [p|]; [|discriminate H].
    injection H as <-. pose proof (encode_spec checked o Hs Hlen) as He. rewrite Ep in He. destruct He as (tr & He & _).
    exists p, tr. split; [assumption|reflexivity].
Qed.

Record asciied (checked : bool) (outs : list str) (xs : list str) (es : list Error) : Prop := {
  as_each : each (ascii_label checked) outs = Ret (xs, es);
  as_labels : labels_of (join_dot xs) xs;
  as_plain : Forall (Forall plain) xs }.
Lemma to_ascii_inv checked d f r : Forall scalar d -> to_ascii checked d f = Ret r ->
  exists m em b outs es xs es2, processed d f m em b outs es /\ asciied checked outs xs es2 /\
    r = match (em ++ es) ++ es2 ++ (if verify_dns f then dns_errors (join_dot xs) else []) with
        | [] => inl (join_dot xs) | e => inr e end.
Proof.
  intros Hd H. unfold to_ascii in H. destruct (processing d f) as [[u e]|] eqn:Ep; [|discriminate H].
  cbn [obind fst snd] in H. destruct (processing_inv _ _ _ _ Hd Ep) as (m & em & b & outs & es & Hp & -> & ->).
  pose proof (pr_labels _ _ _ _ _ _ _ Hp) as Hl. rewrite (labels_split _ _ Hl) in H. bind H v Ev. destruct v as [xs es2].
  cbn [fst snd] in H. injection H as <-. exists m, em, b, outs, es, xs, es2.
  split; [assumption|]. split; [|destruct ((em ++ es) ++ _); reflexivity].
  destruct (labels_no_dot _ _ Hl) as [Hnd Hne]. destruct (each_inv _ _ _ _ Ev) as [H1 _].
  assert (Forall (Forall plain) xs) as Hpl.
  { apply Forall_forall. intros x Hx. destruct (Forall2_in_r _ _ _ H1 x Hx) as (o & Ho & e & Ee).
    rewrite Forall_forall in Hnd. apply (ascii_label_chars checked o x e Ee). now apply Hnd. }
  constructor; [assumption| |assumption]. apply join_labels; [now apply (Forall2_nonempty _ _ _ H1)|].
  eapply Forall_impl; [|exact Hpl]. cbv beta. intros x Hx Hin. rewrite Forall_forall in Hx. now apply (Hx 0x2E).
Qed.
Lemma to_ascii_ok checked d f a : Forall scalar d -> to_ascii checked d f = Ret (inl a) ->
  exists m b outs xs, processed d f m [] b outs [] /\ asciied checked outs xs [] /\ a = join_dot xs /\
    (verify_dns f = true -> dns_errors a = []).
Proof.
  intros Hd H. destruct (to_ascii_inv _ _ _ _ Hd H) as (m & em & b & outs & es & xs & es2 & Hp & Ha & E).
  destruct ((em ++ es) ++ es2 ++ _) eqn:El; [|discriminate E]. injection E as ->.
  apply app_eq_nil in El as [E1 E2]. apply app_eq_nil in E1 as [-> ->]. apply app_eq_nil in E2 as [-> E2].
  exists m, b, outs, xs. split; [assumption|]. split; [assumption|]. split; [reflexivity|]. intros Hv. now rewrite Hv in E2.
Qed.
Lemma asciied_forall2 checked outs xs : asciied checked outs xs [] -> Forall2 (fun o x => ascii_label checked o = Ret (x, [])) outs xs.
Proof. intros H. destruct (each_inv _ _ _ _ (as_each _ _ _ _ H)) as [_ G]. now apply G. Qed.
Lemma to_ascii_intro checked d f m b outs xs : processed d f m [] b outs [] -> asciied checked outs xs [] ->
  (verify_dns f = true -> dns_errors (join_dot xs) = []) -> to_ascii checked d f = Ret (inl (join_dot xs)).
Proof.
  intros Hp Ha Hv. unfold to_ascii. rewrite (processed_eq _ _ _ _ _ _ _ Hp). cbn [obind fst snd].
  rewrite (labels_split _ _ (pr_labels _ _ _ _ _ _ _ Hp)), (as_each _ _ _ _ Ha). cbn [obind fst snd app].
  destruct (verify_dns f); [|reflexivity]. now rewrite Hv.
Qed.

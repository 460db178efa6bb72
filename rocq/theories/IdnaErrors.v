(** The text and the errors of names that are not accepted. *)
From Coq Require Import List NArith ZArith Lia Bool ZifyBool ZifyNat ZifyN.
From Verif Require Import Base Enums EnumFacts TableTypes UcdModel UcdLemmas NormModel NormSpec NormAlgebra NormRecomp
  PunyModel PunySpec PunyProofs PunyDecode PunyLemmas IdnaModel IdnaSpec IdnaErrorSpec IdnaTables IdnaProofs IdnaProcess IdnaLemmas.
Import ListNotations.
Open Scope N_scope.

(** ** Mapping *)
Definition char_error (std3 : bool) (d : str) (e : Error) : Prop :=
  (e = DisallowedCharacter /\ exists c, In c d /\ mapping_of c = Ret IM_Disallowed) \/
  (e = DisallowedByStd3AsciiRules /\ std3 = true /\ exists c, In c d /\ mapping_of c = Ret IM_DisallowedStd3Valid) \/
  (e = DisallowedMappedInStd3 /\ std3 = true /\ exists c s, In c d /\ mapping_of c = Ret (IM_DisallowedStd3Mapped s)).
Lemma char_error_app std3 a b e : char_error std3 (a ++ b) e <-> char_error std3 a e \/ char_error std3 b e.
Proof.
  unfold char_error. setoid_rewrite in_app_iff. split.
  - intros [(E & c & [I|I] & M)|[(E & T & c & [I|I] & M)|(E & T & c & s & [I|I] & M)]]; [left|right|left|right|left|right]; eauto 10.
  - intros [[(E & c & I & M)|[(E & T & c & I & M)|(E & T & c & s & I & M)]]|[(E & c & I & M)|[(E & T & c & I & M)|(E & T & c & s & I & M)]]]; eauto 12.
Qed.
Lemma map_char_text c f t es : map_char c f = Ret (t, es) ->
  char_text (transitional f) c t /\ forall e, In e es <-> char_error (use_std3 f) [c] e.
Proof.
  unfold map_char, char_text, char_error. destruct (mapping_of c) as [m|] eqn:E; cbn [obind]; [|discriminate].
  intros H. injection H as H.
  assert (forall x, (exists c0, In c0 [c] /\ mapping_of c0 = Ret x) <-> m = x) as G.
  { intros x. split; [intros (c0 & [<-|[]] & M); rewrite E in M; now injection M|]. intros <-. exists c. split; [now left|exact E]. }
  assert ((exists c0 s, In c0 [c] /\ mapping_of c0 = Ret (IM_DisallowedStd3Mapped s)) <-> exists s, m = IM_DisallowedStd3Mapped s) as G2.
  { split; [intros (c0 & s & [<-|[]] & M); rewrite E in M; injection M; eauto|]. intros (s & ->). exists c, s. split; [now left|exact E]. }
  split; [|intros e; rewrite !G, G2]; destruct m; try destruct (transitional f); try destruct (use_std3 f); injection H as <- <-; auto; cbn [In];
    (split; [intros X; repeat destruct X as [X|X]; try contradiction; subst; eauto 9|
     intros [[-> X]|[(-> & Y & X)|(-> & Y & s' & X)]]; try discriminate X; try discriminate Y; auto]).
Qed.
Lemma map_all_text f : forall d m em, map_all d f = Ret (m, em) ->
  (exists ts, Forall2 (char_text (transitional f)) d ts /\ m = concat ts) /\ forall e, In e em <-> char_error (use_std3 f) d e.
Proof.
  induction d as [|c d IH]; intros m em H; cbn [map_all] in H.
  - injection H as <- <-. split; [exists []; split; [constructor|reflexivity]|]. intros e. split; [intros []|].
    intros [(_ & c & [] & _)|[(_ & _ & c & [] & _)|(_ & _ & c & s & [] & _)]].
  - bind H a Ea. bind H b Eb. destruct a as [t e1], b as [m2 e2]. cbn [fst snd] in H. injection H as <- <-.
    destruct (map_char_text _ _ _ _ Ea) as [T1 G1]. destruct (IH _ _ eq_refl) as [(ts & T2 & ->) G2]. split.
    + exists (t :: ts). split; [constructor; assumption|reflexivity].
    + intros e. rewrite in_app_iff, G1, G2. rewrite <- (char_error_app _ [c] d). reflexivity.
Qed.
Lemma char_text_fun tr c t t' : char_text tr c t -> char_text tr c t' -> t = t'.
Proof. unfold char_text. destruct (mapping_of c) as [m|]; [|contradiction]. destruct m; congruence. Qed.
Lemma Forall2_fun {A B} (R : A -> B -> Prop) : (forall x y y', R x y -> R x y' -> y = y') ->
  forall l m m', Forall2 R l m -> Forall2 R l m' -> m = m'.
Proof.
  intros F l m m' H. revert m'. induction H as [|x y l m H H1 IH]; intros m' H'; inversion H' as [|? y' ? m2 X Y]; subst; [reflexivity|].
  f_equal; [now apply (F x)|now apply IH].
Qed.
Lemma mapped_labels_fun tr d ls ls' : mapped_labels tr d ls -> mapped_labels tr d ls' -> ls = ls'.
Proof.
  intros (ts & n & T & En & L) (ts' & n' & T' & En' & L').
  rewrite (Forall2_fun _ (char_text_fun tr) _ _ _ T' T), En in En'. injection En' as <-.
  apply labels_split in L, L'. congruence.
Qed.
Lemma label_converts_fun l u u' : label_converts l u -> label_converts l u' -> u = u'.
Proof. rewrite !label_converts_iff. destruct (strip_prefix PUNYCODE_PREFIX l); congruence. Qed.
Lemma label_text_iff l u : label_text l u <->
  match strip_prefix PUNYCODE_PREFIX l with
  | Some p => decode p = Ret (Some u) \/ (decode p = Ret None /\ u = [])
  | None => u = l
  end.
Proof.
  unfold label_text. rewrite label_converts_iff. destruct (strip_prefix PUNYCODE_PREFIX l) as [p|] eqn:Ep.
  - apply strip_prefix_some in Ep. split; (intros [H|H]; [now left|right]).
    + destruct H as (p' & E & X). assert (p' = p) as -> by (rewrite Ep in E; injection E as E; now symmetry). assumption.
    + exists p. split; assumption.
  - rewrite strip_prefix_none in Ep. split; [intros [H|(p & E & _)]; [assumption|now apply Ep in E]|]. intros ->. now left.
Qed.

(** ** Labels *)
Lemma bidi_labels_exact ls b : bidi_labels ls = Ret b ->
  (b = true <-> exists p, In (PUNYCODE_PREFIX ++ p) ls /\ (decode p = Ret None \/ exists u, decode p = Ret (Some u) /\ Exists rtl_char u)).
Proof.
  revert b. induction ls as [|l ls IH]; intros b H; cbn [bidi_labels] in H.
  - injection H as <-. split; [discriminate|]. intros (p & [] & _).
  - bind H b1 E1. bind H b2 E2. injection H as <-. rewrite orb_true_iff, (IH b2 eq_refl).
    assert (b1 = true <-> exists p, l = PUNYCODE_PREFIX ++ p /\ (decode p = Ret None \/ exists u, decode p = Ret (Some u) /\ Exists rtl_char u)) as ->.
    { destruct (strip_prefix PUNYCODE_PREFIX l) as [p|] eqn:Ep.
      - apply strip_prefix_some in Ep as ->. destruct (decode p) as [o|] eqn:Ed; [|discriminate E1]. cbn [obind] in E1. injection E1 as <-.
        assert (forall q, PUNYCODE_PREFIX ++ p = PUNYCODE_PREFIX ++ q -> p = q) as Inj by (intros q X; now apply app_inv_head in X). split.
        + intros X. exists p. split; [reflexivity|]. destruct o as [u|]; [right|now left]. exists u. split; [assumption|]. now apply has_rtl_true.
        + intros (q & X & Y). apply Inj in X as <-. rewrite Ed in Y. destruct Y as [Y|(u & Y & Z)]; [now injection Y as ->|].
          injection Y as ->. now apply has_rtl_true.
      - injection E1 as <-. rewrite strip_prefix_none in Ep. split; [discriminate|]. intros (p & X & _). now apply Ep in X. }
    split.
    + intros [(p & -> & X)|(p & I & X)]; exists p; (split; [|assumption]); [now left|now right].
    + intros (p & [->|I] & X); [left|right]; exists p; auto.
Qed.
Lemma processed_bidi d f m em b outs es : processed d f m em b outs es -> (b = true <-> bidi_name d (split_dot (C false m))).
Proof.
  intros Hp. pose proof (pr_bidi _ _ _ _ _ _ _ Hp) as E. unfold bidi_name. destruct (has_rtl_char d) eqn:Er.
  - injection E as <-. split; [intros _; left; now apply has_rtl_true|reflexivity].
  - apply bidi_labels_exact in E. rewrite E. split; [now right|]. intros [X|X]; [now apply has_rtl_dec in X|assumption].
Qed.
Lemma validate_errors l b f es : validate l b f = Ret es -> forall e, In e es -> e = ValidityCriteria.
Proof.
  unfold validate. destruct l as [|c0 r]; [intros [= <-] e []|]. intros H.
  assert (es = [] \/ es = [ValidityCriteria]) as [-> | ->]; [|intros e []|intros e [<-|[]]; reflexivity].
  bind H n En. destruct (negb _); [injection H; auto|]. destruct (_ || _); [injection H; auto|].
  destruct (is_combining_mark_table c0); [injection H; auto|]. bind H bad Eb. destruct bad; [injection H; auto|].
  destruct (negb _); injection H; auto.
Qed.
Lemma nonempty_in (es : list Error) e0 : (forall e, In e es -> e = e0) -> (In e0 es <-> es <> []).
Proof. destruct es as [|e es]; [cbn; tauto|]. intros H. split; [discriminate|]. intros _. left. apply H. now left. Qed.
(** The text and the errors of one label. *)
Lemma process_label_exact b f l o es : process_label b f l = Ret (o, es) -> Forall scalar l ->
  label_text l o /\
  (In PunycodeError es <-> exists p, l = PUNYCODE_PREFIX ++ p /\ decode p = Ret None) /\
  (In ValidityCriteria es <-> exists u, label_converts l u /\ ~ label_ok (flags_for f l) b u) /\
  (forall e, In e es -> e = PunycodeError \/ e = ValidityCriteria).
Proof.
  intros H Hs. rewrite label_text_iff. setoid_rewrite label_converts_iff. unfold process_label in H. unfold flags_for.
  destruct (strip_prefix PUNYCODE_PREFIX l) as [p|] eqn:Ep.
  - apply strip_prefix_some in Ep as ->. apply Forall_app in Hs as [_ Hs]. bind H oo Eo.
    assert (forall q, PUNYCODE_PREFIX ++ p = PUNYCODE_PREFIX ++ q -> p = q) as Inj by (intros q X; now apply app_inv_head in X).
    destruct oo as [s|].
    + bind H e Ev. injection H as <- <-. destruct (validate_total s b (no_trans f) (decode_scalars _ _ Hs Eo)) as (e' & Ev' & He).
      unfold no_trans in Ev'. rewrite Ev in Ev'. injection Ev' as <-. pose proof (validate_errors _ _ _ _ Ev) as Hv.
      split; [now left|]. split; [|split].
      * split; [intros I; discriminate (Hv _ I)|]. intros (q & X & Y). apply Inj in X as <-. congruence.
      * rewrite (nonempty_in _ _ Hv). split.
        -- intros X. exists s. split; [reflexivity|]. intros Y. now apply He in Y.
        -- intros (u & X & Y) Z. injection X as <-. apply Y. now apply He.
      * intros e0 I. right. now apply Hv.
    + injection H as <- <-. split; [right; now split|]. split; [|split].
      * split; [intros _; exists p; now split|]. intros _. now left.
      * split; [intros [X|[]]; discriminate X|]. intros (u & X & _). discriminate X.
      * intros e [<-|[]]. now left.
  - bind H e Ev. injection H as <- <-. rewrite strip_prefix_none in Ep.
    destruct (validate_total l b f Hs) as (e' & Ev' & He). rewrite Ev in Ev'. injection Ev' as <-.
    pose proof (validate_errors _ _ _ _ Ev) as Hv. split; [reflexivity|]. split; [|split].
    + split; [intros I; discriminate (Hv _ I)|]. intros (q & X & _). now apply Ep in X.
    + rewrite (nonempty_in _ _ Hv). split.
      * intros X. exists l. split; [reflexivity|]. intros Y. now apply He in Y.
      * intros (u & -> & Y) Z. apply Y. now apply He.
    + intros e0 I. right. now apply Hv.
Qed.
Lemma each_exact {A} (step : A -> outcome (str * list Error)) : forall ls outs es, each step ls = Ret (outs, es) ->
  Forall2 (fun l o => exists e, step l = Ret (o, e)) ls outs /\
  (forall e, In e es <-> exists l o el, In l ls /\ step l = Ret (o, el) /\ In e el).
Proof.
  induction ls as [|l ls IH]; intros outs es H; cbn [each] in H.
  - injection H as <- <-. split; [constructor|]. intros e. split; [intros []|]. intros (l & o & el & [] & _).
  - bind H a Ea. bind H b Eb. injection H as <- <-. destruct a as [o e], b as [os es]. cbn [fst snd].
    destruct (IH os es eq_refl) as [H1 H2]. split; [constructor; [eauto|assumption]|].
    intros e0. rewrite in_app_iff, H2. split.
    + intros [I|(l' & o' & el & I & X)]; [exists l, o, e; split; [now left|now split]|exists l', o', el; split; [now right|assumption]].
    + intros (l' & o' & el & [<-|I] & X & Y); [left|right; eauto 7]. rewrite Ea in X. injection X as <- <-. assumption.
Qed.

(** ** Processing *)
Lemma processed_mapped d f m em b outs es : processed d f m em b outs es -> mapped_labels (transitional f) d (split_dot (C false m)).
Proof.
  intros Hp. destruct (map_all_text _ _ _ _ (pr_map _ _ _ _ _ _ _ Hp)) as [(ts & T & ->) _].
  exists ts, (C false (concat ts)). split; [assumption|]. split; [apply nfc_eq|apply split_labels].
Qed.
Lemma label_no_dot_converts l u : ~ In 0x2E l -> label_converts l u -> ~ In 0x2E u.
Proof.
  intros Hn [(p & -> & D)|[_ ->]]; [|assumption]. intros I. destruct (decode_chars _ _ D _ I) as [X|[_ X]]; [|lia].
  apply Hn. apply in_or_app. now right.
Qed.
Lemma processed_exact d f m em b outs es : processed d f m em b outs es ->
  unicode_labels (transitional f) d outs /\ forall e, In e (em ++ es) <-> name_error (use_std3 f) (transitional f) d e.
Proof.
  intros Hp. pose proof (processed_mapped _ _ _ _ _ _ _ Hp) as Hm. pose proof (processed_bidi _ _ _ _ _ _ _ Hp) as Hb.
  destruct (map_all_text _ _ _ _ (pr_map _ _ _ _ _ _ _ Hp)) as [_ Hc].
  destruct (each_exact _ _ _ _ (pr_each _ _ _ _ _ _ _ Hp)) as [H1 H2]. pose proof (pr_split _ _ _ _ _ _ _ Hp) as Hs.
  destruct (labels_no_dot _ _ (split_labels (C false m))) as [Hnd _]. rewrite Forall_forall in Hnd, Hs.
  assert (forall l u, In l (split_dot (C false m)) -> label_converts l u ->
    (label_ok (flags_for f l) b u <-> label_fine (use_std3 f) (transitional f) d (split_dot (C false m)) l u)) as Hok.
  { intros l u I X. rewrite label_ok_iff by (apply (label_no_dot_converts l); auto). unfold label_fine. rewrite Hb. reflexivity. }
  split.
  - exists (split_dot (C false m)). split; [assumption|]. eapply Forall2_and_map; [exact H1|]. intros l o Hl _ (e & E).
    apply (process_label_exact _ _ _ _ _ E (Hs l Hl)).
  - intros e. rewrite in_app_iff, Hc, H2. split.
    + intros [[(-> & c & I & M)|[(-> & T & c & I & M)|(-> & T & c & s & I & M)]]|(l & o & el & I & E & Ie)].
      * now apply err_disallowed with c.
      * now apply err_std3 with c.
      * now apply err_std3_mapped with c s.
      * destruct (process_label_exact _ _ _ _ _ E (Hs l I)) as (_ & P & V & K). destruct (K e Ie) as [-> | ->].
        -- apply P in Ie as (p & -> & D). now apply err_punycode with (split_dot (C false m)) p.
        -- apply V in Ie as (u & X & Y). apply err_validity with (split_dot (C false m)) l u; try assumption.
           intros Z. apply Y. now apply Hok.
    + intros [c I M|c T I M|c s T I M|ls p L I D|ls l u L I X Y]; unfold char_error; eauto 12.
      * right. rewrite (mapped_labels_fun _ _ _ _ L Hm) in I. pose proof I as I'.
        destruct (Forall2_in_l _ _ _ H1 _ I') as (o & _ & el & E).
        exists (PUNYCODE_PREFIX ++ p), o, el. split; [assumption|]. split; [assumption|].
        apply (process_label_exact _ _ _ _ _ E (Hs _ I)). exists p. now split.
      * right. rewrite (mapped_labels_fun _ _ _ _ L Hm) in I, Y. destruct (Forall2_in_l _ _ _ H1 _ I) as (o & _ & el & E).
        exists l, o, el. split; [assumption|]. split; [assumption|].
        apply (process_label_exact _ _ _ _ _ E (Hs _ I)). exists u. split; [assumption|]. intros Z. apply Y. now apply Hok.
Qed.
Lemma to_unicode_text d f u es : Forall scalar d -> to_unicode d f = Ret (u, es) ->
  (exists us, unicode_labels false d us /\ labels_of u us) /\ forall e, In e es <-> name_error (use_std3 f) false d e.
Proof.
  intros Hd H. rewrite to_unicode_no_trans in H. destruct (processing_inv _ _ _ _ Hd H) as (m & em & b & outs & es' & Hp & -> & ->).
  destruct (processed_exact _ _ _ _ _ _ _ Hp) as [G1 G2]. split; [|exact G2].
  exists outs. split; [exact G1|]. exact (pr_labels _ _ _ _ _ _ _ Hp).
Qed.
Lemma unicode_labels_fun tr d us us' : unicode_labels tr d us -> unicode_labels tr d us' -> us = us'.
Proof.
  intros (ls & L & H) (ls' & L' & H'). rewrite (mapped_labels_fun _ _ _ _ L' L) in H'. revert H H'. apply Forall2_fun.
  intros l u u'. rewrite !label_text_iff. destruct (strip_prefix PUNYCODE_PREFIX l) as [p|]; [|congruence].
  intros [X|[X ->]] [Y|[Y ->]]; congruence.
Qed.
Lemma to_unicode_flags d f f' u es u' es' : Forall scalar d -> to_unicode d f = Ret (u, es) -> to_unicode d f' = Ret (u', es') -> u = u'.
Proof.
  intros Hd H H'. destruct (to_unicode_text _ _ _ _ Hd H) as [(us & U & L) _]. destruct (to_unicode_text _ _ _ _ Hd H') as [(us' & U' & L') _].
  rewrite <- (unicode_labels_fun _ _ _ _ U U') in L'. apply labels_split in L, L'. apply (f_equal join_dot) in L, L'. rewrite join_split in L, L'. congruence.
Qed.
(** As in the standard, unless one of two errors is reported. *)
Lemma to_unicode_std d f u es : Forall scalar d -> to_unicode d f = Ret (u, es) ->
  ~ In PunycodeError es -> ~ In DisallowedMappedInStd3 es -> std_text (use_std3 f) false d u.
Proof.
  intros Hd H NP ND. destruct (to_unicode_text _ _ _ _ Hd H) as [(us & (ls & M & F) & L) G].
  pose proof M as (ts & n & T & En & Ln). exists ts, n, ls, us. split; [|split; [assumption|split; [assumption|split; [|assumption]]]].
  - eapply Forall2_and_map; [exact T|]. intros c t I _ X. unfold char_text, std_char_text in *.
    destruct (mapping_of c) as [mm|] eqn:E; [|assumption]. destruct mm; try assumption. destruct (use_std3 f) eqn:Es; [|assumption].
    exfalso. apply ND, G. now apply err_std3_mapped with c s.
  - eapply Forall2_and_map; [exact F|]. intros l o I _ [X|(p & E & D & ->)]; [now left|]. exfalso. apply NP, G.
    rewrite E in I. now apply err_punycode with ls p.
Qed.

(** ** ASCII *)
Lemma rootless_iff a a' : rootless a a' <-> a' = if last_is DOT a then removelast a else a.
Proof.
  unfold rootless. destruct (last_is DOT a) eqn:E.
  - apply last_is_true in E as (b & ->). rewrite removelast_last. split.
    + intros [X|[_ X]]; [now apply app_inj_tail in X as [-> _]|now destruct (X b)].
    + intros ->. now left.
  - assert (forall b, a <> b ++ [0x2E]) as N by (intros b X; assert (last_is DOT a = true) by (apply last_is_true; eauto); congruence).
    split; [intros [X|[X _]]; [now apply N in X|now symmetry]|]. intros ->. right. now split.
Qed.
Lemma dns_errors_exact a : Forall (fun c => c < 128) a -> forall e, In e (dns_errors a) <-> dns_error a e.
Proof.
  intros Ha e. unfold dns_errors. set (s := if last_is DOT a then removelast a else a).
  assert (forall a', rootless a a' <-> a' = s) as R by (intros a'; apply rootless_iff).
  assert (Forall (fun c => c < 128) s) as Hs.
  { pose proof (proj2 (R s) eq_refl) as [X|[X _]]; [|now rewrite <- X]. rewrite X in Ha. now apply Forall_app in Ha as [Ha _]. }
  clearbody s.
  assert (forall l, In l (split_dot s) -> str_bytes l = len l) as Hb.
  { intros l Hl. apply ascii_bytes. apply Forall_forall. intros c Hc. rewrite Forall_forall in Hs. apply Hs. now apply (split_in s l). }
  assert (is_empty s || existsb is_empty (split_dot s) = true <-> In [] (split_dot s)) as E1.
  { rewrite orb_true_iff, existsb_exists. split.
    - intros [X|(l & I & X)]; [destruct s; [now left|discriminate X]|]. destruct l; [assumption|discriminate X].
    - intros I. right. exists []. now split. }
  assert ((253 <? str_bytes s) || existsb (fun l => 63 <? str_bytes l) (split_dot s) = true <->
          253 < len s \/ exists l, In l (split_dot s) /\ 63 < len l) as E2.
  { rewrite orb_true_iff, existsb_exists, (ascii_bytes s Hs), N.ltb_lt. split; (intros [X|(l & I & X)]; [now left|right; exists l; split; [assumption|]]);
      rewrite (Hb l I) in *; now apply N.ltb_lt. }
  rewrite in_app_iff. split.
  - intros [X|X].
    + destruct (is_empty s || existsb is_empty (split_dot s)); [|destruct X]. destruct X as [<-|[]].
      apply err_short with s (split_dot s); [now apply R|apply split_labels|now apply E1].
    + destruct ((253 <? str_bytes s) || existsb (fun l => 63 <? str_bytes l) (split_dot s)); [|destruct X]. destruct X as [<-|[]].
      destruct (proj1 E2 eq_refl) as [X|(l & I & X)].
      * apply err_long_name with s; [now apply R|exact X].
      * apply err_long_label with s (split_dot s) l; [now apply R|apply split_labels|assumption|exact X].
  - intros [a' ls Hr L I|a' Hr X|a' ls l Hr L I X]; apply R in Hr as ->.
    + left. apply labels_split in L. rewrite (proj2 E1); [now left|]. now rewrite L.
    + right. rewrite (proj2 E2); [now left|]. now left.
    + right. apply labels_split in L. rewrite (proj2 E2); [now left|]. right. exists l. rewrite L. now split.
Qed.
Lemma ascii_label_exact checked u x es : ascii_label checked u = Ret (x, es) ->
  ascii_text checked u x /\ forall e, In e es <-> e = PunycodeError /\ ~ Forall (fun c => c < 128) u /\ encode checked u = Ret None.
Proof.
  unfold ascii_label, ascii_text. intros H. destruct (forallb is_ascii u) eqn:Ea.
  - injection H as <- <-. apply ascii_forallb in Ea. split; [left; now split|]. intros e. split; [intros []|]. intros (_ & X & _). contradiction.
  - assert (~ Forall (fun c => c < 128) u) as N by (intros G; apply ascii_forallb in G; congruence).
    bind H p Ep. destruct p as [p|]; injection H as <- <-.
    + split; [right; split; [assumption|left; eauto]|]. intros e. split; [intros []|]. intros (_ & _ & X). discriminate X.
    + split; [right; split; [assumption|now right]|]. intros e. split; [intros [<-|[]]; auto|]. intros (-> & _). now left.
Qed.
Lemma to_ascii_errors checked d f es : Forall scalar d -> to_ascii checked d f = Ret (inr es) ->
  es <> [] /\ exists us xs a, unicode_labels (transitional f) d us /\ Forall2 (ascii_text checked) us xs /\ labels_of a xs /\
  forall e, In e es <-> name_error (use_std3 f) (transitional f) d e \/
    (e = PunycodeError /\ exists u, In u us /\ ~ Forall (fun c => c < 128) u /\ encode checked u = Ret None) \/
    (verify_dns f = true /\ dns_error a e).
Proof.
  intros Hd H. destruct (to_ascii_inv _ _ _ _ Hd H) as (m & em & b & outs & es1 & xs & es2 & Hp & Ha & E).
  assert (es = (em ++ es1) ++ es2 ++ (if verify_dns f then dns_errors (join_dot xs) else []) /\ es <> []) as [-> Hne].
  { destruct ((em ++ es1) ++ es2 ++ _); [discriminate E|]. injection E as ->. split; [reflexivity|discriminate]. }
  split; [assumption|]. clear E Hne H. destruct (processed_exact _ _ _ _ _ _ _ Hp) as [G1 G2].
  destruct (each_exact _ _ _ _ (as_each _ _ _ _ Ha)) as [H1 H2]. exists outs, xs, (join_dot xs).
  split; [assumption|]. split; [|split; [exact (as_labels _ _ _ _ Ha)|]].
  - eapply Forall2_and_map; [exact H1|]. intros u x _ _ (e & E). apply (ascii_label_exact _ _ _ _ E).
  - intros e. rewrite in_app_iff, G2, in_app_iff, H2.
    assert ((exists l o el, In l outs /\ ascii_label checked l = Ret (o, el) /\ In e el) <->
      (e = PunycodeError /\ exists u, In u outs /\ ~ Forall (fun c => c < 128) u /\ encode checked u = Ret None)) as ->.
    { split.
      - intros (l & o & el & I & X & Y). apply (ascii_label_exact _ _ _ _ X) in Y as (-> & Y & Z). split; [reflexivity|]. exists l. auto.
      - intros (-> & u & I & X & Y). destruct (Forall2_in_l _ _ _ H1 _ I) as (o & _ & el & Z). exists u, o, el. split; [assumption|].
        split; [assumption|]. apply (ascii_label_exact _ _ _ _ Z). auto. }
    assert (In e (if verify_dns f then dns_errors (join_dot xs) else []) <-> verify_dns f = true /\ dns_error (join_dot xs) e) as ->.
    { destruct (verify_dns f); [|split; [intros []|intros [X _]; discriminate X]].
      rewrite (dns_errors_exact _ (join_ascii xs (as_plain _ _ _ _ Ha))). tauto. }
    reflexivity.
Qed.

(** ** Where the text is not that of the standard *)
Lemma to_unicode_std_puny : exists d f u es, Forall scalar d /\ to_unicode d f = Ret (u, es) /\ ~ std_text (use_std3 f) false d u.
Proof.
  exists [0x78; 0x6E; 0x2D; 0x2D; 0xE9], (mkFlags true false true), [], [PunycodeError].
  split; [repeat (constructor; [unfold scalar; lia|]); constructor|]. split; [vm_compute; reflexivity|].
  intros (ts & n & ls & us & T & En & L & F & U).
  assert (ts = [[0x78]; [0x6E]; [0x2D]; [0x2D]; [0xE9]]) as ->.
  { repeat match goal with H : Forall2 _ (_ :: _) _ |- _ => inversion H; clear H; subst | H : Forall2 _ [] _ |- _ => inversion H; clear H; subst end.
    repeat match goal with H : std_char_text _ _ ?c ?t |- _ => assert (t = [c]) as -> by (clear - H; unfold std_char_text in H; revert H;
      let m := eval vm_compute in (mapping_of c) in change (mapping_of c) with m; auto); clear H end. reflexivity. }
  assert (nfc [0x78; 0x6E; 0x2D; 0x2D; 0xE9] = Some [0x78; 0x6E; 0x2D; 0x2D; 0xE9]) as E2 by (vm_compute; reflexivity).
  change (concat [[0x78]; [0x6E]; [0x2D]; [0x2D]; [0xE9]]) with [0x78; 0x6E; 0x2D; 0x2D; 0xE9] in En. rewrite E2 in En. clear E2. injection En as <-.
  apply labels_split in L. change (split_dot [0x78; 0x6E; 0x2D; 0x2D; 0xE9]) with [[0x78; 0x6E; 0x2D; 0x2D; 0xE9]] in L. subst ls.
  apply labels_split in U. change (split_dot []) with [@nil N] in U. subst us. inversion F as [|? ? ? ? X _]; subst. destruct X as [X|(p & _ & _ & X)]; [|discriminate X].
  apply label_converts_iff in X. vm_compute in X. discriminate X.
Qed.
Lemma to_unicode_std_std3 : exists d f u es, Forall scalar d /\ to_unicode d f = Ret (u, es) /\ ~ In PunycodeError es /\ ~ std_text (use_std3 f) false d u.
Proof.
  exists [0x2474], (mkFlags true false true), [0x28; 0x31; 0x29], [DisallowedMappedInStd3; ValidityCriteria].
  split; [constructor; [unfold scalar; lia|constructor]|]. split; [vm_compute; reflexivity|].
  split; [intros [X|[X|[]]]; discriminate X|].
  intros (ts & n & ls & us & T & En & L & F & U). inversion T as [|? t ? ? X Y]; subst. inversion Y; subst.
  assert (t = [0x2474]) as -> by (clear - X; unfold std_char_text in X; revert X; 
    let m := eval vm_compute in (mapping_of 0x2474) in change (mapping_of 0x2474) with m; auto).
  assert (nfc [0x2474] = Some [0x2474]) as E2 by (vm_compute; reflexivity).
  change (concat [[0x2474]]) with [0x2474] in En. rewrite E2 in En. clear E2. injection En as <-.
  apply labels_split in L. change (split_dot [0x2474]) with [[0x2474]] in L. subst ls.
  apply labels_split in U. change (split_dot [0x28; 0x31; 0x29]) with [[0x28; 0x31; 0x29]] in U. subst us. inversion F as [|? ? ? ? Z _]; subst.
  destruct Z as [Z|(p & Z & _)]; [|discriminate Z]. apply label_converts_iff in Z. vm_compute in Z. discriminate Z.
Qed.

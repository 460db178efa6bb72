(** Lemmas behind the IDNA properties. *)
From Coq Require Import List NArith ZArith Lia Bool Permutation ZifyBool ZifyNat ZifyN.
From Verif Require Import Base Enums EnumFacts TableTypes UcdModel UcdLemmas HangulModel HangulSpec NormModel NormSpec NormOrder NormBubble NormTables NormIter NormRecomp NormAlgebra
  PunyModel PunySpec PunyProofs PunyDecode PunyEncode PunyLemmas IdnaModel IdnaSpec IdnaTables IdnaProofs IdnaProcess.
Import ListNotations.
Open Scope N_scope.

(** 324 times this many characters still fit in 32 bits. *)
Definition LONGEST : N := 13256071.

(** ** C23 *)
Lemma join_ascii xs : Forall (Forall plain) xs -> Forall (fun c => c < 128) (join_dot xs).
Proof.
  induction 1 as [|x xs Hx H IH]; cbn [join_dot]; [constructor|].
  assert (Forall (fun c => c < 128) x) as Hx' by (eapply Forall_impl; [|exact Hx]; unfold plain; cbv beta; tauto).
  destruct xs as [|y ys]; [assumption|]. apply Forall_app. split; [assumption|]. constructor; [unfold DOT; lia|assumption].
Qed.
Lemma to_ascii_ascii checked d f a : Forall scalar d -> to_ascii checked d f = Ret (inl a) -> Forall (fun c => c < 128) a.
Proof.
  intros Hd H. destruct (to_ascii_ok _ _ _ _ Hd H) as (m & b & outs & xs & Hp & Ha & -> & _).
  exact (join_ascii xs (as_plain _ _ _ _ Ha)).
Qed.

Lemma processed_lens d f m em b outs es : processed d f m em b outs es -> len d <= LONGEST ->
  Forall (fun l => len l <= U32_MAX) (split_dot (C false m)) /\ Forall (fun o => len o <= U32_MAX) outs.
Proof.
  intros H Hl. pose proof (pr_map_len _ _ _ _ _ _ _ H) as Hm. pose proof (C_length false m) as Hc.
  assert (len (C false m) <= U32_MAX) as HC by (unfold len, LONGEST, U32_MAX in *; lia).
  assert (Forall (fun l => len l <= U32_MAX) (split_dot (C false m))) as H1.
  { apply Forall_forall. intros l Hin. pose proof (labels_len _ _ (split_labels (C false m)) l Hin). lia. }
  split; [assumption|]. destruct (each_inv _ _ _ _ (pr_each _ _ _ _ _ _ _ H)) as [G _].
  apply Forall_forall. intros o Ho. destruct (Forall2_in_r _ _ _ G o Ho) as (l & Hin & e & E).
  rewrite Forall_forall in H1. specialize (H1 l Hin). unfold process_label in E.
  destruct (strip_prefix PUNYCODE_PREFIX l) as [p|] eqn:Ep.
  - apply strip_prefix_some in Ep as ->. rewrite len_app in H1. bind E o' Eo. destruct o' as [s|].
    + bind E e' Ee. injection E as <- _. apply decode_len in Eo; lia.
    + injection E as <- _. change (len []) with 0. lia.
  - bind E e' Ee. injection E as <- _. assumption.
Qed.

Lemma to_unicode_no_trans d f : to_unicode d f = processing d (no_trans f).
Proof. reflexivity. Qed.
(** Length verification plays no role in processing. *)
Lemma not_permitted_dns f f' c : use_std3 f = use_std3 f' -> transitional f = transitional f' -> not_permitted f c = not_permitted f' c.
Proof. unfold not_permitted. intros -> ->. reflexivity. Qed.
Lemma any_not_permitted_dns f f' s : use_std3 f = use_std3 f' -> transitional f = transitional f' -> any_not_permitted f s = any_not_permitted f' s.
Proof.
  intros H1 H2. induction s as [|c s IH]; cbn [any_not_permitted]; [reflexivity|].
  now rewrite (not_permitted_dns f f' c H1 H2), IH.
Qed.
Lemma validate_dns f f' l b : use_std3 f = use_std3 f' -> transitional f = transitional f' -> validate l b f = validate l b f'.
Proof. intros H1 H2. unfold validate. destruct l as [|c l]; [reflexivity|]. now rewrite (any_not_permitted_dns f f' _ H1 H2). Qed.
Lemma processing_dns f f' d : use_std3 f = use_std3 f' -> transitional f = transitional f' -> processing d f = processing d f'.
Proof.
  intros H1 H2. unfold processing.
  assert (map_all d f = map_all d f') as ->.
  { induction d as [|c d IH]; cbn [map_all]; [reflexivity|]. rewrite IH. unfold map_char. now rewrite H1, H2. }
  destruct (map_all d f') as [[m em]|]; [|reflexivity]. cbn [obind fst snd]. rewrite nfc__eq. cbn [obind].
  destruct (if has_rtl_char d then Ret true else bidi_labels (split_dot (C false m))) as [b|]; [|reflexivity]. cbn [obind].
  rewrite (each_ext (process_label b f) (process_label b f')); [reflexivity|].
  intros l _. unfold process_label.
  destruct (strip_prefix PUNYCODE_PREFIX l) as [p|].
  - destruct (decode p) as [[s|]|]; try reflexivity. cbn [obind].
    now rewrite (validate_dns (mkFlags (use_std3 f) false (verify_dns f)) (mkFlags (use_std3 f') false (verify_dns f'))).
  - now rewrite (validate_dns f f').
Qed.

Lemma to_ascii_labels checked d f a : Forall scalar d -> len d <= LONGEST -> to_ascii checked d f = Ret (inl a) ->
  exists us xs, labels_of a xs /\ Forall2 a_label us xs /\ Forall (valid_label (use_std3 f)) us /\
    (transitional f = false -> exists u, to_unicode d f = Ret (u, []) /\ labels_of u us).
Proof.
  intros Hd Hl H. destruct (to_ascii_ok _ _ _ _ Hd H) as (m & b & outs & xs & Hp & Ha & -> & _).
  exists outs, xs. split; [exact (as_labels _ _ _ _ Ha)|]. split; [|split].
  - pose proof (asciied_forall2 _ _ _ Ha) as G. destruct (processed_lens _ _ _ _ _ _ _ Hp Hl) as [_ L].
    pose proof (pr_scalar _ _ _ _ _ _ _ Hp) as S. clear - G L S.
    induction G as [|o x outs xs E G IH]; [constructor|]. inversion L; inversion S; subst. constructor; [|now apply IH].
    now apply (ascii_label_ok checked).
  - exact (processed_valid _ _ _ _ _ _ Hp).
  - intros Ht. exists (join_dot outs). split; [|exact (pr_labels _ _ _ _ _ _ _ Hp)].
    rewrite to_unicode_no_trans. rewrite (processing_dns (no_trans f) f) by (cbn; auto). exact (processed_eq _ _ _ _ _ _ _ Hp).
Qed.

(** ** C24 *)
Lemma ascii_bytes s : Forall (fun c => c < 128) s -> str_bytes s = len s.
Proof.
  induction 1 as [|c s Hc H IH]; [reflexivity|]. change (str_bytes (c :: s)) with (utf8_len c + str_bytes s). rewrite IH, len_cons.
  unfold utf8_len. destruct (c <? 0x80) eqn:E; lia.
Qed.
Lemma labels_last s ls : labels_of s ls -> Forall (fun l => 1 <= len l) ls -> last_is DOT s = false.
Proof.
  intros H Hls. destruct (last_is DOT s) eqn:E; [|reflexivity]. exfalso. apply last_is_true in E as (a & E).
  revert a E. induction H as [l Hl|l s ls Hl Hls' IH]; intros a E.
  - apply Hl. rewrite E. apply in_or_app. right. now left.
  - inversion Hls as [|? ? _ Hls2]; subst.
    assert (s <> []) as Hne.
    { intros ->. inversion Hls' as [l0 Hl0 E1 E2|l0 s0 ls0 Hl0 H0 E1 E2]; [|destruct l0; discriminate E1].
      subst. inversion Hls2 as [|? ? X _]; subst. change (len []) with 0 in X. lia. }
    destruct (exists_last Hne) as (s' & y & ->).
    rewrite app_comm_cons, app_assoc in E. apply app_inj_tail in E as [_ ->]. now apply (IH Hls2 s').
Qed.
Lemma dns_errors_iff a : Forall (fun c => c < 128) a -> dns_errors a = [] <-> dns_ok a.
Proof.
  intros Ha.
  assert (forall s, Forall (fun c => c < 128) s ->
    ((if is_empty s || existsb is_empty (split_dot s) then [TooShortForDns] else []) ++
     (if (253 <? str_bytes s) || existsb (fun l => 63 <? str_bytes l) (split_dot s) then [TooLongForDns] else []) = [] <->
     (1 <= len s <= 253 /\ Forall (fun l => 1 <= len l <= 63) (split_dot s)))) as G.
  { intros s Hs.
    assert (is_empty s = false <-> 1 <= len s) as E1 by (destruct s; [change (len []) with 0|rewrite len_cons]; cbn; split; try discriminate; try lia; reflexivity).
    assert (existsb is_empty (split_dot s) = false <-> Forall (fun l => 1 <= len l) (split_dot s)) as E2.
    { induction (split_dot s) as [|l ls IH]; cbn [existsb]; [split; [constructor|reflexivity]|].
      rewrite orb_false_iff, IH. split.
      - intros [H1 H2]. constructor; [|assumption]. destruct l; [discriminate|rewrite len_cons; lia].
      - intros H. inversion H as [|? ? H1 H2]; subst. split; [|assumption]. destruct l; [change (len []) with 0 in H1; lia|reflexivity]. }
    assert (existsb (fun l => 63 <? str_bytes l) (split_dot s) = false <-> Forall (fun l => len l <= 63) (split_dot s)) as E3.
    { assert (forall l, In l (split_dot s) -> str_bytes l = len l) as Hb.
      { intros l Hl. apply ascii_bytes. apply Forall_forall. intros c Hc. rewrite Forall_forall in Hs. apply Hs. now apply (split_in s l). }
      clear E2. induction (split_dot s) as [|l ls IH]; cbn [existsb]; [split; [constructor|reflexivity]|].
      rewrite orb_false_iff, IH by (intros x Hx; apply Hb; now right). rewrite (Hb l) by now left. split.
      - intros [H1 H2]. constructor; [lia|assumption].
      - intros H. inversion H as [|? ? H1 H2]; subst. split; [lia|assumption]. }
    rewrite (ascii_bytes s Hs).
    assert (forall P Q : str -> Prop, forall ls, Forall (fun l => P l /\ Q l) ls <-> Forall P ls /\ Forall Q ls) as FA.
    { intros P Q ls. split; [apply Forall_and_inv|]. intros [X Y]. now apply Forall_and. }
    rewrite FA, <- E2, <- E3.
    destruct (is_empty s) eqn:B1; destruct (existsb is_empty (split_dot s)) eqn:B2; destruct (253 <? len s) eqn:B3;
      destruct (existsb (fun l => 63 <? str_bytes l) (split_dot s)) eqn:B4; cbn [orb app];
      (split; [intros X; first [discriminate X|split; [apply N.ltb_ge in B3; split; [now apply E1|exact B3]|now split]]|
       intros [[X1 X2] [X3 X4]]; first [discriminate X3|discriminate X4|(apply N.ltb_lt in B3; lia)|
       (apply E1 in X1; discriminate X1)|reflexivity]]). }
  unfold dns_errors. split.
  - intros H. destruct (last_is DOT a) eqn:E.
    + apply last_is_true in E as (a' & ->). rewrite removelast_last in H. apply Forall_app in Ha as [Ha _].
      apply (G a' Ha) in H as [H1 H2]. exists a', (split_dot a'). split; [now right|]. split; [apply split_labels|]. now split.
    + apply (G a Ha) in H as [H1 H2]. exists a, (split_dot a). split; [now left|]. split; [apply split_labels|]. now split.
  - intros (a' & ls & Hor & Hls & Hlen & Hl).
    assert (Forall (fun l => 1 <= len l) ls) as Hl1 by (eapply Forall_impl; [|exact Hl]; cbv beta; unfold len; lia).
    destruct Hor as [->| ->].
    + rewrite (labels_last _ _ Hls Hl1). apply G; [assumption|]. split; [assumption|]. now rewrite (labels_split _ _ Hls).
    + assert (last_is DOT (a' ++ [0x2E]) = true) as -> by (apply last_is_true; eauto). rewrite removelast_last.
      apply Forall_app in Ha as [Ha _]. apply G; [assumption|]. split; [assumption|]. now rewrite (labels_split _ _ Hls).
Qed.
Lemma to_ascii_dns checked d s t a : Forall scalar d ->
  (to_ascii checked d (mkFlags s t true) = Ret (inl a) <->
   to_ascii checked d (mkFlags s t false) = Ret (inl a) /\ dns_ok a).
Proof.
  intros Hd. split.
  - intros H. destruct (to_ascii_ok _ _ _ _ Hd H) as (m & b & outs & xs & Hp & Ha & -> & Hv).
    split; [|apply dns_errors_iff; [exact (join_ascii xs (as_plain _ _ _ _ Ha))|exact (Hv eq_refl)]].
    unfold to_ascii. rewrite <- (processing_dns (mkFlags s t true) (mkFlags s t false)) by reflexivity.
    rewrite (processed_eq _ _ _ _ _ _ _ Hp). cbn [obind fst snd].
    rewrite (labels_split _ _ (pr_labels _ _ _ _ _ _ _ Hp)), (as_each _ _ _ _ Ha). reflexivity.
  - intros [H Hok]. destruct (to_ascii_ok _ _ _ _ Hd H) as (m & b & outs & xs & Hp & Ha & -> & Hv).
    unfold to_ascii. rewrite (processing_dns (mkFlags s t true) (mkFlags s t false)) by reflexivity.
    rewrite (processed_eq _ _ _ _ _ _ _ Hp). cbn [obind fst snd].
    rewrite (labels_split _ _ (pr_labels _ _ _ _ _ _ _ Hp)), (as_each _ _ _ _ Ha). cbn [obind fst snd app verify_dns].
    apply dns_errors_iff in Hok; [|exact (join_ascii xs (as_plain _ _ _ _ Ha))]. now rewrite Hok.
Qed.
Lemma dns_enforced checked d f a : Forall scalar d -> verify_dns f = true -> to_ascii checked d f = Ret (inl a) -> dns_ok a.
Proof. intros Hd Hv H. destruct f as [s t v]. cbn in Hv. subst v. now apply (to_ascii_dns checked d s t a Hd) in H. Qed.

(** ** C26 *)
Lemma bidi_labels_total ls : Forall (fun l => len l <= U32_MAX) ls -> exists b, bidi_labels ls = Ret b.
Proof.
  induction 1 as [|l ls Hl H (b & IH)]; cbn [bidi_labels]; [eauto|].
  destruct (strip_prefix PUNYCODE_PREFIX l) as [p|] eqn:E; cbn [obind].
  - apply strip_prefix_some in E as ->. rewrite len_app in Hl. destruct (decode_total p) as (o & -> & _); [lia|]. cbn [obind].
    rewrite IH. cbn [obind]. eauto.
  - rewrite IH. cbn [obind]. eauto.
Qed.
Lemma process_label_total b f l : Forall scalar l -> len l <= U32_MAX -> exists r, process_label b f l = Ret r.
Proof.
  intros Hs Hl. unfold process_label. destruct (strip_prefix PUNYCODE_PREFIX l) as [p|] eqn:E.
  - apply strip_prefix_some in E as ->. rewrite len_app in Hl. apply Forall_app in Hs as [_ Hs].
    destruct (decode_safe p Hs) as (o & -> & Ho); [lia|]. cbn [obind]. destruct o as [s|]; [|eauto].
    destruct (validate_total s b (mkFlags (use_std3 f) false (verify_dns f)) Ho) as (e & -> & _). cbn [obind]. eauto.
  - destruct (validate_total l b f Hs) as (e & -> & _). cbn [obind]. eauto.
Qed.
Lemma processing_total d f : Forall scalar d -> len d <= LONGEST -> exists u e, processing d f = Ret (u, e).
Proof.
  intros Hd Hl. unfold processing. destruct (map_all_total d f Hd) as (m & em & -> & Hm & Hlm). cbn [obind fst snd].
  rewrite nfc__eq. cbn [obind]. pose proof (C_length false m) as Hc.
  assert (len (C false m) <= U32_MAX) as HC by (unfold len, LONGEST, U32_MAX in *; lia).
  assert (Forall (fun l => len l <= U32_MAX) (split_dot (C false m))) as H1.
  { apply Forall_forall. intros l Hin. pose proof (labels_len _ _ (split_labels (C false m)) l Hin). lia. }
  pose proof (split_scalar (C false m) (C_scalar false m Hm)) as Hsp.
  assert (exists b, (if has_rtl_char d then Ret true else bidi_labels (split_dot (C false m))) = Ret b) as (b & ->)
    by (destruct (has_rtl_char d); [eauto|now apply bidi_labels_total]).
  cbn [obind]. destruct (each_total (process_label b f) (split_dot (C false m))) as (outs & es & ->).
  { rewrite Forall_forall in H1, Hsp. intros l Hin. apply process_label_total; auto. }
  cbn [obind fst snd]. eauto.
Qed.
Lemma to_unicode_total d f : Forall scalar d -> len d <= LONGEST -> exists r, to_unicode d f = Ret r.
Proof. intros Hd Hl. rewrite to_unicode_no_trans. destruct (processing_total d (no_trans f) Hd Hl) as (u & e & ->). eauto. Qed.
Lemma to_ascii_total d f : Forall scalar d -> len d <= LONGEST -> exists r, to_ascii false d f = Ret r.
Proof.
  intros Hd Hl. unfold to_ascii. destruct (processing_total d f Hd Hl) as (u & e & E). rewrite E. cbn [obind fst snd].
  destruct (processing_inv _ _ _ _ Hd E) as (m & em & b & outs & es & Hp & -> & ->).
  rewrite (labels_split _ _ (pr_labels _ _ _ _ _ _ _ Hp)).
  destruct (processed_lens _ _ _ _ _ _ _ Hp Hl) as [_ L]. pose proof (pr_scalar _ _ _ _ _ _ _ Hp) as S.
  destruct (each_total (ascii_label false) outs) as (xs & es2 & ->); [|cbn [obind]; eauto].
  rewrite Forall_forall in L, S. intros o Ho. unfold ascii_label. destruct (forallb is_ascii o); [eauto|].
  destruct (encode_total o (S o Ho) (L o Ho)) as (p & ->). cbn [obind]. destruct p; eauto.
Qed.
(** A build with overflow checks differs at most by a panic where the other
    build reports a Punycode error. *)
Lemma to_ascii_checked d f : Forall scalar d -> len d <= LONGEST ->
  to_ascii true d f = to_ascii false d f \/
  (to_ascii true d f = Panic /\ exists e, to_ascii false d f = Ret (inr e) /\ In PunycodeError e).
Proof.
  intros Hd Hl. unfold to_ascii. destruct (processing_total d f Hd Hl) as (u & e & E). rewrite E. cbn [obind fst snd].
  destruct (processing_inv _ _ _ _ Hd E) as (m & em & b & outs & es & Hp & -> & ->).
  rewrite (labels_split _ _ (pr_labels _ _ _ _ _ _ _ Hp)).
  destruct (processed_lens _ _ _ _ _ _ _ Hp Hl) as [_ L]. pose proof (pr_scalar _ _ _ _ _ _ _ Hp) as S.
  assert (each (ascii_label true) outs = each (ascii_label false) outs \/
    (each (ascii_label true) outs = Panic /\ exists xs es, each (ascii_label false) outs = Ret (xs, es) /\ In PunycodeError es)) as G.
  { clear - L S. induction outs as [|o outs IH]; [now left|]. inversion L as [|? ? L1 L2]; inversion S as [|? ? S1 S2]; subst.
    assert (exists xs es, each (ascii_label false) outs = Ret (xs, es)) as (xs & es & Exs).
    { apply each_total. rewrite Forall_forall in L2, S2. intros x Hx. unfold ascii_label. destruct (forallb is_ascii x); [eauto|].
      destruct (encode_total x (S2 x Hx) (L2 x Hx)) as (p & ->). cbn [obind]. destruct p; eauto. }
    cbn [each]. rewrite Exs in *. cbn [obind fst snd].
    assert (ascii_label true o = ascii_label false o \/ (ascii_label true o = Panic /\ ascii_label false o = Ret ([], [PunycodeError]))) as Ho.
    { unfold ascii_label. destruct (forallb is_ascii o); [now left|]. destruct (encode_checked o S1 L1) as [->|[-> ->]]; [now left|now right]. }
    assert (exists x ex, ascii_label false o = Ret (x, ex)) as (x & ex & Ex).
    { unfold ascii_label. destruct (forallb is_ascii o); [eauto|]. destruct (encode_total o S1 L1) as (p & ->). cbn [obind]. destruct p; eauto. }
    destruct Ho as [Ho|[Ho1 Ho2]].
    - rewrite Ho, Ex. cbn [obind fst snd]. destruct (IH L2 S2) as [->|[-> (xs' & es' & Exs' & Hin)]]; [now left|].
      injection Exs' as <- <-. right. split; [reflexivity|]. eexists _, _. split; [reflexivity|]. apply in_or_app. now right.
    - right. rewrite Ho1, Ho2. split; [reflexivity|]. eexists _, _. split; [reflexivity|]. now left. }
  destruct G as [->|[-> (xs & es2 & -> & Hin)]]; [now left|]. right. split; [reflexivity|]. cbn [obind fst snd].
  set (tl := if verify_dns f then dns_errors (join_dot xs) else []).
  assert (In PunycodeError ((em ++ es) ++ es2 ++ tl)) as Hin' by (apply in_or_app; right; apply in_or_app; now left).
  destruct ((em ++ es) ++ es2 ++ tl) as [|e0 l]; [destruct Hin'|]. eexists. split; [reflexivity|assumption].
Qed.

Definition long_name : str := repeat 97 (N.to_nat 65536) ++ [0x1007F].
Lemma long_encode : encode true long_name = Panic.
Proof. vm_cast_no_check (eq_refl (@Panic (option str))). Qed.
Lemma long_scalar : Forall scalar long_name.
Proof. apply scalars_check. vm_cast_no_check (eq_refl true). Qed.
Lemma long_len : len long_name = 65537.
Proof. vm_cast_no_check (eq_refl 65537). Qed.
Lemma triples_1007F : forallb (fun t => negb (snd (fst t) =? 0x1007F)) triples = true.
Proof. vm_cast_no_check (eq_refl true). Qed.
Lemma compose_1007F a : compose a 0x1007F = None.
Proof.
  destruct (compose a 0x1007F) as [r|] eqn:E; [|reflexivity]. exfalso.
  apply compose_cases in E as [H|[(l & v & _ & _ & _ & H & _)|H]].
  - remember 0x1007F as x eqn:Hx. destruct H; unfold valid_block, vowel, trailing in *; lia.
  - lia.
  - pose proof triples_1007F as Hc. rewrite forallb_forall in Hc. specialize (Hc _ H). cbn [fst snd] in Hc. discriminate.
Qed.
Lemma inert_ok c : c = 97 \/ c = 0x1007F -> decompose false c = [c] /\ ccc c = 0 /\ forall a, compose a c = None.
Proof.
  intros [->| ->].
  - split; [apply decompose_ascii; lia|]. split; [apply ccc_ascii; lia|]. intros a. apply compose_ascii. lia.
  - split; [vm_cast_no_check (eq_refl [0x1007F])|]. split; [vm_cast_no_check (eq_refl 0)|]. exact compose_1007F.
Qed.
Lemma C_inert s : Forall (fun c => decompose false c = [c] /\ ccc c = 0 /\ forall a, compose a c = None) s -> C false s = s.
Proof.
  intros H. unfold C. assert (D false s = s) as ->.
  { apply D_fixed.
    - eapply Forall_impl; [|exact H]. cbv beta. tauto.
    - induction H as [|c s (_ & Hc & _) _ IH]; [exact I|]. now apply ordered_starter. }
  assert (forall l a, Forall (fun c => decompose false c = [c] /\ ccc c = 0 /\ forall a, compose a c = None) l -> crun l (Some a) None [] = a :: l) as Hrun.
  { induction l as [|c l IH]; intros a Hl; [reflexivity|]. inversion Hl as [|? ? (_ & H1 & H2) H3]; subst. cbn [crun].
    rewrite H1, H2. cbn [N.eqb]. now rewrite IH. }
  destruct H as [|c s (_ & Hc & _) H]; [reflexivity|]. cbn [crun]. rewrite Hc. cbn [N.eqb negb]. now apply Hrun.
Qed.
Lemma long_chars : Forall (fun c => c = 97 \/ c = 0x1007F) long_name.
Proof.
  apply Forall_app. split; [|constructor; [now right|constructor]]. apply Forall_forall. intros c Hc. apply repeat_spec in Hc. now left.
Qed.
Lemma map_long f s : Forall (fun c => c = 97 \/ c = 0x1007F) s -> exists e, map_all s f = Ret (s, e).
Proof.
  assert (mapping_of 97 = Ret IM_Valid) as E1 by (rewrite ascii_mapping by lia; reflexivity).
  assert (mapping_of 0x1007F = Ret IM_Disallowed) as E2 by (vm_cast_no_check (eq_refl (@Ret Mapping IM_Disallowed))).
  induction 1 as [|c s Hc H (e & IH)]; cbn [map_all]; [eauto|].
  rewrite IH. unfold map_char. destruct Hc as [->| ->]; [rewrite E1|rewrite E2]; cbn [obind fst snd app]; eauto.
Qed.
Lemma panics_like s f : Forall (fun c => c = 97 \/ c = 0x1007F) s -> In 0x1007F s -> Forall scalar s -> len s <= LONGEST ->
  encode true s = Panic -> to_ascii true s f = Panic /\ exists e, to_ascii false s f = Ret (inr e).
Proof.
  intros Hch Hin Hsc Hl Henc.
  assert (to_ascii true s f = Panic) as HP.
  { unfold to_ascii. destruct (processing_total s f Hsc Hl) as (u & e & E). rewrite E. cbn [obind fst snd].
    destruct (processing_inv _ _ _ _ Hsc E) as (m & em & b & outs & es & Hp & -> & _).
    rewrite (labels_split _ _ (pr_labels _ _ _ _ _ _ _ Hp)).
    destruct (map_long f s Hch) as (em' & Em). pose proof (pr_map _ _ _ _ _ _ _ Hp) as Em2. rewrite Em in Em2.
    injection Em2 as <- _. pose proof (pr_each _ _ _ _ _ _ _ Hp) as He.
    rewrite C_inert in He by (eapply Forall_impl; [|exact Hch]; exact inert_ok).
    rewrite (labels_split s [s]) in He.
    2:{ constructor. intros Hd. rewrite Forall_forall in Hch. specialize (Hch _ Hd). lia. }
    cbn [each] in He. bind He r Er. cbn [obind fst snd] in He. injection He as <- _.
    destruct r as [o eo]. cbn [fst].
    assert (o = s) as ->.
    { unfold process_label in Er. destruct (strip_prefix PUNYCODE_PREFIX s) as [p|] eqn:Ep.
      - exfalso. apply strip_prefix_some in Ep. rewrite Ep in Hch. apply Forall_inv in Hch. lia.
      - bind Er e' Ee. injection Er as <- _. reflexivity. }
    cbn [each]. unfold ascii_label. rewrite Henc.
    assert (forallb is_ascii s = false) as ->; [|reflexivity].
    destruct (forallb is_ascii s) eqn:Ea; [|reflexivity]. exfalso. apply ascii_forallb in Ea.
    rewrite Forall_forall in Ea. specialize (Ea _ Hin). lia. }
  split; [assumption|]. destruct (to_ascii_checked s f Hsc Hl) as [E|[_ (e & E & _)]]; [|eauto].
  destruct (to_ascii_total s f Hsc Hl) as (r & Er). rewrite HP, Er in E. discriminate E.
Qed.
Lemma long_in : In 0x1007F long_name.
Proof. apply in_or_app. right. now left. Qed.
Lemma long_ok : len long_name <= LONGEST.
Proof. rewrite long_len. unfold LONGEST. lia. Qed.
Lemma to_ascii_panics : exists d f, Forall scalar d /\ to_ascii true d f = Panic /\ exists e, to_ascii false d f = Ret (inr e).
Proof.
  exact (ex_intro _ long_name (ex_intro _ (mkFlags false false false)
    (conj long_scalar (panics_like long_name (mkFlags false false false) long_chars long_in long_scalar long_ok long_encode)))).
Qed.

(** ** C27 *)
Lemma to_unicode_valid d f u : Forall scalar d -> to_unicode d f = Ret (u, []) ->
  exists ls, labels_of u ls /\ Forall (valid_label (use_std3 f)) ls.
Proof.
  intros Hd H. destruct (processing_inv _ _ _ _ Hd H) as (m & em & b & outs & es & Hp & -> & E).
  symmetry in E. apply app_eq_nil in E as [-> ->]. exists outs. split; [exact (pr_labels _ _ _ _ _ _ _ Hp)|].
  exact (processed_valid _ _ _ _ _ _ Hp).
Qed.

(** ** C28 *)
Lemma fold_case_cases c : (0x41 <= c <= 0x5A /\ fold_case c = c + 32) \/ fold_case c = c.
Proof. unfold fold_case. destruct (0x41 <=? c) eqn:E1, (c <=? 0x5A) eqn:E2; cbn [andb]; auto. left. split; [lia|reflexivity]. Qed.
Lemma map_char_fold f c : map_char c f = map_char (fold_case c) f.
Proof.
  destruct (fold_case_cases c) as [[H ->]| ->]; [|reflexivity]. unfold map_char.
  rewrite (ascii_mapping c), (ascii_mapping (c + 32)) by lia. unfold ascii_status.
  destruct (0x41 <=? c) eqn:E1; [|lia]. destruct (c <=? 0x5A) eqn:E2; [|lia].
  destruct (c + 32 <=? 0x5A) eqn:E3; [lia|]. rewrite andb_false_r.
  destruct (0x61 <=? c + 32) eqn:E4; [|lia]. destruct (c + 32 <=? 0x7A) eqn:E5; [|lia]. reflexivity.
Qed.
Lemma rtl_fold c : is_rtl c = is_rtl (fold_case c).
Proof. destruct (fold_case_cases c) as [[H ->]| ->]; [|reflexivity]. rewrite !ascii_not_rtl by lia. reflexivity. Qed.
Lemma processing_fold f d d' : map fold_case d = map fold_case d' -> processing d f = processing d' f.
Proof.
  intros H.
  assert (forall x, map_all x f = map_all (map fold_case x) f) as M.
  { induction x as [|c x IH]; cbn [map map_all]; [reflexivity|]. now rewrite <- map_char_fold, IH. }
  assert (forall x, has_rtl_char x = has_rtl_char (map fold_case x)) as R.
  { induction x as [|c x IH]; [reflexivity|]. unfold has_rtl_char in *. cbn [map existsb]. rewrite <- IH.
    f_equal. exact (rtl_fold c). }
  unfold processing. now rewrite (M d), (R d), (M d'), (R d'), H.
Qed.
Lemma case_insensitive checked f d d' : map fold_case d = map fold_case d' ->
  to_ascii checked d f = to_ascii checked d' f /\ to_unicode d f = to_unicode d' f.
Proof.
  intros H. split.
  - unfold to_ascii. now rewrite (processing_fold f d d' H).
  - rewrite !to_unicode_no_trans. now rewrite (processing_fold (no_trans f) d d' H).
Qed.

(** ** C61 *)
Lemma has_rtl_false s : has_rtl_char s = false <-> Forall (fun c => is_rtl c = false) s.
Proof.
  unfold has_rtl_char. change (fun c => rtl_class (bidi_class c)) with is_rtl. induction s as [|c s IH]; cbn [existsb]; [split; [constructor|reflexivity]|].
  rewrite orb_false_iff, IH. split; [intros [H1 H2]; exact (Forall_cons c H1 H2)|].
  intros H. exact (conj (Forall_inv H) (Forall_inv_tail H)).
Qed.
Lemma has_rtl_true s : has_rtl_char s = true <-> Exists rtl_char s.
Proof.
  unfold has_rtl_char. rewrite existsb_exists, Exists_exists. unfold rtl_char. split; intros (c & H1 & H2); exists c; (split; [assumption|]).
  - destruct (bidi_class c); try discriminate H2; cbn; tauto.
  - destruct H2 as [<-|[<-|[<-|[]]]]; reflexivity.
Qed.
Lemma map_all_rtl f : forall d m e, map_all d f = Ret (m, e) -> no_alef d -> has_rtl_char d = false -> has_rtl_char m = false.
Proof.
  intros d m e H Ha Hr. apply has_rtl_false in Hr. apply has_rtl_false. revert m e H Ha.
  induction Hr as [|c d Hc Hd IH]; intros m e H Ha; cbn [map_all] in H.
  - injection H as <- _. constructor.
  - bind H a Ea. bind H b Eb. injection H as <- _. destruct a as [t e1], b as [t2 e2]. cbn [fst]. apply Forall_app. split.
    + unfold map_char in Ea. bind Ea mm Em. assert (forall x, In x (text_of mm) -> is_rtl x = false) as G
        by (intros x; apply (mapping_rtl c mm x Em); [apply Ha; now left|assumption]).
      apply Forall_forall. intros x Hx. destruct mm; cbn [text_of] in G; try (destruct (transitional f));
        injection Ea as <- _; try (destruct Hx as [<-|[]]; assumption); try (now apply G); destruct Hx.
    + apply (IH t2 e2 eq_refl). intros x Hx. apply Ha. now right.
Qed.
Lemma bidi_labels_false ls : bidi_labels ls = Ret false -> forall l, In l ls -> forall p s, strip_prefix PUNYCODE_PREFIX l = Some p ->
  decode p = Ret (Some s) -> has_rtl_char s = false.
Proof.
  induction ls as [|l ls IH]; intros H l0 Hin p s Hp Hs; [destruct Hin|]. cbn [bidi_labels] in H. bind H b Eb. bind H bs Ebs.
  injection H as H. apply orb_false_iff in H as [-> ->]. destruct Hin as [->|Hin]; [|now apply (IH eq_refl l0 Hin p s)].
  rewrite Hp, Hs in Eb. cbn [obind] in Eb. now injection Eb.
Qed.
Lemma bidi_detected d f m em b outs : processed d f m em b outs [] -> no_alef d -> b = false ->
  Forall (fun o => has_rtl_char o = false) outs.
Proof.
  intros Hp Ha ->. pose proof (pr_bidi _ _ _ _ _ _ _ Hp) as Hb. destruct (has_rtl_char d) eqn:Er; [discriminate Hb|].
  pose proof (map_all_rtl f d m em (pr_map _ _ _ _ _ _ _ Hp) Ha Er) as Hm. apply has_rtl_false in Hm. apply C_not_rtl in Hm.
  pose proof (processed_outs _ _ _ _ _ _ Hp) as Ho. pose proof (pr_split _ _ _ _ _ _ _ Hp) as Hsp. rewrite Forall_forall in Hsp.
  apply Forall_forall. intros o Hin. destruct (Forall2_in_r _ _ _ Ho o Hin) as (l & Hl & E).
  destruct (process_label_ok _ _ _ _ E (Hsp l Hl)) as [_ G].
  destruct (strip_prefix PUNYCODE_PREFIX l) as [p|] eqn:Ep; [now apply (bidi_labels_false _ Hb l Hl p o)|]. subst o.
  apply has_rtl_false. apply Forall_forall. intros c Hc. rewrite Forall_forall in Hm. apply Hm. now apply (split_in _ l).
Qed.
Lemma join_rtl outs : Forall (fun o => has_rtl_char o = false) outs -> has_rtl_char (join_dot outs) = false.
Proof.
  intros H. apply has_rtl_false. induction H as [|o outs Ho H IH]; cbn [join_dot]; [constructor|]. apply has_rtl_false in Ho.
  destruct outs as [|o2 outs]; [assumption|]. apply Forall_app. split; [assumption|]. constructor; [apply ascii_not_rtl; unfold DOT; lia|assumption].
Qed.
Lemma to_unicode_bidi d f u : Forall scalar d -> no_alef d -> to_unicode d f = Ret (u, []) -> Exists rtl_char u ->
  exists ls, labels_of u ls /\ Forall (fun l => l = [] \/ bidi_rule l) ls.
Proof.
  intros Hd Ha H Hr. destruct (processing_inv _ _ _ _ Hd H) as (m & em & b & outs & es & Hp & -> & E).
  symmetry in E. apply app_eq_nil in E as [-> ->]. exists outs. split; [exact (pr_labels _ _ _ _ _ _ _ Hp)|].
  destruct b.
  2:{ pose proof (join_rtl _ (bidi_detected _ _ _ _ _ _ Hp Ha eq_refl)) as G. apply has_rtl_true in Hr. congruence. }
  pose proof (processed_outs _ _ _ _ _ _ Hp) as Ho. pose proof (pr_split _ _ _ _ _ _ _ Hp) as Hsp. rewrite Forall_forall in Hsp.
  apply Forall_forall. intros o Hin. destruct (Forall2_in_r _ _ _ Ho o Hin) as (l & Hl & E).
  destruct (process_label_ok _ _ _ _ E (Hsp l Hl)) as [[->|(_ & _ & _ & _ & _ & G)] _]; [now left|].
  now apply passes_bidi_iff.
Qed.
Lemma to_unicode_bidi_refuted : exists d f u, Forall scalar d /\ to_unicode d f = Ret (u, []) /\ Exists rtl_char u /\
  forall ls, labels_of u ls -> ~ Forall (fun l => l = [] \/ bidi_rule l) ls.
Proof.
  exists [0x30; 0x2135], (mkFlags true false true), [0x30; 0x5D0].
  split; [apply scalars_check; reflexivity|]. split; [vm_cast_no_check (eq_refl (@Ret (str * list Error) ([0x30; 0x5D0], [])))|].
  split; [apply has_rtl_true; vm_cast_no_check (eq_refl true)|].
  intros ls Hls H. apply labels_split in Hls. change (split_dot [0x30; 0x5D0]) with [[0x30; 0x5D0]] in Hls. subst ls.
  inversion H as [|? ? H1 _]; subst. apply passes_bidi_iff in H1.
  assert (passes_bidi [0x30; 0x5D0] true = false) as E by (vm_cast_no_check (eq_refl false)). congruence.
Qed.

(** ** C62 *)
Lemma permitted_map f c : permitted_f f c -> map_char c f = Ret ([c], []).
Proof. unfold map_char. intros [->|[[E (s & ->)]|[E ->]]]; cbn [obind]; [reflexivity|now rewrite E|now rewrite E]. Qed.
Lemma permitted_ascii f f' c : c < 128 -> use_std3 f' = use_std3 f -> permitted_f f c -> permitted_f f' c.
Proof.
  intros Hc E. unfold permitted_f. rewrite (ascii_mapping c Hc), E. intros [H|[[_ (s & H)]|H]]; auto.
  exfalso. unfold ascii_status in H. destruct (_ && _); [discriminate H|]. destruct (_ || _); discriminate H.
Qed.
Lemma permitted_ldh f c : ldh c \/ c = 0x2E -> permitted_f f c.
Proof.
  intros H. left. rewrite ascii_mapping by (unfold ldh in H; lia). unfold ascii_status.
  destruct ((0x41 <=? c) && (c <=? 0x5A)) eqn:E; [unfold ldh in H; lia|].
  destruct (((0x61 <=? c) && (c <=? 0x7A)) || ((0x30 <=? c) && (c <=? 0x39)) || (c =? 0x2D) || (c =? 0x2E)) eqn:E2; [reflexivity|].
  unfold ldh in H. lia.
Qed.
Lemma map_all_id f s : Forall (permitted_f f) s -> map_all s f = Ret (s, []).
Proof. induction 1 as [|c s Hc H IH]; cbn [map_all]; [reflexivity|]. rewrite (permitted_map f c Hc), IH. reflexivity. Qed.

Lemma reprocess f a xs outs : labels_of a xs -> Forall scalar a -> labels_of (join_dot outs) outs -> Forall (Forall scalar) outs ->
  Forall (permitted_f f) a -> C false a = a ->
  Forall2 (fun x o => match strip_prefix PUNYCODE_PREFIX x with Some p => decode p = Ret (Some o) | None => o = x end) xs outs ->
  (has_rtl_char a = true -> Exists (fun o => has_rtl_char o = true) outs) ->
  (forall b, (b = true -> Exists (fun o => has_rtl_char o = true) outs) -> Forall2 (fun x o => label_ok (flags_for f x) b o) xs outs) ->
  exists b, processed a f a [] b outs [].
Proof.
  intros Hxs Ha Hl Hs Hp HC H2 Hr Hok.
  assert (exists b, bidi_labels xs = Ret b /\ (b = true -> Exists (fun o => has_rtl_char o = true) outs)) as (b0 & Eb0 & Hb0).
  { clear - H2. induction H2 as [|x o xs outs H H2 (b & Eb & Hb)]; cbn [bidi_labels]; [exists false; split; [reflexivity|discriminate]|].
    rewrite Eb. destruct (strip_prefix PUNYCODE_PREFIX x) as [p|].
    - rewrite H. cbn [obind]. eexists. split; [reflexivity|]. intros E. apply orb_true_iff in E as [E|E]; [now left|right; now apply Hb].
    - cbn [obind orb]. exists b. split; [reflexivity|]. intros E. right. now apply Hb. }
  assert (exists b, (if has_rtl_char a then Ret true else bidi_labels xs) = Ret b /\ (b = true -> Exists (fun o => has_rtl_char o = true) outs)) as (b & Eb & Hb)
    by (destruct (has_rtl_char a); [exists true; auto|exists b0; auto]).
  exists b. pose proof (map_all_id f a Hp) as Hm. specialize (Hok b Hb).
  constructor; try assumption; rewrite ?HC, ?(labels_split _ _ Hxs); try assumption.
  - lia.
  - apply each_ok. clear - H2 Hok Hs. induction H2 as [|x o xs outs H H2 IH]; [constructor|].
    inversion Hok; inversion Hs; subst. constructor; [|now apply IH]. now apply process_label_intro.
  - rewrite <- (labels_split _ _ Hxs). now apply split_scalar.
Qed.

Lemma label_ok_change f f' b b' o : label_ok f b o -> (forall c, In c o -> permitted_f f c -> permitted_f f' c) -> (b' = true -> b = true) -> label_ok f' b' o.
Proof.
  intros [->|(H1 & H2 & H3 & H4 & H5 & H6)] Hp Hb; [now left|]. right. repeat (split; [assumption|]). split.
  - rewrite Forall_forall in *. intros c Hc. apply Hp; auto.
  - destruct b'; [rewrite (Hb eq_refl) in H6; assumption|reflexivity].
Qed.
Lemma encode_det checked o p : Forall scalar o -> len o <= 3855 -> encode checked o = Ret (Some p) -> decode p = Ret (Some o).
Proof. intros Hs Hl H. destruct (roundtrip_short o Hs Hl) as (p' & E & Ed). rewrite E in H. injection H as <-. assumption. Qed.
Lemma Forall2_and_map {A B} (P Q : A -> B -> Prop) l m : Forall2 P l m -> (forall x y, In x l -> In y m -> P x y -> Q x y) -> Forall2 Q l m.
Proof.
  induction 1 as [|x y l m H H1 IH]; intros G; constructor; [apply G; [now left|now left|assumption]|].
  apply IH. intros x' y' Hx Hy. apply G; now right.
Qed.
Lemma outs_ok d f m b outs : processed d f m [] b outs [] ->
  Forall (fun o => (exists f0, (f0 = f \/ f0 = no_trans f) /\ label_ok f0 b o)) outs.
Proof.
  intros Hp. pose proof (processed_outs _ _ _ _ _ _ Hp) as Ho. pose proof (pr_split _ _ _ _ _ _ _ Hp) as Hsp. rewrite Forall_forall in Hsp.
  apply Forall_forall. intros o Hin. destruct (Forall2_in_r _ _ _ Ho o Hin) as (l & Hl & E).
  destruct (process_label_ok _ _ _ _ E (Hsp l Hl)) as [G _]. unfold flags_for in G. destruct (strip_prefix _ l); eauto.
Qed.
Lemma bidi_back d f m b outs : processed d f m [] b outs [] -> no_alef d -> forall b', (b' = true -> Exists (fun o => has_rtl_char o = true) outs) -> b' = true -> b = true.
Proof.
  intros Hp Ha b' H ->. destruct b; [reflexivity|]. pose proof (bidi_detected _ _ _ _ _ _ Hp Ha eq_refl) as G.
  specialize (H eq_refl). apply Exists_exists in H as (o & H1 & H2). rewrite Forall_forall in G. rewrite (G o H1) in H2. discriminate.
Qed.

Definition ascii_label_unprefixed (o : str) : Prop := Forall (fun c => c < 128) o -> forall r, o <> PUNYCODE_PREFIX ++ r.
Lemma ascii_again checked d f m b outs xs f' : processed d f m [] b outs [] -> asciied checked outs xs [] -> no_alef d ->
  Forall (fun o => len o <= 3855 /\ ascii_label_unprefixed o) outs -> use_std3 f' = use_std3 f ->
  exists b', processed (join_dot xs) f' (join_dot xs) [] b' outs [].
Proof.
  intros Hp Ha Hna Ho Ef.
  pose proof (join_ascii xs (as_plain _ _ _ _ Ha)) as Hasc.
  pose proof (as_labels _ _ _ _ Ha) as Hl. pose proof (asciied_forall2 _ _ _ Ha) as H2.
  pose proof (outs_ok _ _ _ _ _ Hp) as Hok. pose proof (pr_scalar _ _ _ _ _ _ _ Hp) as Hs.
  assert (forall o x, In o outs -> ascii_label checked o = Ret (x, []) ->
     (x = o /\ Forall (fun c => c < 128) o) \/ exists p, x = PUNYCODE_PREFIX ++ p /\ encode checked o = Ret (Some p)) as Hcase.
  { intros o x _ E. unfold ascii_label in E. destruct (forallb is_ascii o) eqn:Ea.
    - injection E as <-. left. split; [reflexivity|now apply ascii_forallb].
    - bind E p Ep. destruct p as [p|]; [|discriminate E]. injection E as <-. right. exists p. split; reflexivity. }
  rewrite Forall_forall in Ho, Hok, Hs.
  assert (has_rtl_char (join_dot xs) = false) as Hnr by (apply has_rtl_false; eapply Forall_impl; [|exact Hasc]; exact ascii_not_rtl).
  apply reprocess with (xs := xs).
  - assumption.
  - eapply Forall_impl; [|exact Hasc]. unfold scalar. cbv beta. lia.
  - exact (pr_labels _ _ _ _ _ _ _ Hp).
  - exact (pr_scalar _ _ _ _ _ _ _ Hp).
  - apply Forall_forall. intros c Hc. apply (labels_in _ _ Hl) in Hc as [[-> _]|(x & Hx & Hc)]; [apply permitted_ldh; now right|].
    destruct (Forall2_in_r _ _ _ H2 x Hx) as (o & Hino & E).
    assert (forall c, In c o -> c < 128 -> permitted_f f' c) as Hpo.
    { intros y Hy Hy2. destruct (Hok o Hino) as (f0 & Hf0 & [->|(_ & _ & _ & _ & G & _)]); [destruct Hy|].
      rewrite Forall_forall in G. apply (permitted_ascii f0 f' y Hy2); [destruct Hf0 as [->| ->]; assumption|now apply G]. }
    destruct (Hcase o x Hino E) as [[-> G]|(p & -> & Ep)].
    + rewrite Forall_forall in G. apply Hpo; auto.
    + apply in_app_or in Hc as [Hc|Hc].
      * apply permitted_ldh. left. unfold ldh. cbn in Hc. intuition lia.
      * pose proof (encode_chars _ _ _ Ep) as G. rewrite Forall_forall in G. destruct (G c Hc) as [[G1 G2]|G1]; [now apply Hpo|].
        apply permitted_ldh. now left.
  - now apply C_ascii.
  - assert (Forall2 (fun o x => match strip_prefix PUNYCODE_PREFIX x with Some p => decode p = Ret (Some o) | None => o = x end) outs xs) as G.
    { eapply Forall2_and_map; [exact H2|]. intros o x Hino Hx E. destruct (Ho o Hino) as [G1 G2].
      destruct (Hcase o x Hino E) as [[-> G]|(p & -> & Ep)].
      - destruct (strip_prefix PUNYCODE_PREFIX o) as [p|] eqn:Ep; [|reflexivity]. apply strip_prefix_some in Ep. now apply G2 in Ep.
      - assert (strip_prefix PUNYCODE_PREFIX (PUNYCODE_PREFIX ++ p) = Some p) as -> by now apply strip_prefix_some.
        now apply (encode_det checked o p (Hs o Hino)). }
    clear - G. induction G; constructor; auto.
  - rewrite Hnr. discriminate.
  - intros b' Hb'.
    assert (Forall2 (fun o x => label_ok (flags_for f' x) b' o) outs xs) as G.
    { eapply Forall2_and_map; [exact H2|]. intros o x Hino Hx E. destruct (Hok o Hino) as (f0 & Hf0 & Hlo).
      eapply label_ok_change; [exact Hlo| |now apply (bidi_back _ _ _ _ _ Hp Hna)].
      assert (use_std3 f0 = use_std3 f) as E0 by (destruct Hf0 as [->| ->]; reflexivity).
      intros c Hc. destruct (Hcase o x Hino E) as [[-> G]|(p & -> & Ep)].
      - rewrite Forall_forall in G. apply permitted_ascii; [now apply G|]. unfold flags_for. destruct (strip_prefix _ o); cbn; congruence.
      - apply permitted_weaken; unfold flags_for;
          assert (strip_prefix PUNYCODE_PREFIX (PUNYCODE_PREFIX ++ p) = Some p) as -> by (now apply strip_prefix_some); cbn; congruence. }
    clear - G. induction G; constructor; auto.
Qed.
Lemma ascii_stable checked d f a u ls : Forall scalar d -> no_alef d -> transitional f = false ->
  to_ascii checked d f = Ret (inl a) -> to_unicode d f = Ret (u, []) -> labels_of u ls ->
  Forall (fun l => len l <= 3855 /\ ascii_label_unprefixed l) ls ->
  to_unicode a f = Ret (u, []) /\ to_ascii checked a f = Ret (inl a).
Proof.
  intros Hd Hna Ht H Hu Hls Ho. destruct (to_ascii_ok _ _ _ _ Hd H) as (m & b & outs & xs & Hp & Ha & -> & Hv).
  assert (u = join_dot outs /\ ls = outs) as [-> ->].
  { rewrite to_unicode_no_trans, (processing_dns (no_trans f) f), (processed_eq _ _ _ _ _ _ _ Hp) in Hu by (cbn; auto).
    injection Hu as <-. split; [reflexivity|]. apply labels_split in Hls. rewrite (labels_split _ _ (pr_labels _ _ _ _ _ _ _ Hp)) in Hls. now symmetry. }
  split.
  - destruct (ascii_again _ _ _ _ _ _ _ (no_trans f) Hp Ha Hna Ho eq_refl) as (b' & Hp').
    exact (processed_eq _ _ _ _ _ _ _ Hp').
  - destruct (ascii_again _ _ _ _ _ _ _ f Hp Ha Hna Ho eq_refl) as (b' & Hp').
    exact (to_ascii_intro _ _ _ _ _ _ _ Hp' Ha Hv).
Qed.
Lemma ascii_stable_refuted : exists d f a, Forall scalar d /\ to_ascii true d f = Ret (inl a) /\ forall b, to_ascii true a f <> Ret (inl b).
Proof.
  exists [0x30; 0x2135], (mkFlags true false true), [0x78; 0x6E; 0x2D; 0x2D; 0x30; 0x2D; 0x30; 0x68; 0x63].
  split; [apply scalars_check; reflexivity|].
  split; [vm_cast_no_check (eq_refl (@Ret (str + list Error) (inl [0x78; 0x6E; 0x2D; 0x2D; 0x30; 0x2D; 0x30; 0x68; 0x63])))|].
  intros b H.
  assert (match to_ascii true [0x78; 0x6E; 0x2D; 0x2D; 0x30; 0x2D; 0x30; 0x68; 0x63] (mkFlags true false true) with Ret (inr _) => true | _ => false end = true) as E
    by (vm_cast_no_check (eq_refl true)).
  rewrite H in E. discriminate E.
Qed.
(** "xn--xn--a-" *)
Lemma double_prefix_refuted : exists d f a, Forall (fun c => c < 128) d /\ to_ascii true d f = Ret (inl a) /\ forall b, to_ascii true a f <> Ret (inl b).
Proof.
  exists [0x78; 0x6E; 0x2D; 0x2D; 0x78; 0x6E; 0x2D; 0x2D; 0x61; 0x2D], (mkFlags true false true), [0x78; 0x6E; 0x2D; 0x2D; 0x61].
  split; [repeat (apply Forall_cons; [lia|]); constructor|].
  split; [vm_cast_no_check (eq_refl (@Ret (str + list Error) (inl [0x78; 0x6E; 0x2D; 0x2D; 0x61])))|].
  intros b H.
  assert (match to_ascii true [0x78; 0x6E; 0x2D; 0x2D; 0x61] (mkFlags true false true) with Ret (inr _) => true | _ => false end = true) as E
    by (vm_cast_no_check (eq_refl true)).
  rewrite H in E. discriminate E.
Qed.

Lemma unicode_stable d f u ls : Forall scalar d -> no_alef d -> to_unicode d f = Ret (u, []) -> labels_of u ls ->
  Forall (fun l => forall r, l <> PUNYCODE_PREFIX ++ r) ls -> to_unicode u f = Ret (u, []).
Proof.
  intros Hd Hna H Hls Hnp. destruct (processing_inv _ _ _ _ Hd H) as (m & em & b & outs & es & Hp & -> & E).
  symmetry in E. apply app_eq_nil in E as [-> ->]. pose proof (pr_labels _ _ _ _ _ _ _ Hp) as Hl.
  assert (ls = outs) as -> by (apply labels_split in Hls; rewrite (labels_split _ _ Hl) in Hls; now symmetry).
  pose proof (outs_ok _ _ _ _ _ Hp) as Hok. pose proof (pr_scalar _ _ _ _ _ _ _ Hp) as Hs.
  assert (Forall (fun o => strip_prefix PUNYCODE_PREFIX o = None) outs) as Hst
    by (eapply Forall_impl; [|exact Hnp]; cbv beta; intros o Ho; now apply strip_prefix_none).
  assert (Forall (fun o => label_ok (no_trans f) b o) outs) as Hok'.
  { eapply Forall_impl; [|exact Hok]. cbv beta. intros o (f0 & [->| ->] & G); exact G. }
  rewrite Forall_forall in Hok', Hs, Hst.
  rewrite to_unicode_no_trans. destruct (reprocess (no_trans f) (join_dot outs) outs outs) as (b' & Hp'); try assumption.
  - apply Forall_forall. intros c Hc. apply (labels_in _ _ Hl) in Hc as [[-> _]|(o & Ho & Hc)]; [unfold scalar; lia|].
    specialize (Hs o Ho). rewrite Forall_forall in Hs. now apply Hs.
  - now apply Forall_forall.
  - apply Forall_forall. intros c Hc. apply (labels_in _ _ Hl) in Hc as [[-> _]|(o & Ho & Hc)]; [apply permitted_ldh; now right|].
    destruct (Hok' o Ho) as [->|(_ & _ & _ & _ & G & _)]; [destruct Hc|]. rewrite Forall_forall in G. now apply G.
  - apply (C_labels _ _ Hl). apply Forall_forall. intros o Ho. destruct (Hok' o Ho) as [->|(G & _)]; [reflexivity|assumption].
  - clear - Hst. induction outs as [|o outs IH]; constructor.
    + now rewrite (Hst o (or_introl eq_refl)).
    + apply IH. intros x Hx. apply Hst. now right.
  - intros Hr. apply Exists_exists. apply has_rtl_true, Exists_exists in Hr as (c & Hc & Hrc).
    apply (labels_in _ _ Hl) in Hc as [[-> _]|(o & Ho & Hc)].
    + exfalso. pose proof (proj2 (has_rtl_true [0x2E]) (Exists_cons_hd _ _ _ Hrc)) as X.
      rewrite (proj2 (has_rtl_false [0x2E])) in X; [discriminate X|]. apply Forall_cons; [apply ascii_not_rtl; lia|constructor].
    + exists o. split; [assumption|]. apply has_rtl_true, Exists_exists. eauto.
  - intros b' Hb'. pose proof (bidi_back _ _ _ _ _ Hp Hna b' Hb') as Hbb. clear - Hok' Hbb Hst.
    induction outs as [|o outs IH]; constructor.
    + unfold flags_for. rewrite (Hst o (or_introl eq_refl)). eapply label_ok_change; [apply Hok'; now left|auto|assumption].
    + apply IH; intros x Hx; [apply Hst|apply Hok']; now right.
  - exact (processed_eq _ _ _ _ _ _ _ Hp').
Qed.

(** ** C63: what to_unicode accepts, to_ascii converts *)
Lemma to_ascii_succeeds checked d s u ls : Forall scalar d -> to_unicode d (mkFlags s false false) = Ret (u, []) -> labels_of u ls ->
  Forall (fun l => len l <= 3855) ls -> exists a, to_ascii checked d (mkFlags s false false) = Ret (inl a).
Proof.
  intros Hd H Hls Hlen. destruct (processing_inv _ _ _ _ Hd H) as (m & em & b & outs & es & Hp & -> & E).
  symmetry in E. apply app_eq_nil in E as [-> ->]. pose proof (pr_labels _ _ _ _ _ _ _ Hp) as Hl.
  assert (ls = outs) as -> by (apply labels_split in Hls; rewrite (labels_split _ _ Hl) in Hls; now symmetry).
  pose proof (pr_scalar _ _ _ _ _ _ _ Hp) as Hs.
  unfold to_ascii. change (mkFlags s false false) with (mkFlags (use_std3 (mkFlags s false false)) false (verify_dns (mkFlags s false false))).
  rewrite (processed_eq _ _ _ _ _ _ _ Hp). cbn [obind fst snd]. rewrite (labels_split _ _ Hl).
  assert (exists xs, each (ascii_label checked) outs = Ret (xs, [])) as (xs & ->); [|cbn; eauto].
  clear - Hs Hlen. induction outs as [|o outs IH]; cbn [each]; [eauto|]. inversion Hs; inversion Hlen; subst.
  destruct IH as (xs & ->); [assumption|assumption|]. unfold ascii_label at 1. destruct (forallb is_ascii o); [cbn; eauto|].
  destruct (encode_short o checked) as (p & ->); [assumption|assumption|]. cbn. eauto.
Qed.

(** ** C64: the steps of UTS #46 *)
Lemma map_all_ok f : forall d m, map_all d f = Ret (m, []) <-> exists ts, Forall2 (char_maps (use_std3 f) (transitional f)) d ts /\ m = concat ts.
Proof.
  assert (forall c t, map_char c f = Ret (t, []) <-> char_maps (use_std3 f) (transitional f) c t) as G.
  { intros c t. unfold map_char, char_maps. destruct (mapping_of c) as [mm|]; cbn [obind]; [|split; [discriminate|contradiction]].
    destruct mm; try (destruct (transitional f)); try (destruct (use_std3 f)); split; try discriminate; try contradiction;
      try (intros [= <-]; auto; fail); try (intros ->; reflexivity); try (intros [_ ->]; reflexivity); intros [X _]; discriminate X. }
  induction d as [|c d IH]; intros m; cbn [map_all].
  - split; [intros [= <-]; exists []; split; [constructor|reflexivity]|]. intros (ts & H & ->). inversion H. reflexivity.
  - split.
    + intros H. bind H a Ea. bind H b Eb. destruct a as [t e1], b as [m2 e2]. cbn [fst snd] in H. injection H as <- E.
      apply app_eq_nil in E as [-> ->]. apply G in Ea. destruct (proj1 (IH m2) eq_refl) as (ts & H1 & ->).
      exists (t :: ts). split; [now constructor|reflexivity].
    + intros (ts & H & ->). inversion H as [|? t ? ts' H1 H2]; subst. apply G in H1. rewrite H1. cbn [obind].
      rewrite (proj2 (IH (concat ts'))) by eauto. reflexivity.
Qed.
Lemma bidi_labels_iff ls us : Forall2 label_converts ls us ->
  exists b, bidi_labels ls = Ret b /\
    (b = true <-> exists l p u, In l ls /\ l = PUNYCODE_PREFIX ++ p /\ decode p = Ret (Some u) /\ Exists rtl_char u).
Proof.
  induction 1 as [|l u ls us H H2 (b & Eb & Hb)]; cbn [bidi_labels].
  - exists false. split; [reflexivity|]. split; [discriminate|]. intros (l & p & u & [] & _).
  - rewrite Eb. destruct (strip_prefix PUNYCODE_PREFIX l) as [p|] eqn:Ep.
    + apply strip_prefix_some in Ep. destruct H as [(p' & E & Hd)|[E _]]; [|now apply E in Ep].
      assert (p' = p) as -> by (rewrite Ep in E; injection E as E; now symmetry). rewrite Hd. cbn [obind]. eexists. split; [reflexivity|].
      rewrite orb_true_iff, has_rtl_true, Hb. split.
      * intros [X|(l0 & p0 & u0 & X1 & X2)]; [exists l, p, u; split; [now left|auto]|exists l0, p0, u0; split; [now right|auto]].
      * intros (l0 & p0 & u0 & [<-|X1] & X2 & X3 & X4); [left|right; eauto 7].
        assert (p0 = p) as -> by (rewrite Ep in X2; injection X2 as X2; now symmetry). rewrite Hd in X3. injection X3 as <-. assumption.
    + cbn [obind orb]. exists b. split; [reflexivity|]. rewrite Hb. split; intros (l0 & p0 & u0 & X1 & X2 & X3).
      * exists l0, p0, u0. split; [now right|auto].
      * destruct X1 as [<-|X1]; [|eauto 7]. apply strip_prefix_some in X2. congruence.
Qed.
Lemma label_converts_iff l u : label_converts l u <->
  match strip_prefix PUNYCODE_PREFIX l with Some p => decode p = Ret (Some u) | None => u = l end.
Proof.
  unfold label_converts. destruct (strip_prefix PUNYCODE_PREFIX l) as [p|] eqn:Ep.
  - apply strip_prefix_some in Ep. split.
    + intros [(p' & E & Hd)|[E _]]; [|now apply E in Ep].
      assert (p' = p) as -> by (rewrite Ep in E; injection E as E; now symmetry). assumption.
    + intros H. left. eauto.
  - rewrite strip_prefix_none in Ep. split; [intros [(p' & E & _)|[_ E]]; [now apply Ep in E|assumption]|]. intros ->. now right.
Qed.
Lemma label_ok_iff f b l u : ~ In 0x2E u -> (label_ok (flags_for f l) b u <->
  valid_label (use_std3 f) u /\ ((forall p, l <> PUNYCODE_PREFIX ++ p) -> transitional f = true -> forall c s, In c u -> mapping_of c <> Ret (IM_Deviation s)) /\
  (b = true -> u = [] \/ bidi_rule u)).
Proof.
  intros Hd. split.
  - intros H. split; [|split].
    + pose proof (label_ok_valid _ _ _ H Hd) as V. unfold flags_for in V. destruct (strip_prefix _ l); exact V.
    + intros Hl Ht c s Hc Hm. apply strip_prefix_none in Hl. unfold flags_for in H. rewrite Hl in H.
      destruct H as [->|(_ & _ & _ & _ & G & _)]; [destruct Hc|]. rewrite Forall_forall in G. specialize (G c Hc).
      unfold permitted_f in G. rewrite Hm, Ht in G. destruct G as [G|[[G _]|[_ G]]]; discriminate G.
    + intros ->. destruct H as [->|(_ & _ & _ & _ & _ & G)]; [now left|]. now apply passes_bidi_iff.
  - intros ((V1 & V2 & V3 & V4 & V5 & V6) & Ht & Hb). right. split; [rewrite nfc_eq in V1; now injection V1|].
    split; [assumption|]. split; [assumption|]. split; [assumption|]. split.
    + rewrite Forall_forall in *. intros c Hc. specialize (V5 c Hc). unfold permitted, permitted_f in *.
      unfold flags_for. destruct (strip_prefix PUNYCODE_PREFIX l) as [p|] eqn:Ep.
      * cbn [no_trans use_std3 transitional]. destruct V5 as [V5|[V5|V5]]; auto.
      * destruct V5 as [V5|[(s & V5)|V5]]; auto. right. left. split; [|eauto]. destruct (transitional f) eqn:Et; [|reflexivity].
        exfalso. rewrite strip_prefix_none in Ep. exact (Ht Ep eq_refl c s Hc V5).
    + destruct b; [|reflexivity]. now apply passes_bidi_iff, Hb.
Qed.
Lemma has_rtl_dec s : has_rtl_char s = false -> ~ Exists rtl_char s.
Proof. intros H X. apply has_rtl_true in X. congruence. Qed.
Lemma processed_uts46 d f us : Forall scalar d -> ((exists m b, processed d f m [] b us []) <-> uts46 (use_std3 f) (transitional f) d us).
Proof.
  intros Hd. split.
  - intros (m & b & Hp). pose proof (processed_outs _ _ _ _ _ _ Hp) as Ho. pose proof (pr_split _ _ _ _ _ _ _ Hp) as Hsp.
    destruct (labels_no_dot _ _ (pr_labels _ _ _ _ _ _ _ Hp)) as [Hnd _]. rewrite Forall_forall in Hsp, Hnd.
    destruct (proj1 (map_all_ok f d m) (pr_map _ _ _ _ _ _ _ Hp)) as (ts & Hts & Em).
    exists ts, (C false m), (split_dot (C false m)). split; [assumption|]. split; [now rewrite nfc_eq, Em|].
    split; [apply split_labels|].
    assert (Forall2 (fun l u => label_ok (flags_for f l) b u /\ label_converts l u) (split_dot (C false m)) us) as G.
    { eapply Forall2_and_map; [exact Ho|]. intros l u Hl Hu E. destruct (process_label_ok _ _ _ _ E (Hsp l Hl)) as [G1 G2].
      split; [assumption|]. now apply label_converts_iff. }
    split.
    + eapply Forall2_and_map; [exact G|]. intros l u Hl Hu [G1 G2]. split; [assumption|].
      apply label_ok_iff in G1 as (X1 & X2 & _); [|now apply Hnd]. now split.
    + intros Hb. assert (b = true) as ->.
      { pose proof (pr_bidi _ _ _ _ _ _ _ Hp) as Eb. destruct (has_rtl_char d) eqn:Er; [now injection Eb|].
        assert (Forall2 label_converts (split_dot (C false m)) us) as G' by (eapply Forall2_and_map; [exact G|]; intros l u _ _ X; exact (proj2 X)).
        destruct (bidi_labels_iff _ _ G') as (b0 & Eb0 & Hb0). rewrite Eb0 in Eb. injection Eb as ->. apply Hb0.
        destruct Hb as [Hb|Hb]; [now apply has_rtl_dec in Hb|assumption]. }
      apply Forall_forall. intros u Hu. destruct (Forall2_in_r _ _ _ G u Hu) as (l & Hl & [G1 _]).
      apply label_ok_iff in G1 as (_ & _ & X); [|now apply Hnd]. now apply X.
  - intros (ts & n & ls & Hts & Hn & Hls & H2 & Hb). rewrite nfc_eq in Hn. injection Hn as Hn.
    pose proof (proj2 (map_all_ok f d (concat ts)) (ex_intro _ ts (conj Hts eq_refl))) as Em.
    assert (split_dot (C false (concat ts)) = ls) as Els by (rewrite Hn; now apply labels_split).
    destruct (map_all_total d f Hd) as (m & em & Em' & Hms & Hml). rewrite Em in Em'. injection Em' as <- <-.
    pose proof (split_scalar _ (C_scalar false _ Hms)) as Hsp. rewrite Els in Hsp.
    assert (Forall2 label_converts ls us) as G by (eapply Forall2_and_map; [exact H2|]; intros l u _ _ X; exact (proj1 X)).
    destruct (bidi_labels_iff _ _ G) as (b0 & Eb0 & Hb0).
    set (b := if has_rtl_char d then true else b0).
    assert (b = true -> Forall (fun u => u = [] \/ bidi_rule u) us) as Hbr.
    { intros E. apply Hb. unfold b in E. destruct (has_rtl_char d) eqn:Er; [left; now apply has_rtl_true|right; now apply Hb0]. }
    destruct (labels_no_dot _ _ Hls) as [Hlnd Hlne].
    assert (Forall2 (fun l u => process_label b f l = Ret (u, []) /\ Forall scalar u /\ ~ In 0x2E u) ls us) as Hpl.
    { eapply Forall2_and_map; [exact H2|]. intros l u Hl Hu (X1 & X2 & X3). rewrite Forall_forall in Hsp.
      pose proof (Hsp l Hl) as Hsl. apply label_converts_iff in X1 as X1'. pose proof X2 as (_ & _ & _ & _ & _ & Hnd).
      assert (Forall scalar u) as Hsu.
      { destruct (strip_prefix PUNYCODE_PREFIX l) as [p|] eqn:Ep; [|now subst]. apply strip_prefix_some in Ep as ->.
        apply Forall_app in Hsl as [_ Hsl]. now apply (decode_scalars p). }
      split; [|now split]. apply process_label_intro; [assumption|assumption|]. apply label_ok_iff; [assumption|].
      split; [assumption|]. split; [assumption|]. intros E. specialize (Hbr E). rewrite Forall_forall in Hbr. now apply Hbr. }
    assert (Forall2 (fun l u => process_label b f l = Ret (u, [])) ls us) as Hpl1 by (eapply Forall2_and_map; [exact Hpl|]; intros l u _ _ X; exact (proj1 X)).
    exists (concat ts), b. constructor; rewrite ?Els; try assumption.
    + unfold b. destruct (has_rtl_char d); [reflexivity|assumption].
    + now apply each_ok.
    + apply join_labels; [now apply (Forall2_nonempty _ _ _ Hpl)|]. apply Forall_forall. intros u Hu.
      destruct (Forall2_in_r _ _ _ Hpl u Hu) as (l & _ & X). tauto.
    + apply Forall_forall. intros u Hu. destruct (Forall2_in_r _ _ _ Hpl u Hu) as (l & _ & X). tauto.
Qed.
Lemma to_unicode_uts46 d f u : Forall scalar d ->
  (to_unicode d f = Ret (u, []) <-> exists us, uts46 (use_std3 f) false d us /\ labels_of u us).
Proof.
  intros Hd. change false with (transitional (no_trans f)) at 1. change (use_std3 f) with (use_std3 (no_trans f)). split.
  - intros H. destruct (processing_inv _ _ _ _ Hd H) as (m & em & b & outs & es & Hp & -> & E).
    symmetry in E. apply app_eq_nil in E as [-> ->]. exists outs. split; [apply processed_uts46; eauto|].
    exact (pr_labels _ _ _ _ _ _ _ Hp).
  - intros (us & H & Hl). apply processed_uts46 in H as (m & b & Hp); [|assumption]. rewrite to_unicode_no_trans.
    rewrite (processed_eq _ _ _ _ _ _ _ Hp). cbn [app]. apply labels_split in Hl. rewrite <- Hl, join_split. reflexivity.
Qed.
Lemma to_ascii_uts46 checked d s t a : Forall scalar d ->
  (to_ascii checked d (mkFlags s t false) = Ret (inl a) <->
   exists us xs, uts46 s t d us /\ labels_of a xs /\
     Forall2 (fun u x => (Forall (fun c => c < 128) u /\ x = u) \/
       (~ Forall (fun c => c < 128) u /\ exists p, encode checked u = Ret (Some p) /\ x = PUNYCODE_PREFIX ++ p)) us xs).
Proof.
  intros Hd. set (f := mkFlags s t false). change s with (use_std3 f) at 1. change t with (transitional f) at 1.
  assert (forall u x, ascii_label checked u = Ret (x, []) <-> (Forall (fun c => c < 128) u /\ x = u) \/
       (~ Forall (fun c => c < 128) u /\ exists p, encode checked u = Ret (Some p) /\ x = PUNYCODE_PREFIX ++ p)) as G.
  { intros u x. unfold ascii_label. rewrite <- ascii_forallb. destruct (forallb is_ascii u).
    - split; [intros [= <-]; now left|]. intros [[_ ->]|[X _]]; [reflexivity|contradiction].
    - split.
      + intros H. bind H p Ep. destruct p as [p|]; [|discriminate H]. injection H as <-. right. split; [discriminate|]. eauto.
      + intros [[X _]|[_ (p & -> & ->)]]; [discriminate|reflexivity]. }
  split.
  - intros H. destruct (to_ascii_ok _ _ _ _ Hd H) as (m & b & outs & xs & Hp & Ha & -> & _).
    exists outs, xs. split; [apply processed_uts46; eauto|]. split; [exact (as_labels _ _ _ _ Ha)|].
    eapply Forall2_and_map; [exact (asciied_forall2 _ _ _ Ha)|]. intros u x _ _. apply G.
  - intros (us & xs & H & Hl & H2). apply processed_uts46 in H as (m & b & Hp); [|assumption].
    pose proof (labels_split _ _ Hl) as El. rewrite <- (join_split a), El.
    assert (Forall2 (fun u x => ascii_label checked u = Ret (x, [])) us xs) as H3 by (eapply Forall2_and_map; [exact H2|]; intros u x _ _; apply G).
    unfold to_ascii. rewrite (processed_eq _ _ _ _ _ _ _ Hp). cbn [obind fst snd].
    rewrite (labels_split _ _ (pr_labels _ _ _ _ _ _ _ Hp)), (each_ok _ _ _ H3). reflexivity.
Qed.

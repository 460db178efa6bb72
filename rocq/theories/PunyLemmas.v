(** The Punycode properties C19 to C22, C59 and C60. *)
From Coq Require Import List NArith ZArith Lia Bool ZifyBool ZifyNat ZifyN.
From Verif Require Import Base PunyModel PunySpec PunyProofs PunyDecode PunyEncode.
Import ListNotations.
Open Scope N_scope.
Ltac Zify.zify_post_hook ::= Z.div_mod_to_equations.

Lemma digit_ci ds cs : Forall2 digit_char ds cs -> Forall2 digit_char_ci ds cs.
Proof. induction 1; constructor; [now left|assumption]. Qed.
Lemma punycode_ci s p tr : punycode digit_char s p tr -> punycode digit_char_ci s p tr.
Proof. intros (b & ds & cs & Hb & Hex & HF & E). exists b, ds, cs. auto using digit_ci. Qed.

Lemma digit_fun ds cs cs' : Forall2 digit_char ds cs -> Forall2 digit_char ds cs' -> cs = cs'.
Proof.
  intros H. revert cs'. induction H as [|d c ds cs Hd H IH]; intros cs' H'; inversion H'; subst; [reflexivity|].
  f_equal; [unfold digit_char in *; lia|auto].
Qed.
Lemma digit_ci_value ds ds' cs : Forall2 digit_char_ci ds cs -> Forall2 digit_char_ci ds' cs -> ds = ds'.
Proof.
  intros H. revert ds'. induction H as [|d c ds cs Hd H IH]; intros cs' H'; inversion H'; subst; [reflexivity|].
  f_equal; [unfold digit_char_ci, digit_char in *; lia|auto].
Qed.

(** The digits determine the result. *)
Lemma expands_cases first bias n i out ds tr res : expands first bias n i out ds tr res ->
  (ds = [] /\ tr = [] /\ res = out) \/
  exists ds1 delta bias' rest tr', ds = ds1 ++ rest /\ tr = (i, delta) :: tr' /\ varint bias 0 ds1 delta /\
    adapts first delta (len out + 1) bias' /\
    expands false bias' (n + (i + delta) / (len out + 1)) ((i + delta) mod (len out + 1) + 1)
      (insert_at ((i + delta) mod (len out + 1)) (n + (i + delta) / (len out + 1)) out) rest tr' res.
Proof. intros H. destruct H; [now left|right]. do 5 eexists. eauto. Qed.

Lemma expands_det first bias n i out ds tr res : expands first bias n i out ds tr res ->
  forall tr' res', expands first bias n i out ds tr' res' -> tr = tr' /\ res = res'.
Proof.
  induction 1 as [|first bias n i out ds delta bias' rest tr res Hv len1 n' i' Hs Ha Hex IH]; intros tr' res' H';
    apply expands_cases in H' as [(Ed & -> & ->)|(ds2 & delta2 & bias2 & rest2 & tr2 & Ed & -> & Hv2 & Ha2 & Hex2)].
  - auto.
  - apply varint_nonempty in Hv2. destruct ds2; [contradiction|discriminate].
  - apply varint_nonempty in Hv. destruct ds; [contradiction|discriminate].
  - destruct (varint_prefix_free _ _ _ _ Hv _ _ _ _ Hv2 Ed) as (<- & <- & <-).
    rewrite (adapts_fun _ _ _ _ _ Ha2 Ha) in Hex2. destruct (IH _ _ Hex2) as [<- <-]. auto.
Qed.

Lemma expands_scalar first bias n i out ds tr res : expands first bias n i out ds tr res ->
  Forall scalar out -> Forall scalar res.
Proof. induction 1; intros Hs; [assumption|]. apply IHexpands. now apply Forall_insert. Qed.

Lemma punycode_ascii (digit : N -> N -> Prop) s p tr : (forall d c, digit d c -> digit_char_ci d c) -> punycode digit s p tr -> Forall (fun c => c < 128) p.
Proof.
  intros Hdig (b & ds & cs & Hb & _ & HF & ->).
  assert (Forall (fun c => c < 128) cs) as Hc.
  { clear - HF Hdig. induction HF as [|d c ds cs H HF IH]; constructor; [|assumption].
    apply Hdig in H. unfold digit_char_ci, digit_char in H. lia. }
  destruct b; [assumption|]. apply Forall_app. split; [assumption|]. constructor; [lia|assumption].
Qed.

Lemma punycode_exists s : Forall scalar s -> exists p tr, punycode digit_char s p tr.
Proof.
  intros Hs. destruct (basic_OK s) as [_ HI]. pose proof (Inv_len _ _ _ _ HI) as Hl.
  set (b := filter (below 128) s) in *.
  assert (len s = len b + N.of_nat (N.to_nat (len s - len b))) as El by lia.
  destruct (expansion_exists _ 128 0 b s true 72 HI Hs El) as (ds & tr & Hex).
  assert (Forall (fun d => d < 36) ds) as Hd.
  { clear - Hex. induction Hex; [constructor|]. apply Forall_app. split; [now apply varint_digit in H|assumption]. }
  assert (exists cs, Forall2 digit_char ds cs) as (cs & HF).
  { clear - Hd. induction Hd as [|d ds H _ (cs & IH)]; [exists []; constructor|].
    destruct (digit_of_value d H) as (c & _ & Hc). exists (c :: cs). now constructor. }
  eexists _, tr. exists b, ds, cs. split; [|split; [exact Hex|split; [exact HF|reflexivity]]].
  apply Forall_forall. intros c Hc. apply filter_In in Hc as [_ Hc]. unfold below in Hc. lia.
Qed.

(** The Punycode form is unique. *)
Lemma punycode_digits s p p' tr tr' : punycode digit_char_ci s p tr -> punycode digit_char_ci s p' tr' ->
  tr = tr' /\ exists b ds cs cs', Forall2 digit_char_ci ds cs /\ Forall2 digit_char_ci ds cs' /\
    p = match b with [] => cs | _ => b ++ 0x2D :: cs end /\ p' = match b with [] => cs' | _ => b ++ 0x2D :: cs' end.
Proof.
  intros (b & ds & cs & Hb & Hex & HF & E) (b' & ds' & cs' & Hb' & Hex' & HF' & E').
  pose proof (punycode_basic _ _ _ _ Hb Hex) as Eb. pose proof (punycode_basic _ _ _ _ Hb' Hex') as Eb'.
  rewrite Eb in Hex, E. rewrite Eb' in Hex', E'.
  destruct (expands_inj _ _ _ _ _ _ _ _ Hex (proj1 (basic_OK s)) _ _ Hex') as [<- <-].
  split; [reflexivity|]. exists (filter (below 128) s), ds, cs, cs'. auto.
Qed.
Lemma punycode_fun s p p' tr tr' : punycode digit_char s p tr -> punycode digit_char s p' tr' -> p = p' /\ tr = tr'.
Proof.
  intros (b & ds & cs & Hb & Hex & HF & E) (b' & ds' & cs' & Hb' & Hex' & HF' & E').
  pose proof (punycode_basic _ _ _ _ Hb Hex) as Eb. pose proof (punycode_basic _ _ _ _ Hb' Hex') as Eb'.
  rewrite Eb in Hex, E. rewrite Eb' in Hex', E'.
  destruct (expands_inj _ _ _ _ _ _ _ _ Hex (proj1 (basic_OK s)) _ _ Hex') as [<- <-].
  rewrite (digit_fun _ _ _ HF HF') in E. split; congruence.
Qed.
Lemma punycode_inv s s' p tr tr' : punycode digit_char_ci s p tr -> punycode digit_char_ci s' p tr' -> s = s' /\ tr = tr'.
Proof.
  intros (b & ds & cs & Hb & Hex & HF & E) (b' & ds' & cs' & Hb' & Hex' & HF' & E').
  assert (b = b' /\ cs = cs') as [<- <-].
  { pose proof (parts_of b ds cs HF) as P1. pose proof (parts_of b' ds' cs' HF') as P2.
    change 0x2D with DELIMITER in *. rewrite <- E in P1. rewrite <- E', P1 in P2. now injection P2. }
  rewrite (digit_ci_value _ _ _ HF' HF) in Hex'. destruct (expands_det _ _ _ _ _ _ _ _ Hex _ _ Hex'). auto.
Qed.

(** ** How large the numbers get *)
Lemma trace_bound first bias n i out ds tr res : expands first bias n i out ds tr res -> 128 <= n ->
  Forall (fun p => fst p + snd p < 1113984 * len res) tr.
Proof.
  induction 1 as [|first bias n i out ds delta bias' rest tr res Hv len1 n' i' Hs Ha Hex IH]; intros Hn; [constructor|].
  pose proof (expands_length _ _ _ _ _ _ _ _ Hex) as Hl. rewrite insert_len in Hl.
  assert (128 <= n') as Hn' by (unfold n'; generalize ((i + delta) / len1); lia).
  constructor; [|now apply IH]. cbn [fst snd]. apply scalar_max in Hs.
  change (N.of_nat (length out)) with (len out) in len1.
  assert (0 < len1) as H0 by (unfold len1; lia).
  pose proof (N.div_mod (i + delta) len1 ltac:(lia)) as E. pose proof (N.mod_lt (i + delta) len1 ltac:(lia)) as Hm.
  assert ((i + delta) / len1 <= 0x10FFFF - 128) as Hq by (unfold n' in Hs; lia).
  assert (len1 <= len res) as Hlr by (unfold len1; lia).
  clearbody len1. generalize dependent ((i + delta) / len1). generalize dependent ((i + delta) mod len1).
  intros. clear - E Hm Hq Hlr. nia.
Qed.
Lemma short_fits s p digit tr : punycode digit s p tr -> len s <= 3855 -> Forall fits tr.
Proof.
  intros (b & ds & cs & Hb & Hex & HF & E) Hl.
  pose proof (trace_bound _ _ _ _ _ _ _ _ Hex ltac:(lia)) as H.
  eapply Forall_impl; [|exact H]. intros [x y]. unfold fits, U32_MAX. cbn [fst snd]. lia.
Qed.
Lemma fits_small tr : Forall fits tr -> Forall small tr.
Proof. apply Forall_impl. intros [x y]. unfold fits, small. cbn [fst snd]. lia. Qed.

(** ** C60, C20 *)
Lemma small_dec tr : {Forall small tr} + {~ Forall small tr}.
Proof. apply Forall_dec. intros [x y]. unfold small. cbn [snd]. destruct (N.leb y U32_MAX) eqn:E; [left|right]; lia. Qed.

Lemma encode_exact s : Forall scalar s -> len s <= U32_MAX -> exists p tr, punycode digit_char s p tr /\
  (Forall small tr -> forall checked, encode checked s = Ret (Some p)) /\
  (~ Forall small tr -> encode false s = Ret None /\ (encode true s = Ret None \/ encode true s = Panic)).
Proof.
  intros Hs Hl. destruct (punycode_exists s Hs) as (p & tr & Hp). exists p, tr. split; [assumption|]. split.
  - intros Hsm checked. pose proof (encode_spec checked s Hs Hl) as H.
    destruct (encode checked s) as [[p'|]|].
    + destruct H as (tr' & Hp' & _). now destruct (punycode_fun _ _ _ _ _ Hp Hp') as [-> _].
    + now apply H in Hp.
    + destruct H as [_ H]. now apply H in Hp.
  - intros Hns.
    assert (forall tr' p', punycode digit_char s p' tr' -> Forall small tr' -> False) as Hno.
    { intros tr' p' Hp' Hsm'. destruct (punycode_fun _ _ _ _ _ Hp Hp') as [_ <-]. contradiction. }
    split.
    + pose proof (encode_spec false s Hs Hl) as H. destruct (encode false s) as [[p'|]|]; [|reflexivity|].
      * destruct H as (tr' & Hp' & Hsm'). now apply Hno in Hp'.
      * destruct H; discriminate.
    + pose proof (encode_spec true s Hs Hl) as H. destruct (encode true s) as [[p'|]|]; [|now left|now right].
      destruct H as (tr' & Hp' & Hsm'). now apply Hno in Hp'.
Qed.

Lemma encode_total s : Forall scalar s -> len s <= U32_MAX -> exists o, encode false s = Ret o.
Proof.
  intros Hs Hl. destruct (encode_exact s Hs Hl) as (p & tr & _ & H1 & H2). destruct (small_dec tr) as [H|H].
  - eauto. - destruct (H2 H). eauto.
Qed.

Definition encoded_shape (s p : str) : Prop := exists ext,
  Forall (fun c => 0x61 <= c <= 0x7A \/ 0x30 <= c <= 0x39) ext /\
  p = filter is_ascii s ++ (if existsb is_ascii s then [0x2D] else []) ++ ext.

Lemma encode_shape checked s p : Forall scalar s -> len s <= U32_MAX -> encode checked s = Ret (Some p) -> encoded_shape s p.
Proof.
  intros Hs Hl E. pose proof (encode_spec checked s Hs Hl) as H. rewrite E in H.
  destruct H as (tr & (b & ds & cs & Hb & Hex & HF & ->) & _). exists cs. split.
  - clear - HF. induction HF as [|d c ds cs H HF IH]; constructor; [|assumption]. unfold digit_char in H. lia.
  - rewrite (filter_ext is_ascii (below 128) ascii_below s), <- (punycode_basic _ _ _ _ Hb Hex).
    assert (existsb is_ascii s = match b with [] => false | _ => true end) as ->.
    { rewrite (punycode_basic _ _ _ _ Hb Hex). clear. induction s as [|c s IH]; [reflexivity|]. cbn [existsb filter].
      rewrite ascii_below. destruct (below 128 c); [reflexivity|exact IH]. }
    destruct b; reflexivity.
Qed.

Lemma encode_short s checked : Forall scalar s -> len s <= 3855 -> exists p, encode checked s = Ret (Some p).
Proof.
  intros Hs Hl. destruct (encode_exact s Hs ltac:(unfold U32_MAX; lia)) as (p & tr & Hp & H & _). exists p. apply H.
  apply fits_small. now apply (short_fits s p digit_char).
Qed.

(** ** C19 *)
Lemma roundtrip_short s : Forall scalar s -> len s <= 3855 ->
  exists p, (forall checked, encode checked s = Ret (Some p)) /\ decode p = Ret (Some s).
Proof.
  intros Hs Hl. destruct (encode_exact s Hs ltac:(unfold U32_MAX; lia)) as (p & tr & Hp & H & _). exists p.
  pose proof (short_fits s p digit_char tr Hp Hl) as Hfit. split; [apply H; now apply fits_small|].
  apply (decode_complete p s tr); [now apply punycode_ci|assumption|unfold U32_MAX; lia].
Qed.

Lemma roundtrip_never_wrong checked s p : Forall scalar s -> len s <= U32_MAX -> len p <= U32_MAX ->
  encode checked s = Ret (Some p) -> decode p = Ret (Some s) \/ decode p = Ret None.
Proof.
  intros Hs Hl Hlp E. pose proof (encode_spec checked s Hs Hl) as H. rewrite E in H. destruct H as (tr & Hp & _).
  destruct (decode_total p Hlp) as (o & Eo & _). rewrite Eo. destruct o as [s'|]; [|now right].
  apply decode_iff in Eo as (tr' & Hp' & _); [|now apply (punycode_ascii digit_char s p tr); [left|]|assumption].
  apply punycode_ci in Hp. destruct (punycode_inv _ _ _ _ _ Hp Hp') as [<- _]. now left.
Qed.

Lemma roundtrip_iff checked s p : Forall scalar s -> len s <= U32_MAX -> len p <= U32_MAX ->
  encode checked s = Ret (Some p) ->
  (decode p = Ret (Some s) <-> exists tr, punycode digit_char s p tr /\ Forall fits tr).
Proof.
  intros Hs Hl Hlp E. pose proof (encode_spec checked s Hs Hl) as H. rewrite E in H. destruct H as (tr & Hp & _).
  assert (Forall (fun c => c < 128) p) as Ha by (apply (punycode_ascii digit_char s p tr); [now left|assumption]).
  rewrite (decode_iff p s Ha Hlp). split.
  - intros (tr' & Hp' & Hf). exists tr. split; [assumption|].
    apply punycode_ci in Hp. now destruct (punycode_inv _ _ _ _ _ Hp Hp') as [_ <-].
  - intros (tr' & Hp' & Hf). exists tr'. split; [now apply punycode_ci|assumption].
Qed.

(** ** C21 *)
Lemma decode_safe p : Forall scalar p -> len p <= U32_MAX ->
  exists o, decode p = Ret o /\ match o with Some s => Forall scalar s | None => True end.
Proof.
  intros Hs Hl. destruct (decode_total p Hl) as (o & E & Ho). exists o. split; [assumption|].
  destruct o as [s|]; [|exact I]. destruct Ho as (ds & tr & HF & Hex & _). apply (expands_scalar _ _ _ _ _ _ _ _ Hex).
  unfold parts. destruct (rsplit p) as [[[|c b] r]|] eqn:Er; cbn [fst]; try constructor;
    apply rsplit_some in Er as [-> _]; apply Forall_app in Hs as [Hs _]; now inversion Hs.
Qed.

(** ** C22 *)
Definition lower (c : N) : N := if (0x41 <=? c) && (c <=? 0x5A) then c + 32 else c.
Lemma decode_inj p p' s : Forall (fun c => c < 128) p -> Forall (fun c => c < 128) p' ->
  len p <= U32_MAX -> len p' <= U32_MAX -> decode p = Ret (Some s) -> decode p' = Ret (Some s) ->
  exists b cs cs', p = b ++ cs /\ p' = b ++ cs' /\ ~ In 0x2D cs /\ map lower cs = map lower cs'.
Proof.
  intros Ha Ha' Hl Hl' E E'.
  apply decode_iff in E as (tr & Hp & _); [|assumption|assumption].
  apply decode_iff in E' as (tr' & Hp' & _); [|assumption|assumption].
  destruct (punycode_digits _ _ _ _ _ Hp Hp') as (_ & b & ds & cs & cs' & HF & HF' & -> & ->).
  assert (map lower cs = map lower cs') as Em.
  { clear - HF HF'. revert cs' HF'. induction HF as [|d c ds cs H HF IH]; intros cs' HF'; inversion HF'; subst; [reflexivity|].
    cbn [map]. f_equal; [|auto]. unfold digit_char_ci, digit_char in *. unfold lower.
    repeat match goal with |- context [if ?b then _ else _] => destruct b eqn:? end; lia. }
  assert (~ In 0x2D cs) as Hn by (change 0x2D with DELIMITER; now apply digits_no_delimiter in HF).
  destruct b as [|c b].
  - exists [], cs, cs'. auto.
  - exists ((c :: b) ++ [0x2D]), cs, cs'. rewrite <- !app_assoc. auto.
Qed.

(** ** C59 *)
Lemma decode_ascii_only : decode [0xE9; 0x2D] = Ret (Some [0xE9]) /\
  forall tr, ~ punycode digit_char_ci [0xE9] [0xE9; 0x2D] tr.
Proof.
  split; [reflexivity|]. intros tr (b & ds & cs & Hb & _ & HF & E). destruct b as [|c b].
  - subst cs. inversion HF; subst. unfold digit_char_ci, digit_char in *. lia.
  - cbn [app] in E. injection E as <- _. inversion Hb; lia.
Qed.

(** ** Witnesses *)
Lemma repeat_scalar n c : scalarb c = true -> Forall scalar (repeat c n).
Proof. intros H. apply Forall_forall. intros x Hx. apply repeat_spec in Hx as ->. now apply scalarb_spec. Qed.
Lemma scalars_check l : forallb scalarb l = true -> Forall scalar l.
Proof. intros H. apply Forall_forall. intros x Hx. rewrite forallb_forall in H. apply scalarb_spec. now apply H. Qed.

Lemma roundtrip_refuted : exists s p,
  Forall scalar s /\ encode true s = Ret (Some p) /\ encode false s = Ret (Some p) /\ decode p = Ret None.
Proof.
  set (s := repeat 97 (N.to_nat 65535) ++ [0x80; 0x1007F]).
  assert (Forall scalar s) as Hs by (apply scalars_check; vm_compute; reflexivity).
  assert (len s <= U32_MAX) as Hl by (vm_compute; discriminate).
  assert (match encode true s with Ret (Some p) => match decode p with Ret None => true | _ => false end | _ => false end = true) as Hd
    by (vm_compute; reflexivity).
  clearbody s. destruct (encode true s) as [[p|]|] eqn:E; [|discriminate Hd|discriminate Hd].
  exists s, p. split; [assumption|]. split; [assumption|]. split.
  - pose proof (encode_spec true s Hs) as H. rewrite E in H. destruct H as (tr & Hp & Hsm); [assumption|].
    destruct (encode_exact s Hs Hl) as (p' & tr' & Hp' & H & _).
    destruct (punycode_fun _ _ _ _ _ Hp Hp') as [-> ->]. now apply H.
  - destruct (decode p) as [[x|]|]; [discriminate|reflexivity|discriminate].
Qed.

Lemma encode_panics : exists s, Forall scalar s /\ encode true s = Panic /\ encode false s = Ret None.
Proof.
  set (s := repeat 97 (N.to_nat 65536) ++ [0x1007F]). exists s.
  split; [apply scalars_check; vm_compute; reflexivity|]. split; vm_compute; reflexivity.
Qed.

Lemma encode_checked s : Forall scalar s -> len s <= U32_MAX ->
  encode true s = encode false s \/ (encode true s = Panic /\ encode false s = Ret None).
Proof.
  intros Hs Hl. destruct (encode_exact s Hs Hl) as (p & tr & _ & H1 & H2). destruct (small_dec tr) as [H|H].
  - left. now rewrite !(H1 H).
  - destruct (H2 H) as [E [E'|E']]; rewrite E, E'; auto.
Qed.

Lemma encode_rfc s : Forall scalar s -> len s <= U32_MAX ->
  exists p tr, punycode digit_char s p tr /\
    (forall p' tr', punycode digit_char s p' tr' -> p' = p /\ tr' = tr) /\
    (Forall small tr -> forall checked, encode checked s = Ret (Some p)) /\
    (~ Forall small tr -> encode false s = Ret None).
Proof.
  intros Hs Hl. destruct (encode_exact s Hs Hl) as (p & tr & Hp & H1 & H2). exists p, tr. split; [assumption|].
  split; [intros p' tr' Hp'; now apply (punycode_fun s)|]. split; [assumption|]. intros H. now destruct (H2 H).
Qed.

Lemma rfc_example : exists tr, punycode digit_char_ci [0x62; 0xFC; 0x63] [0x62; 0x63; 0x2D; 0x58; 0x4B; 0x61] tr.
Proof.
  assert (decode [0x62; 0x63; 0x2D; 0x58; 0x4B; 0x61] = Ret (Some [0x62; 0xFC; 0x63])) as E by (vm_compute; reflexivity).
  apply decode_iff in E as (tr & H & _); [eauto| |vm_compute; discriminate].
  repeat (constructor; [lia|]). constructor.
Qed.

Lemma encode_rfc_example : exists s p tr, encode true s = Ret (Some p) /\ punycode digit_char s p tr /\ length tr = 1%nat.
Proof.
  assert (encode true [0x62; 0xFC] = Ret (Some [0x62; 0x2D; 0x65; 0x68; 0x61])) as E by (vm_compute; reflexivity).
  assert (Forall scalar [0x62; 0xFC]) as Hs by (apply scalars_check; reflexivity).
  pose proof (encode_spec true _ Hs ltac:(vm_compute; discriminate)) as H. rewrite E in H. destruct H as (tr & Hp & _).
  do 3 eexists. split; [exact E|]. split; [exact Hp|].
  destruct Hp as (b & ds & cs & Hb & Hex & _). pose proof (punycode_basic _ _ _ _ Hb Hex) as Eb.
  pose proof (expands_length _ _ _ _ _ _ _ _ Hex) as L.
  clear - Hex Eb. cbn in Eb. subst b.
  assert (forall first bias n i out ds tr res, expands first bias n i out ds tr res -> length res = (length out + length tr)%nat) as G.
  { clear. induction 1; [cbn; lia|]. rewrite IHexpands. pose proof (insert_len i' n' out). unfold len in *. cbn [length]. lia. }
  apply G in Hex. cbn in Hex. lia.
Qed.

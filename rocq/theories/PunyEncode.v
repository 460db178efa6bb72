(** The encoder computes the Punycode form of RFC 3492, within 32 bits. *)
From Coq Require Import List NArith ZArith Lia Bool ZifyBool ZifyNat ZifyN.
From Verif Require Import Base PunyModel PunySpec PunyProofs PunyDecode.
Import ListNotations.
Open Scope N_scope.
Ltac Zify.zify_post_hook ::= Z.div_mod_to_equations.

Lemma insert_mid A B c : insert_at (len A) c (A ++ B) = A ++ c :: B.
Proof.
  unfold insert_at, len. rewrite Nnat.Nat2N.id, firstn_app, skipn_app, firstn_all, skipn_all, Nat.sub_diag.
  cbn [firstn skipn app]. now rewrite app_nil_r.
Qed.
Lemma filter_len f (l : list N) : len (filter f l) <= len l.
Proof.
  induction l as [|c l IH]; cbn [filter]; [lia|]. rewrite len_cons. destruct (f c); rewrite ?len_cons; lia.
Qed.
Lemma filter_full f (l : list N) : len (filter f l) = len l -> filter f l = l.
Proof.
  induction l as [|c l IH]; cbn [filter]; [reflexivity|]. pose proof (filter_len f l) as H.
  destruct (f c); rewrite !len_cons; intros E; [f_equal; apply IH; lia|lia].
Qed.

Lemma target n m i pos delta L : n <= m -> pos < L -> delta + n * L + i = m * L + pos ->
  n + (i + delta) / L = m /\ (i + delta) mod L = pos.
Proof.
  intros Hnm Hp E. assert (i + delta = pos + (m - n) * L) as E2 by nia. rewrite E2.
  rewrite N.div_add, N.mod_add, N.div_small, N.mod_small by lia. lia.
Qed.

Lemma expand_to first bias n i out m A B delta ds bias' rest tr res :
  out = A ++ B -> n <= m -> delta + n * (len out + 1) + i = m * (len out + 1) + len A ->
  varint bias 0 ds delta -> adapts first delta (len out + 1) bias' -> scalar m ->
  expands false bias' m (len A + 1) (A ++ m :: B) rest tr res ->
  expands first bias n i out (ds ++ rest) ((i, delta) :: tr) res.
Proof.
  intros Eo Hnm E Hv Had Hs Hex.
  destruct (target n m i (len A) delta (len out + 1) Hnm) as [T1 T2]; [subst out; rewrite len_app; lia|assumption|].
  eapply expands_step; [exact Hv| | |]; change (N.of_nat (length out)) with (len out); rewrite ?T1, ?T2; try eassumption.
  subst out. now rewrite insert_mid.
Qed.

Lemma Inv_OK n i out s : Inv n i out s -> OK n i out.
Proof.
  intros (r1 & r2 & -> & -> & ->). split; [|split].
  - apply Forall_app. split; apply Forall_forall; intros c Hc; apply filter_In in Hc as [_ Hc]; unfold upto, below in Hc; lia.
  - unfold len. rewrite Nnat.Nat2N.id, skipn_app, skipn_all, Nat.sub_diag. cbn [app skipn].
    apply Forall_forall. intros c Hc; apply filter_In in Hc as [_ Hc]; unfold below in Hc; lia.
  - rewrite len_app. lia.
Qed.
Lemma Inv_after u m v : Inv m (len (filter (upto m) u) + 1) (filter (upto m) u ++ m :: filter (below m) v) (u ++ m :: v).
Proof.
  exists (u ++ [m]), v. split; [now rewrite <- app_assoc|]. rewrite upto_app_last. split; [now rewrite <- app_assoc|].
  now rewrite len_app.
Qed.

Lemma split_first (m : N) l : In m l -> exists u v, l = u ++ m :: v /\ ~ In m u.
Proof.
  induction l as [|c l IH]; [intros []|]. intros H. destruct (N.eq_dec c m) as [->|Hne].
  - exists [], l. auto.
  - destruct H as [H|H]; [contradiction|]. destruct (IH H) as (u & v & -> & Hn). exists (c :: u), v.
    split; [reflexivity|]. intros [E|E]; auto.
Qed.
Lemma upto_not_in m (u : list N) : ~ In m u -> filter (upto m) u = filter (below m) u.
Proof.
  intros H. apply filter_ext_in. intros c Hc. unfold upto, below. assert (c <> m) by congruence. lia.
Qed.

(** A least character above [n]. *)
Lemma least_above n l : filter (upto n) l <> l -> exists m, In m l /\ n < m /\ forall c, In c l -> n < c -> m <= c.
Proof.
  induction l as [|c l IH]; intros H; [now contradiction H|]. cbn [filter] in H. unfold upto in H at 1.
  destruct (N.leb_spec c n) as [Hc|Hc].
  - destruct IH as (m & Hm & Hlt & Hle); [congruence|]. exists m. split; [now right|]. split; [assumption|].
    intros x [<-|Hx] Hx2; [lia|auto].
  - destruct (list_eq_dec N.eq_dec (filter (upto n) l) l) as [E|E].
    + exists c. split; [now left|]. split; [assumption|]. intros x [<-|Hx] Hx2; [lia|].
      exfalso. rewrite <- E in Hx. apply filter_In in Hx as [_ Hx]. unfold upto in Hx. lia.
    + destruct (IH E) as (m & Hm & Hlt & Hle). destruct (N.leb_spec m c) as [Hmc|Hmc].
      * exists m. split; [now right|]. split; [assumption|]. intros x [<-|Hx] Hx2; [lia|auto].
      * exists c. split; [now left|]. split; [assumption|]. intros x [<-|Hx] Hx2; [lia|]. specialize (Hle x Hx Hx2). lia.
Qed.

Lemma next_target n i out s : Inv n i out s -> len out < len s ->
  exists u m v, s = u ++ m :: v /\ n <= m /\ out = filter (upto m) u ++ filter (below m) v /\
    (n < m \/ i <= len (filter (upto m) u)).
Proof.
  intros (r1 & r2 & Hs & Ho & Hi) Hl. destruct (In_dec N.eq_dec n r2) as [Hin|Hin].
  - apply split_first in Hin as (u2 & v2 & -> & Hn). exists (r1 ++ u2), n, v2.
    split; [now rewrite Hs, <- app_assoc|]. split; [lia|].
    rewrite !filter_app in *. cbn [filter] in Ho. unfold below at 2 in Ho. rewrite N.ltb_irrefl in Ho.
    rewrite (upto_not_in n u2 Hn). split; [now rewrite Ho, <- app_assoc|]. right. rewrite len_app. lia.
  - assert (out = filter (upto n) s) as Eo.
    { rewrite Hs, Ho, filter_app. now rewrite (upto_not_in n r2 Hin). }
    destruct (least_above n s) as (m & Hm & Hlt & Hle).
    { intros E. rewrite Eo, E in Hl. lia. }
    pose proof (split_first m s Hm) as (u & v & Es & Hn). exists u, m, v. split; [assumption|]. split; [lia|].
    split; [|now left].
    rewrite (upto_not_in m u Hn), <- filter_app, Eo, Es.
    rewrite !filter_app. cbn [filter]. unfold upto at 2. destruct (N.leb_spec m n); [lia|].
    f_equal; apply filter_ext_in; intros c Hc; unfold upto, below;
      assert (In c s) as Hcs by (rewrite Es; apply in_or_app; cbn; auto); specialize (Hle c Hcs); lia.
Qed.

Lemma expansion_exists : forall k n i out s first bias, Inv n i out s -> Forall scalar s -> len s = len out + N.of_nat k ->
  exists ds tr, expands first bias n i out ds tr s.
Proof.
  induction k as [|k IH]; intros n i out s first bias HI Hs Hl.
  - exists [], []. destruct HI as (r1 & r2 & -> & -> & Hi).
    rewrite !len_app in Hl. pose proof (filter_len (upto n) r1) as L1. pose proof (filter_len (below n) r2) as L2.
    rewrite (filter_full (upto n) r1), (filter_full (below n) r2) by lia. constructor.
  - destruct (next_target n i out s HI) as (u & m & v & Es & Hnm & Eo & Hor); [lia|].
    pose proof (Inv_OK _ _ _ _ HI) as (_ & _ & Hi).
    set (A := filter (upto m) u) in *. set (B := filter (below m) v) in *.
    assert (exists delta, delta + n * (len out + 1) + i = m * (len out + 1) + len A) as (delta & Ed).
    { exists (m * (len out + 1) + len A - (n * (len out + 1) + i)). destruct Hor as [H|H]; nia. }
    destruct (varint_exists bias delta 0) as (ds & Hds). destruct (adapts_exists first delta (len out + 1)) as (bias' & Hb').
    destruct (IH m (len A + 1) (A ++ m :: B) s false bias') as (ds2 & tr2 & Hex).
    { rewrite Es. apply Inv_after. } { assumption. } { subst out. rewrite len_app in *. rewrite len_cons. lia. }
    exists (ds ++ ds2), ((i, delta) :: tr2). eapply (expand_to first bias n i out m A B); try eassumption.
    rewrite Forall_forall in Hs. apply Hs. rewrite Es. apply in_or_app. right. now left.
Qed.

(** If the encoder is on its way to [m], any expansion starts with that step. *)
Lemma first_step s n i out m u v delta : Forall scalar s -> Inv n i out s -> n <= m ->
  s = u ++ m :: v -> out = filter (upto m) u ++ filter (below m) v ->
  delta + n * (len out + 1) + i = m * (len out + 1) + len (filter (upto m) u) ->
  forall first bias ds tr, expands first bias n i out ds tr s -> exists tr', tr = (i, delta) :: tr'.
Proof.
  intros Hs HI Hnm Es Eo Ed first bias ds tr Hex.
  set (A := filter (upto m) u) in *. set (B := filter (below m) v) in *.
  destruct (varint_exists bias delta 0) as (ds1 & Hds1). destruct (adapts_exists first delta (len out + 1)) as (bias' & Hb').
  assert (Inv m (len A + 1) (A ++ m :: B) s) as HI2 by (rewrite Es; apply Inv_after).
  assert (len s = len (A ++ m :: B) + N.of_nat (N.to_nat (len s - len (A ++ m :: B)))) as Hl.
  { destruct HI2 as (r1 & r2 & E1 & E2 & _). rewrite E2, E1, !len_app.
    pose proof (filter_len (upto m) r1). pose proof (filter_len (below m) r2). lia. }
  destruct (expansion_exists _ m (len A + 1) (A ++ m :: B) s false bias' HI2 Hs Hl) as (ds2 & tr2 & Hex2).
  assert (expands first bias n i out (ds1 ++ ds2) ((i, delta) :: tr2) s) as Hex3.
  { eapply (expand_to first bias n i out m A B); try eassumption.
    rewrite Forall_forall in Hs. apply Hs. rewrite Es. apply in_or_app. right. now left. }
  destruct (expands_inj _ _ _ _ _ _ _ _ Hex3 (Inv_OK _ _ _ _ HI) _ _ Hex) as [_ <-]. eauto.
Qed.

Lemma expands_tr first bias n i out ds i0 delta tr res : expands first bias n i out ds ((i0, delta) :: tr) res ->
  exists rest bias', adapts first delta (len out + 1) bias' /\
    expands false bias' (n + (i + delta) / (len out + 1)) ((i + delta) mod (len out + 1) + 1)
      (insert_at ((i + delta) mod (len out + 1)) (n + (i + delta) / (len out + 1)) out) rest tr res.
Proof. intros H. inversion H; subst. eauto. Qed.

(** ** The loops *)
Definition small (p : N * N) : Prop := snd p <= U32_MAX.

(** Facts that hold while the characters of [s] equal to [m] are inserted,
    [u] being passed and [v] still to come. *)
Definition Sim (s : list N) (bl m : N) (u v : list N) (n i : N) (out : list N) (first : bool) (bias delta : N) : Prop :=
  s = u ++ v /\ Inv n i out s /\ out = filter (upto m) u ++ filter (below m) v /\ n <= m /\
  delta + n * (len out + 1) + i = m * (len out + 1) + len (filter (upto m) u) /\
  delta <= U32_MAX /\ bias <= 213 /\ first = (len out =? bl) /\ bl <= len out.

Definition overflows (s : list N) (n i : N) (out : list N) (first : bool) (bias : N) : Prop :=
  forall ds tr, expands first bias n i out ds tr s -> ~ Forall small tr.

Lemma Inv_len n i out s : Inv n i out s -> len out <= len s.
Proof.
  intros (r1 & r2 & -> & -> & _). rewrite !len_app.
  pose proof (filter_len (upto n) r1). pose proof (filter_len (below n) r2). lia.
Qed.

Lemma Sim_overflow s bl m u v n i out first bias delta : Forall scalar s -> Sim s bl m u v n i out first bias delta ->
  (exists u2 v2, v = u2 ++ m :: v2 /\ ~ In m u2 /\ U32_MAX < delta + len (filter (below m) u2)) ->
  overflows s n i out first bias.
Proof.
  intros Hs (Es & HI & Eo & Hnm & Ed & _) (u2 & v2 & -> & Hn & Hov) ds tr Hex Hsm.
  destruct (first_step s n i out m (u ++ u2) v2 (delta + len (filter (below m) u2)) Hs HI Hnm) with (first := first) (bias := bias) (ds := ds) (tr := tr)
    as (tr' & ->).
  - now rewrite Es, <- app_assoc.
  - rewrite Eo, !filter_app. cbn [filter]. unfold below at 2. rewrite N.ltb_irrefl.
    now rewrite (upto_not_in m u2 Hn), <- app_assoc.
  - rewrite filter_app, len_app, (upto_not_in m u2 Hn). lia.
  - assumption.
  - inversion Hsm as [|? ? H1 _]; subst. unfold small in H1. cbn [snd] in H1. lia.
Qed.

Lemma encode_for_spec checked s bl m : Forall scalar s -> scalar m -> len s <= U32_MAX ->
  forall v u n i out first bias delta, Sim s bl m u v n i out first bias delta ->
  (In m v \/ (n = m /\ 1 <= i)) ->
  match encode_for checked v m bl (mkEnc delta bias (len out)) with
  | Panic => checked = true /\ overflows s n i out first bias
  | Ret None => overflows s n i out first bias
  | Ret (Some (cs, st')) => exists ds tr n' i' out' first' bias' delta',
      st' = mkEnc delta' bias' (len out') /\ Sim s bl m s [] n' i' out' first' bias' delta' /\
      n' = m /\ 1 <= i' /\ Forall2 digit_char ds cs /\ Forall small tr /\
      (forall rest tr2 res, expands first' bias' n' i' out' rest tr2 res ->
         expands first bias n i out (ds ++ rest) (tr ++ tr2) res)
  end.
Proof.
  intros Hs Hm Hl. induction v as [|c v IH]; intros u n i out first bias delta HS Hor.
  - cbn [encode_for]. exists [], [], n, i, out, first, bias, delta.
    pose proof HS as (Es & _). rewrite app_nil_r in Es. subst u.
    split; [reflexivity|]. split; [assumption|]. destruct Hor as [[]|[-> Hi]].
    split; [reflexivity|]. split; [assumption|]. split; [constructor|]. split; [constructor|]. auto.
  - cbn [encode_for]. pose proof HS as (Es & HI & Eo & Hnm & Ed & Hdm & Hb & Hf & Hbl).
    pose proof (Inv_len _ _ _ _ HI) as Hlo.
    destruct (N.ltb_spec c m) as [Hc|Hc].
    + unfold incr_delta. destruct (N.leb_spec (delta + 1) U32_MAX) as [Hd1|Hd1].
      * cbn [obind]. destruct (N.eqb_spec (delta + 1) 0); [lia|].
        apply (IH (u ++ [c])).
        -- split; [now rewrite <- app_assoc|]. split; [assumption|].
           assert (filter (upto m) (u ++ [c]) = filter (upto m) u ++ [c]) as ->.
           { rewrite filter_app. cbn [filter]. unfold upto at 2. destruct (N.leb_spec c m); [reflexivity|lia]. }
           cbn [filter] in Eo. unfold below at 1 in Eo. destruct (N.ltb_spec c m); [|lia].
           split; [now rewrite <- app_assoc|]. split; [assumption|].
           rewrite len_app, len_cons, len_nil. split; [lia|]. auto.
        -- destruct Hor as [[E|H]|H]; [lia|now left|now right].
      * assert (overflows s n i out first bias) as Hov.
        { destruct Hor as [[E|Hin]|[-> Hi]]; [lia| |].
          - apply split_first in Hin as (u2 & v2 & Ev & Hn).
            apply (Sim_overflow s bl m u (c :: v) n i out first bias delta Hs HS).
            exists (c :: u2), v2. split; [now rewrite Ev|]. split; [intros [H|H]; [lia|auto]|].
            cbn [filter]. unfold below at 1. destruct (N.ltb_spec c m); [|lia]. rewrite len_cons. lia.
          - exfalso. assert (delta + i <= len u) as Hdu.
            { pose proof (filter_len (upto m) u). lia. }
            rewrite Es, len_app, len_cons in Hl. lia. }
        destruct checked; cbn [obind]; auto.
    + destruct (N.eqb_spec c m) as [->|Hne].
      * assert (len (filter (upto m) u) <= len out) as HA by (rewrite Eo, len_app; lia).
        destruct (encode_delta_spec bias ltac:(lia) 11 delta 0) as (ds & cs & E & Hv & HF).
        { apply (N.le_lt_trans _ U32_MAX); [assumption|]. vm_compute. reflexivity. }
        { vm_compute. discriminate. }
        change (36 * (0 + 1)) with BASE in E. rewrite E. cbn [obind].
        assert (len out < len s) as Hlt.
        { rewrite Eo, Es, !len_app. cbn [filter]. unfold below at 1. rewrite N.ltb_irrefl.
          rewrite len_cons. pose proof (filter_len (upto m) u). pose proof (filter_len (below m) v). lia. }
        rewrite chk_ret by lia. cbn [obind].
        rewrite <- Hf.
        destruct (adapt_spec delta (len out + 1) first Hdm ltac:(lia)) as (bias' & -> & Had & Hb'). cbn [obind].
        set (A := filter (upto m) u) in *.
        assert (out = A ++ filter (below m) v) as Eo2.
        { rewrite Eo. cbn [filter]. unfold below at 1. now rewrite N.ltb_irrefl. }
        assert (len (A ++ m :: filter (below m) v) = len out + 1) as El by (rewrite Eo2, !len_app, len_cons; lia).
        specialize (IH (u ++ [m]) m (len A + 1) (A ++ m :: filter (below m) v) false bias' 0).
        rewrite El in IH.
        assert (forall P : Prop, overflows s m (len A + 1) (A ++ m :: filter (below m) v) false bias' ->
          overflows s n i out first bias) as Hback.
        { intros _ Hov ds0 tr0 Hex Hsm.
          destruct (first_step s n i out m u v delta Hs HI Hnm Es Eo2 Ed first bias ds0 tr0 Hex) as (tr' & ->).
          apply Forall_inv_tail in Hsm as Hsm'.
          apply expands_tr in Hex as (rest3 & bias3 & Had3 & Hex3).
          destruct (target n m i (len A) delta (len out + 1) Hnm ltac:(lia) Ed) as [T1 T2].
          rewrite T1, T2 in *.
          rewrite (adapts_fun _ _ _ _ _ Had3 Had) in Hex3.
          assert (insert_at (len A) m out = A ++ m :: filter (below m) v) as Ei by (rewrite Eo2; apply insert_mid).
          rewrite Ei in Hex3. exact (Hov _ _ Hex3 Hsm'). }
        assert (Sim s bl m (u ++ [m]) v m (len A + 1) (A ++ m :: filter (below m) v) false bias' 0) as HS2.
        { split; [now rewrite <- app_assoc|]. split; [rewrite Es; apply Inv_after|].
          rewrite upto_app_last. fold A. split; [now rewrite <- app_assoc|]. split; [lia|].
          rewrite !len_app, !len_cons, len_nil. split; [lia|]. split; [unfold U32_MAX; lia|]. split; [assumption|].
          rewrite Eo2, len_app in Hbl. split; [|lia]. symmetry. apply N.eqb_neq. lia. }
        assert (1 <= len A + 1) as H1A by lia. specialize (IH HS2 (or_intror (conj eq_refl H1A))).
        destruct (encode_for checked v m bl (mkEnc 0 bias' (len out + 1))) as [[[cs2 st']|]|]; cbn [obind].
        -- destruct IH as (ds2 & tr2 & n' & i' & out' & first' & bias2 & delta' & Est & HS' & Hn' & Hi' & HF2 & Hsm & Hk).
           exists (ds ++ ds2), ((i, delta) :: tr2), n', i', out', first', bias2, delta'.
           split; [assumption|]. split; [assumption|]. split; [assumption|]. split; [assumption|].
           split; [now apply Forall2_app|]. split; [now constructor|].
           intros rest tr3 res Hex. rewrite <- app_assoc. cbn [app].
           eapply (expand_to first bias n i out m A (filter (below m) v)); try eassumption. now apply Hk.
        -- now apply (Hback True).
        -- destruct IH as [-> IH]. split; [reflexivity|]. now apply (Hback True).
      * apply (IH (u ++ [c])).
        -- split; [now rewrite <- app_assoc|]. split; [assumption|].
           assert (filter (upto m) (u ++ [c]) = filter (upto m) u) as ->.
           { rewrite filter_app. cbn [filter]. unfold upto at 2. destruct (N.leb_spec c m); [lia|]. apply app_nil_r. }
           cbn [filter] in Eo. unfold below at 1 in Eo. destruct (N.ltb_spec c m); [lia|]. tauto.
        -- destruct Hor as [[E|H]|H]; [congruence|now left|now right].
Qed.

Lemma min_from_spec cp l : match min_from cp l with
  | None => forall c, In c l -> c < cp
  | Some m => In m l /\ cp <= m /\ forall c, In c l -> cp <= c -> m <= c
  end.
Proof.
  unfold min_from.
  set (f := fun acc c => if cp <=? c then match acc with None => Some c | Some m => Some (N.min m c) end else acc).
  assert (forall l acc, match fold_left f l acc with
    | None => acc = None /\ forall c, In c l -> c < cp
    | Some m => (acc = Some m \/ (In m l /\ cp <= m)) /\ (forall c, In c l -> cp <= c -> m <= c) /\
                (forall a, acc = Some a -> m <= a)
    end) as G.
  { clear l. induction l as [|c l IH]; intros acc; cbn [fold_left].
    - destruct acc as [a|]; [|split; [reflexivity|intros c []]]. split; [now left|]. split; [intros c []|]. intros b [= <-]. lia.
    - specialize (IH (f acc c)). destruct (fold_left f l (f acc c)) as [m|].
      + destruct IH as (H1 & H2 & H3). unfold f in *. destruct (N.leb_spec cp c) as [Hc|Hc].
        * destruct acc as [a|].
          -- specialize (H3 _ eq_refl). split; [|split].
             ++ destruct H1 as [E|[H1 H1']]; [|right; split; [now right|assumption]].
                assert (N.min a c = m) as E2 by congruence. destruct (N.min_spec a c) as [[_ F]|[_ F]].
                ** left. congruence. ** right. split; [left; congruence|]. lia.
             ++ intros x [<-|Hx] Hx2; [lia|auto].
             ++ intros b [= <-]. lia.
          -- specialize (H3 _ eq_refl). split; [|split].
             ++ right. destruct H1 as [E|[H1 H1']]; [|split; [now right|assumption]].
                assert (c = m) as E2 by congruence. split; [now left|]. lia.
             ++ intros x [<-|Hx] Hx2; [lia|auto].
             ++ discriminate.
        * split; [|split].
          -- destruct H1 as [E|[H1 H1']]; [now left|right; split; [now right|assumption]].
          -- intros x [<-|Hx] Hx2; [lia|auto].
          -- assumption.
      + destruct IH as (H1 & H2). unfold f in H1. destruct (N.leb_spec cp c) as [Hc|Hc].
        * destruct acc; discriminate.
        * split; [assumption|]. intros x [<-|Hx]; [assumption|auto]. }
  specialize (G l None). destruct (fold_left f l None) as [m|].
  - destruct G as ([E|[H1 H2]] & H3 & _); [discriminate|]. auto.
  - apply G.
Qed.

Lemma encode_while_spec checked s bl : Forall scalar s -> len s <= U32_MAX ->
  forall fuel cp n i out first bias delta,
  out = filter (below cp) s -> Inv n i out s -> n <= cp -> delta + n * (len out + 1) + i = cp * (len out + 1) ->
  delta <= U32_MAX -> bias <= 213 -> first = (len out =? bl) -> bl <= len out ->
  len s < len out + N.of_nat fuel ->
  match encode_while fuel checked s cp bl (len s) (mkEnc delta bias (len out)) with
  | Panic => checked = true /\ overflows s n i out first bias
  | Ret None => overflows s n i out first bias
  | Ret (Some cs) => exists ds tr, Forall2 digit_char ds cs /\ Forall small tr /\
      expands first bias n i out ds tr s
  end.
Proof.
  intros Hs Hl. induction fuel as [|fuel IH]; intros cp n i out first bias delta Eo HI Hn Ed Hd Hb Hf Hbl Hfuel;
    pose proof (Inv_len _ _ _ _ HI) as Hlo; [lia|].
  cbn [encode_while]. destruct (N.ltb_spec (len out) (len s)) as [Hlt|Hge].
  - pose proof (min_from_spec cp s) as Hmin. destruct (min_from cp s) as [m|].
    2:{ exfalso. rewrite Eo, (filter_id (below cp)) in Hlt; [lia|].
        apply Forall_forall. intros c Hc. unfold below. specialize (Hmin c Hc). lia. }
    destruct Hmin as (Hin & Hcm & Hle).
    assert (scalar m) as Hm by (rewrite Forall_forall in Hs; auto).
    assert (out = filter (below m) s) as Eom.
    { rewrite Eo. apply filter_ext_in. intros c Hc. unfold below. specialize (Hle c Hc). lia. }
    rewrite chk_ret by lia. cbn [obind].
    assert (exists u2 v2, s = u2 ++ m :: v2 /\ ~ In m u2) as (u2 & v2 & Es & Hnu) by (apply split_first; assumption).
    assert ((delta + (m - cp) * (len out + 1)) + n * (len out + 1) + i = m * (len out + 1)) as Ed2 by nia.
    destruct (N.ltb_spec ((U32_MAX - delta) / (len out + 1)) (m - cp)) as [Hov|Hov].
    { intros ds tr Hex Hsm.
      assert (U32_MAX < delta + (m - cp) * (len out + 1)) as Hbig.
      { assert (U32_MAX - delta < (m - cp) * (len out + 1)); [|lia].
        pose proof (N.div_mod (U32_MAX - delta) (len out + 1) ltac:(lia)).
        pose proof (N.mod_lt (U32_MAX - delta) (len out + 1) ltac:(lia)). nia. }
      destruct (first_step s n i out m u2 v2 (delta + (m - cp) * (len out + 1) + len (filter (upto m) u2)) Hs HI) with
        (first := first) (bias := bias) (ds := ds) (tr := tr) as (tr' & ->).
      - lia.
      - assumption.
      - rewrite Eom, Es, filter_app. cbn [filter]. unfold below at 2. rewrite N.ltb_irrefl. now rewrite (upto_not_in m u2 Hnu).
      - lia.
      - assumption.
      - inversion Hsm as [|? ? H1 _]; subst. unfold small in H1. cbn [snd] in H1. lia. }
    assert ((m - cp) * (len out + 1) <= U32_MAX - delta) as Hfit.
    { pose proof (N.mul_div_le (U32_MAX - delta) (len out + 1) ltac:(lia)). nia. }
    rewrite chk_ret by lia. cbn [obind]. rewrite chk_ret by lia. cbn [obind].
    assert (Sim s bl m [] s n i out first bias (delta + (m - cp) * (len out + 1))) as HS.
    { split; [reflexivity|]. split; [assumption|]. split; [exact Eom|]. split; [lia|]. cbn [filter]. rewrite len_nil.
      split; [lia|]. split; [lia|]. auto. }
    pose proof (encode_for_spec checked s bl m Hs Hm Hl s [] n i out first bias _ HS (or_introl Hin)) as Hfor.
    destruct (encode_for checked s m bl (mkEnc (delta + (m - cp) * (len out + 1)) bias (len out))) as [[[cs st']|]|]; cbn [obind];
      [|assumption|assumption].
    destruct Hfor as (ds & tr & n' & i' & out' & first' & bias' & delta' & -> & HS' & -> & Hi' & HF & Hsm & Hk).
    destruct HS' as (_ & HI' & Eo' & _ & Ed' & Hd' & Hb' & Hf' & Hbl').
    cbn [filter] in Eo'. rewrite app_nil_r in Eo'. rewrite <- Eo' in Ed'.
    pose proof (Inv_len _ _ _ _ HI') as Hlo'.
    rewrite chk_ret by lia. cbn [obind]. rewrite chk_ret by (apply scalar_max in Hm; unfold U32_MAX; lia). cbn [obind].
    assert (len out < len out') as Hgrow.
    { rewrite Eo', Eom, Es, !filter_app, !len_app. cbn [filter]. unfold below at 2. unfold upto at 2.
      rewrite N.ltb_irrefl, N.leb_refl, len_cons. rewrite (upto_not_in m u2 Hnu).
      assert (len (filter (below m) v2) <= len (filter (upto m) v2)); [|lia].
      rewrite <- (below_upto m m v2) by lia. apply filter_len. }
    specialize (IH (m + 1) m i' out' first' bias' (delta' + 1)).
    assert (out' = filter (below (m + 1)) s) as Eo2.
    { rewrite Eo'. apply filter_ext. intros c. unfold upto, below. lia. }
    specialize (IH Eo2 HI' ltac:(lia) ltac:(lia) ltac:(lia) Hb' Hf' Hbl' ltac:(lia)).
    assert (overflows s m i' out' first' bias' -> overflows s n i out first bias) as Hback.
    { intros Hov2 ds0 tr0 Hex Hsm0.
      assert (len s = len out' + N.of_nat (N.to_nat (len s - len out'))) as Hk0 by lia.
      destruct (expansion_exists _ m i' out' s first' bias' HI' Hs Hk0) as (ds1 & tr1 & Hex1).
      pose proof (Hk _ _ _ Hex1) as Hex2.
      destruct (expands_inj _ _ _ _ _ _ _ _ Hex2 (Inv_OK _ _ _ _ HI) _ _ Hex) as [_ <-].
      apply Forall_app in Hsm0 as [_ Hsm0]. exact (Hov2 _ _ Hex1 Hsm0). }
    destruct (encode_while fuel checked s (m + 1) bl (len s) (mkEnc (delta' + 1) bias' (len out'))) as [[cs2|]|]; cbn [obind].
    + destruct IH as (ds2 & tr2 & HF2 & Hsm2 & Hex2). exists (ds ++ ds2), (tr ++ tr2).
      split; [now apply Forall2_app|]. split; [now apply Forall_app|]. now apply Hk.
    + now apply Hback.
    + destruct IH as [-> IH]. split; [reflexivity|]. now apply Hback.
  - exists [], []. split; [constructor|]. split; [constructor|].
    assert (out = s) as ->. { rewrite Eo. apply filter_full. rewrite <- Eo. lia. } constructor.
Qed.

Lemma ascii_below c : is_ascii c = below 128 c.
Proof. reflexivity. Qed.

Lemma punycode_basic s b ds tr : Forall (fun c => c < 128) b -> expands true 72 128 0 b ds tr s -> b = filter (below 128) s.
Proof.
  intros Hb Hex. assert (OK 128 0 b) as HOK.
  { split; [eapply Forall_impl; [|exact Hb]; cbv beta; lia|]. cbn [N.to_nat skipn]. split; [assumption|]. lia. }
  destruct (expands_inv _ _ _ _ _ _ _ _ Hex HOK) as (r1 & r2 & -> & -> & Hi).
  assert (filter (upto 128) r1 = []) as E. { destruct (filter (upto 128) r1); [reflexivity|]. rewrite len_cons in Hi. lia. }
  rewrite filter_app, E. rewrite <- (below_upto 128 128 r1) by lia. now rewrite E.
Qed.

Lemma basic_OK s : OK 128 0 (filter (below 128) s) /\ Inv 128 0 (filter (below 128) s) s.
Proof.
  assert (Inv 128 0 (filter (below 128) s) s) as H. { exists [], s. auto. }
  split; [now apply Inv_OK in H|assumption].
Qed.

Lemma encode_spec checked s : Forall scalar s -> len s <= U32_MAX ->
  match encode checked s with
  | Panic => checked = true /\ forall digit p tr, punycode digit s p tr -> ~ Forall small tr
  | Ret None => forall digit p tr, punycode digit s p tr -> ~ Forall small tr
  | Ret (Some p) => exists tr, punycode digit_char s p tr /\ Forall small tr
  end.
Proof.
  intros Hs Hl. unfold encode.
  rewrite (filter_ext is_ascii (below 128) ascii_below s).
  set (b := filter (below 128) s). destruct (basic_OK s) as [HOK HI]. fold b in HOK, HI.
  pose proof (Inv_len _ _ _ _ HI) as Hlb.
  change (N.of_nat (length b)) with (len b). change (N.of_nat (length s)) with (len s).
  assert (forall x, x <= U32_MAX -> as_u32 x = x) as Eas.
  { intros x Hx. unfold as_u32. apply N.mod_small. unfold U32_MAX in Hx. lia. }
  rewrite !Eas by lia.
  assert (overflows s 128 0 b true 72 -> forall digit p tr, punycode digit s p tr -> ~ Forall small tr) as Hover.
  { intros Hov digit p tr (b' & ds & cs & Hb & Hex & _). rewrite (punycode_basic s b' ds tr Hb Hex) in Hex. exact (Hov _ _ Hex). }
  pose proof (encode_while_spec checked s (len b) Hs Hl (S (length s)) 128 128 0 b true 72 0 eq_refl HI) as H.
  assert (len s < len b + N.of_nat (S (length s))) as Hfu by (unfold len at 1; lia).
  specialize (H ltac:(lia) ltac:(lia) ltac:(unfold U32_MAX; lia) ltac:(lia) (eq_sym (N.eqb_refl _)) ltac:(lia) Hfu).
  unfold INITIAL_N, INITIAL_BIAS.
  destruct (encode_while (S (length s)) checked s 128 (len b) (len s) (mkEnc 0 72 (len b))) as [[cs|]|]; cbn [obind option_map].
  - destruct H as (ds & tr & HF & Hsm & Hex). exists tr. split; [|assumption]. exists b, ds, cs.
    split; [apply Forall_forall; intros c Hc; apply filter_In in Hc as [_ Hc]; unfold below in Hc; lia|].
    split; [assumption|]. split; [assumption|].
    destruct b as [|c b]; [reflexivity|]. rewrite len_cons. destruct (N.ltb_spec 0 (len b + 1)); [|lia].
    rewrite <- app_assoc. reflexivity.
  - exact (Hover H).
  - destruct H as [-> H]. split; [reflexivity|exact (Hover H)].
Qed.

From Coq Require Import List NArith ZArith Lia Bool Permutation ZifyBool ZifyNat ZifyN.
From Verif Require Import Base Enums EnumFacts TableTypes UcdModel UcdLemmas HangulModel HangulSpec NormModel NormSpec NormOrder NormBubble NormTables NormIter NormRecomp NormAlgebra
  PunyModel PunySpec PunyProofs PunyDecode PunyEncode PunyLemmas IdnaModel IdnaSpec IdnaTables.
Import ListNotations.
Open Scope N_scope.

(** ** Splitting and joining *)
Lemma split_labels s : labels_of s (split_dot s).
Proof.
  induction s as [|c s IH]; cbn [split_dot]; [constructor; intros []|].
  unfold DOT. destruct (N.eqb_spec c 0x2E) as [->|Hc].
  - change (0x2E :: s) with ([] ++ 0x2E :: s). constructor; [intros []|assumption].
  - inversion IH as [l Hl E1 E2|l s' ls Hl Hls E1 E2]; subst.
    + constructor. intros [H|H]; auto.
    + rewrite app_comm_cons. constructor; [|assumption]. intros [H|H]; auto.
Qed.
Lemma labels_split s ls : labels_of s ls -> split_dot s = ls.
Proof.
  intros H. induction H as [l Hl|l s ls Hl Hls IH].
  - induction l as [|c l IHl]; [reflexivity|]. cbn [split_dot]. unfold DOT. destruct (N.eqb_spec c 0x2E) as [->|Hc].
    + exfalso. apply Hl. now left.
    + rewrite IHl; [reflexivity|]. intros H. apply Hl. now right.
  - induction l as [|c l IHl]; cbn [app split_dot]; unfold DOT.
    + rewrite N.eqb_refl. now rewrite IH.
    + destruct (N.eqb_spec c 0x2E) as [->|Hc]; [exfalso; apply Hl; now left|].
      rewrite IHl; [reflexivity|]. intros H. apply Hl. now right.
Qed.
Lemma join_split s : join_dot (split_dot s) = s.
Proof.
  induction (split_labels s) as [l Hl|l s ls Hl Hls IH]; [reflexivity|].
  cbn [join_dot]. rewrite IH. inversion Hls; reflexivity.
Qed.
Lemma join_labels ls : ls <> [] -> Forall (fun l => ~ In 0x2E l) ls -> labels_of (join_dot ls) ls.
Proof.
  intros Hne H. induction H as [|l ls Hl H IH]; [contradiction|]. cbn [join_dot]. destruct ls as [|l2 ls].
  - now constructor.
  - constructor; [assumption|]. now apply IH.
Qed.
Lemma labels_in s ls : labels_of s ls -> forall c, In c s <-> (c = 0x2E /\ (2 <= length ls)%nat) \/ exists l, In l ls /\ In c l.
Proof.
  induction 1 as [l Hl|l s ls Hl Hls IH]; intros c.
  - cbn [length In]. split; [intros H; right; eauto|]. intros [[_ H]|(x & [->|[]] & H)]; [lia|assumption].
  - rewrite in_app_iff. cbn [In length]. rewrite IH. split.
    + intros [H|[<-|[[H1 H2]|(x & H1 & H2)]]]; [right; eauto|left; split; [reflexivity|]; inversion Hls; cbn; lia| |right; eauto].
      left. split; [assumption|lia].
    + intros [[-> _]|(x & [->|H1] & H2)]; [right; now left|now left|right; right; right; eauto].
Qed.
Lemma labels_no_dot s ls : labels_of s ls -> Forall (fun l => ~ In 0x2E l) ls /\ ls <> [].
Proof. induction 1 as [l Hl|l s ls Hl Hls [IH _]]; split; try discriminate; now constructor. Qed.
Lemma split_in s l c : In l (split_dot s) -> In c l -> In c s.
Proof. intros H1 H2. apply (labels_in s _ (split_labels s)). right. eauto. Qed.
Lemma labels_len s ls : labels_of s ls -> forall l, In l ls -> len l <= len s.
Proof.
  induction 1 as [l Hl|l s ls Hl Hls IH]; intros x [<-|Hx].
  - lia. - destruct Hx. - rewrite len_app, len_cons. lia.
  - rewrite len_app, len_cons. specialize (IH x Hx). lia.
Qed.

Lemma strip_prefix_some p : forall s r, strip_prefix p s = Some r <-> s = p ++ r.
Proof.
  induction p as [|a p IH]; intros s r; cbn [strip_prefix app]; [split; congruence|].
  destruct s as [|c s]; [split; discriminate|]. destruct (N.eqb_spec a c) as [->|Hne].
  - rewrite IH. split; [now intros ->|now intros [= ->]].
  - split; [discriminate|]. intros [= E _]. congruence.
Qed.
Lemma strip_prefix_none p s : strip_prefix p s = None <-> forall r, s <> p ++ r.
Proof.
  destruct (strip_prefix p s) as [r|] eqn:E; split; try discriminate; try reflexivity.
  - intros H. apply strip_prefix_some in E. now apply H in E.
  - intros _ r Hr. apply strip_prefix_some in Hr. congruence.
Qed.
Lemma str_eqb_eq a b : str_eqb a b = true <-> a = b.
Proof.
  revert b. induction a as [|x a IH]; intros [|y b]; cbn [str_eqb]; split; try congruence; try discriminate.
  - intros H. apply andb_true_iff in H as [H1 H2]. apply N.eqb_eq in H1 as ->. now apply IH in H2 as ->.
  - intros [= -> ->]. rewrite N.eqb_refl. now apply IH.
Qed.
Lemma last_is_true c s : last_is c s = true <-> exists a, s = a ++ [c].
Proof.
  unfold last_is. destruct (rev s) as [|x r] eqn:E.
  - split; [discriminate|]. intros (a & ->). rewrite rev_app_distr in E. discriminate.
  - assert (s = rev r ++ [x]) as Es by (rewrite <- (rev_involutive s), E; reflexivity). split.
    + intros H. apply N.eqb_eq in H as ->. eauto.
    + intros (a & Ha). rewrite Ha in Es. apply app_inj_tail in Es as [_ ->]. apply N.eqb_refl.
Qed.

(** ** The bidi rule *)
Lemma skip_nsm_some l c : skip_nsm (rev l) = Some c <->
  exists a marks, l = a ++ c :: marks /\ classes_in [BC_NonspacingMark] marks /\ bidi_class c <> BC_NonspacingMark.
Proof.
  assert (forall r, skip_nsm r = Some c <-> exists marks a, r = marks ++ c :: a /\ classes_in [BC_NonspacingMark] marks /\
    bidi_class c <> BC_NonspacingMark) as G.
  { induction r as [|x r IH]; cbn [skip_nsm].
    - split; [discriminate|]. intros (m & a & E & _). destruct m; discriminate.
    - destruct (BC_eqb (bidi_class x) BC_NonspacingMark) eqn:Ex.
      + apply BC_eqb_eq in Ex. rewrite IH. split.
        * intros (m & a & -> & Hm & Hc). exists (x :: m), a. split; [reflexivity|]. split; [|assumption].
          constructor; [left; now symmetry|assumption].
        * intros ([|y m] & a & E & Hm & Hc); injection E as E1 E2.
          -- congruence.
          -- subst y r. inversion Hm; subst. eauto.
      + assert (bidi_class x <> BC_NonspacingMark) as Hx by (intros H; apply BC_eqb_eq in H; congruence). split.
        * intros [= ->]. exists [], r. split; [reflexivity|]. split; [constructor|assumption].
        * intros ([|y m] & a & E & Hm & Hc); injection E as E1 E2; [congruence|].
          subst y. inversion Hm as [|? ? Hy _]; subst. destruct Hy as [Hy|[]]. congruence. }
  rewrite G. split.
  - intros (m & a & E & Hm & Hc). exists (rev a), (rev m). split; [|split; [now apply Forall_rev|assumption]].
    rewrite <- (rev_involutive l), E, rev_app_distr. cbn [rev]. now rewrite <- app_assoc.
  - intros (a & m & -> & Hm & Hc). exists (rev m), (rev a). split; [|split; [now apply Forall_rev|assumption]].
    rewrite rev_app_distr. cbn [rev]. now rewrite <- app_assoc.
Qed.

Lemma ends_skip cs l : ~ In BC_NonspacingMark cs ->
  (ends_in cs l <-> exists c, skip_nsm (rev l) = Some c /\ In (bidi_class c) cs).
Proof.
  intros Hn. split.
  - intros (a & c & m & E & Hc & Hm). exists c. split; [|assumption]. apply skip_nsm_some. exists a, m.
    split; [assumption|]. split; [assumption|]. intros H. apply Hn. now rewrite <- H.
  - intros (c & H & Hc). apply skip_nsm_some in H as (a & m & E & Hm & _). exists a, c, m. auto.
Qed.

Lemma rule5_iff b : in_rule5 b = true <-> In b [BC_LeftToRight; BC_EuropeanNumber; BC_EuropeanSeparator; BC_CommonSeparator; BC_EuropeanTerminator;
                BC_OtherNeutral; BC_BoundaryNeutral; BC_NonspacingMark].
Proof. destruct b; cbn; intuition discriminate. Qed.
Lemma rule2_iff b : in_rule2 b = true <-> In b [BC_RightToLeft; BC_ArabicLetter; BC_ArabicNumber; BC_EuropeanNumber; BC_EuropeanSeparator;
                BC_CommonSeparator; BC_EuropeanTerminator; BC_OtherNeutral; BC_BoundaryNeutral; BC_NonspacingMark].
Proof. destruct b; cbn; intuition discriminate. Qed.
Lemma forallb_classes f cs l : (forall b, f b = true <-> In b cs) ->
  (forallb (fun c => f (bidi_class c)) l = true <-> classes_in cs l).
Proof.
  intros H. rewrite forallb_forall. unfold classes_in. rewrite Forall_forall. split; intros G c Hc; specialize (G c Hc); now apply H.
Qed.
Lemma existsb_class b l : existsb (fun c => BC_eqb (bidi_class c) b) l = true <-> Exists (fun c => bidi_class c = b) l.
Proof.
  rewrite existsb_exists, Exists_exists. split; intros (c & H1 & H2); exists c; (split; [assumption|]); now apply BC_eqb_eq.
Qed.

Lemma bidi_rule_cons c0 r : bidi_rule (c0 :: r) <->
  (In (bidi_class c0) [BC_RightToLeft; BC_ArabicLetter] /\
    classes_in [BC_RightToLeft; BC_ArabicLetter; BC_ArabicNumber; BC_EuropeanNumber; BC_EuropeanSeparator;
                BC_CommonSeparator; BC_EuropeanTerminator; BC_OtherNeutral; BC_BoundaryNeutral; BC_NonspacingMark] (c0 :: r) /\
    ends_in [BC_RightToLeft; BC_ArabicLetter; BC_EuropeanNumber; BC_ArabicNumber] (c0 :: r) /\
    ~ (Exists (fun c => bidi_class c = BC_EuropeanNumber) (c0 :: r) /\ Exists (fun c => bidi_class c = BC_ArabicNumber) (c0 :: r))) \/
   (bidi_class c0 = BC_LeftToRight /\
    classes_in [BC_LeftToRight; BC_EuropeanNumber; BC_EuropeanSeparator; BC_CommonSeparator; BC_EuropeanTerminator;
                BC_OtherNeutral; BC_BoundaryNeutral; BC_NonspacingMark] (c0 :: r) /\
    ends_in [BC_LeftToRight; BC_EuropeanNumber] (c0 :: r)).
Proof.
  split.
  - intros (c & s & [= <- <-] & H). exact H.
  - intros H. exists c0, r. auto.
Qed.

Lemma passes_bidi_iff l : passes_bidi l true = true <-> l = [] \/ bidi_rule l.
Proof.
  destruct l as [|c0 r]; [split; [now left|reflexivity]|].
  transitivity (bidi_rule (c0 :: r)); [|split; [now right|intros [H|H]; [discriminate|assumption]]].
  rewrite bidi_rule_cons. unfold passes_bidi. cbn [negb].
  assert (~ In BC_NonspacingMark [BC_LeftToRight; BC_EuropeanNumber]) as N1 by (cbn; intuition discriminate).
  assert (~ In BC_NonspacingMark [BC_RightToLeft; BC_ArabicLetter; BC_EuropeanNumber; BC_ArabicNumber]) as N2 by (cbn; intuition discriminate).
  rewrite (ends_skip _ _ N1), (ends_skip _ _ N2).
  pose proof (forallb_classes in_rule2 _ r rule2_iff) as R2. pose proof (forallb_classes in_rule5 _ r rule5_iff) as R5.
  assert (forall P Q : Prop, (P <-> Q) -> (P <-> False \/ Q)) as Hf1 by tauto.
  assert (forall b, BC_LeftToRight = b \/ False -> b = BC_LeftToRight) as _ by intuition congruence.
  destruct (bidi_class c0) eqn:E0; cbv iota;
    try (split; [discriminate|intros [[[H|[H|[]]] _]|[H _]]; discriminate]).
  - (* AL *)
    destruct (forallb (fun c => in_rule2 (bidi_class c)) r) eqn:F; cbn [negb]; cbv iota.
    + split.
      * intros H. left. split; [right; now left|]. split; [constructor; [right; left; congruence|now apply R2]|].
        destruct (skip_nsm (rev (c0 :: r))) as [c|]; [|discriminate].
        assert (In (bidi_class c) [BC_RightToLeft; BC_ArabicLetter; BC_EuropeanNumber; BC_ArabicNumber]) as Hc
          by (destruct (bidi_class c); try discriminate; cbn; tauto).
        split; [eauto|]. intros [HE HA].
        inversion HE as [? ? X|? ? X]; subst; [congruence|]. inversion HA as [? ? Y|? ? Y]; subst; [congruence|].
        apply existsb_class in X, Y. rewrite X, Y in H. destruct (bidi_class c); discriminate.
      * intros [(_ & _ & (c & Hs & Hc) & Hn)|(H & _)]; [|discriminate]. rewrite Hs.
        assert (negb (existsb (fun c => BC_eqb (bidi_class c) BC_ArabicNumber) r && existsb (fun c => BC_eqb (bidi_class c) BC_EuropeanNumber) r) = true) as G.
        { apply negb_true_iff. destruct (existsb (fun c => BC_eqb (bidi_class c) BC_ArabicNumber) r) eqn:A; [|reflexivity].
          destruct (existsb (fun c => BC_eqb (bidi_class c) BC_EuropeanNumber) r) eqn:B; [|reflexivity].
          exfalso. apply Hn. apply existsb_class in A, B. split; now right. }
        rewrite G. destruct (bidi_class c); try reflexivity; cbn in Hc; intuition discriminate.
    + split; [discriminate|]. intros [(_ & Hc & _)|(H & _)]; [|discriminate]. inversion Hc as [|? ? _ Hr]; subst.
      apply R2 in Hr. congruence.
  - (* L *)
    destruct (forallb (fun c => in_rule5 (bidi_class c)) r) eqn:F; cbn [negb]; cbv iota.
    + split.
      * intros H. right. split; [reflexivity|]. split; [constructor; [left; congruence|now apply R5]|].
        destruct (skip_nsm (rev (c0 :: r))) as [c|] eqn:Es.
        -- exists c. split; [reflexivity|]. apply orb_true_iff in H as [H|H]; apply BC_eqb_eq in H; rewrite H; cbn; tauto.
        -- exfalso. assert (skip_nsm (rev (c0 :: r)) <> None) as X; [|contradiction].
           cbn [rev]. clear - E0. induction (rev r) as [|x l IH]; cbn [app skip_nsm].
           ++ rewrite E0. cbn. discriminate.
           ++ destruct (BC_eqb (bidi_class x) BC_NonspacingMark); [assumption|discriminate].
      * intros [([H|[H|[]]] & _)|(_ & _ & (c & Hs & Hc))]; [discriminate|discriminate|]. rewrite Hs.
        destruct Hc as [Hc|[Hc|[]]]; rewrite <- Hc; reflexivity.
    + split; [discriminate|]. intros [([H|[H|[]]] & _)|(_ & Hc & _)]; [discriminate|discriminate|].
      inversion Hc as [|? ? _ Hr]; subst. apply R5 in Hr. congruence.
  - (* R *)
    destruct (forallb (fun c => in_rule2 (bidi_class c)) r) eqn:F; cbn [negb]; cbv iota.
    + split.
      * intros H. left. split; [now left|]. split; [constructor; [left; congruence|now apply R2]|].
        destruct (skip_nsm (rev (c0 :: r))) as [c|]; [|discriminate].
        assert (In (bidi_class c) [BC_RightToLeft; BC_ArabicLetter; BC_EuropeanNumber; BC_ArabicNumber]) as Hc
          by (destruct (bidi_class c); try discriminate; cbn; tauto).
        split; [eauto|]. intros [HE HA].
        inversion HE as [? ? X|? ? X]; subst; [congruence|]. inversion HA as [? ? Y|? ? Y]; subst; [congruence|].
        apply existsb_class in X, Y. rewrite X, Y in H. destruct (bidi_class c); discriminate.
      * intros [(_ & _ & (c & Hs & Hc) & Hn)|(H & _)]; [|discriminate]. rewrite Hs.
        assert (negb (existsb (fun c => BC_eqb (bidi_class c) BC_ArabicNumber) r && existsb (fun c => BC_eqb (bidi_class c) BC_EuropeanNumber) r) = true) as G.
        { apply negb_true_iff. destruct (existsb (fun c => BC_eqb (bidi_class c) BC_ArabicNumber) r) eqn:A; [|reflexivity].
          destruct (existsb (fun c => BC_eqb (bidi_class c) BC_EuropeanNumber) r) eqn:B; [|reflexivity].
          exfalso. apply Hn. apply existsb_class in A, B. split; now right. }
        rewrite G. destruct (bidi_class c); try reflexivity; cbn in Hc; intuition discriminate.
    + split; [discriminate|]. intros [(_ & Hc & _)|(H & _)]; [|discriminate]. inversion Hc as [|? ? _ Hr]; subst.
      apply R2 in Hr. congruence.
Qed.

(** ** Normalization of labels *)
Lemma nfc__eq s : nfc_ s = Ret (C false s).
Proof. unfold nfc_. now rewrite nfc_eq. Qed.

Lemma crun_length : forall l comp last buf,
  (length (crun l comp last buf) <= length l + length (olist comp) + length buf)%nat.
Proof.
  induction l as [|ch l IH]; intros comp last buf; cbn [crun].
  - destruct comp; cbn; lia.
  - destruct comp as [k|].
    + destruct last as [lc|].
      * destruct (ccc ch <=? lc).
        -- destruct (ccc ch =? 0).
           ++ cbn [length]. rewrite app_length. specialize (IH (Some ch) None []). cbn [olist length] in *. lia.
           ++ specialize (IH (Some k) (Some (ccc ch)) (buf ++ [ch])). rewrite app_length in IH. cbn [olist length] in *. lia.
        -- destruct (compose k ch) as [r|].
           ++ specialize (IH (Some r) (Some lc) buf). cbn [olist length] in *. lia.
           ++ specialize (IH (Some k) (Some (ccc ch)) (buf ++ [ch])). rewrite app_length in IH. cbn [olist length] in *. lia.
      * destruct (compose k ch) as [r|].
        -- specialize (IH (Some r) None buf). cbn [olist length] in *. lia.
        -- destruct (ccc ch =? 0).
           ++ specialize (IH (Some ch) None buf). cbn [olist length] in *. lia.
           ++ specialize (IH (Some k) (Some (ccc ch)) (buf ++ [ch])). rewrite app_length in IH. cbn [olist length] in *. lia.
    + destruct (negb _).
      * specialize (IH None last buf). cbn [olist length] in *. lia.
      * specialize (IH (Some ch) last buf). cbn [olist length] in *. lia.
Qed.
Lemma C_length k s : (length (C k s) <= 18 * length s)%nat.
Proof.
  unfold C. pose proof (crun_length (D k s) None None []) as H. cbn [olist length] in H. rewrite D_length in H.
  pose proof (flat_length k s). lia.
Qed.

Lemma crun_closed (P : N -> Prop) : (forall a b r, P a -> P b -> compose a b = Some r -> P r) ->
  forall l comp last buf, Forall P l -> Forall P (olist comp) -> Forall P buf -> Forall P (crun l comp last buf).
Proof.
  intros HP. induction l as [|ch l IH]; intros comp last buf Hl Hc Hb; cbn [crun].
  - destruct comp as [k|]; [|assumption]. inversion Hc; subst. now constructor.
  - inversion Hl as [|? ? Hch Hl']; subst.
    assert (Forall P (buf ++ [ch])) as Hb' by (apply Forall_app; split; [assumption|apply Forall_cons; [assumption|constructor]]).
    assert (Forall P (olist (Some ch))) as Hoc by (apply Forall_cons; [assumption|constructor]).
    destruct comp as [k|].
    + inversion Hc as [|? ? Hk _]; subst. destruct last as [lc|].
      * destruct (ccc ch <=? lc).
        -- destruct (ccc ch =? 0); [|now apply IH]. constructor; [assumption|]. apply Forall_app. split; [assumption|].
           apply IH; [assumption|assumption|constructor].
        -- destruct (compose k ch) as [r|] eqn:E; [|now apply IH].
           apply IH; [assumption| |assumption]. apply Forall_cons; [now apply (HP k ch)|constructor].
      * destruct (compose k ch) as [r|] eqn:E.
        -- apply IH; [assumption| |assumption]. apply Forall_cons; [now apply (HP k ch)|constructor].
        -- destruct (ccc ch =? 0); [|now apply IH]. constructor; [assumption|]. now apply IH.
    + destruct (negb _); [constructor; [assumption|]|]; now apply IH.
Qed.
Lemma C_not_rtl s : Forall (fun c => is_rtl c = false) s -> Forall (fun c => is_rtl c = false) (C false s).
Proof.
  intros H. unfold C. apply crun_closed; [intros a b r Ha Hb E; now apply (compose_rtl a b)| |constructor|constructor].
  eapply Permutation_Forall; [apply order_perm|]. apply Forall_forall. intros x Hx.
  apply in_flat_map in Hx as (c & Hc & Hx). rewrite Forall_forall in H. now apply (decompose_rtl c x (H c Hc)).
Qed.

(** The full stop separates normalization. *)
Lemma triples_dot : forallb (fun t => negb (fst (fst t) =? 0x2E)) triples = true.
Proof. vm_cast_no_check (eq_refl true). Qed.
Lemma compose_dot x : compose 0x2E x = None.
Proof.
  destruct (compose 0x2E x) as [r|] eqn:E; [|reflexivity]. exfalso.
  apply compose_cases in E as [H|[(l & v & _ & _ & H & _)|H]].
  - inversion H as [l v ? ? E|l v t ? ? E]; unfold leading, block in E; lia.
  - unfold block in H. lia.
  - pose proof triples_dot as Hc. rewrite forallb_forall in Hc. specialize (Hc _ H). cbn [fst] in Hc. discriminate.
Qed.
Lemma ccc_dot : ccc 0x2E = 0.
Proof. apply ccc_ascii. lia. Qed.

Lemma crun_dot_after : forall l last buf, (last = None -> buf = []) ->
  crun l (Some 0x2E) last buf = 0x2E :: buf ++ crun l None None [].
Proof.
  induction l as [|ch l IH]; intros last buf HJ; cbn [crun]; [now rewrite app_nil_r|].
  rewrite compose_dot. destruct last as [lc|].
  - destruct (N.leb_spec (ccc ch) lc) as [Hle|Hgt].
    + destruct (ccc ch =? 0); cbn [negb]; [reflexivity|]. rewrite IH by discriminate. now rewrite <- app_assoc.
    + destruct (N.eqb_spec (ccc ch) 0); [lia|]. cbn [negb]. rewrite IH by discriminate. now rewrite <- app_assoc.
  - rewrite HJ by reflexivity. destruct (ccc ch =? 0); cbn [negb app]; [reflexivity|]. now rewrite IH by discriminate.
Qed.
Lemma crun_dot_before l2 : forall l1 comp last buf, (last = None -> buf = []) -> (comp = None -> last = None) ->
  crun (l1 ++ 0x2E :: l2) comp last buf = crun l1 comp last buf ++ crun (0x2E :: l2) None None [].
Proof.
  induction l1 as [|ch l1 IH]; intros comp last buf H1 H2; cbn [app crun].
  - rewrite ccc_dot. change (negb (0 =? 0)) with false. cbv iota.
    destruct comp as [k|].
    + rewrite compose_ascii by lia. destruct last as [lc|].
      * destruct (0 <=? lc) eqn:E; [reflexivity|lia].
      * now rewrite H1.
    + rewrite (H2 eq_refl) in *. now rewrite H1.
  - destruct comp as [k|].
    + destruct last as [lc|].
      * destruct (ccc ch <=? lc).
        -- destruct (ccc ch =? 0).
           ++ cbn [app]. rewrite IH by (intros; congruence). cbn [crun]. now rewrite app_assoc.
           ++ rewrite IH by (intros; congruence). reflexivity.
        -- destruct (compose k ch); rewrite IH by (intros; congruence); reflexivity.
      * destruct (compose k ch).
        -- rewrite IH by (auto; intros; congruence). reflexivity.
        -- destruct (ccc ch =? 0); rewrite IH by (auto; intros; congruence); reflexivity.
    + destruct (negb _).
      * cbn [app]. rewrite IH by auto. reflexivity.
      * rewrite IH by (auto; intros; congruence). reflexivity.
Qed.
Lemma C_dot a b : C false (a ++ 0x2E :: b) = C false a ++ 0x2E :: C false b.
Proof.
  unfold C. rewrite D_app_starter.
  2:{ rewrite decompose_ascii by lia. exact ccc_dot. }
  assert (D false (0x2E :: b) = 0x2E :: D false b) as ->.
  { unfold D. cbn [flat_map]. rewrite decompose_ascii by lia. cbn [app]. apply order_starter. exact ccc_dot. }
  rewrite crun_dot_before by auto. f_equal. cbn [crun]. rewrite ccc_dot. cbn [N.eqb negb].
  rewrite crun_dot_after by auto. reflexivity.
Qed.
Lemma C_labels s ls : labels_of s ls -> Forall (fun l => C false l = l) ls -> C false s = s.
Proof.
  induction 1 as [l Hl|l s ls Hl Hls IH]; intros H; inversion H; subst; [assumption|].
  rewrite C_dot. rewrite IH by assumption. congruence.
Qed.

(** ** Validation *)
Definition permitted_f (f : Flags) (c : N) : Prop :=
  mapping_of c = Ret IM_Valid \/ (transitional f = false /\ exists s, mapping_of c = Ret (IM_Deviation s)) \/
  (use_std3 f = false /\ mapping_of c = Ret IM_DisallowedStd3Valid).

Lemma not_permitted_total f c : scalar c -> exists b, not_permitted f c = Ret b /\ (b = false <-> permitted_f f c).
Proof.
  intros H. unfold not_permitted, permitted_f. destruct (mapping_total c H) as (m & ->). cbn [obind].
  eexists. split; [reflexivity|]. destruct m; split; try discriminate;
    try (intros [X|[[_ (s' & X)]|[_ X]]]; discriminate).
  - intros _. now left.
  - reflexivity.
  - intros E. right. left. split; [assumption|eauto].
  - intros [X|[[E _]|[_ X]]]; [discriminate|assumption|discriminate].
  - intros E. right. right. now split.
  - intros [X|[[_ (s' & X)]|[E _]]]; [discriminate|discriminate|assumption].
Qed.
Lemma any_not_permitted_total f s : Forall scalar s ->
  exists b, any_not_permitted f s = Ret b /\ (b = false <-> Forall (permitted_f f) s).
Proof.
  induction 1 as [|c s Hc Hs (b & IH1 & IH2)]; cbn [any_not_permitted].
  - exists false. split; [reflexivity|]. split; [constructor|reflexivity].
  - destruct (not_permitted_total f c Hc) as (b0 & -> & Hb0). cbn [obind]. destruct b0.
    + exists true. split; [reflexivity|]. split; [discriminate|]. intros H. inversion H; subst. now apply Hb0.
    + exists b. split; [assumption|]. rewrite IH2. split.
      * intros H. constructor; [now apply Hb0|assumption]. * intros H. now inversion H.
Qed.

Definition label_ok (f : Flags) (bidi : bool) (l : str) : Prop :=
  l = [] \/
  (C false l = l /\ hd_error l <> Some 0x2D /\ (forall a, l <> a ++ [0x2D]) /\
   (forall c r, l = c :: r -> gc_is_mark (general_category c) = false) /\
   Forall (permitted_f f) l /\ passes_bidi l bidi = true).

Lemma validate_total l b f : Forall scalar l ->
  exists e, validate l b f = Ret e /\ (e = [] <-> label_ok f b l).
Proof.
  intros Hs. destruct l as [|c0 r]; [exists []; split; [reflexivity|]; split; [now left|reflexivity]|].
  unfold validate, label_ok. rewrite nfc__eq. cbn [obind].
  assert (forall P : Prop, (c0 :: r = [] \/ P) <-> P) as Hor by (intros P; split; [intros [H|H]; [discriminate|assumption]|now right]).
  destruct (str_eqb (C false (c0 :: r)) (c0 :: r)) eqn:E1; cbn [negb].
  2:{ eexists. split; [reflexivity|]. rewrite Hor. split; [discriminate|]. intros (H & _). apply str_eqb_eq in H. congruence. }
  apply str_eqb_eq in E1.
  destruct (N.eqb_spec c0 HYPHEN) as [->|Eh]; cbn [orb].
  { eexists. split; [reflexivity|]. rewrite Hor. split; [discriminate|]. intros (_ & H & _). now cbn in H. }
  destruct (last_is HYPHEN (c0 :: r)) eqn:E2; cbn [orb].
  { eexists. split; [reflexivity|]. rewrite Hor. split; [discriminate|]. intros (_ & _ & H & _).
    apply last_is_true in E2 as (a & Ha). now apply H in Ha. }
  assert (forall a, c0 :: r <> a ++ [0x2D]) as Hlast.
  { intros a Ha. assert (last_is HYPHEN (c0 :: r) = true) by (apply last_is_true; exists a; exact Ha). congruence. }
  rewrite combining_mark_agree. unfold is_combining_mark_category.
  destruct (gc_is_mark (general_category c0)) eqn:E3.
  { eexists. split; [reflexivity|]. rewrite Hor. split; [discriminate|]. intros (_ & _ & _ & H & _). specialize (H c0 r eq_refl). congruence. }
  assert (forall c r', c0 :: r = c :: r' -> gc_is_mark (general_category c) = false) as Hm by (intros c r' [= <- _]; exact E3).
  destruct (any_not_permitted_total f _ Hs) as (bad & -> & Hbad). cbn [obind].
  destruct bad.
  { eexists. split; [reflexivity|]. rewrite Hor. split; [discriminate|]. intros (_ & _ & _ & _ & H & _). now apply Hbad in H. }
  destruct (passes_bidi (c0 :: r) b) eqn:E4; cbn [negb]; (eexists; split; [reflexivity|]); rewrite Hor.
  - split; [intros _|reflexivity]. split; [assumption|]. split; [cbn; intros [= H]; now apply Eh|].
    split; [assumption|]. split; [assumption|]. split; [now apply Hbad|reflexivity].
  - split; [discriminate|]. intros (_ & _ & _ & _ & _ & H). discriminate.
Qed.

(** What the normal forms compute, and their algebra. *)
From Coq Require Import List NArith ZArith Lia Bool Relations Permutation ZifyBool ZifyN.
From Verif Require Import Base HangulModel HangulSpec HangulProofs NormSpec NormOrder UcdModel NormModel NormTables NormBubble NormIter NormRecomp.
Import ListNotations.
Open Scope N_scope.

Definition D (k : bool) (s : str) : list N := order ccc (flat k s).
Definition C (k : bool) (s : str) : list N := crun (D k s) None None [].

Lemma flat_length k s : (length (flat k s) <= 18 * length s)%nat.
Proof.
  induction s as [|c s IH]; cbn [flat_map length]; [lia|]. rewrite app_length.
  pose proof (decompose_length k c). lia.
Qed.
Lemma D_length k s : length (D k s) = length (flat k s).
Proof. apply Permutation_length, Permutation_sym, order_perm. Qed.

Lemma decompositions_collect k fuel s : (18 * length s < fuel)%nat ->
  d_collect fuel (new_decompositions k s) = Some (D k s).
Proof.
  intros H. apply collect_spec; [apply yields_new|]. fold (D k s). rewrite D_length.
  pose proof (flat_length k s). lia.
Qed.
Lemma recompositions_collect k fuel s : (18 * length s + 3 <= fuel)%nat ->
  r_collect fuel (new_recompositions k s) = Some (C k s).
Proof.
  intros H. rewrite (rcollect_spec fuel _ (D k s)); [reflexivity| |].
  - split; [apply yields_new|]. cbn. auto.
  - unfold mass. cbn [new_recompositions r_buffer r_composee olist length].
    rewrite D_length. pose proof (flat_length k s). lia.
Qed.

Lemma nfd_eq s : nfd s = Some (D false s).
Proof. apply decompositions_collect. unfold n_fuel. lia. Qed.
Lemma nfkd_eq s : nfkd s = Some (D true s).
Proof. apply decompositions_collect. unfold n_fuel. lia. Qed.
Lemma nfc_eq s : nfc s = Some (C false s).
Proof. apply recompositions_collect. unfold n_fuel. lia. Qed.
Lemma nfkc_eq s : nfkc s = Some (C true s).
Proof. apply recompositions_collect. unfold n_fuel. lia. Qed.

Lemma C_spec k s : C k s = canonical_composition_of ccc compose (D k s).
Proof.
  unfold canonical_composition_of, C. symmetry.
  apply (crun_start compose_starter (D k s) []); [apply order_ordered|constructor].
Qed.

(** ** Fixed points of decomposition *)
Definition fixed (k : bool) (l : list N) : Prop := Forall (fun x => decompose k x = [x]) l.

Lemma flat_fixed k l : fixed k l -> flat k l = l.
Proof. induction 1 as [|x l Hx _ IH]; [reflexivity|]. cbn [flat_map]. rewrite Hx, IH. reflexivity. Qed.
Lemma fixed_flat k s : fixed k (flat k s).
Proof.
  apply Forall_forall. intros x Hx. apply in_flat_map in Hx as (c & _ & Hx). now apply decompose_fixed in Hx.
Qed.
Lemma fixed_perm k l m : Permutation l m -> fixed k l -> fixed k m.
Proof. intros Hp Hf. eapply Permutation_Forall; eassumption. Qed.
Lemma fixed_D k s : fixed k (D k s).
Proof. eapply fixed_perm; [apply order_perm|apply fixed_flat]. Qed.
Lemma ordered_D k s : ordered ccc (D k s).
Proof. apply order_ordered. Qed.
Lemma D_fixed k s : fixed k s -> ordered ccc s -> D k s = s.
Proof. intros Hf Ho. unfold D. rewrite flat_fixed by assumption. now apply order_fixed. Qed.

Lemma D_idem k s : D k (D k s) = D k s.
Proof. apply D_fixed; [apply fixed_D|apply ordered_D]. Qed.

Lemma D_fixed_iff k s : D k s = s <-> fixed k s /\ ordered ccc s.
Proof.
  split.
  - intros H. rewrite <- H. split; [apply fixed_D|apply ordered_D].
  - intros [Hf Ho]. now apply D_fixed.
Qed.

(** ** Decomposition respects canonical ordering *)
Lemma oeqv_blocks X Y x y : Forall (fun c => ccc c = x) X -> Forall (fun c => ccc c = y) Y -> y < x -> 0 < y ->
  oeqv ccc (X ++ Y) (Y ++ X).
Proof.
  intros HX HY H1 H2. induction HX as [|c X Hc _ IH]; [cbn [app]; rewrite app_nil_r; apply oeqv_refl|].
  cbn [app]. eapply oeqv_trans; [exact (oeqv_app ccc [c] [c] _ _ (oeqv_refl _ _) IH)|].
  cbn [app]. change (c :: Y ++ X) with ((c :: Y) ++ X).
  replace (Y ++ c :: X) with ((Y ++ [c]) ++ X) by (rewrite <- app_assoc; reflexivity).
  apply oeqv_app; [|apply oeqv_refl]. apply oeqv_move.
  eapply Forall_impl; [|exact HY]. cbn. intros a Ha. lia.
Qed.

Lemma flat_exchange k l m : exchange ccc l m -> oeqv ccc (flat k l) (flat k m).
Proof.
  intros [p a b q [H1 H2]]. rewrite !flat_map_app. cbn [flat_map].
  apply oeqv_app; [apply oeqv_refl|]. rewrite !app_assoc. apply oeqv_app; [|apply oeqv_refl].
  apply (oeqv_blocks _ _ (ccc a) (ccc b)); try assumption.
  - apply Forall_forall. intros x Hx. apply (decompose_class k a x); [lia|assumption].
  - apply Forall_forall. intros x Hx. apply (decompose_class k b x); [lia|assumption].
Qed.
Lemma flat_exchanges k l m : clos_refl_trans _ (exchange ccc) l m -> oeqv ccc (flat k l) (flat k m).
Proof.
  induction 1; [now apply flat_exchange|apply oeqv_refl|eapply oeqv_trans; eassumption].
Qed.
Lemma flat_order k l : oeqv ccc (flat k (order ccc l)) (flat k l).
Proof. apply oeqv_sym, flat_exchanges, order_exchanges. Qed.

Lemma flat_compat_canon s : flat true (flat false s) = flat true s.
Proof.
  induction s as [|c s IH]; [reflexivity|]. cbn [flat_map]. rewrite flat_map_app, IH, decompose_compat_canon.
  reflexivity.
Qed.

Lemma D_compat_canon s : D true (D false s) = D true s.
Proof.
  unfold D. rewrite (oeqv_eq _ _ _ (flat_order true (flat false s))). now rewrite flat_compat_canon.
Qed.

Lemma D_canon_compat s : D false (D true s) = D true s.
Proof.
  apply D_fixed; [|apply ordered_D]. pose proof (fixed_D true s) as H.
  eapply Forall_impl; [|exact H]. exact fixed_true_false.
Qed.

(** Concatenation. *)
Lemma D_app k s t : D k (s ++ t) = D k (D k s ++ D k t).
Proof.
  unfold D at 1. rewrite flat_map_app. unfold D at 1. rewrite flat_map_app.
  rewrite !(flat_fixed k _ (fixed_D k _)). apply oeqv_eq. apply oeqv_app; apply oeqv_order.
Qed.
Lemma D_app_starter k s c t : match decompose k c with x :: _ => ccc x = 0 | [] => False end ->
  D k (s ++ c :: t) = D k s ++ D k (c :: t).
Proof.
  intros H. unfold D. rewrite flat_map_app. cbn [flat_map]. destruct (decompose k c) as [|x l]; [contradiction|].
  cbn [app]. rewrite order_starter_app by assumption. now rewrite order_starter.
Qed.

(** ** Composition *)

(** The characters that composition does not absorb (U+11A7 after an LV syllable is absorbed). *)
Fixpoint kept (l : list N) (composee : option N) (last : option N) : list N :=
  match l with
  | [] => []
  | ch :: l' =>
      match composee with
      | None => if negb (ccc ch =? 0) then ch :: kept l' None last else ch :: kept l' (Some ch) last
      | Some k =>
          match last with
          | None =>
              match compose k ch with
              | Some r => if ch =? 0x11A7 then kept l' (Some r) last else ch :: kept l' (Some r) last
              | None => if ccc ch =? 0 then ch :: kept l' (Some ch) last
                        else ch :: kept l' composee (Some (ccc ch))
              end
          | Some lc =>
              if ccc ch <=? lc
              then if ccc ch =? 0 then ch :: kept l' (Some ch) None
                   else ch :: kept l' composee (Some (ccc ch))
              else match compose k ch with
                   | Some r => ch :: kept l' (Some r) last
                   | None => ch :: kept l' composee (Some (ccc ch))
                   end
          end
      end
  end.

Lemma kept_crun : forall l comp last buf, crun (kept l comp last) comp last buf = crun l comp last buf.
Proof.
  induction l as [|ch l IH]; intros comp last buf; [reflexivity|]. cbn [kept crun].
  destruct comp as [k|].
  - destruct last as [lc|].
    + destruct (ccc ch <=? lc) eqn:E1.
      * destruct (ccc ch =? 0) eqn:E2; cbn [crun]; rewrite E1, E2, IH; reflexivity.
      * destruct (compose k ch) as [r|] eqn:E2; cbn [crun]; rewrite E1, E2, IH; reflexivity.
    + destruct (compose k ch) as [r|] eqn:E1.
      * destruct (N.eqb_spec ch 0x11A7) as [->|Hne].
        -- apply compose_filler in E1. subst r. apply IH.
        -- cbn [crun]. rewrite E1. apply IH.
      * destruct (ccc ch =? 0) eqn:E2; cbn [crun]; rewrite E1, E2, IH; reflexivity.
  - destruct (ccc ch =? 0) eqn:E; cbn [negb crun]; rewrite E; cbn [negb]; rewrite IH; reflexivity.
Qed.

Lemma kept_all : forall l comp last, ~ In 0x11A7 l -> kept l comp last = l.
Proof.
  induction l as [|ch l IH]; intros comp last Hn; [reflexivity|]. cbn [kept].
  assert (~ In 0x11A7 l) as Hn' by (intros H; apply Hn; now right).
  assert (ch =? 0x11A7 = false) as -> by (apply N.eqb_neq; intros ->; apply Hn; now left).
  destruct comp as [k|]; [destruct last as [lc|]|].
  - destruct (ccc ch <=? lc); [destruct (ccc ch =? 0)|destruct (compose k ch)]; now rewrite IH.
  - destruct (compose k ch); [|destruct (ccc ch =? 0)]; now rewrite IH.
  - destruct (negb _); now rewrite IH.
Qed.

Definition prev_ok (p : N) (comp : option N) (last : option N) : Prop :=
  match comp, last with
  | Some k, None => compose k 0x11A7 <> None -> ccc p = 0
  | _, _ => True
  end.

Lemma ordered_starter p l : ccc p = 0 -> ordered ccc l -> ordered ccc (p :: l).
Proof. intros Hp Ho. cbn [ordered]. split; [|assumption]. destruct l; [exact I|]. unfold reord. lia. Qed.

Lemma ordered_cons2 p ch l m : ordered ccc (p :: ch :: l) -> ordered ccc (ch :: m) -> ordered ccc (p :: ch :: m).
Proof. intros [H _] Hm. split; assumption. Qed.

Lemma kept_ordered : forall l p comp last, prev_ok p comp last -> ordered ccc (p :: l) ->
  ordered ccc (p :: kept l comp last).
Proof.
  induction l as [|ch l IH]; intros p comp last Hp Ho; [exact Ho|]. pose proof Ho as [_ Hol].
  cbn [kept]. destruct comp as [k|].
  - destruct last as [lc|].
    + destruct (N.leb_spec (ccc ch) lc).
      * destruct (N.eqb_spec (ccc ch) 0) as [Ez|Ez]; (eapply ordered_cons2; [exact Ho|apply IH; [|exact Hol]]);
          cbn; auto.
      * destruct (compose k ch) as [r|] eqn:E; (eapply ordered_cons2; [exact Ho|apply IH; [|exact Hol]]);
          cbn; auto.
    + destruct (compose k ch) as [r|] eqn:E.
      * destruct (N.eqb_spec ch 0x11A7) as [->|Hne].
        -- assert (ccc p = 0) as Hpz by (apply Hp; congruence).
           apply IH; [cbn; intros _; exact Hpz|]. apply ordered_starter; [assumption|]. now destruct Hol.
        -- eapply ordered_cons2; [exact Ho|]. apply IH; [|exact Hol]. cbn. intros Hf.
           now apply (compose_then_filler k ch r).
      * destruct (N.eqb_spec (ccc ch) 0) as [Ez|Ez]; (eapply ordered_cons2; [exact Ho|apply IH; [|exact Hol]]);
          cbn; auto.
  - destruct (N.eqb_spec (ccc ch) 0) as [Ez|Ez]; cbn [negb];
      (eapply ordered_cons2; [exact Ho|apply IH; [|exact Hol]]); destruct last; cbn; auto.
Qed.

Lemma kept_ordered_start l : ordered ccc l -> ordered ccc (kept l None None).
Proof.
  intros Ho. assert (ordered ccc (0 :: l)) as H by (apply ordered_starter; [apply ccc_ascii; lia|assumption]).
  apply (kept_ordered l 0 None None I) in H. now destruct H.
Qed.

Lemma oeqv_cons a l m : oeqv ccc l m -> oeqv ccc (a :: l) (a :: m).
Proof. intros H. exact (oeqv_app ccc [a] [a] l m (oeqv_refl _ _) H). Qed.

Lemma crun_flat k : forall l comp last buf, fixed k l -> fixed k buf -> ordered ccc l -> nonstarters buf ->
  last_ok buf last -> head_ok l last ->
  oeqv ccc (flat k (crun l (Some comp) last buf)) (decompose k comp ++ buf ++ kept l (Some comp) last).
Proof.
  induction l as [|ch l IH]; intros comp last buf Hfl Hfb Ho Hnb Hl Hh; cbn [crun kept].
  - rewrite app_nil_r. cbn [flat_map]. rewrite flat_fixed by assumption. apply oeqv_refl.
  - inversion Hfl as [|? ? Hch Hfl']; subst. pose proof Ho as [_ Hol].
    assert (ccc ch <> 0 -> forall lc, Forall (fun b => ccc b <= lc) buf -> lc <= ccc ch ->
      oeqv ccc (flat k (crun l (Some comp) (Some (ccc ch)) (buf ++ [ch])))
        (decompose k comp ++ buf ++ ch :: kept l (Some comp) (Some (ccc ch)))) as Hpush.
    { intros Hz lc Hall Hle.
      replace (buf ++ ch :: kept l (Some comp) (Some (ccc ch))) with ((buf ++ [ch]) ++ kept l (Some comp) (Some (ccc ch)))
        by (rewrite <- app_assoc; reflexivity).
      apply IH; [assumption| |assumption| | |].
      - apply Forall_app. split; [assumption|]. repeat constructor. assumption.
      - apply Forall_app. split; [assumption|]. repeat constructor. assumption.
      - now apply (last_ok_push buf ch lc).
      - apply (head_ok_step ch l); [assumption|lia|assumption]. }
    destruct last as [lc|].
    + destruct Hl as [Hex Hall]. cbn in Hh.
      destruct (N.leb_spec (ccc ch) lc) as [Hle|Hgt].
      * destruct (N.eqb_spec (ccc ch) 0) as [Ez|Ez].
        -- cbn [flat_map]. rewrite flat_map_app. rewrite (flat_fixed k buf) by assumption.
           apply oeqv_app; [apply oeqv_refl|]. apply oeqv_app; [apply oeqv_refl|].
           specialize (IH ch None [] Hfl' (Forall_nil _) Hol (Forall_nil _) eq_refl).
           rewrite Hch in IH. cbn [app] in IH. apply IH. destruct l; exact I.
        -- apply (Hpush Ez lc Hall). lia.
      * destruct (compose comp ch) as [r|] eqn:Ec.
        -- assert (ch <> 0x11A7) as Hne by (intros ->; rewrite ccc_filler in Hgt; lia).
           eapply oeqv_trans.
           ++ apply IH; [assumption|assumption|assumption|assumption|split; assumption|].
              apply (head_ok_step ch l); [assumption|lia|lia].
           ++ rewrite (compose_decompose_eq k comp ch r Ec Hne), Hch, <- app_assoc.
              apply oeqv_app; [apply oeqv_refl|]. cbn [app].
              replace (buf ++ ch :: kept l (Some r) (Some lc)) with ((buf ++ [ch]) ++ kept l (Some r) (Some lc))
                by (rewrite <- app_assoc; reflexivity).
              apply (oeqv_app ccc (ch :: buf)); [|apply oeqv_refl]. apply oeqv_move.
              rewrite Forall_forall in Hall, Hnb |- *. intros b Hb. specialize (Hall b Hb). specialize (Hnb b Hb). cbn in *. lia.
        -- apply (Hpush ltac:(lia) lc Hall). lia.
    + cbn in Hl. subst buf. cbn [app] in *.
      destruct (compose comp ch) as [r|] eqn:Ec.
      * specialize (IH r None [] Hfl' (Forall_nil _) Hol (Forall_nil _) eq_refl). cbn [app] in IH.
        assert (head_ok l None) as Hhn by (destruct l; exact I).
        destruct (N.eqb_spec ch 0x11A7) as [->|Hne].
        -- apply compose_filler in Ec. subst r. now apply IH.
        -- rewrite (compose_decompose_eq k comp ch r Ec Hne), Hch, <- app_assoc in IH. now apply IH.
      * destruct (N.eqb_spec (ccc ch) 0) as [Ez|Ez].
        -- cbn [flat_map]. apply oeqv_app; [apply oeqv_refl|].
           specialize (IH ch None [] Hfl' (Forall_nil _) Hol (Forall_nil _) eq_refl).
           rewrite Hch in IH. cbn [app] in IH. apply IH. destruct l; exact I.
        -- apply (Hpush Ez 0); [constructor|lia].
Qed.

Lemma crun_flat_start k : forall l, fixed k l -> ordered ccc l ->
  oeqv ccc (flat k (crun l None None [])) (kept l None None).
Proof.
  induction l as [|ch l IH]; intros Hf Ho; cbn [crun kept flat_map]; [apply oeqv_refl|].
  inversion Hf as [|? ? Hch Hfl]; subst. pose proof Ho as [_ Hol].
  destruct (N.eqb_spec (ccc ch) 0) as [Ez|Ez]; cbn [negb].
  - pose proof (crun_flat k l ch None [] Hfl (Forall_nil _) Hol (Forall_nil _) eq_refl) as H.
    rewrite Hch in H. cbn [app] in H. apply H. destruct l; exact I.
  - cbn [flat_map]. rewrite Hch. cbn [app]. apply oeqv_cons. now apply IH.
Qed.

Lemma D_C_kept k s : D k (C k s) = kept (D k s) None None.
Proof.
  unfold D at 1, C. rewrite (oeqv_eq _ _ _ (crun_flat_start k (D k s) (fixed_D k s) (ordered_D k s))).
  apply order_fixed. apply kept_ordered_start, ordered_D.
Qed.

Lemma C_idem k s : C k (C k s) = C k s.
Proof. unfold C at 1. rewrite D_C_kept. rewrite kept_crun. reflexivity. Qed.

Lemma D_filler k s : In 0x11A7 (D k s) <-> In 0x11A7 s.
Proof.
  unfold D. split.
  - intros H. eapply Permutation_in in H; [|apply Permutation_sym, order_perm].
    apply in_flat_map in H as (c & Hc & H). apply decompose_filler in H. now subst.
  - intros H. eapply Permutation_in; [apply order_perm|]. apply in_flat_map. exists 0x11A7. split; [assumption|].
    rewrite filler_stable. now left.
Qed.

Lemma D_C k s : ~ In 0x11A7 s -> D k (C k s) = D k s.
Proof. intros H. rewrite D_C_kept. apply kept_all. now rewrite D_filler. Qed.

Lemma C_from_D k s t : D k s = D k t -> C k s = C k t.
Proof. unfold C. now intros ->. Qed.

Lemma C_D k s : C k (D k s) = C k s.
Proof. apply C_from_D, D_idem. Qed.

Lemma C_true_false_filler s : ~ In 0x11A7 s -> D true (C false s) = D true s.
Proof. intros H. rewrite <- (D_compat_canon (C false s)), D_C by assumption. apply D_compat_canon. Qed.

Lemma C_app k s t : ~ In 0x11A7 s -> ~ In 0x11A7 t -> C k (s ++ t) = C k (C k s ++ C k t).
Proof.
  intros Hs Ht. apply C_from_D. rewrite (D_app k s t), (D_app k (C k s) (C k t)). now rewrite !D_C.
Qed.

(** ** ASCII *)
Lemma D_ascii k s : Forall (fun c => c < 0x80) s -> D k s = s.
Proof.
  intros H. apply D_fixed.
  - eapply Forall_impl; [|exact H]. cbn. intros c Hc. apply decompose_ascii. lia.
  - induction H as [|c s Hc _ IH]; [exact I|]. apply ordered_starter; [apply ccc_ascii; lia|assumption].
Qed.
Lemma C_ascii k s : Forall (fun c => c < 0x80) s -> C k s = s.
Proof.
  intros H. unfold C. rewrite D_ascii by assumption.
  assert (forall l a, Forall (fun c => c < 0x80) l -> crun l (Some a) None [] = a :: l) as Hrun.
  { induction l as [|c l IH]; intros a Hl; [reflexivity|]. inversion Hl; subst. cbn [crun].
    rewrite compose_ascii by lia. rewrite ccc_ascii by lia. cbn [N.eqb]. now rewrite IH. }
  destruct H as [|c s Hc H]; [reflexivity|]. cbn [crun]. rewrite ccc_ascii by lia. cbn [N.eqb negb].
  now apply Hrun.
Qed.

(** Scalars in, scalars out. *)
Lemma D_scalar k s : wf_str s -> wf_str (D k s).
Proof.
  intros H. eapply Permutation_Forall; [apply order_perm|]. apply Forall_forall. intros x Hx.
  apply in_flat_map in Hx as (c & Hc & Hx). unfold wf_str in H. rewrite Forall_forall in H.
  pose proof (decompose_scalar k c (H c Hc)) as Hd. rewrite Forall_forall in Hd. now apply Hd.
Qed.
Lemma crun_scalar : forall l comp last buf, wf_str l -> wf_str (olist comp) -> wf_str buf -> wf_str (crun l comp last buf).
Proof.
  induction l as [|ch l IH]; intros comp last buf Hl Hc Hb; cbn [crun].
  - destruct comp as [k|]; [|assumption]. inversion Hc; subst. now constructor.
  - inversion Hl as [|? ? Hch Hl']; subst.
    assert (wf_str (buf ++ [ch])) as Hb' by (apply Forall_app; split; [assumption|apply Forall_cons; [assumption|constructor]]).
    assert (wf_str (olist (Some ch))) as Hoc by (apply Forall_cons; [assumption|constructor]).
    destruct comp as [k|].
    + inversion Hc as [|? ? Hk _]; subst. destruct last as [lc|].
      * destruct (ccc ch <=? lc).
        -- destruct (ccc ch =? 0); [|now apply IH]. constructor; [assumption|]. apply Forall_app. split; [assumption|].
           apply IH; [assumption|assumption|constructor].
        -- destruct (compose k ch) as [r|] eqn:E; [|now apply IH].
           apply IH; [assumption| |assumption]. apply Forall_cons; [now apply (compose_scalar k ch)|constructor].
      * destruct (compose k ch) as [r|] eqn:E.
        -- apply IH; [assumption| |assumption]. apply Forall_cons; [now apply (compose_scalar k ch)|constructor].
        -- destruct (ccc ch =? 0); [|now apply IH]. constructor; [assumption|]. now apply IH.
    + destruct (negb _); [constructor; [assumption|]|]; now apply IH.
Qed.
Lemma C_scalar k s : wf_str s -> wf_str (C k s).
Proof. intros H. apply crun_scalar; [now apply D_scalar|constructor|constructor]. Qed.

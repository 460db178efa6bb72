(** Where a text can be cut so that its parts are normalized independently. *)
From Coq Require Import List NArith ZArith Lia Bool ZifyBool ZifyN.
From Verif Require Import Base RangeModel TableTypes Enums UcdModel HangulModel HangulSpec HangulProofs
  NormSpec NormOrder NormModel NormTables NormBubble NormIter NormRecomp NormAlgebra PieceTables.
Import ListNotations.
Open Scope N_scope.

(** ** The state of the composition loop after a list *)
Definition cst := (option N * option N * list N)%type.
Fixpoint cafter (l : list N) (comp last : option N) (buf : list N) : list N * cst :=
  match l with
  | [] => ([], (comp, last, buf))
  | ch :: l' =>
      let emit w r := (w ++ fst r, snd r) in
      match comp with
      | None => if negb (ccc ch =? 0) then emit [ch] (cafter l' None last buf) else cafter l' (Some ch) last buf
      | Some k =>
          match last with
          | None =>
              match compose k ch with
              | Some r => cafter l' (Some r) last buf
              | None => if ccc ch =? 0 then emit [k] (cafter l' (Some ch) last buf)
                        else cafter l' comp (Some (ccc ch)) (buf ++ [ch])
              end
          | Some lc =>
              if ccc ch <=? lc
              then if ccc ch =? 0 then emit (k :: buf) (cafter l' (Some ch) None [])
                   else cafter l' comp (Some (ccc ch)) (buf ++ [ch])
              else match compose k ch with
                   | Some r => cafter l' (Some r) last buf
                   | None => cafter l' comp (Some (ccc ch)) (buf ++ [ch])
                   end
          end
      end
  end.
Definition crun_st (l : list N) (s : cst) : list N := let '(comp, last, buf) := s in crun l comp last buf.

Lemma crun_app l2 : forall l1 comp last buf,
  crun (l1 ++ l2) comp last buf = fst (cafter l1 comp last buf) ++ crun_st l2 (snd (cafter l1 comp last buf)).
Proof.
  induction l1 as [|ch l1 IH]; intros comp last buf; [reflexivity|]. cbn [app crun cafter]. destruct comp as [k|].
  - destruct last as [lc|].
    + destruct (ccc ch <=? lc).
      * destruct (ccc ch =? 0); [|apply IH]. rewrite IH. cbn [fst snd app]. now rewrite <- app_assoc.
      * destruct (compose k ch); apply IH.
    + destruct (compose k ch); [apply IH|]. destruct (ccc ch =? 0); [|apply IH]. rewrite IH. reflexivity.
  - destruct (negb (ccc ch =? 0)); [|apply IH]. rewrite IH. reflexivity.
Qed.

Definition st_ok (s : cst) : Prop := let '(comp, last, buf) := s in (last = None -> buf = []) /\ (comp = None -> last = None).
Lemma cafter_ok : forall l comp last buf, st_ok (comp, last, buf) -> st_ok (snd (cafter l comp last buf)).
Proof.
  induction l as [|ch l IH]; intros comp last buf [H1 H2]; [cbn; auto|]. cbn [cafter]. destruct comp as [k|].
  - destruct last as [lc|].
    + destruct (ccc ch <=? lc).
      * destruct (ccc ch =? 0); cbn [snd]; apply IH; split; intros; auto; discriminate.
      * destruct (compose k ch); apply IH; split; intros; auto; discriminate.
    + destruct (compose k ch); [apply IH; split; intros; auto|]. destruct (ccc ch =? 0); cbn [snd]; apply IH; split; intros; auto; discriminate.
  - destruct (negb (ccc ch =? 0)); cbn [snd]; apply IH; split; intros; auto.
Qed.

(** what the composed starter is, if nothing is held back after it *)
Lemma cafter_last e : forall l comp last buf o buf', st_ok (comp, last, buf) -> snd (cafter (l ++ [e]) comp last buf) = (Some o, None, buf') ->
  o = e \/ exists a, compose a e = Some o.
Proof.
  induction l as [|ch l IH]; intros comp last buf o buf' Hok.
  - cbn [app cafter]. destruct comp as [k|].
    + destruct last as [lc|].
      * destruct (ccc e <=? lc).
        -- destruct (ccc e =? 0); cbn [snd]; intros [= <- _]; auto.
        -- destruct (compose k e); cbn [snd]; intros [=].
      * destruct (compose k e) as [r|] eqn:E; cbn [snd]; [intros [= <- _]; right; eauto|].
        destruct (ccc e =? 0); cbn [snd]; intros [=]; auto.
    + destruct (negb (ccc e =? 0)); cbn [snd]; intros [=]; auto.
  - assert (forall c l' b, st_ok (c, l', b) -> snd (cafter (l ++ [e]) c l' b) = (Some o, None, buf') -> o = e \/ exists a, compose a e = Some o) as IH'
      by (intros c l' b; apply IH).
    clear IH. destruct Hok as [H1 H2]. cbn [app cafter]. destruct comp as [k|].
    + destruct last as [lc|].
      * destruct (ccc ch <=? lc).
        -- destruct (ccc ch =? 0); cbn [snd]; apply IH'; split; intros; auto; discriminate.
        -- destruct (compose k ch); apply IH'; split; intros; auto; discriminate.
      * destruct (compose k ch); [apply IH'; split; intros; auto|]. destruct (ccc ch =? 0); cbn [snd]; apply IH'; split; intros; auto; discriminate.
    + destruct (negb (ccc ch =? 0)); cbn [snd]; apply IH'; split; intros; auto.
Qed.

(** cutting before a starter that the composed starter does not take *)
Lemma st_cut x l s : st_ok s -> ccc x = 0 -> (forall o buf, s = (Some o, None, buf) -> compose o x = None) ->
  crun_st (x :: l) s = crun_st [] s ++ crun (x :: l) None None [].
Proof.
  destruct s as [[comp last] buf]. intros [H1 H2] Hx Hc. cbn [crun_st crun]. rewrite Hx. cbn [N.eqb negb].
  destruct comp as [o|].
  - destruct last as [lc|].
    + replace (0 <=? lc) with true by lia. reflexivity.
    + rewrite (Hc o buf eq_refl), (H1 eq_refl). reflexivity.
  - rewrite (H2 eq_refl) in *. rewrite (H1 eq_refl). reflexivity.
Qed.
Lemma crun_nil_app l comp last buf : crun l comp last buf = fst (cafter l comp last buf) ++ crun_st [] (snd (cafter l comp last buf)).
Proof. rewrite <- crun_app, app_nil_r. reflexivity. Qed.
Lemma crun_cut l1 x l2 : ccc x = 0 -> (forall o buf, snd (cafter l1 None None []) = (Some o, None, buf) -> compose o x = None) ->
  crun (l1 ++ x :: l2) None None [] = crun l1 None None [] ++ crun (x :: l2) None None [].
Proof.
  intros Hx Hc. rewrite crun_app, (crun_nil_app l1), st_cut; [now rewrite app_assoc| |assumption|assumption].
  apply cafter_ok. split; auto.
Qed.

(** nothing combines with the last starter *)
Lemma crun_alone z : (forall x, compose z x = None) -> forall l last buf, (last = None -> buf = []) ->
  crun l (Some z) last buf = z :: buf ++ crun l None None [].
Proof.
  intros Hz. induction l as [|ch l IH]; intros last buf HJ; cbn [crun]; [now rewrite app_nil_r|].
  rewrite Hz. destruct last as [lc|].
  - destruct (N.leb_spec (ccc ch) lc) as [Hle|Hgt].
    + destruct (ccc ch =? 0); cbn [negb]; [reflexivity|]. rewrite IH by discriminate. now rewrite <- app_assoc.
    + destruct (N.eqb_spec (ccc ch) 0); [lia|]. cbn [negb]. rewrite IH by discriminate. now rewrite <- app_assoc.
  - rewrite HJ by reflexivity. destruct (ccc ch =? 0); cbn [negb app]; [reflexivity|]. now rewrite IH by discriminate.
Qed.

(** ** The last character of an ordered list *)
Lemma order_app p w : ccc w <> 0 -> forall l e, order ccc (p ++ [w]) = l ++ [e] -> ccc e <> 0.
Proof.
  intros Hw.
  assert (G : forall p, Forall (fun y => ccc y <> 0) p \/ exists a x m, p = a ++ x :: m /\ ccc x = 0 /\ Forall (fun y => ccc y <> 0) m).
  { clear. induction p as [|y p [H|(a & x & m & -> & Hx & Hm)]].
    - left. constructor.
    - destruct (N.eq_dec (ccc y) 0); [right; exists [], y, p; auto|left; now constructor].
    - right. exists (y :: a), x, m. auto. }
  destruct (G p) as [H|(a & x & m & -> & Hx & Hm)]; intros l e E.
  - assert (In e (order ccc (p ++ [w]))) as He by (rewrite E; apply in_or_app; right; now left).
    apply (Permutation.Permutation_in _ (Permutation.Permutation_sym (order_perm ccc _))) in He.
    assert (Forall (fun y => ccc y <> 0) (p ++ [w])) as F by (apply Forall_app; auto). rewrite Forall_forall in F. now apply F.
  - rewrite <- app_assoc in E. cbn [app] in E. rewrite order_starter_app in E by assumption.
    destruct (order ccc (m ++ [w])) as [|u q] eqn:Q using rev_ind.
    { apply order_nil in Q. now destruct m. }
    clear IHq || idtac. rewrite app_comm_cons, app_assoc in E. apply app_inj_tail in E as [_ <-].
    assert (In u (order ccc (m ++ [w]))) as He by (rewrite Q; apply in_or_app; right; now left).
    apply (Permutation.Permutation_in _ (Permutation.Permutation_sym (order_perm ccc _))) in He.
    assert (Forall (fun y => ccc y <> 0) (m ++ [w])) as F by (apply Forall_app; auto). rewrite Forall_forall in F. now apply F.
Qed.
Lemma D_last k a z w : (exists l, decompose k z = l ++ [w]) -> forall l e, D k (a ++ [z]) = l ++ [e] -> ccc e = 0 -> e = w.
Proof.
  intros [m Em] l e E He. unfold D in E. rewrite flat_map_app in E. cbn [flat_map] in E. rewrite app_nil_r, Em, app_assoc in E.
  destruct (N.eq_dec (ccc w) 0) as [Hw|Hw].
  - rewrite (order_starter_app ccc _ w []) in E by assumption. apply app_inj_tail in E as [_ <-]. reflexivity.
  - now apply (order_app _ w Hw) in E.
Qed.

(** ** Cutting between two characters *)
(** jamo at the two sides that would become one syllable *)
Definition meets (e x : N) : bool := (isL e && isV x) || ((isV e || (e =? 0x11A7)) && isT x).
Definition syllable_across (k : bool) (z y : N) : Prop :=
  exists l e x r, decompose k z = l ++ [e] /\ decompose k y = x :: r /\ meets e x = true.
Definition norm_cut (k : bool) (z y : N) : Prop := control z = true \/ (hangs y = false /\ ~ syllable_across k z y).

Lemma compose_hangul o x : compose o x <> None -> (exists a r, In (a, x, r) triples) \/
  (isL o = true /\ isV x = true) \/ (exists l v, l < 19 /\ v < 21 /\ o = block l v 0 /\ isT x = true).
Proof.
  intros H. destruct (compose o x) as [r|] eqn:E; [clear H|contradiction]. apply compose_cases in E as [E|[(l & v & Hl & Hv & E & F & _)|E]].
  - right. destruct E as [l v Hl Hv|l v t (B1 & B2 & B3) Ht].
    + left. unfold isL, isV, leading, vowel. split; lia.
    + right. exists l, v. unfold isT, trailing. repeat split; lia.
  - right. right. exists l, v. unfold isT. repeat split; auto; lia.
  - left. eauto.
Qed.

(** how a leading consonant or a syllable without trailing consonant got to be the composed starter *)
Lemma compose_to_l a e o : compose a e = Some o -> isL o = true -> False.
Proof.
  intros E H. apply compose_cases in E as [E|[(l & v & Hl & Hv & E & _ & F)|E]].
  - unfold isL in H. destruct E as [l v Hl Hv|l v t (B1 & B2 & B3) Ht]; unfold block in H; lia.
  - unfold isL in H. rewrite F, E in H. unfold block in H. lia.
  - destruct (good_triple_in _ _ _ E) as (_ & _ & _ & _ & _ & F). unfold isL in H. rewrite canon_jamo in F by lia. discriminate.
Qed.
Lemma block_zero l v t l' v' : valid_block l v t -> l' < 19 -> v' < 21 -> block l v t = block l' v' 0 -> t = 0.
Proof. intros (B1 & B2 & B3) H1 H2 E. unfold block in E. lia. Qed.
Lemma compose_to_lv a e l v : compose a e = Some (block l v 0) -> l < 19 -> v < 21 -> isV e = true \/ e = 0x11A7.
Proof.
  intros E Hl Hv. apply compose_cases in E as [E|[(l' & v' & _ & _ & _ & E & _)|E]].
  - remember (block l v 0) as o. destruct E as [l' v' Hl' Hv'|l' v' t B Ht].
    + left. unfold isV, vowel. lia.
    + exfalso. pose proof (block_zero _ _ _ _ _ B Hl Hv Heqo). lia.
  - now right.
  - exfalso. destruct (good_triple_in _ _ _ E) as (_ & _ & _ & _ & _ & F).
    assert (is_syllable (block l v 0) = true) as Hs by (apply block_cover; exists l, v, 0; split; [unfold valid_block; lia|reflexivity]).
    apply canon_hangul in Hs. congruence.
Qed.

Lemma decompose_last k c : exists l e, decompose k c = l ++ [e].
Proof.
  destruct (decompose_nonempty k c) as (x & l & ->). destruct (exists_last (l := x :: l)) as (m & e & ->); [discriminate|eauto].
Qed.

Lemma alone_app k a z b : control z = true -> D k (a ++ z :: b) = D k a ++ z :: D k b /\ C k (a ++ z :: b) = C k a ++ z :: C k b.
Proof.
  intros H. destruct (control_alone z H) as (Hd & Hc & Hl & Hr).
  assert (E : forall b, D k (a ++ z :: b) = D k a ++ z :: D k b).
  { intros b'. rewrite D_app_starter by (rewrite Hd; exact Hc). f_equal. unfold D. cbn [flat_map]. rewrite Hd. cbn [app]. now apply order_starter. }
  split; [apply E|]. unfold C. rewrite E, crun_cut by auto. f_equal. cbn [crun]. rewrite Hc. cbn [N.eqb negb]. now rewrite crun_alone.
Qed.

(** The forms of the two parts of a text. *)
Theorem forms_cut k a z y b : norm_cut k z y ->
  D k ((a ++ [z]) ++ y :: b) = D k (a ++ [z]) ++ D k (y :: b) /\ C k ((a ++ [z]) ++ y :: b) = C k (a ++ [z]) ++ C k (y :: b).
Proof.
  intros [H|[H1 H2]].
  - rewrite <- !app_assoc. cbn [app]. rewrite !(proj1 (alone_app k a z _ H)), !(proj2 (alone_app k a z _ H)).
    rewrite <- !app_assoc. split; reflexivity.
  - destruct (decompose_nonempty k y) as (x & r & Ey). destruct (decompose_last k z) as (l & w & Ez).
    assert (Hx : ccc x = 0). { destruct (N.eq_dec (ccc x) 0) as [E|E]; [assumption|]. rewrite (head_hangs k y x r Ey) in H1 by auto. discriminate. }
    assert (HD : forall a, D k (a ++ y :: b) = D k a ++ D k (y :: b)) by (intros a'; apply D_app_starter; rewrite Ey; exact Hx).
    split; [apply HD|]. unfold C. rewrite HD.
    assert (HY : exists q, D k (y :: b) = x :: q).
    { unfold D. cbn [flat_map]. rewrite Ey. cbn [app]. rewrite order_starter by assumption. eauto. }
    destruct HY as [q ->]. apply crun_cut; [assumption|]. intros o buf Ho.
    destruct (compose o x) as [s|] eqn:E; [exfalso|reflexivity].
    assert (NL : exists m e, D k (a ++ [z]) = m ++ [e]).
    { destruct (D k (a ++ [z])) as [|u t] eqn:Q; [|destruct (exists_last (l := u :: t)) as (m & e & ->); [discriminate|eauto]].
      unfold D in Q. apply order_nil in Q. rewrite flat_map_app in Q. cbn [flat_map] in Q. rewrite Ez in Q.
      apply app_eq_nil in Q as [_ Q]. apply app_eq_nil in Q as [Q _]. apply app_eq_nil in Q as [_ Q]. discriminate. }
    destruct NL as (m & e & Em). rewrite Em in Ho.
    assert (Fe : decompose k e = [e]).
    { pose proof (fixed_D k (a ++ [z])) as F. rewrite Em in F. apply Forall_app in F as [_ F]. now inversion F. }
    apply cafter_last in Ho; [|split; auto].
    destruct (compose_hangul o x) as [(u & t & T)|[(L & V)|(u & v & Hu & Hv & -> & T)]]; [congruence| | |].
    + rewrite (head_hangs k y x r Ey) in H1 by eauto. discriminate.
    + destruct Ho as [->|(u & Hu)]; [|now apply compose_to_l in Hu].
      assert (e = w) as -> by (apply (D_last k a z w (ex_intro _ l Ez) m e Em); apply ccc_jamo; unfold isL in L; lia).
      apply H2. exists l, w, x, r. repeat split; auto. unfold meets. now rewrite L, V.
    + destruct Ho as [<-|(u' & Hc)].
      * rewrite decompose_block_eq in Fe by (unfold valid_block; lia). discriminate.
      * apply compose_to_lv in Hc; [|assumption|assumption].
        assert (e = w) as -> by (apply (D_last k a z w (ex_intro _ l Ez) m e Em); apply ccc_jamo; unfold isV in Hc; lia).
        apply H2. exists l, w, x, r. repeat split; auto. unfold meets. rewrite T.
        destruct Hc as [-> | ->]; cbn [orb andb]; [apply orb_true_r|]. now rewrite N.eqb_refl, orb_true_r.
Qed.

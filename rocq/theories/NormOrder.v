(** Canonical ordering for an arbitrary class function. *)
From Coq Require Import List NArith ZArith Lia Bool Relations Permutation ZifyBool ZifyN.
From Verif Require Import Base NormSpec.
Import ListNotations.
Open Scope N_scope.

Section Order.
  Variable cls : N -> N.

  Definition reord (a b : N) : bool := (cls b <? cls a) && (0 <? cls b).

  Lemma reord_spec a b : reord a b = true <-> reorderable cls a b.
  Proof. unfold reord, reorderable. lia. Qed.

  (** Insertion from the left, and insertion sort. *)
  Fixpoint ins (a : N) (l : list N) : list N :=
    match l with
    | [] => [a]
    | b :: r => if reord a b then b :: ins a r else a :: l
    end.
  Definition order (l : list N) : list N := fold_right ins [] l.

  Lemma ins_comm a b l : reord a b = true -> ins a (ins b l) = ins b (ins a l).
  Proof.
    intros Hab. induction l as [|c r IH]; cbn [ins].
    - rewrite Hab. assert (reord b a = false) as -> by (unfold reord in *; lia). reflexivity.
    - destruct (reord b c) eqn:Ebc.
      + assert (reord a c = true) as Eac by (unfold reord in *; lia). rewrite Eac.
        cbn [ins]. rewrite Eac, Ebc. now rewrite IH.
      + cbn [ins]. rewrite Hab. destruct (reord a c) eqn:Eac; cbn [ins].
        * rewrite Ebc. reflexivity.
        * assert (reord b a = false) as -> by (unfold reord in *; lia). reflexivity.
  Qed.

  Lemma order_app l m : order (l ++ m) = fold_right ins (order m) l.
  Proof. unfold order. apply fold_right_app. Qed.

  Lemma exchange_order l m x : exchange cls l m -> order (l ++ x) = order (m ++ x).
  Proof.
    intros [p a b q H]. apply reord_spec in H. rewrite <- !app_assoc. cbn [app].
    rewrite !(order_app p). f_equal. cbn [order fold_right]. now apply ins_comm.
  Qed.

  Lemma exchanges_order l m : clos_refl_trans _ (exchange cls) l m -> forall x, order (l ++ x) = order (m ++ x).
  Proof.
    induction 1 as [l m H|l|l m n _ IH1 _ IH2]; intros x.
    - now apply exchange_order.
    - reflexivity.
    - now rewrite IH1.
  Qed.

  Lemma exchange_cons a l m : exchange cls l m -> exchange cls (a :: l) (a :: m).
  Proof. intros [p x y q H]. exact (exchange_intro cls (a :: p) x y q H). Qed.
  Lemma exchange_app_r l m x : exchange cls l m -> exchange cls (l ++ x) (m ++ x).
  Proof. intros [p a b q H]. rewrite <- !app_assoc. cbn [app]. now constructor. Qed.

  Notation exchanges := (clos_refl_trans _ (exchange cls)).

  Lemma exchanges_cons a l m : exchanges l m -> exchanges (a :: l) (a :: m).
  Proof.
    induction 1; [apply rt_step, exchange_cons; assumption|apply rt_refl|eapply rt_trans; eassumption].
  Qed.
  Lemma exchanges_app_l p l m : exchanges l m -> exchanges (p ++ l) (p ++ m).
  Proof. intros H. induction p; [assumption|]. now apply exchanges_cons. Qed.
  Lemma exchanges_app_r l m x : exchanges l m -> exchanges (l ++ x) (m ++ x).
  Proof.
    induction 1; [apply rt_step, exchange_app_r; assumption|apply rt_refl|eapply rt_trans; eassumption].
  Qed.

  Lemma ins_exchanges a l : exchanges (a :: l) (ins a l).
  Proof.
    induction l as [|b r IH]; cbn [ins]; [apply rt_refl|].
    destruct (reord a b) eqn:E; [|apply rt_refl].
    apply reord_spec in E.
    eapply rt_trans; [apply rt_step; exact (exchange_intro cls [] a b r E)|]. now apply exchanges_cons.
  Qed.

  Lemma order_exchanges l : exchanges l (order l).
  Proof.
    induction l as [|a l IH]; [apply rt_refl|].
    eapply rt_trans; [apply exchanges_cons; exact IH|]. apply ins_exchanges.
  Qed.

  (** The absence of reorderable pairs, recursively. *)
  Fixpoint ordered (l : list N) : Prop :=
    match l with
    | [] => True
    | a :: l' => match l' with [] => True | b :: _ => reord a b = false end /\ ordered l'
    end.

  Lemma ordered_spec l : ordered l <-> in_canonical_order cls l.
  Proof.
    unfold in_canonical_order. split.
    - intros Ho p. revert l Ho. induction p as [|x p IH]; intros l Ho a b q ->.
      + cbn in Ho. rewrite <- reord_spec. destruct Ho as [H _]. congruence.
      + cbn [app ordered] in Ho. destruct Ho as [_ Ho]. eapply IH; [exact Ho|reflexivity].
    - induction l as [|a l IH]; intros H; cbn [ordered]; [exact I|]. split.
      + destruct l as [|b q]; [exact I|]. specialize (H [] a b q eq_refl).
        rewrite <- reord_spec in H. now destruct (reord a b).
      + apply IH. intros p x y q ->. exact (H (a :: p) x y q eq_refl).
  Qed.

  Lemma ins_head_cases a l : match ins a l with
    | [] => False
    | x :: _ => x = a \/ match l with b :: _ => x = b /\ reord a b = true | [] => False end end.
  Proof.
    destruct l as [|b r]; cbn [ins]; [now left|]. destruct (reord a b) eqn:E; [now right|now left].
  Qed.

  Lemma ins_ordered a l : ordered l -> ordered (ins a l).
  Proof.
    induction l as [|b r IH]; intros Ho; cbn [ins]; [cbn; auto|].
    destruct (reord a b) eqn:E.
    - cbn [ordered] in Ho. destruct Ho as [Hb Ho]. specialize (IH Ho).
      cbn [ordered]. split; [|assumption].
      pose proof (ins_head_cases a r) as Hh. destruct (ins a r) as [|x t]; [contradiction|].
      destruct Hh as [->|Hh].
      + unfold reord in *. lia.
      + destruct r as [|c r']; [contradiction|]. destruct Hh as [-> _]. assumption.
    - cbn [ordered] in *. split; assumption.
  Qed.

  Lemma order_ordered l : ordered (order l).
  Proof. induction l as [|a l IH]; [exact I|]. now apply ins_ordered. Qed.

  Lemma order_fixed l : ordered l -> order l = l.
  Proof.
    induction l as [|a l IH]; intros Ho; [reflexivity|]. cbn [ordered] in Ho. destruct Ho as [H Ho].
    cbn [order fold_right]. fold (order l). rewrite (IH Ho). destruct l as [|b r]; [reflexivity|].
    cbn [ins]. now rewrite H.
  Qed.

  Lemma order_idem l : order (order l) = order l.
  Proof. apply order_fixed, order_ordered. Qed.

  Lemma canonically_ordered_iff l out : canonically_ordered cls l out <-> out = order l.
  Proof.
    unfold canonically_ordered. rewrite <- ordered_spec. split.
    - intros [H Ho]. pose proof (exchanges_order _ _ H []) as E. rewrite !app_nil_r in E.
      rewrite E. symmetry. now apply order_fixed.
    - intros ->. split; [apply order_exchanges|apply order_ordered].
  Qed.

  (** Equality up to canonical ordering in every context. *)
  Definition oeqv (l m : list N) : Prop := forall p q, order (p ++ l ++ q) = order (p ++ m ++ q).

  Lemma oeqv_refl l : oeqv l l.
  Proof. intros p q. reflexivity. Qed.
  Lemma oeqv_sym l m : oeqv l m -> oeqv m l.
  Proof. intros H p q. now rewrite H. Qed.
  Lemma oeqv_trans l m n : oeqv l m -> oeqv m n -> oeqv l n.
  Proof. intros H1 H2 p q. now rewrite H1. Qed.
  Lemma oeqv_app l m l' m' : oeqv l m -> oeqv l' m' -> oeqv (l ++ l') (m ++ m').
  Proof.
    intros H1 H2 p q. rewrite <- !app_assoc. rewrite H1. rewrite !(app_assoc p m). apply H2.
  Qed.
  Lemma oeqv_exchanges l m : exchanges l m -> oeqv l m.
  Proof.
    intros H p q. rewrite !(order_app p). f_equal. now apply exchanges_order.
  Qed.
  Lemma oeqv_order l : oeqv l (order l).
  Proof. apply oeqv_exchanges, order_exchanges. Qed.
  Lemma oeqv_eq l m : oeqv l m -> order l = order m.
  Proof. intros H. specialize (H [] []). now rewrite !app_nil_r in H. Qed.
  Lemma oeqv_iff l m : oeqv l m <-> order l = order m.
  Proof.
    split; [apply oeqv_eq|]. intros H. eapply oeqv_trans; [apply oeqv_order|].
    rewrite H. apply oeqv_sym, oeqv_order.
  Qed.

  (** Moving [c] back over characters of smaller class. *)
  Lemma oeqv_move c m : Forall (fun b => 0 < cls b /\ cls b < cls c) m -> oeqv (c :: m) (m ++ [c]).
  Proof.
    intros H. apply oeqv_exchanges. induction H as [|b m [Hb1 Hb2] _ IH]; [apply rt_refl|].
    eapply rt_trans.
    - apply rt_step. apply (exchange_intro cls [] c b m). split; lia.
    - cbn [app]. now apply exchanges_cons.
  Qed.

  Lemma order_starter a l : cls a = 0 -> order (a :: l) = a :: order l.
  Proof.
    intros Ha. cbn [order fold_right]. fold (order l). destruct (order l) as [|b r]; [reflexivity|].
    cbn [ins]. assert (reord a b = false) as -> by (unfold reord; lia). reflexivity.
  Qed.

  Lemma order_starter_app p a l : cls a = 0 -> order (p ++ a :: l) = order p ++ a :: order l.
  Proof.
    intros Ha. induction p as [|x p IH]; [now apply order_starter|].
    cbn [app order fold_right]. fold (order (p ++ a :: l)). fold (order p). rewrite IH.
    clear IH. induction (order p) as [|b r IH]; cbn [app ins].
    - assert (reord x a = false) as -> by (unfold reord; lia). reflexivity.
    - destruct (reord x b); [|reflexivity]. cbn [app]. now rewrite IH.
  Qed.

  Lemma ordered_app_inv l m : ordered (l ++ m) -> ordered l /\ ordered m.
  Proof.
    induction l as [|a l IH]; intros H; [split; [exact I|exact H]|].
    cbn [app ordered] in H. destruct H as [H1 H2]. destruct (IH H2) as [H3 H4]. split; [|assumption].
    cbn [ordered]. split; [|assumption]. destruct l; [exact I|exact H1].
  Qed.

  (** What ordering preserves. *)
  Lemma exchange_mask l m : exchange cls l m ->
    map (fun c => if cls c =? 0 then Some c else None) l = map (fun c => if cls c =? 0 then Some c else None) m.
  Proof.
    intros [p a b q [H1 H2]]. rewrite !map_app. f_equal. cbn [map].
    destruct (N.eqb_spec (cls a) 0); [lia|]. destruct (N.eqb_spec (cls b) 0); [lia|]. reflexivity.
  Qed.
  Lemma exchange_class k l m : exchange cls l m ->
    filter (fun c => cls c =? k) l = filter (fun c => cls c =? k) m.
  Proof.
    intros [p a b q [H1 H2]]. rewrite !filter_app. f_equal. cbn [filter].
    destruct (N.eqb_spec (cls a) k); destruct (N.eqb_spec (cls b) k); try reflexivity. lia.
  Qed.
  Lemma exchange_prefix l m i c : exchange cls l m -> nth_error l i = Some c -> cls c = 0 ->
    Permutation (firstn i l) (firstn i m).
  Proof.
    intros [p a b q [H1 H2]] Hn Hc. rewrite !firstn_app.
    destruct (Nat.le_gt_cases i (length p)) as [Hi|Hi].
    - replace (i - length p)%nat with 0%nat by lia. cbn [firstn]. reflexivity.
    - rewrite nth_error_app2 in Hn by lia. remember (i - length p)%nat as j eqn:Ej.
      destruct j as [|[|j]]; cbn in Hn.
      + lia.
      + injection Hn as <-. lia.
      + cbn [firstn]. apply Permutation_app_head. apply perm_swap.
  Qed.
  Lemma exchange_perm l m : exchange cls l m -> Permutation l m.
  Proof. intros [p a b q _]. apply Permutation_app_head, perm_swap. Qed.

  Lemma exchanges_mask l m : exchanges l m ->
    map (fun c => if cls c =? 0 then Some c else None) l = map (fun c => if cls c =? 0 then Some c else None) m.
  Proof. induction 1; [now apply exchange_mask|reflexivity|congruence]. Qed.
  Lemma exchanges_class k l m : exchanges l m ->
    filter (fun c => cls c =? k) l = filter (fun c => cls c =? k) m.
  Proof. induction 1; [now apply exchange_class|reflexivity|congruence]. Qed.
  Lemma exchanges_perm l m : exchanges l m -> Permutation l m.
  Proof. induction 1; [now apply exchange_perm|reflexivity|etransitivity; eassumption]. Qed.
  Lemma mask_nth l m i c : 
    map (fun c => if cls c =? 0 then Some c else None) l = map (fun c => if cls c =? 0 then Some c else None) m ->
    nth_error l i = Some c -> cls c = 0 -> nth_error m i = Some c.
  Proof.
    intros H Hn Hc. pose proof (map_nth_error (fun c => if cls c =? 0 then Some c else None) i l Hn) as E.
    rewrite H in E. rewrite Hc in E. cbn in E. rewrite nth_error_map in E.
    destruct (nth_error m i) as [x|]; [|discriminate]. cbn in E. destruct (cls x =? 0); congruence.
  Qed.
  Lemma exchanges_prefix l m i c : exchanges l m -> nth_error l i = Some c -> cls c = 0 ->
    Permutation (firstn i l) (firstn i m).
  Proof.
    intros H. revert i c. induction H as [l m H|l|l m n H1 IH1 H2 IH2]; intros i c Hn Hc.
    - now apply (exchange_prefix l m i c).
    - reflexivity.
    - etransitivity; [eapply IH1; eassumption|]. eapply IH2; [|exact Hc].
      eapply mask_nth; [apply exchanges_mask; eassumption|assumption|assumption].
  Qed.
End Order.

(** The [Recompositions] iterator computes the canonical composition. *)
From Coq Require Import List NArith ZArith Lia Bool Relations Permutation ZifyBool ZifyN.
From Verif Require Import Base NormSpec NormOrder UcdModel NormModel NormBubble NormIter.
Import ListNotations.
Open Scope N_scope.

(** The composition loop as a function on the list of decomposed characters. *)
Fixpoint crun (l : list N) (composee : option N) (last : option N) (buf : list N) : list N :=
  match l with
  | [] => match composee with Some k => k :: buf | None => buf end
  | ch :: l' =>
      match composee with
      | None => if negb (ccc ch =? 0) then ch :: crun l' None last buf else crun l' (Some ch) last buf
      | Some k =>
          match last with
          | None =>
              match compose k ch with
              | Some r => crun l' (Some r) last buf
              | None => if ccc ch =? 0 then k :: crun l' (Some ch) last buf
                        else crun l' composee (Some (ccc ch)) (buf ++ [ch])
              end
          | Some lc =>
              if ccc ch <=? lc
              then if ccc ch =? 0 then k :: buf ++ crun l' (Some ch) None []
                   else crun l' composee (Some (ccc ch)) (buf ++ [ch])
              else match compose k ch with
                   | Some r => crun l' (Some r) last buf
                   | None => crun l' composee (Some (ccc ch)) (buf ++ [ch])
                   end
          end
      end
  end.

Definition olist {A} (o : option A) : list A := match o with Some x => [x] | None => [] end.

(** Shape of reachable states; [l] is what the inner iterator will yield. *)
Definition rinv (st : Recompositions) (l : list N) : Prop :=
  yields (r_iter st) l /\
  match r_state st with
  | Composing => (r_last_ccc st = None -> r_buffer st = []) /\ (r_composee st = None -> r_last_ccc st = None)
  | Purging => r_last_ccc st = None
  | Finished => r_composee st = None
  end.

Definition rresult (st : Recompositions) (l : list N) : list N :=
  match r_state st with
  | Composing => crun l (r_composee st) (r_last_ccc st) (r_buffer st)
  | Purging => r_buffer st ++ crun l (r_composee st) (r_last_ccc st) []
  | Finished => r_buffer st
  end.

Definition mass (st : Recompositions) (l : list N) : nat :=
  (length l + length (r_buffer st) + length (olist (r_composee st)))%nat.

Lemma yields_step it l : yields it l ->
  match d_next it with
  | (None, _) => l = []
  | (Some c, it') => exists l', l = c :: l' /\ yields it' l'
  end.
Proof. exact (next_spec it l). Qed.

Lemma yields_end it it' : yields it [] -> d_next it = (None, it') -> yields it' [].
Proof.
  intros (b & Hb & Hs & Ho) E. destruct it as [k iter buffer s]. cbn [d_buffer d_sorted d_iter] in *. subst buffer.
  unfold pending in Ho. cbn [d_kind d_iter] in Ho. symmetry in Ho. apply order_nil in Ho.
  apply app_eq_nil in Ho as [-> Hf]. unfold d_next in E. cbn [pairs map] in E.
  destruct (pull_spec k iter []) as (iter' & b' & s' & Ep & Ho & Hr). cbn [pairs map] in Ep. rewrite Ep in E.
  assert (b' = [] /\ flat k iter' = []) as [-> Hf'].
  { apply app_eq_nil. apply order_nil. rewrite <- Ho, Hf. reflexivity. }
  exists []. destruct s'; cbn in E; injection E as <-; cbn [d_buffer d_sorted d_iter d_kind].
  - repeat split; [intros _; exact Hr|]. unfold pending. cbn [d_kind d_iter]. now rewrite Hf'.
  - subst iter'. repeat split. intros _. exists [], []. repeat split. constructor.
Qed.

Lemma rnext_spec : forall fuel st l, rinv st l -> (length l + 3 <= fuel)%nat ->
  exists o st', r_next fuel st = Some (o, st') /\
  match o with
  | None => rresult st l = []
  | Some c => exists l', rresult st l = c :: rresult st' l' /\ rinv st' l' /\ (mass st' l' < mass st l)%nat
  end.
Proof.
  (* Finished *)
  assert (forall fuel it buf last l, yields it l -> exists o st',
    r_next (S fuel) (mkR it Finished buf None last) = Some (o, st') /\
    match o with
    | None => rresult (mkR it Finished buf None last) l = []
    | Some c => exists l', rresult (mkR it Finished buf None last) l = c :: rresult st' l' /\ rinv st' l' /\
        (mass st' l' < mass (mkR it Finished buf None last) l)%nat
    end) as Hfin.
  { intros fuel it buf last l Hy. cbn [r_next]. destruct buf as [|c rest].
    - eexists _, _. split; [reflexivity|]. reflexivity.
    - eexists _, _. split; [reflexivity|]. cbn. exists l. repeat split; [exact Hy|]. unfold mass. cbn. lia. }
  (* Composing, by induction on the input *)
  assert (forall l fuel it buf comp last, rinv (mkR it Composing buf comp last) l -> (length l + 2 <= fuel)%nat ->
    exists o st', r_next fuel (mkR it Composing buf comp last) = Some (o, st') /\
    match o with
    | None => crun l comp last buf = []
    | Some c => exists l', crun l comp last buf = c :: rresult st' l' /\ rinv st' l' /\
        (mass st' l' < mass (mkR it Composing buf comp last) l)%nat
    end) as Hcomp.
  { induction l as [|ch l IH]; intros fuel it buf comp last (Hy & H1 & H2) Hf;
      (destruct fuel as [|fuel]; [cbn in Hf; lia|]); cbn [r_next]; cbn [r_iter r_last_ccc r_buffer r_composee] in Hy, H1, H2.
    - pose proof (yields_step _ _ Hy) as Hn. destruct (d_next it) as [[c|] it'] eqn:E.
      { destruct Hn as (l' & [=] & _). }
      pose proof (yields_end _ _ Hy E) as Hy'. destruct comp as [k|].
      + eexists _, _. split; [reflexivity|]. exists []. cbn. repeat split; [exact Hy'|]. unfold mass. cbn. lia.
      + destruct fuel as [|fuel]; [cbn in Hf; lia|].
        destruct (Hfin fuel it' buf last [] Hy') as (o & st' & -> & Ho). exists o, st'. split; [reflexivity|].
        destruct o as [c|]; [|exact Ho]. exact Ho.
    - pose proof (yields_step _ _ Hy) as Hn. destruct (d_next it) as [[c|] it'] eqn:E; [|discriminate].
      destruct Hn as (l' & [= <- <-] & Hy'). cbn [length] in Hf. cbn [crun].
      assert (forall buf' comp' last',
        (last' = None -> buf' = []) -> (comp' = None -> last' = None) ->
        (length buf' + length (olist comp') <= S (length buf + length (olist comp)))%nat ->
        exists o st', r_next fuel (mkR it' Composing buf' comp' last') = Some (o, st') /\
        match o with
        | None => crun l comp' last' buf' = []
        | Some c => exists l'0, crun l comp' last' buf' = c :: rresult st' l'0 /\ rinv st' l'0 /\
            (mass st' l'0 < mass (mkR it Composing buf comp last) (ch :: l))%nat
        end) as Hgo.
      { intros buf' comp' last' G1 G2 G3.
        destruct (IH fuel it' buf' comp' last') as (o & st' & En & Ho); [split; [exact Hy'|split; assumption]|lia|].
        exists o, st'. split; [assumption|]. destruct o as [c|]; [|assumption].
        destruct Ho as (l'' & Hr & Hi & Hm). exists l''. split; [assumption|]. split; [assumption|].
        unfold mass in *. cbn [r_buffer r_composee length] in *. lia. }
      destruct comp as [k|].
      + destruct last as [lc|].
        * destruct (ccc ch <=? lc) eqn:Ele.
          -- destruct (ccc ch =? 0) eqn:Ez.
             ++ eexists _, _. split; [reflexivity|]. exists l. cbn. repeat split; [exact Hy'|].
                unfold mass. cbn. lia.
             ++ apply Hgo; [discriminate|discriminate|]. rewrite app_length. cbn. lia.
          -- destruct (compose k ch) as [r|] eqn:Ec.
             ++ apply Hgo; [discriminate|discriminate|]. cbn. lia.
             ++ apply Hgo; [discriminate|discriminate|]. rewrite app_length. cbn. lia.
        * destruct (compose k ch) as [r|] eqn:Ec.
          -- apply Hgo; [assumption|discriminate|]. cbn. lia.
          -- destruct (ccc ch =? 0) eqn:Ez.
             ++ eexists _, _. split; [reflexivity|]. exists l. cbn. repeat split; [exact Hy'|assumption|].
                unfold mass. cbn. lia.
             ++ apply Hgo; [discriminate|discriminate|]. rewrite app_length. cbn. lia.
      + destruct (ccc ch =? 0) eqn:Ez; cbn [negb].
        * apply Hgo; [assumption|discriminate|]. cbn. lia.
        * eexists _, _. split; [reflexivity|]. exists l. cbn. repeat split; [exact Hy'|assumption|assumption|].
          unfold mass. cbn. lia. }
  intros fuel [it state buf comp last] l (Hy & H) Hf. cbn [r_iter r_state r_last_ccc r_buffer r_composee] in *.
  destruct state; cbn [r_state] in *.
  - apply Hcomp; [split; assumption|lia].
  - destruct fuel as [|fuel]; [lia|]. cbn [r_next]. destruct buf as [|c rest].
    + destruct (Hcomp l fuel it [] comp last) as (o & st' & -> & Ho); [split; [exact Hy|]|lia|].
      * cbn. auto.
      * exists o, st'. split; [reflexivity|]. destruct o; exact Ho.
    + eexists _, _. split; [reflexivity|]. exists l. cbn. repeat split; [exact Hy|assumption|]. unfold mass. cbn. lia.
  - subst comp. destruct fuel as [|fuel]; [lia|]. now apply Hfin.
Qed.

Lemma rcollect_spec : forall fuel st l, rinv st l -> (mass st l + 3 <= fuel)%nat ->
  r_collect fuel st = Some (rresult st l).
Proof.
  induction fuel as [|fuel IH]; intros st l Hi Hf; [lia|]. cbn [r_collect].
  destruct (rnext_spec (S fuel) st l Hi) as (o & st' & -> & Ho); [unfold mass in Hf; lia|].
  destruct o as [c|].
  - destruct Ho as (l' & -> & Hi' & Hm). rewrite (IH st' l' Hi') by lia. reflexivity.
  - now rewrite Ho.
Qed.

(** ** [crun] against the specification *)
Section Spec.
  Lemma last_starter_split out k buf : ccc k = 0 -> nonstarters buf ->
    last_starter ccc (out ++ k :: buf) = Some (out, k, buf).
  Proof.
    intros Hk Hb. induction out as [|x out IH]; cbn [app last_starter].
    - assert (last_starter ccc buf = None) as ->.
      { clear -Hb. induction Hb as [|x l Hx _ IH]; [reflexivity|]. cbn [last_starter]. rewrite IH.
        destruct (N.eqb_spec (ccc x) 0); [contradiction|reflexivity]. }
      now rewrite Hk.
    - now rewrite IH.
  Qed.

  Lemma last_starter_none p : nonstarters p -> last_starter ccc p = None.
  Proof.
    induction 1 as [|x l Hx _ IH]; [reflexivity|]. cbn [last_starter]. rewrite IH.
    destruct (N.eqb_spec (ccc x) 0); [contradiction|reflexivity].
  Qed.

  (** The class the buffer ends with, an upper bound of the classes in it. *)
  Definition last_ok (buf : list N) (last : option N) : Prop :=
    match last with
    | None => buf = []
    | Some lc => (exists b, In b buf /\ ccc b = lc) /\ Forall (fun b => ccc b <= lc) buf
    end.
  Definition head_ok (l : list N) (last : option N) : Prop :=
    match l, last with
    | ch :: _, Some lc => ccc ch = 0 \/ lc <= ccc ch
    | _, _ => True
    end.

  Lemma head_ok_step ch l x : ordered ccc (ch :: l) -> x <= ccc ch -> ccc ch <> 0 -> head_ok l (Some x).
  Proof.
    intros [H _] Hx Hz. destruct l as [|y l]; [exact I|]. cbn. unfold reord in H. lia.
  Qed.

  Lemma last_ok_push buf ch lc : Forall (fun b => ccc b <= lc) buf -> lc <= ccc ch ->
    last_ok (buf ++ [ch]) (Some (ccc ch)).
  Proof.
    intros Hf Hle. split; [exists ch; split; [apply in_or_app; right; now left|reflexivity]|].
    apply Forall_app. split; [|repeat constructor; lia].
    eapply Forall_impl; [|exact Hf]. cbn. intros. lia.
  Qed.

  Lemma blocked_last buf lc ch : (exists b, In b buf /\ ccc b = lc) -> Forall (fun b => ccc b <= lc) buf ->
    nonstarters buf -> blocked ccc buf ch = (ccc ch <=? lc).
  Proof.
    intros (b & Hb & Hlc) Hf Hn. unfold blocked. destruct (ccc ch <=? lc) eqn:E.
    - apply existsb_exists. exists b. split; [assumption|]. lia.
    - destruct (existsb _ buf) eqn:Ex; [|reflexivity]. apply existsb_exists in Ex as (x & Hx & Ex).
      rewrite Forall_forall in Hf, Hn. specialize (Hf x Hx). specialize (Hn x Hx). cbn in *. lia.
  Qed.

  Hypothesis compose_starter : forall a b r, compose a b = Some r -> ccc a = 0 -> ccc r = 0.

  Lemma crun_spec : forall l out k last buf, ordered ccc l -> ccc k = 0 -> nonstarters buf ->
    last_ok buf last -> head_ok l last ->
    fold_left (compose_step ccc compose) l (out ++ k :: buf) = out ++ crun l (Some k) last buf.
  Proof.
    induction l as [|ch l IH]; intros out k last buf Ho Hk Hb Hl Hh; [reflexivity|].
    cbn [fold_left crun]. unfold compose_step at 2. rewrite (last_starter_split out k buf Hk Hb).
    pose proof Ho as [_ Hor].
    destruct last as [lc|].
    - destruct Hl as [Hex Hall]. rewrite (blocked_last buf lc ch Hex Hall Hb).
      destruct (ccc ch <=? lc) eqn:Ele.
      + destruct (ccc ch =? 0) eqn:Ez.
        * rewrite (IH (out ++ k :: buf) ch None []); [|assumption|lia|constructor|reflexivity|destruct l; exact I].
          rewrite <- app_assoc. reflexivity.
        * rewrite <- app_assoc. cbn [app].
          assert (Hh' := Hh). cbn in Hh'.
          apply IH; [assumption|assumption| | |].
          -- apply Forall_app. split; [assumption|]. repeat constructor. lia.
          -- apply (last_ok_push buf ch lc Hall). lia.
          -- apply (head_ok_step ch l); [assumption|lia|lia].
      + destruct (compose k ch) as [r|] eqn:Ec.
        * apply IH; [assumption|now apply (compose_starter k ch r)|assumption| |].
          -- split; assumption.
          -- apply (head_ok_step ch l); [assumption|lia|lia].
        * rewrite <- app_assoc. cbn [app]. apply IH; [assumption|assumption| | |].
          -- apply Forall_app. split; [assumption|]. repeat constructor. lia.
          -- apply (last_ok_push buf ch lc Hall). lia.
          -- apply (head_ok_step ch l); [assumption|lia|lia].
    - cbn in Hl. subst buf. cbn [blocked existsb].
      destruct (compose k ch) as [r|] eqn:Ec.
      + apply (IH out r None []); [assumption|now apply (compose_starter k ch r)|constructor|reflexivity|destruct l; exact I].
      + destruct (ccc ch =? 0) eqn:Ez.
        * rewrite (IH (out ++ [k]) ch None []); [|assumption|lia|constructor|reflexivity|destruct l; exact I].
          rewrite <- app_assoc. reflexivity.
        * rewrite <- app_assoc. cbn [app]. apply IH; [assumption|assumption| | |].
          -- repeat constructor. lia.
          -- cbn. split; [exists ch; split; [now left|reflexivity]|]. repeat constructor. lia.
          -- apply (head_ok_step ch l); [assumption|lia|lia].
  Qed.

  Lemma crun_start : forall l out, ordered ccc l -> nonstarters out ->
    fold_left (compose_step ccc compose) l out = out ++ crun l None None [].
  Proof.
    induction l as [|ch l IH]; intros out Ho Hn; cbn [fold_left crun]; [now rewrite app_nil_r|].
    unfold compose_step at 2. rewrite (last_starter_none out Hn). pose proof Ho as [_ Hor].
    destruct (ccc ch =? 0) eqn:Ez; cbn [negb].
    - apply crun_spec; [assumption|lia|constructor|reflexivity|destruct l; exact I].
    - rewrite IH; [rewrite <- app_assoc; reflexivity|assumption|].
      apply Forall_app. split; [assumption|]. repeat constructor. lia.
  Qed.
End Spec.

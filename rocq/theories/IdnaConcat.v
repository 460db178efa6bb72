(** Labels of a domain name are processed independently, but for the Bidi rule. *)
From Coq Require Import List NArith ZArith Lia Bool.
From Verif Require Import Base Enums EnumFacts TableTypes UcdModel UcdLemmas NormModel NormSpec NormAlgebra NormRecomp
  PunyModel PunySpec PunyProofs PunyDecode PunyLemmas IdnaModel IdnaSpec IdnaErrorSpec IdnaTables IdnaProofs IdnaProcess IdnaLemmas IdnaErrors.
Import ListNotations.
Open Scope N_scope.

(** the full stops of UTS #46 *)
Definition full_stops : list N := [0x2E; 0x3002; 0xFF0E; 0xFF61].

Lemma map_char_stop f c : In c full_stops -> map_char c f = Ret ([0x2E], []).
Proof.
  destruct f as [f1 f2 f3].
  intros [<-|[<-|[<-|[<-|[]]]]]; destruct f1, f2; vm_compute; reflexivity.
Qed.
Lemma stop_not_rtl c : In c full_stops -> rtl_class (bidi_class c) = false.
Proof. intros [<-|[<-|[<-|[<-|[]]]]]; vm_compute; reflexivity. Qed.

Lemma map_all_app f a b : map_all (a ++ b) f =
  obind (map_all a f) (fun x => obind (map_all b f) (fun y => Ret (fst x ++ fst y, snd x ++ snd y))).
Proof.
  induction a as [|c a IH]; cbn [app map_all obind].
  - destruct (map_all b f) as [[u e]|]; reflexivity.
  - rewrite IH. destruct (map_char c f) as [[u e]|]; [|reflexivity]. cbn [obind fst snd].
    destruct (map_all a f) as [[u1 e1]|]; [|reflexivity]. cbn [obind fst snd].
    destruct (map_all b f) as [[u2 e2]|]; [|reflexivity]. cbn [obind fst snd]. rewrite !app_assoc. reflexivity.
Qed.

Lemma split_dot_app a b : split_dot (a ++ 0x2E :: b) = split_dot a ++ split_dot b.
Proof.
  induction a as [|c a IH]; [reflexivity|]. cbn [app split_dot]. rewrite IH. destruct (c =? DOT); [reflexivity|].
  destruct (split_dot a) as [|l ls] eqn:E; [|reflexivity]. exfalso. destruct a as [|x a]; [discriminate E|].
  cbn [split_dot] in E. destruct (x =? DOT); [discriminate E|]. destruct (split_dot a); discriminate E.
Qed.
Lemma split_dot_ne a : split_dot a <> [].
Proof. destruct a as [|c a]; [discriminate|]. cbn [split_dot]. destruct (c =? DOT); [discriminate|]. destruct (split_dot a); discriminate. Qed.
Lemma join_dot_app l1 l2 : l1 <> [] -> l2 <> [] -> join_dot (l1 ++ l2) = join_dot l1 ++ 0x2E :: join_dot l2.
Proof.
  intros H1 H2. induction l1 as [|x l1 IH]; [contradiction|]. destruct l1 as [|y l1].
  - cbn [app]. destruct l2; [contradiction|]. reflexivity.
  - change (join_dot ((x :: y :: l1) ++ l2)) with (x ++ DOT :: join_dot ((y :: l1) ++ l2)).
    rewrite IH by discriminate. change (join_dot (x :: y :: l1)) with (x ++ DOT :: join_dot (y :: l1)).
    rewrite <- app_assoc. reflexivity.
Qed.

Lemma each_app {A} (step : A -> outcome (str * list Error)) l1 l2 : each step (l1 ++ l2) =
  obind (each step l1) (fun x => obind (each step l2) (fun y => Ret (fst x ++ fst y, snd x ++ snd y))).
Proof.
  induction l1 as [|l l1 IH]; cbn [app each obind].
  - destruct (each step l2) as [[u e]|]; reflexivity.
  - rewrite IH. destruct (step l) as [[u e]|]; [|reflexivity]. cbn [obind fst snd].
    destruct (each step l1) as [[u1 e1]|]; [|reflexivity]. cbn [obind fst snd].
    destruct (each step l2) as [[u2 e2]|]; [|reflexivity]. cbn [obind fst snd]. rewrite app_assoc. reflexivity.
Qed.
Lemma each_ne {A} (step : A -> outcome (str * list Error)) l o e : each step l = Ret (o, e) -> l <> [] -> o <> [].
Proof.
  destruct l as [|x l]; [contradiction|]. cbn [each]. destruct (step x); [|discriminate]. cbn [obind].
  destruct (each step l); [|discriminate]. cbn [obind]. intros H _. injection H as <- _. discriminate.
Qed.

Lemma bidi_labels_app l1 l2 : bidi_labels (l1 ++ l2) =
  obind (bidi_labels l1) (fun x => obind (bidi_labels l2) (fun y => Ret (x || y))).
Proof.
  induction l1 as [|l l1 IH]; cbn [app bidi_labels obind].
  - destruct (bidi_labels l2) as [[]|]; reflexivity.
  - rewrite IH. destruct (match strip_prefix PUNYCODE_PREFIX l with Some _ => _ | None => _ end) as [b|]; [|reflexivity].
    cbn [obind]. destruct (bidi_labels l1) as [x|]; [|reflexivity]. cbn [obind].
    destruct (bidi_labels l2) as [y|]; [|reflexivity]. cbn [obind]. rewrite orb_assoc. reflexivity.
Qed.

(** ** What the Bidi rule changes *)
(** [e] and [e'] are the errors without and with the Bidi rule *)
Definition weaker (e e' : list Error) : Prop :=
  incl e e' /\ forall x, x <> ValidityCriteria -> In x e' -> In x e.
Lemma weaker_refl e : weaker e e.
Proof. split; [apply incl_refl|auto]. Qed.
Lemma weaker_app e1 e1' e2 e2' : weaker e1 e1' -> weaker e2 e2' -> weaker (e1 ++ e2) (e1' ++ e2').
Proof.
  intros [A1 B1] [A2 B2]. split.
  - apply incl_app; [apply incl_appl|apply incl_appr]; assumption.
  - intros x Hx H. apply in_app_or in H. apply in_or_app. destruct H; [left|right]; auto.
Qed.

Lemma validate_bidi l f b e : validate l b f = Ret e ->
  forall b', exists e', validate l b' f = Ret e' /\
    (b' = b -> e' = e) /\ (b' = false -> weaker e' e) /\ (b' = true -> weaker e e').
Proof.
  intros H b'.
  assert (T : forall x y : list Error, (x = [] \/ x = [ValidityCriteria]) -> y = [ValidityCriteria] -> weaker x y).
  { intros x y [-> | ->] ->; (split; [|intros z N [<-|[]]; now destruct N]); [intros z []|apply incl_refl]. }
  destruct l as [|c0 r].
  { cbn in *. injection H as <-. exists []. split; [reflexivity|]. split; [auto|]. split; intros _; apply weaker_refl. }
  unfold validate in *. destruct (nfc_ (c0 :: r)) as [n|]; [|discriminate]. cbn [obind] in *.
  assert (D : forall x : list Error, Ret x = Ret e -> exists e', Ret x = Ret e' /\
    (b' = b -> e' = e) /\ (b' = false -> weaker e' e) /\ (b' = true -> weaker e e')).
  { intros x E. injection E as E. subst x. exists e. split; [reflexivity|]. split; [auto|]. split; intros _; apply weaker_refl. }
  destruct (negb _); [exact (D _ H)|]. destruct (_ || _); [exact (D _ H)|].
  destruct (is_combining_mark_table _); [exact (D _ H)|].
  destruct (any_not_permitted _ _) as [bad|]; [|discriminate]. cbn [obind] in *. destruct bad; [exact (D _ H)|].
  destruct b, b'; cbn [passes_bidi negb] in *; unfold passes_bidi in *; cbn [negb] in *.
  - exact (ex_intro _ e (conj H (conj (fun _ => eq_refl) (conj (fun _ => weaker_refl e) (fun _ => weaker_refl e))))).
  - exists []. split; [reflexivity|]. split; [discriminate|]. split; [intros _|discriminate].
    destruct (negb _) in H; injection H as <-; [apply T; auto|apply weaker_refl].
  - injection H as <-. destruct (negb _); eexists; (split; [reflexivity|]); (split; [discriminate|]); (split; [discriminate|]);
      intros _; [apply T; auto|apply weaker_refl].
  - injection H as <-. exists []. split; [reflexivity|]. split; [auto|]. split; intros _; apply weaker_refl.
Qed.

Lemma process_label_bidi l f b o e : process_label b f l = Ret (o, e) ->
  forall b', exists e', process_label b' f l = Ret (o, e') /\
    (b' = b -> e' = e) /\ (b' = false -> weaker e' e) /\ (b' = true -> weaker e e').
Proof.
  intros H b'. unfold process_label in *.
  assert (D : forall l f', obind (validate l b f') (fun e => Ret (l, e)) = Ret (o, e) -> exists e',
    obind (validate l b' f') (fun e => Ret (l, e)) = Ret (o, e') /\
    (b' = b -> e' = e) /\ (b' = false -> weaker e' e) /\ (b' = true -> weaker e e')).
  { intros l' f' E. destruct (validate l' b f') as [x|] eqn:V; [|discriminate]. cbn [obind] in E. injection E as <- <-.
    destruct (validate_bidi _ _ _ _ V b') as (e' & -> & X). exists e'. split; [reflexivity|exact X]. }
  destruct (strip_prefix PUNYCODE_PREFIX l) as [p|]; [|exact (D _ _ H)].
  destruct (decode p) as [[s|]|]; cbn [obind] in *; [exact (D _ _ H)| |discriminate].
  exists e. split; [exact H|]. split; [auto|]. split; intros _; apply weaker_refl.
Qed.

Lemma each_bidi f b : forall ls o e, each (process_label b f) ls = Ret (o, e) ->
  forall b', exists e', each (process_label b' f) ls = Ret (o, e') /\
    (b' = b -> e' = e) /\ (b' = false -> weaker e' e) /\ (b' = true -> weaker e e').
Proof.
  induction ls as [|l ls IH]; intros o e H b'; cbn [each] in *.
  - injection H as <- <-. exists []. split; [reflexivity|]. split; [auto|]. split; intros _; apply weaker_refl.
  - destruct (process_label b f l) as [[o1 e1]|] eqn:E1; [|discriminate]. cbn [obind] in H.
    destruct (each (process_label b f) ls) as [[o2 e2]|] eqn:E2; [|discriminate]. cbn [obind fst snd] in H.
    injection H as <- <-. destruct (process_label_bidi _ _ _ _ _ E1 b') as (e1' & -> & A1 & B1 & C1).
    destruct (IH _ _ eq_refl b') as (e2' & -> & A2 & B2 & C2). cbn [obind fst snd].
    exists (e1' ++ e2'). split; [reflexivity|]. split; [intros X; rewrite (A1 X), (A2 X); reflexivity|].
    split; intros X; apply weaker_app; auto.
Qed.

(** ** Processing two names and their concatenation *)
Definition bidi_of (d : str) (ls : list str) : outcome bool := if has_rtl_char d then Ret true else bidi_labels ls.

Lemma processing_iff d f u es : processing d f = Ret (u, es) <->
  exists m em b outs e2, map_all d f = Ret (m, em) /\ bidi_of d (split_dot (C false m)) = Ret b /\
    each (process_label b f) (split_dot (C false m)) = Ret (outs, e2) /\ u = join_dot outs /\ es = em ++ e2.
Proof.
  unfold processing, bidi_of. split.
  - intros H. destruct (map_all d f) as [[m em]|]; [|discriminate]. cbn [obind fst snd] in H.
    rewrite nfc__eq in H. cbn [obind] in H.
    destruct (if has_rtl_char d then Ret true else _) as [b|] eqn:EB; [|discriminate]. cbn [obind] in H.
    destruct (each _ _) as [[outs e2]|] eqn:EE; [|discriminate]. cbn [obind fst snd] in H. injection H as <- <-.
    exists m, em, b, outs, e2. auto.
  - intros (m & em & b & outs & e2 & -> & EB & EE & -> & ->). cbn [obind fst snd]. rewrite nfc__eq. cbn [obind].
    rewrite EB. cbn [obind]. rewrite EE. reflexivity.
Qed.

Lemma has_rtl_app a b : has_rtl_char (a ++ b) = has_rtl_char a || has_rtl_char b.
Proof. unfold has_rtl_char. apply existsb_app. Qed.

Lemma each_decodes b f : forall ls o e, each (process_label b f) ls = Ret (o, e) -> exists x, bidi_labels ls = Ret x.
Proof.
  induction ls as [|l ls IH]; intros o e H; cbn [each bidi_labels] in *; [eauto|].
  destruct (process_label b f l) as [[o1 e1]|] eqn:E1; [|discriminate]. cbn [obind] in H.
  destruct (each (process_label b f) ls) as [[o2 e2]|] eqn:E2; [|discriminate].
  destruct (IH _ _ eq_refl) as (x & ->). unfold process_label in E1.
  destruct (strip_prefix PUNYCODE_PREFIX l) as [p|]; [|cbn [obind]; eauto].
  destruct (decode p) as [s|]; [|discriminate]. cbn [obind]. eauto.
Qed.

Definition is_bidi (d : str) (f : Flags) (b : bool) : Prop :=
  exists m em, map_all d f = Ret (m, em) /\ bidi_of d (split_dot (C false m)) = Ret b.

Lemma processing_split c d1 d2 f u es : In c full_stops -> processing (d1 ++ c :: d2) f = Ret (u, es) ->
  exists b b1 b2 u1 e1 u2 e2, is_bidi (d1 ++ c :: d2) f b /\ is_bidi d1 f b1 /\ is_bidi d2 f b2 /\ b = b1 || b2 /\
    processing d1 f = Ret (u1, e1) /\ processing d2 f = Ret (u2, e2) /\ u = u1 ++ 0x2E :: u2 /\
    (b1 = b2 -> forall x, In x es <-> In x e1 \/ In x e2) /\
    (forall x, In x e1 \/ In x e2 -> In x es) /\
    (forall x, x <> ValidityCriteria -> In x es -> In x e1 \/ In x e2).
Proof.
  intros Hc H. apply processing_iff in H as (m & em & b & outs & e0 & EM & EB & EE & -> & ->).
  assert (IB : is_bidi (d1 ++ c :: d2) f b) by (exists m, em; auto).
  rewrite map_all_app in EM. destruct (map_all d1 f) as [[m1 em1]|] eqn:M1; [|discriminate]. cbn [obind fst snd] in EM.
  cbn [map_all] in EM. rewrite (map_char_stop f c Hc) in EM. cbn [obind fst snd] in EM.
  destruct (map_all d2 f) as [[m2 em2]|] eqn:M2; [|discriminate]. cbn [obind fst snd app] in EM.
  injection EM as <- <-. rewrite C_dot, split_dot_app in EB, EE.
  rewrite each_app in EE.
  destruct (each (process_label b f) (split_dot (C false m1))) as [[o1 f1]|] eqn:E1; [|discriminate]. cbn [obind fst snd] in EE.
  destruct (each (process_label b f) (split_dot (C false m2))) as [[o2 f2]|] eqn:E2; [|discriminate]. cbn [obind fst snd] in EE.
  injection EE as <- <-.
  destruct (each_decodes _ _ _ _ _ E1) as (x1 & X1). destruct (each_decodes _ _ _ _ _ E2) as (x2 & X2).
  set (b1 := has_rtl_char d1 || x1). set (b2 := has_rtl_char d2 || x2).
  assert (B1 : bidi_of d1 (split_dot (C false m1)) = Ret b1).
  { unfold bidi_of, b1. destruct (has_rtl_char d1); [reflexivity|]. rewrite X1. reflexivity. }
  assert (B2 : bidi_of d2 (split_dot (C false m2)) = Ret b2).
  { unfold bidi_of, b2. destruct (has_rtl_char d2); [reflexivity|]. rewrite X2. reflexivity. }
  assert (Hb : b = b1 || b2).
  { unfold bidi_of in EB. rewrite has_rtl_app in EB. change (has_rtl_char (c :: d2)) with (rtl_class (bidi_class c) || has_rtl_char d2) in EB.
    rewrite (stop_not_rtl c Hc) in EB. cbn [orb] in EB. unfold b1, b2.
    rewrite bidi_labels_app, X1 in EB. cbn [obind] in EB. rewrite X2 in EB. cbn [obind] in EB.
    destruct (has_rtl_char d1), (has_rtl_char d2), x1, x2; cbn [orb] in *; congruence. }
  destruct (each_bidi _ _ _ _ _ E1 b1) as (f1' & P1 & Q1 & R1 & _).
  destruct (each_bidi _ _ _ _ _ E2 b2) as (f2' & P2 & Q2 & R2 & _).
  assert (W1 : weaker f1' f1).
  { destruct b1; [|auto]. rewrite Hb in Q1. rewrite (Q1 eq_refl). apply weaker_refl. }
  assert (W2 : weaker f2' f2).
  { destruct b2; [|auto]. rewrite Hb, orb_true_r in Q2. rewrite (Q2 eq_refl). apply weaker_refl. }
  exists b, b1, b2, (join_dot o1), (em1 ++ f1'), (join_dot o2), (em2 ++ f2').
  split; [exact IB|]. split; [exists m1, em1; auto|]. split; [exists m2, em2; auto|]. split; [exact Hb|].
  split; [apply processing_iff; exists m1, em1, b1, o1, f1'; auto|].
  split; [apply processing_iff; exists m2, em2, b2, o2, f2'; auto|].
  split.
  { apply join_dot_app; [exact (each_ne _ _ _ _ E1 (split_dot_ne _))|exact (each_ne _ _ _ _ E2 (split_dot_ne _))]. }
  destruct W1 as [W1 V1], W2 as [W2 V2]. split; [|split].
  - intros Hq x. rewrite Hq, orb_diag in Hb. rewrite (Q1 (eq_trans Hq (eq_sym Hb))), (Q2 (eq_sym Hb)), !in_app_iff. tauto.
  - intros x. rewrite !in_app_iff. intros [[X|X]|[X|X]]; auto.
  - intros x N. rewrite !in_app_iff. intros [[X|X]|[X|X]]; auto.
Qed.

Lemma processing_join c d1 d2 f u1 e1 u2 e2 : In c full_stops ->
  processing d1 f = Ret (u1, e1) -> processing d2 f = Ret (u2, e2) ->
  exists es, processing (d1 ++ c :: d2) f = Ret (u1 ++ 0x2E :: u2, es).
Proof.
  intros Hc H1 H2. apply processing_iff in H1 as (m1 & em1 & b1 & o1 & f1 & M1 & B1 & E1 & -> & ->).
  apply processing_iff in H2 as (m2 & em2 & b2 & o2 & f2 & M2 & B2 & E2 & -> & ->).
  destruct (each_decodes _ _ _ _ _ E1) as (x1 & X1). destruct (each_decodes _ _ _ _ _ E2) as (x2 & X2).
  set (d := d1 ++ c :: d2). set (b := if has_rtl_char d then true else x1 || x2).
  destruct (each_bidi _ _ _ _ _ E1 b) as (f1' & P1 & _). destruct (each_bidi _ _ _ _ _ E2 b) as (f2' & P2 & _).
  exists ((em1 ++ em2) ++ (f1' ++ f2')). apply processing_iff.
  exists (m1 ++ 0x2E :: m2), (em1 ++ em2), b, (o1 ++ o2), (f1' ++ f2').
  split.
  { unfold d. rewrite map_all_app, M1. cbn [obind fst snd map_all]. rewrite (map_char_stop f c Hc). cbn [obind fst snd].
    rewrite M2. reflexivity. }
  rewrite C_dot, split_dot_app. split.
  { unfold bidi_of, b. destruct (has_rtl_char d); [reflexivity|]. rewrite bidi_labels_app, X1. cbn [obind]. rewrite X2. reflexivity. }
  split; [rewrite each_app, P1; cbn [obind]; rewrite P2; reflexivity|].
  split; [|reflexivity]. symmetry. apply join_dot_app; [exact (each_ne _ _ _ _ E1 (split_dot_ne _))|exact (each_ne _ _ _ _ E2 (split_dot_ne _))].
Qed.

(** ** In the terms of the specification *)
Definition bidi_domain (tr : bool) (d : str) : Prop := exists ls, mapped_labels tr d ls /\ bidi_name d ls.

Lemma is_bidi_iff d f b : is_bidi d f b -> (b = true <-> bidi_domain (transitional f) d).
Proof.
  intros (m & em & M & B).
  assert (ML : mapped_labels (transitional f) d (split_dot (C false m))).
  { destruct (map_all_text _ _ _ _ M) as [(ts & T & ->) _].
    exists ts, (C false (concat ts)). split; [assumption|]. split; [apply nfc_eq|apply split_labels]. }
  assert (X : b = true <-> bidi_name d (split_dot (C false m))).
  { unfold bidi_of in B. unfold bidi_name. destruct (has_rtl_char d) eqn:Er.
    - injection B as <-. split; [intros _; left; apply has_rtl_true; exact Er|reflexivity].
    - apply bidi_labels_exact in B. rewrite B. split; [intros Y; right; exact Y|].
      intros [Y|Y]; [apply has_rtl_dec in Y; [contradiction|exact Er]|exact Y]. }
  rewrite X. split; [intros Y; exists (split_dot (C false m)); split; assumption|].
  intros (ls & L & Y). rewrite (mapped_labels_fun _ _ _ _ ML L). exact Y.
Qed.

Lemma same_bidi d1 d2 f b1 b2 : is_bidi d1 f b1 -> is_bidi d2 f b2 ->
  (bidi_domain (transitional f) d1 <-> bidi_domain (transitional f) d2) -> b1 = b2.
Proof.
  intros H1 H2 H. apply is_bidi_iff in H1, H2. rewrite H in H1. rewrite <- H1 in H2. clear H1 H.
  destruct b1, b2; try reflexivity; [symmetry; apply H2; reflexivity|apply H2; reflexivity].
Qed.

Lemma processing_stop c d1 d2 f u es : In c full_stops -> processing (d1 ++ c :: d2) f = Ret (u, es) ->
  exists u1 e1 u2 e2, processing d1 f = Ret (u1, e1) /\ processing d2 f = Ret (u2, e2) /\ u = u1 ++ 0x2E :: u2 /\
    (forall x, In x e1 \/ In x e2 -> In x es) /\
    (forall x, In x es -> x <> ValidityCriteria \/ (bidi_domain (transitional f) d1 <-> bidi_domain (transitional f) d2) ->
       In x e1 \/ In x e2).
Proof.
  intros Hc H. destruct (processing_split c d1 d2 f u es Hc H)
    as (b & b1 & b2 & u1 & e1 & u2 & e2 & I & I1 & I2 & _ & P1 & P2 & U & A1 & A2 & A3).
  exists u1, e1, u2, e2. repeat (split; [assumption|]). intros x Hx [N|Hb]; [auto|].
  apply (A1 (same_bidi _ _ _ _ _ I1 I2 Hb)). exact Hx.
Qed.

Lemma to_unicode_stop c d1 d2 f u es : In c full_stops -> to_unicode (d1 ++ c :: d2) f = Ret (u, es) ->
  exists u1 e1 u2 e2, to_unicode d1 f = Ret (u1, e1) /\ to_unicode d2 f = Ret (u2, e2) /\ u = u1 ++ 0x2E :: u2 /\
    (forall x, In x e1 \/ In x e2 -> In x es) /\
    (forall x, In x es -> x <> ValidityCriteria \/ (bidi_domain false d1 <-> bidi_domain false d2) -> In x e1 \/ In x e2).
Proof. intros Hc. rewrite !to_unicode_no_trans. exact (processing_stop c d1 d2 (no_trans f) u es Hc). Qed.

Lemma to_unicode_join c d1 d2 f u1 e1 u2 e2 : In c full_stops ->
  to_unicode d1 f = Ret (u1, e1) -> to_unicode d2 f = Ret (u2, e2) ->
  exists es, to_unicode (d1 ++ c :: d2) f = Ret (u1 ++ 0x2E :: u2, es).
Proof. intros Hc. rewrite !to_unicode_no_trans. exact (processing_join c d1 d2 (no_trans f) u1 e1 u2 e2 Hc). Qed.

Lemma to_ascii_ok k d f a : verify_dns f = false -> to_ascii k d f = Ret (inl a) <->
  exists u xs, processing d f = Ret (u, []) /\ each (ascii_label k) (split_dot u) = Ret (xs, []) /\ a = join_dot xs.
Proof.
  intros V. unfold to_ascii. rewrite V. split.
  - intros H. destruct (processing d f) as [[u es]|]; [|discriminate]. cbn [obind fst snd] in H.
    destruct (each _ _) as [[xs e2]|] eqn:E; [|discriminate]. cbn [obind fst snd] in H.
    rewrite app_nil_r in H. destruct (es ++ e2) as [|] eqn:EE; [|discriminate]. apply app_eq_nil in EE as [-> ->].
    injection H as <-. exists u, xs. auto.
  - intros (u & xs & -> & E & ->). cbn [obind fst snd]. rewrite E. reflexivity.
Qed.

Lemma to_ascii_stop k c d1 d2 f a : In c full_stops -> verify_dns f = false ->
  to_ascii k (d1 ++ c :: d2) f = Ret (inl a) ->
  exists a1 a2, to_ascii k d1 f = Ret (inl a1) /\ to_ascii k d2 f = Ret (inl a2) /\ a = a1 ++ 0x2E :: a2.
Proof.
  intros Hc V H. apply (proj1 (to_ascii_ok _ _ _ _ V)) in H as (u & xs & P & E & ->).
  destruct (processing_stop _ _ _ _ _ _ Hc P) as (u1 & e1 & u2 & e2 & P1 & P2 & -> & A & _).
  assert (e1 = []) as -> by (destruct e1 as [|x e1]; [reflexivity|]; destruct (A x); left; left; reflexivity).
  assert (e2 = []) as -> by (destruct e2 as [|x e2]; [reflexivity|]; destruct (A x); right; left; reflexivity).
  rewrite split_dot_app, each_app in E.
  destruct (each (ascii_label k) (split_dot u1)) as [[x1 f1]|] eqn:E1; [|discriminate]. cbn [obind fst snd] in E.
  destruct (each (ascii_label k) (split_dot u2)) as [[x2 f2]|] eqn:E2; [|discriminate]. cbn [obind fst snd] in E.
  injection E as <- EE. apply app_eq_nil in EE as [-> ->].
  exists (join_dot x1), (join_dot x2).
  split; [apply (proj2 (to_ascii_ok _ _ _ _ V)); exists u1, x1; auto|].
  split; [apply (proj2 (to_ascii_ok _ _ _ _ V)); exists u2, x2; auto|].
  apply join_dot_app; [exact (each_ne _ _ _ _ E1 (split_dot_ne _))|exact (each_ne _ _ _ _ E2 (split_dot_ne _))].
Qed.

Lemma to_ascii_join k c d1 d2 f a1 a2 : In c full_stops -> verify_dns f = false ->
  (bidi_domain (transitional f) d1 <-> bidi_domain (transitional f) d2) ->
  to_ascii k d1 f = Ret (inl a1) -> to_ascii k d2 f = Ret (inl a2) ->
  to_ascii k (d1 ++ c :: d2) f = Ret (inl (a1 ++ 0x2E :: a2)).
Proof.
  intros Hc V HB H1 H2. apply (proj1 (to_ascii_ok _ _ _ _ V)) in H1 as (u1 & x1 & P1 & E1 & ->).
  apply (proj1 (to_ascii_ok _ _ _ _ V)) in H2 as (u2 & x2 & P2 & E2 & ->).
  destruct (processing_join _ _ _ _ _ _ _ _ Hc P1 P2) as (es & P).
  destruct (processing_stop _ _ _ _ _ _ Hc P) as (u1' & e1 & u2' & e2 & P1' & P2' & _ & _ & A).
  rewrite P1 in P1'. injection P1' as <- <-. rewrite P2 in P2'. injection P2' as <- <-.
  assert (es = []) as -> by (destruct es as [|x es]; [reflexivity|]; destruct (A x (or_introl eq_refl) (or_intror HB)) as [[]|[]]).
  apply (proj2 (to_ascii_ok _ _ _ _ V)). exists (u1 ++ 0x2E :: u2), (x1 ++ x2). split; [exact P|]. split.
  - rewrite split_dot_app, each_app, E1. cbn [obind]. rewrite E2. reflexivity.
  - symmetry. apply join_dot_app; [exact (each_ne _ _ _ _ E1 (split_dot_ne _))|exact (each_ne _ _ _ _ E2 (split_dot_ne _))].
Qed.

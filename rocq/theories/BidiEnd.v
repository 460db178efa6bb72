(** The resolved levels of a text, end to end. *)
From Coq Require Import List NArith ZArith Lia Bool Arith Permutation ZifyBool ZifyNat ZifyN.
Import ListNotations.
From Verif Require Import Base Enums EnumFacts UcdModel BidiModel BidiSpec BidiLemmas BidiTables BidiInit BidiExplicit
  BidiWeak BidiSeqs BidiChars BidiPara BidiLtr BidiRules BidiIso BidiOrder BidiLine.
Open Scope nat_scope.

Definition firm (c : BidiClass) : bool := is_in [cL; cR; cAL; cEN; cAN] c.

Lemma cexp_kept para cs : forall s, Forall2 (fun c p => kept (snd p) = kept c /\ (kept c = false -> snd p = c)) cs (cexp para s cs).
Proof.
  induction cs as [|c cs IH]; intros s; cbn [cexp]; constructor; [|apply IH].
  cbn [snd]. destruct s as (((stack & oi) & oe) & vi). unfold cstep, exp_step. cbn [e_levels e_classes e_stack e_oi e_oe e_vi].
  change (class_at [c] 0) with c. destruct (stack_last stack) as [ll ls].
  destruct c; try (split; [reflexivity|reflexivity]);
    try (destruct ls; split; (reflexivity || discriminate));
    try (cbv zeta; match goal with |- context [match ?n with Some _ => _ | None => _ end] => destruct n end;
         destruct oi, oe, ls; split; (reflexivity || discriminate)).
  - destruct oi, oe, ls; split; reflexivity.
  - destruct oi, vi; match goal with |- context [stack_last ?x] => destruct (stack_last x) as [l o] end; destruct o; split; (reflexivity || discriminate).
Qed.

Lemma nl_kept e eos cs : kept e = true -> forall prev b, Forall2 (fun c d => kept d = kept c) cs (nl e eos cs prev b).
Proof.
  intros He. induction cs as [|c r IH]; intros prev b; cbn [nl]; [constructor|].
  rewrite <- neutral_NI. destruct (neutral c) eqn:N.
  - constructor; [|apply IH]. rewrite (neutral_kept c N). now apply neutral_class_kept.
  - destruct (_ && _); constructor; auto.
Qed.

(** ** Firm classes stay firm *)

Definition stays (c d : BidiClass) : Prop := firm c = true -> firm d = true.

Lemma stays_trans a b c : Forall2 stays a b -> Forall2 stays b c -> Forall2 stays a c.
Proof.
  intros H. revert c. induction H as [|x y a b X H IH]; intros c G; inversion G; subst; constructor; [|now apply IH].
  unfold stays in *. auto.
Qed.

Lemma at_each_stays f : (forall pre c post, stays c (f pre c post)) -> forall cs pre, Forall2 stays cs (at_each f pre cs).
Proof. intros H. induction cs; intros pre; cbn [at_each]; constructor; auto. Qed.

Lemma map_stays f : (forall c, stays c (f c)) -> forall cs, Forall2 stays cs (map f cs).
Proof. intros H. induction cs; cbn [map]; constructor; auto. Qed.

Lemma w1_stays cs : forall prev, Forall2 stays cs (w1 prev cs).
Proof. induction cs as [|c cs IH]; intros prev; cbn [w1]; constructor; [|apply IH]. unfold stays. destruct c; auto; discriminate. Qed.

Lemma w_rules_stays sos cs : Forall2 stays cs (w_rules sos cs).
Proof.
  assert (A2 : forall l, Forall2 stays l (w2 sos l)).
  { intros l. apply at_each_stays. intros pre c post F; cbv beta. destruct (_ && _); [reflexivity|exact F]. }
  assert (A3 : forall l, Forall2 stays l (w3 l)).
  { apply map_stays. intros c F. destruct (is_in _ c); [reflexivity|exact F]. }
  assert (A4 : forall l, Forall2 stays l (w4 l)).
  { intros l. apply at_each_stays. intros pre c post F. destruct pre, post; auto.
    destruct (_ && _); [reflexivity|]. destruct (_ && _); [reflexivity|exact F]. }
  assert (A5 : forall l, Forall2 stays l (w5 l)).
  { intros l. apply at_each_stays. intros pre c post F; cbv beta. destruct (_ && _); [reflexivity|exact F]. }
  assert (A6 : forall l, Forall2 stays l (w6 l)).
  { apply map_stays. intros c F. destruct c; try discriminate F; reflexivity. }
  assert (A7 : forall l, Forall2 stays l (w7 sos l)).
  { intros l. apply at_each_stays. intros pre c post F; cbv beta. destruct (_ && _); [reflexivity|exact F]. }
  unfold w_rules.
  eapply stays_trans; [|apply A7]. eapply stays_trans; [|apply A6]. eapply stays_trans; [|apply A5].
  eapply stays_trans; [|apply A4]. eapply stays_trans; [|apply A3]. eapply stays_trans; [|apply A2]. apply w1_stays.
Qed.

Lemma firm_kept c : firm c = true -> kept c = true.
Proof. destruct c; try discriminate; reflexivity. Qed.
Lemma firm_neutral c : firm c = true -> neutral c = false.
Proof. destruct c; try discriminate; reflexivity. Qed.

Lemma stays_unfilter cs out : Forall2 (fun c d => kept d = kept c) cs out ->
  Forall2 stays (filter kept cs) (filter kept out) -> Forall2 (fun c d => kept d = kept c /\ stays c d) cs out.
Proof.
  intros H. induction H as [|c d cs out K H IH]; intros F; [constructor|]. cbn [filter] in F. rewrite K in F.
  destruct (kept c) eqn:E.
  - inversion F; subst. constructor; [split; [congruence|assumption]|]. now apply IH.
  - constructor; [|now apply IH]. split; [congruence|]. intros X. apply firm_kept in X. congruence.
Qed.

Lemma stays_find cs out : Forall2 (fun c d => kept d = kept c /\ stays c d) cs out ->
  match find kept cs with Some d => firm d = true | None => True end ->
  match find kept out with Some d => neutral d = false | None => True end.
Proof.
  intros H. induction H as [|c d cs out (K & X) H IH]; [auto|]. cbn [find]. rewrite K. destruct (kept c); [|exact IH].
  intros F. now apply firm_neutral, X.
Qed.

Lemma stays_unbroken cs out : Forall2 (fun c d => kept d = kept c /\ stays c d) cs out ->
  removed_before_firm cs -> forall b, runs_unbroken b out.
Proof.
  intros H. induction H as [|c d cs out (K & X) H IH]; intros R b; [exact I|]. cbn [removed_before_firm runs_unbroken] in *.
  destruct R as (R1 & R2). destruct (neutral d) eqn:N; [now apply IH|]. destruct (kept d) eqn:E; [now apply IH|].
  split; [|now apply IH]. right. eapply stays_find; [exact H|]. apply R1. congruence.
Qed.

(** ** One sequence *)

Lemma sequence_chars ws lv s cs : (s_sos s = cL \/ s_sos s = cR) -> (s_eos s = cL \/ s_eos s = cR) ->
  length cs = length (seq_indices (s_runs s)) ->
  weak_tame (s_sos s) (map (wat ws) (seq_indices (s_runs s))) cs -> removed_before_firm cs ->
  let out := resolve_chars ws lv s cs in
  filter kept out = n_rules (s_sos s) (s_eos s) (if N.odd (level_at lv (seq_start (s_runs s))) then cR else cL)
                      (w_rules (s_sos s) (filter kept cs)) /\
  Forall2 (fun c d => kept d = kept c) cs out.
Proof.
  intros Hs He HL HT HR. unfold resolve_chars. set (ws' := map _ _) in *.
  assert (HL' : length cs = length ws') by (unfold ws'; now rewrite map_length).
  destruct (weak_rules (s_sos s) (s_eos s) ws' cs Hs He HL' HT) as (A & B). cbv zeta in A, B.
  set (w := w7l _ _) in *.
  assert (E : level_class (level_at lv (seq_start (s_runs s))) = if N.odd (level_at lv (seq_start (s_runs s))) then cR else cL).
  { unfold level_class. now rewrite level_is_rtl_odd. }
  rewrite E. set (e := if N.odd (level_at lv (seq_start (s_runs s))) then cR else cL) in *.
  assert (Ke : kept e = true) by (unfold e; destruct (N.odd _); reflexivity).
  assert (KW : Forall2 (fun c d => kept d = kept c) cs w).
  { clear - B. induction B as [|c d cs w (X & _) B IH]; constructor; auto. }
  assert (U : runs_unbroken false w).
  { apply (stays_unbroken cs); [|exact HR]. apply stays_unfilter; [exact KW|]. rewrite A. apply w_rules_stays. }
  destruct (nl_rules (s_sos s) (s_eos s) e Ke w [] (s_sos s) false U) as (C & D); [discriminate|auto|].
  split.
  - rewrite C, A. reflexivity.
  - pose proof (nl_kept e (s_eos s) w Ke (s_sos s) false) as F. clear - KW F. revert F. generalize (nl e (s_eos s) w (s_sos s) false) as out.
    induction KW as [|c d cs w X KW IH]; intros out F; inversion F; subst; constructor; [congruence|now apply IH].
Qed.

(** ** One paragraph *)

Lemma assign_removed_nth cs : forall prev l k, length l = length cs -> k < length cs ->
  level_at (assign_removed prev cs l) k
  = if kept (class_at cs k) then level_at l k
    else match k with O => prev | S j => level_at (assign_removed prev cs l) j end.
Proof.
  induction cs as [|c cs IH]; intros prev [|x l] k HL Hk; cbn [length] in *; try lia.
  cbn [assign_removed]. rewrite kept_removed. destruct k as [|k].
  - unfold level_at, class_at. cbn [nth]. destruct (kept c); reflexivity.
  - change (class_at (c :: cs) (S k)) with (class_at cs k). change (level_at (x :: l) (S k)) with (level_at l k).
    set (y := if negb (kept c) then prev else x).
    change (level_at (y :: assign_removed y cs l) (S k)) with (level_at (assign_removed y cs l) k).
    rewrite IH by lia. destruct (kept (class_at cs k)); [reflexivity|]. destruct k; reflexivity.
Qed.

Lemma implicit_levels_nth cs : forall lv k, length cs = length lv -> k < length cs ->
  level_at (implicit_levels lv cs) k = implicit_level (level_at lv k) (class_at cs k).
Proof.
  induction cs as [|c cs IH]; intros [|x l] k HL Hk; cbn [length] in *; try lia.
  destruct k as [|k]; [reflexivity|]. apply IH; lia.
Qed.

Lemma exp_rules ws para cs : (para <= 125)%N -> length cs = length ws -> Forall (fun w => 0 < w) ws ->
  forall k, k < length cs -> ~ x9 (class_at cs k) ->
    nth_error (x_rules para (x_start para) cs) k = Some (level_at (exp_levels para cs) k, class_at (exp_classes para cs) k).
Proof.
  intros Hp HL Hw. destruct (explicit_rules ws para cs Hp HL Hw) as (lv & xc & L1 & L2 & E & _ & R).
  rewrite explicit_char in E by assumption. injection E as E1 E2.
  apply expand_inj in E1; [|assumption|rewrite map_length, cexp_length; congruence|congruence].
  apply expand_inj in E2; [|assumption|rewrite map_length, cexp_length; congruence|congruence].
  unfold exp_levels, exp_classes. rewrite E1, E2. exact R.
Qed.

Lemma Forall2_nth_l {A B} (P : A -> B -> Prop) l m : Forall2 P l m -> forall k da db, k < length l -> P (nth k l da) (nth k m db).
Proof.
  induction 1 as [|x y l m H F IH]; intros k da db Hk; cbn [length] in *; [lia|].
  destruct k; cbn [nth]; [assumption|]. apply IH. lia.
Qed.

Lemma exp_classes_kept para cs k : k < length cs ->
  kept (class_at (exp_classes para cs) k) = kept (class_at cs k) /\
  (kept (class_at cs k) = false -> class_at (exp_classes para cs) k = class_at cs k).
Proof.
  intros Hk. pose proof (Forall2_nth_l _ _ _ (cexp_kept para cs (cst0 para)) k cL (0%N, cL) Hk) as X.
  unfold exp_classes, class_at.
  assert (M : nth k (map snd (cexp para (cst0 para) cs)) cL = snd (nth k (cexp para (cst0 para) cs) (0%N, cL)))
    by exact (map_nth snd _ (0%N, cL) k).
  rewrite M. exact X.
Qed.

Lemma filter_map_classes cs fc idx : (forall k, In k idx -> kept (class_at fc k) = kept (class_at cs k)) ->
  filter kept (map (class_at fc) idx) = map (class_at fc) (filter (fun k => kept (class_at cs k)) idx).
Proof.
  induction idx as [|k idx IH]; intros H; [reflexivity|]. cbn [map filter]. rewrite (H k) by (now left).
  rewrite IH by (intros; apply H; now right). destruct (kept (class_at cs k)); reflexivity.
Qed.

Lemma Forall2_maps {A B C} (P : B -> C -> Prop) (f : A -> B) (g : A -> C) l : Forall2 P (map f l) (map g l) -> forall x, In x l -> P (f x) (g x).
Proof.
  induction l as [|a l IH]; intros H x Hx; [destruct Hx|]. cbn [map] in H. inversion H; subst.
  destruct Hx as [<-|Hx]; auto.
Qed.

Lemma border_LR l m : border_class l m = cL \/ border_class l m = cR.
Proof. unfold border_class. destruct (N.odd _); auto. Qed.

Lemma sos_eos_LR para cs lv s : sos_eos para cs lv s -> (s_sos s = cL \/ s_sos s = cR) /\ (s_eos s = cL \/ s_eos s = cR).
Proof.
  intros (A & B & C). split; [rewrite A; apply border_LR|].
  set (c := class_at cs (seq_end (s_runs s) - 1)) in *.
  assert (D : initiator c \/ ~ initiator c) by (unfold initiator; destruct c; (left; tauto) || (right; intuition discriminate)).
  destruct D as [D|D]; [rewrite (B D)|rewrite (C D)]; apply border_LR.
Qed.

Lemma paragraph_levels ws para cs out : (para <= 125)%N -> length cs = length ws -> Forall (fun w => 0 < w) ws ->
  separator_last cs -> isolates_begin_kept cs -> char_levels ws para cs = Ret out ->
  uax9_levels (tame_sequence ws) para cs out.
Proof.
  intros Hp HL Hw HS HI HO. rewrite char_levels_spec in HO by assumption. injection HO as <-.
  set (lv := exp_levels para cs). set (xc := exp_classes para cs). set (fc := final_classes ws para cs).
  assert (LV : length lv = length cs) by apply exp_levels_length.
  assert (LX : length xc = length cs) by apply exp_classes_length.
  assert (LF : length fc = length cs) by apply final_classes_length.
  exists lv, xc, fc, (level_runs lv cs), (isolating_run_sequences para cs lv).
  split; [assumption|]. split.
  { intros k Hk K. apply (exp_rules ws); auto. rewrite <- removed_false, kept_removed, K. reflexivity. }
  split; [intros k Hk; apply (exp_classes_kept para cs k Hk)|].
  split; [apply level_runs_spec|]. split; [apply sequences_perm|].
  assert (SE : forall s, In s (isolating_run_sequences para cs lv) -> sos_eos para cs lv s) by (intros; now apply sequence_borders).
  split.
  { pose proof (iso_sequences para cs Hp HS HI) as I. rewrite Forall_forall in *. intros s Hin.
    destruct (I s Hin) as (A & B). split; [exact A|]. split; [exact B|]. now apply SE. }
  split.
  { apply Forall_forall. intros s Hin (T1 & T2). set (idx := seq_indices (s_runs s)) in *.
    destruct (char_classes_spec ws para cs lv xc) as (_ & CC); [congruence|]. specialize (CC s Hin). fold idx in CC.
    change (char_classes ws para cs lv xc) with fc in CC.
    destruct (sos_eos_LR _ _ _ _ (SE s Hin)) as (S1 & S2).
    destruct (sequence_chars ws lv s (reads xc idx) S1 S2) as (A & B).
    - unfold reads. now rewrite map_length.
    - exact T1.
    - exact T2.
    - rewrite <- CC in A, B. unfold sequence_resolved. fold idx.
      assert (IR : forall k, In k idx -> k < length cs).
      { intros k Hk. destruct (sequences_nodup para cs lv) as (_ & X). rewrite <- LV. apply X. apply in_flat_map. eauto. }
      assert (KX : forall k, In k idx -> kept (class_at xc k) = kept (class_at cs k)).
      { intros k Hk. apply (exp_classes_kept para cs k). auto. }
      assert (KF : forall k, In k idx -> kept (class_at fc k) = kept (class_at cs k)).
      { intros k Hk. rewrite <- (KX k Hk). exact (Forall2_maps _ _ _ _ B k Hk). }
      unfold reads in A. rewrite !(filter_map_classes cs) in A by assumption. exact A. }
  split.
  { rewrite assign_removed_length, implicit_levels_length; congruence. }
  intros k Hk. rewrite assign_removed_nth by (rewrite ?implicit_levels_length; congruence || assumption).
  destruct (kept (class_at cs k)); [|reflexivity]. apply implicit_levels_nth; [congruence|]. now rewrite LF.
Qed.

(** ** The whole text *)

Lemma f2_nth {A B} (P : A -> B -> Prop) l : forall m, length l = length m ->
  (forall k c d, nth_error l k = Some c -> nth_error m k = Some d -> P c d) -> Forall2 P l m.
Proof.
  induction l as [|x l IH]; intros [|y m] HL H; cbn [length] in *; try lia; constructor.
  - exact (H 0 x y eq_refl eq_refl).
  - apply IH; [lia|]. intros k. exact (H (S k)).
Qed.

(** the class [d] after X5c of a character of class [c] *)
Definition fsi_like (c d : BidiClass) : Prop := (c <> cFSI -> d = c) /\ (c = cFSI -> d = cLRI \/ d = cRLI \/ d = cFSI).

Lemma fsi_resolved_like cs ds : fsi_resolved cs ds -> Forall2 fsi_like cs ds.
Proof.
  intros (L & H). apply f2_nth; [congruence|]. intros k c d Hc Hd.
  apply nth_error_split in Hc as (pre & post & E & <-). destruct (H pre c post E) as (A & B). split.
  - intros N. rewrite (A N) in Hd. now injection Hd.
  - intros N. destruct (B N) as (r & Hr & F). rewrite Hr in Hd. injection Hd as <-.
    destruct F as [(_ & ->)|[(_ & ->)|(_ & ->)]]; auto.
Qed.

Lemma f2_app_split {A B} (P : A -> B -> Prop) a a' m : Forall2 P (a ++ a') m ->
  Forall2 P a (firstn (length a) m) /\ Forall2 P a' (skipn (length a) m).
Proof.
  revert m. induction a as [|x a IH]; intros m H; cbn [app length firstn skipn] in *; [auto|].
  inversion H as [|? y ? m' X F]; subst. destruct (IH m' F). cbn [firstn skipn]. auto.
Qed.

Lemma char_all_split default pieces : forall cc lc, Forall2 fsi_like (cls (concat pieces)) cc ->
  char_all default pieces cc = Ret lc -> exists ccs lcs,
    cc = concat ccs /\ lc = concat lcs /\ length ccs = length pieces /\ length lcs = length pieces /\
    forall n piece cs l, nth_error pieces n = Some piece -> nth_error ccs n = Some cs -> nth_error lcs n = Some l ->
      Forall2 fsi_like (cls piece) cs /\ char_levels (map clen piece) (plevel default piece) cs = Ret l.
Proof.
  induction pieces as [|p rest IH]; intros cc lc F H; cbn [char_all concat] in *.
  - injection H as <-. inversion F; subst. exists [], []. repeat (split; [reflexivity|]).
    intros [|n] ? ? ? X; discriminate X.
  - unfold cls in F. rewrite map_app in F. apply f2_app_split in F as (F1 & F2). rewrite map_length in F1, F2.
    destruct (char_levels _ _ _) as [a|] eqn:E; [|discriminate]. cbn [obind] in H.
    destruct (char_all default rest _) as [r|] eqn:E2; [|discriminate]. cbn [obind] in H. injection H as <-.
    destruct (IH _ _ F2 E2) as (ccs & lcs & A & B & C & D & G).
    exists (firstn (length p) cc :: ccs), (a :: lcs). cbn [concat length]. rewrite <- A, <- B, C, D.
    split; [now rewrite firstn_skipn|]. split; [reflexivity|]. split; [reflexivity|]. split; [reflexivity|].
    intros [|n] piece cs l X Y Z; cbn [nth_error] in *.
    + injection X as <-. injection Y as <-. injection Z as <-. auto.
    + eauto.
Qed.

Lemma f2_length {A B} (P : A -> B -> Prop) l m : Forall2 P l m -> length l = length m.
Proof. induction 1; cbn; congruence. Qed.

Lemma piece_separator_last t pieces piece cs : paragraphs_of t pieces -> In piece pieces ->
  Forall2 fsi_like (cls piece) cs -> separator_last cs.
Proof.
  intros (_ & _ & H & _) Hin F k Hk Lk. pose proof (f2_length _ _ _ F) as L. unfold cls in L. rewrite map_length in L.
  assert (X : fsi_like (nth k (cls piece) cL) (nth k cs cL)).
  { apply Forall2_nth_l; [exact F|]. unfold cls. rewrite map_length. lia. }
  unfold class_at in Hk. rewrite Hk in X.
  assert (B : nth k (cls piece) cL = cB).
  { destruct X as (A & C). destruct (BC_eq_dec (nth k (cls piece) cL) cFSI) as [E|E]; [|symmetry; now apply A].
    destruct (C E) as [Y|[Y|Y]]; discriminate Y. }
  assert (Hp : k < length piece) by lia.
  destruct (nth_error piece k) as [c|] eqn:E; [|apply nth_error_None in E; lia].
  pose proof (nth_error_split _ _ E) as (a & b & EP & <-).
  assert (bidi_class c = cB).
  { unfold cls in B. rewrite EP, map_app in B. cbn [map] in B. rewrite app_nth2 in B by (rewrite map_length; lia).
    rewrite map_length, Nat.sub_diag in B. exact B. }
  rewrite (H piece a c b Hin EP) in EP by assumption.
  rewrite <- L, EP, app_length. cbn. lia.
Qed.

Lemma text_levels t default b : default_ok default 125 -> bidi_new t default = Ret b ->
  exists pieces ccs lcs,
    paragraphs_of t pieces /\ map (fun p => (p_start p, p_end p)) (b_paras b) = ranges_from 0 pieces /\
    fsi_resolved (map bidi_class t) (concat ccs) /\ b_classes b = expand (map clen t) (concat ccs) /\
    b_levels b = expand (map clen t) (concat lcs) /\
    length ccs = length pieces /\ length lcs = length pieces /\
    forall n piece cs l p, nth_error pieces n = Some piece -> nth_error ccs n = Some cs -> nth_error lcs n = Some l ->
      nth_error (b_paras b) n = Some p ->
      length cs = length piece /\ length l = length piece /\
      (isolates_begin_kept cs -> uax9_levels (tame_sequence (map clen piece)) (p_level p) cs l).
Proof.
  intros HD HB. destruct (bidi_shape t default b HB) as (cc & lc & pieces & LC & LL & FR & P & CA & Eb).
  pose proof (fsi_resolved_like _ _ FR) as FL. pose proof P as (PC & _). rewrite <- PC in FL.
  destruct (char_all_split default pieces cc lc FL CA) as (ccs & lcs & A & B & C & D & G).
  exists pieces, ccs, lcs. split; [assumption|]. split; [rewrite Eb; cbn [b_paras]; apply mkparas_ranges|].
  split; [now rewrite <- A|]. split; [now rewrite Eb, <- A|]. split; [now rewrite Eb, <- B|].
  split; [assumption|]. split; [assumption|].
  intros n piece cs l p H1 H2 H3 H4. destruct (G n piece cs l H1 H2 H3) as (F & CL).
  pose proof (f2_length _ _ _ F) as L1. unfold cls in L1. rewrite map_length in L1.
  pose proof (char_levels_length _ _ _ _ CL) as L2.
  split; [congruence|]. split; [congruence|]. intros HI.
  rewrite Eb in H4. cbn [b_paras] in H4. apply mkparas_nth in H4 as (q & Hq & EL). rewrite H1 in Hq. injection Hq as <-.
  rewrite EL. fold (plevel default piece). apply paragraph_levels; auto.
  - apply (plevel_ok default 125); [lia|assumption].
  - now rewrite map_length.
  - apply clens_pos.
  - apply (piece_separator_last t pieces piece); auto. now apply nth_error_In in H1.
Qed.

(** ** Texts on which every sequence is tame *)

(** without Arabic letters, European terminators, embeddings, overrides and boundary neutrals,
    and with one-byte separators *)
Definition simple_char (c : N) : Prop :=
  ~ In (bidi_class c) [cAL; cET; cLRE; cRLE; cLRO; cRLO; cPDF; cBN] /\
  (In (bidi_class c) [cES; cCS] -> clen c = 1).

Definition simple_class (c : BidiClass) : bool := negb (is_in [cAL; cET; cLRE; cRLE; cLRO; cRLO; cPDF; cBN] c).

Lemma simple_kept c : simple_class c = true -> kept c = true.
Proof. destruct c; try discriminate; reflexivity. Qed.

Lemma w1_no_AL cs : forall prev, prev <> cAL -> Forall (fun c => c <> cAL) cs -> Forall (fun c => c <> cAL) (w1 prev cs).
Proof.
  induction cs as [|c cs IH]; intros prev Hp F; cbn [w1]; [constructor|]. inversion F; subst.
  assert (N : (if is_in [cNSM] c then if is_in [cLRI; cRLI; cFSI; cPDI] prev then cON else prev else c) <> cAL).
  { destruct (is_in [cNSM] c); [|assumption]. destruct (is_in _ prev); [discriminate|assumption]. }
  constructor; auto.
Qed.

Lemma w2_no_AL sos cs : sos <> cAL -> Forall (fun c => c <> cAL) cs -> w2 sos cs = cs.
Proof.
  intros Hs F. unfold w2. assert (G : forall pre, Forall (fun c => c <> cAL) pre ->
    at_each (fun pre c _ => if is_in [cEN] c && is_in [cAL] (last_strong sos pre) then cAN else c) pre cs = cs); [|now apply G].
  induction cs as [|c cs IH]; intros pre Hpre; cbn [at_each]; [reflexivity|]. inversion F; subst.
  rewrite IH; [|assumption|now constructor]. f_equal.
  assert (E : is_in [cAL] (last_strong sos pre) = false).
  { unfold last_strong. clear - Hs Hpre. induction Hpre as [|x pre Hx Hp IH]; cbn [filter].
    - cbn [hd]. destruct sos; try reflexivity. congruence.
    - destruct (is_in [cL; cR; cAL] x); [|exact IH]. cbn [hd]. destruct x; try reflexivity. congruence. }
  rewrite E, andb_false_r. reflexivity.
Qed.

Lemma filter_all {A} (f : A -> bool) l : Forall (fun x => f x = true) l -> filter f l = l.
Proof. induction 1; cbn; [reflexivity|]. rewrite H, IHForall. reflexivity. Qed.

Lemma simple_sequence ws xc s : (s_sos s = cL \/ s_sos s = cR) ->
  (forall k, In k (seq_indices (s_runs s)) -> simple_class (class_at xc k) = true /\
     (is_in [cES; cCS] (class_at xc k) = true -> nth k ws 0 = 1)) ->
  tame_sequence ws xc s.
Proof.
  intros Hs H. unfold tame_sequence. set (idx := seq_indices (s_runs s)) in *.
  assert (F : Forall (fun c => simple_class c = true) (map (class_at xc) idx)).
  { apply Forall_map, Forall_forall. intros k Hk. now apply H. }
  assert (FK : Forall (fun c => kept c = true) (map (class_at xc) idx)).
  { eapply Forall_impl; [|exact F]. exact simple_kept. }
  split; [split; [|split]|].
  - rewrite filter_all by assumption. unfold w2_idle. apply w2_no_AL; [destruct Hs as [-> | ->]; discriminate|].
    apply w1_no_AL; [destruct Hs as [-> | ->]; discriminate|]. eapply Forall_impl; [|exact F]. intros c Hc ->. discriminate Hc.
  - rewrite filter_all by assumption. clear - F. induction F as [|c l Hc F IH]; cbn [ets_followed]; [exact I|].
    split; [|exact IH]. intros ->. discriminate Hc.
  - clear - H. induction idx as [|k idx IH]; cbn [map separators_short]; [exact I|]. split.
    + apply H. now left.
    + apply IH. intros j Hj. apply H. now right.
  - clear - FK. induction FK as [|c l Hc F IH]; cbn [removed_before_firm]; [exact I|].
    split; [|exact IH]. rewrite Hc. discriminate.
Qed.

Lemma x_next_stack c s : simple_class c = true -> Forall (fun e => st_override e = None) (x_stack s) ->
  Forall (fun e => st_override e = None) (x_stack (x_next c s)).
Proof.
  intros Hc F. destruct c; try discriminate Hc; try exact F; cbn [x_next wanted].
  1, 2, 4: destruct (_ && _); [constructor; [reflexivity|exact F]|exact F].
  destruct (0 <? x_oi s); [exact F|]. destruct (x_vi s =? 0); [exact F|]. cbn [x_stack].
  induction F as [|e l He F IH]; cbn [drop_isolate]; [constructor|]. destruct (st_isolate e); assumption.
Qed.

Lemma x_rules_plain para cs : Forall (fun c => simple_class c = true) cs -> forall s, Forall (fun e => st_override e = None) (x_stack s) ->
  map snd (x_rules para s cs) = cs.
Proof.
  induction 1 as [|c cs Hc F IH]; intros s Hs; cbn [x_rules map]; [reflexivity|].
  pose proof (x_next_stack c s Hc Hs) as Hn.
  assert (O : forall s', Forall (fun e => st_override e = None) (x_stack s') -> snd (x_assign s' c) = c).
  { intros s' X. unfold x_assign, x_top. cbn [snd]. destruct (x_stack s') as [|e l]; [reflexivity|]. cbn [hd]. now rewrite (Forall_inv X). }
  rewrite IH by assumption. f_equal. destruct c; try reflexivity; now apply O.
Qed.

Lemma simple_levels ws para cs out : length cs = length ws -> Forall (fun c => simple_class c = true) cs ->
  (forall k, k < length cs -> is_in [cES; cCS] (class_at cs k) = true -> nth k ws 0 = 1) ->
  uax9_levels (tame_sequence ws) para cs out -> uax9_levels (fun _ _ => True) para cs out.
Proof.
  intros HL FS HW (lv & xc & fc & runs & ss & A & B & C & D & E & F & G & H).
  exists lv, xc, fc, runs, ss. repeat (split; [assumption|]). split; [|exact H].
  assert (XC : forall k, k < length cs -> class_at xc k = class_at cs k).
  { intros k Hk. assert (S1 : simple_class (class_at cs k) = true) by (rewrite Forall_forall in FS; apply FS, nth_In; exact Hk).
    specialize (B k Hk (simple_kept _ S1)).
    pose proof (x_rules_plain para cs FS (x_start para) ltac:(repeat constructor)) as X.
    apply (map_nth_error snd) in B. rewrite X in B. cbn [snd] in B.
    unfold class_at at 2. now rewrite (nth_error_nth _ _ cL B). }
  assert (IR : forall s k, In s ss -> In k (seq_indices (s_runs s)) -> k < length cs).
  { intros s k Hs Hk. assert (X : In k (seq_indices runs)).
    { apply (Permutation_in k (flat_map_perm (fun r => seq (fst r) (snd r - fst r)) _ _ E)).
      rewrite <- (flat_map_concat_map s_runs ss). apply in_flat_map in Hk as (r & Hr & Hk). apply in_flat_map. exists r. split; [|assumption].
      apply in_flat_map. eauto. }
    clear - X D A. apply in_flat_map in X as (r & Hr & Hk). apply in_seq in Hk.
    assert (Y : forall from, are_level_runs cs lv from runs -> In r runs -> snd r <= length lv).
    { clear. induction runs as [|q runs IH]; intros from H Hr; [destruct Hr|]. destruct H as (_ & R & _ & H).
      destruct Hr as [<-|Hr]; [apply R|]. eapply IH; eauto. }
    specialize (Y 0 D Hr). lia. }
  rewrite Forall_forall in *. intros s Hs _. apply (G s Hs). apply simple_sequence.
  - destruct (F s Hs) as (_ & _ & SE). now apply sos_eos_LR in SE.
  - intros k Hk. specialize (IR s k Hs Hk). rewrite (XC k IR). split; [|now apply HW].
    apply FS, nth_In. exact IR.
Qed.

Lemma fsi_like_simple c d : fsi_like c d -> simple_class c = true -> simple_class d = true /\ (is_in [cES; cCS] d = true -> d = c).
Proof.
  intros (A & B) H. destruct (BC_eq_dec c cFSI) as [E|E].
  - destruct (B E) as [->|[->| ->]]; split; auto; discriminate.
  - rewrite (A E). auto.
Qed.

Lemma simple_text_levels t default b : default_ok default 125 -> bidi_new t default = Ret b -> Forall simple_char t ->
  exists pieces ccs lcs,
    paragraphs_of t pieces /\ map (fun p => (p_start p, p_end p)) (b_paras b) = ranges_from 0 pieces /\
    fsi_resolved (map bidi_class t) (concat ccs) /\ b_classes b = expand (map clen t) (concat ccs) /\
    b_levels b = expand (map clen t) (concat lcs) /\
    length ccs = length pieces /\ length lcs = length pieces /\
    forall n piece cs l p, nth_error pieces n = Some piece -> nth_error ccs n = Some cs -> nth_error lcs n = Some l ->
      nth_error (b_paras b) n = Some p ->
      length cs = length piece /\ length l = length piece /\ uax9_levels (fun _ _ => True) (p_level p) cs l.
Proof.
  intros HD HB HS. destruct (text_levels t default b HD HB) as (pieces & ccs & lcs & A & B & C & D & E & F & G & H).
  exists pieces, ccs, lcs. repeat (split; [assumption|]). intros n piece cs l p H1 H2 H3 H4.
  destruct (H n piece cs l p H1 H2 H3 H4) as (L1 & L2 & U). split; [assumption|]. split; [assumption|].
  assert (FL : Forall2 fsi_like (cls piece) cs).
  { pose proof (fsi_resolved_like _ _ C) as X. destruct A as (PC & _). rewrite <- PC in X.
    assert (LEN : forall m p' c', nth_error pieces m = Some p' -> nth_error ccs m = Some c' -> length c' = length p').
    { intros m p' c' M1 M2. destruct (nth_error lcs m) as [l'|] eqn:M3.
      2:{ apply nth_error_None in M3. assert (m < length pieces) by (apply nth_error_Some; congruence). lia. }
      destruct (nth_error (b_paras b) m) as [q|] eqn:M4.
      2:{ apply nth_error_None in M4. assert (length (b_paras b) = length pieces).
          { rewrite <- (map_length (fun p => (p_start p, p_end p))), B. clear. generalize 0. induction pieces; intros; cbn; auto. }
          assert (m < length pieces) by (apply nth_error_Some; congruence). lia. }
      apply (H m p' c' l' q M1 M2 M3 M4). }
    clear - X F LEN H1 H2. revert ccs n F LEN H1 H2 X. induction pieces as [|q pieces IH]; intros [|c0 ccs] n F LEN H1 H2 X;
      try (destruct n; discriminate). cbn [concat] in X. unfold cls in X. rewrite map_app in X.
    apply f2_app_split in X as (X1 & X2). rewrite map_length in X1, X2.
    assert (L0 : length c0 = length q) by (apply (LEN 0); reflexivity).
    rewrite firstn_app, <- L0, Nat.sub_diag, firstn_all, firstn_O, app_nil_r in X1.
    rewrite skipn_app, <- L0, Nat.sub_diag, skipn_all in X2. cbn [skipn app] in X2.
    destruct n as [|n]; cbn [nth_error] in *.
    - injection H1 as <-. injection H2 as <-. exact X1.
    - apply (IH ccs n); auto. intros m. apply (LEN (S m)). }
  assert (SP : Forall simple_char piece).
  { rewrite Forall_forall in *. intros c Hc. apply HS. destruct A as (PC & _). rewrite <- PC. apply in_concat. exists piece. split; [now apply nth_error_In in H1|assumption]. }
  assert (FC : forall k, k < length cs -> fsi_like (nth k (cls piece) cL) (class_at cs k)).
  { intros k Hk. apply Forall2_nth_l; [exact FL|]. unfold cls. rewrite map_length. lia. }
  assert (SC : forall k, k < length cs -> exists c, nth_error piece k = Some c /\ nth k (cls piece) cL = bidi_class c /\ nth k (map clen piece) 0 = clen c /\ simple_char c).
  { intros k Hk. destruct (nth_error piece k) as [c|] eqn:X; [|apply nth_error_None in X; lia]. exists c. split; [reflexivity|].
    split; [apply nth_error_nth; unfold cls; now apply map_nth_error|]. split; [apply nth_error_nth; now apply map_nth_error|].
    rewrite Forall_forall in SP. apply SP. now apply nth_error_In in X. }
  assert (SB : forall c, simple_char c -> simple_class (bidi_class c) = true).
  { intros c (X & _). unfold simple_class. destruct (is_in _ _) eqn:Y; [|reflexivity]. apply is_in_spec in Y. contradiction. }
  assert (FS : Forall (fun c => simple_class c = true) cs).
  { apply Forall_forall. intros d Hd. apply (In_nth _ _ cL) in Hd as (k & Hk & <-). destruct (SC k Hk) as (c & _ & EC & _ & S1).
    specialize (FC k Hk). rewrite EC in FC. now apply (fsi_like_simple _ _ FC), SB. }
  apply (simple_levels (map clen piece)).
  - now rewrite map_length.
  - exact FS.
  - intros k Hk X. destruct (SC k Hk) as (c & _ & EC & -> & S1). specialize (FC k Hk). rewrite EC in FC.
    destruct (fsi_like_simple _ _ FC (SB c S1)) as (_ & Y). specialize (Y X). destruct S1 as (_ & S2). apply S2.
    rewrite <- Y. now apply is_in_spec.
  - apply U. intros k _ Hk. apply simple_kept. rewrite Forall_forall in FS. apply FS, nth_In. exact Hk.
Qed.

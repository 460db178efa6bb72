(** The backward word iterator against the rules. *)
From Coq Require Import List NArith Lia Bool Arith.
Import ListNotations.
From Verif Require Import Base Enums TableTypes UcdModel BidiModel BidiLemmas GraphSpec SegLemmas WordModel WordSpec WordTables WordRules WordForward.
Open Scope nat_scope.
Local Opaque word_break wb.

(** ** One step of the state machine *)

(** the state describes the first class [h] after the position; [L] is what
    WB4 leaves before it *)
Definition bgood (st : wstate) (h : WB) (L : list WB) : Prop :=
  match st with
  | WLetter => h = WB_ALetter
  | WHLetter => h = WB_HebrewLetter
  | WNumeric => h = WB_Numeric
  | WKatakana => h = WB_Katakana
  | WExtendNumLet => h = WB_ExtendNumLet
  | WRegional RUnknown => h = WB_RegionalIndicator
  | WRegional RFull => h = WB_RegionalIndicator /\ Nat.odd (ri_count L) = false
  | WEmoji => h = WB_EModifier
  | WZwj => is_in [WB_GlueAfterZwj; WB_EBaseGAZ; WB_EBase] h = true
  | _ => False
  end.
(** looking for a letter or digit before [q], which is before [h] *)
Definition breq (st : wstate) (q h : WB) : Prop :=
  match st with
  | WFormatExtend RequireLetter => is_in AHLetter h = true /\ is_in (WB_MidLetter :: MidNumLetQ) q = true
  | WFormatExtend RequireHLetter => h = WB_HebrewLetter /\ q = WB_DoubleQuote
  | WFormatExtend RequireNumeric => h = WB_Numeric /\ is_in (WB_MidNum :: MidNumLetQ) q = true
  | _ => False
  end.

Lemma bgood_step st h c L R pcat : bgood st h (c :: L) -> ig c = false ->
  match bwd_match st c pcat (Ret (ri_count (c :: L))) with
  | BNext s => nl c = false /\ free (c :: L) (h :: R) = false /\ bgood s c L /\ (c = WB_EBase -> h = WB_EModifier)
  | BSavePrev s => nl c = false /\ breq s c h
  | BBreak 0 false => nl c = true \/ free (c :: L) (h :: R) = true
  | _ => False
  end.
Proof.
  intros H I. destruct st as [| | | | | |[]|[]| |]; cbn [bgood] in H; try contradiction;
    try (subst h; destruct c; try discriminate I; cbn [bwd_match]; unfold bgood, breq; repeat split;
         try discriminate; try (intros; reflexivity); try (right; dec_free; fail); try (dec_free; fail); left; reflexivity).
  - destruct H as [-> H]. assert (F : free (c :: L) (WB_RegionalIndicator :: R) = true).
    { unfold free, free_dec. rewrite H. destruct c; try discriminate I; dec_free. }
    destruct c; try discriminate I; right; exact F.
  - subst h. destruct c; try discriminate I; cbn [bwd_match]; try (right; dec_free; fail); try (left; reflexivity).
    cbn [ri_count is_in existsb]. change (WB_eqb WB_RegionalIndicator WB_RegionalIndicator) with true. cbn [orb].
    rewrite Nat.even_succ. destruct (Nat.odd (ri_count L)) eqn:O.
    + right. unfold free, free_dec. cbn [ri_count is_in existsb]. change (WB_eqb WB_RegionalIndicator WB_RegionalIndicator) with true. cbn [orb].
      rewrite Nat.odd_succ, <- Nat.negb_odd, O. cbn. rewrite ?andb_false_r. reflexivity.
    + split; [reflexivity|]. split; [|split; [split; [reflexivity|exact O]|discriminate]].
      unfold free, free_dec. cbn [ri_count is_in existsb]. change (WB_eqb WB_RegionalIndicator WB_RegionalIndicator) with true. cbn [orb].
      rewrite Nat.odd_succ, <- Nat.negb_odd, O. cbn. rewrite orb_true_r. reflexivity.
  - destruct c; try discriminate I; right; apply free_right; destruct h; try discriminate H; reflexivity.
Qed.

Lemma breq_step st q h c L R pcat cnt : breq st q h -> ig c = false ->
  match bwd_match st c pcat cnt with
  | BNext s => nl c = false /\ free (q :: c :: L) (h :: R) = false /\ free (c :: L) (q :: h :: R) = false /\ bgood s c L /\ c <> WB_EBase
  | BBreak 0 _ => free (q :: c :: L) (h :: R) = true
  | _ => False
  end.
Proof.
  intros H I. destruct st as [| | | | | |[]|[]| |]; cbn [breq] in H; try contradiction.
  - destruct H as [H1 H2]. destruct h; try discriminate H1; destruct q; try discriminate H2; destruct c; try discriminate I;
      cbn [bwd_match]; unfold bgood; repeat split; try discriminate; dec_free.
  - destruct H as [-> ->]. destruct c; try discriminate I; cbn [bwd_match]; unfold bgood; repeat split; try discriminate; dec_free.
  - destruct H as [-> H2]. destruct q; try discriminate H2; destruct c; try discriminate I;
      cbn [bwd_match]; unfold bgood; repeat split; try discriminate; dec_free.
Qed.
Lemma breq_end st q h L R : breq st q h -> any [WB_ALetter; WB_HebrewLetter; WB_Numeric] (hd_error L) = false ->
  free (q :: L) (h :: R) = true.
Proof.
  intros H E. destruct L as [|l L].
  - destruct st as [| | | | | |[]|[]| |]; cbn [breq] in H; try contradiction.
    + destruct H as [H1 H2]. destruct h; try discriminate H1; destruct q; try discriminate H2; dec_free.
    + destruct H as [-> ->]. dec_free.
    + destruct H as [-> H2]. destruct q; try discriminate H2; dec_free.
  - cbn [hd_error any] in E. destruct st as [| | | | | |[]|[]| |]; cbn [breq] in H; try contradiction.
    + destruct H as [H1 H2]. destruct h; try discriminate H1; destruct q; try discriminate H2; destruct l; try discriminate E; dec_free.
    + destruct H as [-> ->]. destruct l; try discriminate E; dec_free.
    + destruct H as [-> H2]. destruct q; try discriminate H2; destruct l; try discriminate E; dec_free.
Qed.
Lemma breq_q st q h : breq st q h -> ig q = false /\ nl q = false /\ is_in [WB_GlueAfterZwj; WB_EBaseGAZ] h = false /\ ig h = false /\ nl h = false.
Proof.
  intros H. destruct st as [| | | | | |[]|[]| |]; cbn [breq] in H; try contradiction.
  - destruct H as [H1 H2]. destruct h; try discriminate H1; destruct q; try discriminate H2; repeat split; reflexivity.
  - destruct H as [-> ->]. repeat split; reflexivity.
  - destruct H as [-> H2]. destruct q; try discriminate H2; repeat split; reflexivity.
Qed.

Lemma accq L R : free (WB_SingleQuote :: L) R = true -> hd_error L <> Some WB_HebrewLetter -> free L (WB_SingleQuote :: R) = true.
Proof.
  intros F H. destruct L as [|l L]; [apply free_nil_l|]. cbn [hd_error] in H.
  unfold free, free_dec in *. cbn [hd_error tl] in *. destruct R as [|r R]; cbn [hd_error any] in *.
  - destruct l; try (exfalso; apply H; reflexivity); dec_free.
  - destruct l; try (exfalso; apply H; reflexivity); try (dec_free; fail);
      destruct r; try (dec_free; fail); cbn in F; rewrite ?andb_false_r, ?orb_true_r in F; discriminate F.
Qed.

Lemma any_step st c L R pcat cnt : st = WStart \/ st = WFormatExtend AcceptAny ->
  free (c :: L) R = true -> ig c = false -> nl c = false ->
  match bwd_match st c pcat cnt with
  | BNext s => bgood s c L /\ c <> WB_EBase
  | BSaveIdx s => s = WFormatExtend AcceptQLetter /\ c = WB_SingleQuote
  | BBreak 0 true => free L (c :: R) = true /\ is_in [WB_GlueAfterZwj; WB_EBaseGAZ] c = false
  | _ => False
  end.
Proof.
  intros S F I N.
  assert (X : is_in [WB_Other; WB_DoubleQuote; WB_MidLetter; WB_MidNumLet; WB_MidNum; WB_EBase] c = true -> free L (c :: R) = true).
  { intros H. destruct (is_in JoinClasses c) eqn:J; [|apply free_right; exact J].
    destruct L as [|l L]; [apply free_nil_l|].
    unfold free, free_dec in *. cbn [hd_error tl] in *. destruct R as [|r R]; cbn [hd_error any] in *.
    - destruct c; try discriminate H; try discriminate J; destruct l; dec_free.
    - destruct c; try discriminate H; try discriminate J; destruct l; try (dec_free; fail);
      destruct r; try (dec_free; fail); cbn in F; rewrite ?andb_false_r, ?orb_true_r in F; discriminate F. }
  destruct S as [-> | ->]; destruct c; try discriminate I; try discriminate N; cbn [bwd_match]; unfold bgood; repeat split; try discriminate; apply X; reflexivity.
Qed.

(** ** Counting regional indicators *)
Lemma ri_take A : take_while_ri (filter (fun c => negb (extend_format_zwj c)) (rev A)) = ri_count (kl A).
Proof.
  induction A as [|g A IH] using rev_ind; [reflexivity|].
  rewrite rev_app_distr. cbn [rev app filter]. rewrite <- ig_spec, kl_snoc. destruct (ig g) eqn:I; cbn [negb andb].
  - destruct (fresh A) eqn:F; cbn [negb]; [|exact IH].
    assert (E : ri_count (g :: kl A) = 0) by (destruct g; try discriminate I; reflexivity). rewrite E.
    destruct A as [|a A _] using rev_ind; [reflexivity|]. rewrite fresh_snoc in F. rewrite rev_app_distr. cbn [rev app filter].
    destruct a; try discriminate F; reflexivity.
  - cbn [ri_count]. destruct g; cbn; try reflexivity; rewrite IH; reflexivity.
Qed.
Lemma regional_count_at A B : regional_count (A ++ B) (slen A) = Ret (ri_count (kl (cls A))).
Proof. unfold regional_count. rewrite split_at_app. rewrite map_rev. fold (cls A). rewrite ri_take. reflexivity. Qed.

(** ** Cuts *)
Lemma bnd_cut pre g post : nl g = false -> ig g = false -> free (kl pre) (g :: kr post) = true ->
  (is_in [WB_GlueAfterZwj; WB_EBaseGAZ] g = true -> lastc pre <> Some WB_ZWJ) -> bnd pre (g :: post) = true.
Proof.
  intros N I F Z. destruct (fresh pre) eqn:FR.
  - destruct pre as [|p pre _] using rev_ind; [apply bnd_start|]. rewrite fresh_snoc in FR.
    apply bnd_after_nl; [exact FR|]. intros _ E. injection E as ->. discriminate N.
  - rewrite bnd_eq by exact FR. rewrite N, I, F. destruct (is_in [WB_GlueAfterZwj; WB_EBaseGAZ] g) eqn:G; [|rewrite andb_false_r; reflexivity].
    destruct (lastc pre) as [z|] eqn:EZ; [|reflexivity]. cbn [any is_in existsb]. destruct (WB_eqb z WB_ZWJ) eqn:E; [|reflexivity].
    apply WB_eqb_true in E. subst z. exfalso. apply Z; reflexivity.
Qed.
Lemma bnd_ig pre g post : fresh pre = false -> ig g = true -> bnd pre (g :: post) = false.
Proof. intros F I. rewrite bnd_eq by exact F. rewrite (ig_nl _ I), I. match goal with |- (if ?c then _ else _) = _ => destruct c; reflexivity end. Qed.
Lemma bnd_join pre g post : fresh pre = false -> nl g = false -> free (kl pre) (g :: kr post) = false -> bnd pre (g :: post) = false.
Proof. intros F N J. rewrite bnd_eq by exact F. rewrite N, J. destruct (ig g); match goal with |- (if ?c then _ else _) = _ => destruct c; reflexivity end. Qed.
Lemma kl_fresh_igs t : forall X, fresh X = true -> t <> [] -> Forall (fun g => ig g = true) t -> exists x, ig x = true /\ kl (X ++ t) = x :: kl X.
Proof.
  intros X F N H. destruct t as [|x t]; [contradiction|]. inversion H as [|? ? H1 H2]; subst. exists x. split; [exact H1|].
  replace (X ++ x :: t) with ((X ++ [x]) ++ t) by (rewrite <- app_assoc; reflexivity).
  destruct (kl_igs t (X ++ [x]) H2) as [E _]; [rewrite fresh_snoc; apply ig_nl; exact H1|].
  rewrite E, kl_snoc, F, andb_false_r. reflexivity.
Qed.
(** before ignorable characters *)
Lemma kl_after A y t : Forall ign t -> nl (wb y) = false -> ig (wb y) = false ->
  kl (cls ((A ++ [y]) ++ t)) = wb y :: kl (cls A) /\ fresh (cls ((A ++ [y]) ++ t)) = false.
Proof.
  intros H N I. rewrite cls_app. destruct (kl_igs (cls t) (cls (A ++ [y])) (igs_cls _ H)) as [E1 E2].
  - rewrite cls_app. cbn [cls map]. rewrite fresh_snoc. exact N.
  - rewrite E1. split; [|exact E2]. rewrite cls_app. cbn [cls map]. apply kl_cons_snoc. exact I.
Qed.

Lemma cls_snoc A y : cls (A ++ [y]) = cls A ++ [wb y].
Proof. rewrite cls_app. reflexivity. Qed.
Lemma cls_cons y A : cls (y :: A) = wb y :: cls A.
Proof. reflexivity. Qed.

Lemma inside_cons A y m Q : inside (A ++ [y]) m Q -> (m <> [] -> word_boundary (A ++ [y]) (m ++ Q) = false) -> inside A (y :: m) Q.
Proof.
  intros H B a b E Na Nb. destruct a as [|a0 a]; [contradiction|]. cbn in E. injection E as <- E.
  change (y :: a) with ([y] ++ a). rewrite app_assoc. destruct a as [|a1 a].
  - cbn in E. subst b. rewrite app_nil_r. apply B. exact Nb.
  - apply H; [exact E|discriminate|exact Nb].
Qed.
Lemma inside_one A y Q : inside A [y] Q.
Proof.
  intros a b H Na Nb. destruct a as [|a0 a]; [contradiction|]. destruct a; [|discriminate H].
  cbn in H. injection H as _ <-. contradiction.
Qed.
(** ignorable characters in front of a piece that begins at no boundary *)
Lemma cross m0 Q t : forall X, fresh (cls X) = false -> Forall ign t -> inside (X ++ t) m0 Q ->
  word_boundary (X ++ t) (m0 ++ Q) = false -> inside X (t ++ m0) Q /\ word_boundary X ((t ++ m0) ++ Q) = false.
Proof.
  induction t as [|x t IH]; intros X F H I B.
  - rewrite app_nil_r in *. auto.
  - inversion H as [|? ? H1 H2]; subst. unfold ign in H1.
    assert (E : X ++ x :: t = (X ++ [x]) ++ t) by (rewrite <- app_assoc; reflexivity). rewrite E in *.
    destruct (IH (X ++ [x])) as [I2 B2]; auto.
    { rewrite cls_snoc, fresh_snoc. apply ig_nl. exact H1. }
    split.
    + apply inside_cons; auto.
    + rewrite wbd. cbn [app]. rewrite cls_cons. apply bnd_ig; assumption.
Qed.

(** ** The loop *)
Definition cacheb_ok (rst : str) (cache : option WB) : Prop := cache_ok (rev rst) cache.
Definition prev_piece (S Q : str) (r : outcome bvars) : Prop :=
  exists v' start mid cache, r = Ret v' /\ bwd_end v' = (slen start, cache) /\ S = start ++ mid /\
    cacheb_ok start cache /\ prev_bound word_boundary S Q start mid.

Inductive back_at (A m Q : str) (v : bvars) : Prop :=
| BackHead h m1 : m = h :: m1 -> ig (wb h) = false -> nl (wb h) = false -> inside A m Q ->
    bgood (b_state v) (wb h) (kl (cls A)) -> (wb h = WB_EBase -> lastc (cls A) <> Some WB_ZWJ) -> back_at A m Q v
| BackAny h m1 : m = h :: m1 -> ig (wb h) = true -> inside A m Q -> b_state v = WFormatExtend AcceptAny ->
    (fresh (cls A) = false -> free (kl (cls A)) (kr (cls (m ++ Q))) = true) -> back_at A m Q v
| BackNone t h m1 : m = t ++ h :: m1 -> t <> [] -> Forall ign t -> ig (wb h) = false -> nl (wb h) = false ->
    inside (A ++ t) (h :: m1) Q -> b_state v = WFormatExtend AcceptNone -> b_save v = slen (A ++ t) ->
    bgood (b_savestate v) (wb h) (kl (cls (A ++ t))) ->
    (is_in [WB_GlueAfterZwj; WB_EBaseGAZ] (wb h) = true -> lastc (cls (A ++ t)) <> Some WB_ZWJ) -> back_at A m Q v
| BackReq t1 q t2 h m1 : m = t1 ++ q :: t2 ++ h :: m1 -> Forall ign t1 -> Forall ign t2 ->
    inside (A ++ t1 ++ q :: t2) (h :: m1) Q -> b_save v = slen (A ++ t1 ++ q :: t2) ->
    breq (b_state v) (wb q) (wb h) -> back_at A m Q v
| BackQuote t q m1 : m = t ++ q :: m1 -> Forall ign t -> wb q = WB_SingleQuote -> inside (A ++ t) (q :: m1) Q ->
    b_state v = WFormatExtend AcceptQLetter -> b_save v = slen (A ++ t) ->
    free (WB_SingleQuote :: kl (cls (A ++ t))) (kr (cls (m1 ++ Q))) = true -> back_at A m Q v.

(** ignorable characters at the start or after a line break *)
Lemma igs_left A t : fresh (cls A) = true -> Forall ign t ->
  match kl (cls (A ++ t)) with [] => True | g :: _ => ig g = true \/ nl g = true end.
Proof.
  intros F H. rewrite cls_app. destruct t as [|x t].
  - cbn [cls map]. rewrite app_nil_r. destruct A as [|a A _] using rev_ind; [exact I|].
    rewrite cls_snoc in *. rewrite fresh_snoc in F. rewrite kl_cons_snoc by (destruct (wb a); try discriminate F; reflexivity).
    right. exact F.
  - destruct (kl_fresh_igs (cls (x :: t)) (cls A) F) as (g & H1 & ->); [discriminate|apply igs_cls; exact H|]. left. exact H1.
Qed.
Lemma igs_left_free A t R : fresh (cls A) = true -> Forall ign t -> free (kl (cls (A ++ t))) R = true.
Proof.
  intros F H. pose proof (igs_left A t F H) as E. destruct (kl (cls (A ++ t))) as [|g L]; [apply free_nil_l|].
  apply free_left. destruct E as [E|E]; destruct g; try discriminate E; reflexivity.
Qed.
Lemma igs_left_any A t l : fresh (cls A) = true -> Forall ign t -> existsb (fun g => ig g || nl g) l = false ->
  any l (hd_error (kl (cls (A ++ t)))) = false.
Proof.
  intros F H N. pose proof (igs_left A t F H) as E. destruct (kl (cls (A ++ t))) as [|g L]; [reflexivity|]. cbn [hd_error any].
  unfold is_in. destruct (existsb (WB_eqb g) l) eqn:X; [|reflexivity]. apply existsb_exists in X. destruct X as (x & X1 & X2).
  apply WB_eqb_true in X2. subst x. rewrite <- N. symmetry. apply existsb_exists. exists g. split; [exact X1|].
  destruct E as [-> | ->]; rewrite ?orb_true_r; reflexivity.
Qed.

(** backing up *)
Definition at_save (A m Q : str) (v : bvars) : Prop :=
  exists start mid, A ++ m = start ++ mid /\ b_save v = slen start /\ prev_bound word_boundary (A ++ m) Q start mid.

Lemma none_save A t h m1 Q v : ig (wb h) = false -> nl (wb h) = false -> inside (A ++ t) (h :: m1) Q -> b_save v = slen (A ++ t) ->
  (is_in [WB_GlueAfterZwj; WB_EBaseGAZ] (wb h) = true -> lastc (cls (A ++ t)) <> Some WB_ZWJ) ->
  free (kl (cls (A ++ t))) (wb h :: kr (cls (m1 ++ Q))) = true -> at_save A (t ++ h :: m1) Q v.
Proof.
  intros I N IN SV Z F. exists (A ++ t), (h :: m1). rewrite app_assoc. split; [reflexivity|]. split; [exact SV|].
  split; [reflexivity|]. split; [discriminate|]. split; [|exact IN].
  rewrite wbd. cbn [app]. rewrite cls_cons. apply bnd_cut; assumption.
Qed.
Lemma req_save A t1 q t2 h m1 Q v : Forall ign t1 -> Forall ign t2 -> inside (A ++ t1 ++ q :: t2) (h :: m1) Q ->
  b_save v = slen (A ++ t1 ++ q :: t2) -> breq (b_state v) (wb q) (wb h) ->
  free (wb q :: kl (cls (A ++ t1))) (wb h :: kr (cls (m1 ++ Q))) = true -> at_save A (t1 ++ q :: t2 ++ h :: m1) Q v.
Proof.
  intros H1 H2 IN SV BR F. destruct (breq_q _ _ _ BR) as (Iq & Nq & Gh & Ih & Nh).
  assert (E : A ++ t1 ++ q :: t2 ++ h :: m1 = (A ++ t1 ++ q :: t2) ++ h :: m1) by (rewrite <- !app_assoc; reflexivity).
  exists (A ++ t1 ++ q :: t2), (h :: m1). rewrite E. split; [reflexivity|]. split; [exact SV|].
  split; [reflexivity|]. split; [discriminate|]. split; [|exact IN].
  rewrite wbd. cbn [app]. rewrite cls_cons.
  assert (E2 : A ++ t1 ++ q :: t2 = ((A ++ t1) ++ [q]) ++ t2) by (rewrite <- !app_assoc; reflexivity). rewrite E2.
  destruct (kl_after (A ++ t1) q t2 H2 Nq Iq) as [K _].
  apply bnd_cut; auto; [rewrite K; exact F|]. rewrite Gh. discriminate.
Qed.
Lemma quote_save A t q m1 Q v : wb q = WB_SingleQuote -> inside (A ++ t) (q :: m1) Q -> b_save v = slen (A ++ t) ->
  free (WB_SingleQuote :: kl (cls (A ++ t))) (kr (cls (m1 ++ Q))) = true ->
  hd_error (kl (cls (A ++ t))) <> Some WB_HebrewLetter -> at_save A (t ++ q :: m1) Q v.
Proof.
  intros W IN SV F H. apply none_save; auto; rewrite W; try reflexivity; [discriminate|]. apply accq; assumption.
Qed.

(** at the start or after a line break *)
Lemma fresh_save A m Q v : back_at A m Q v -> fresh (cls A) = true ->
  match b_state v with
  | WFormatExtend AcceptAny => True
  | WFormatExtend _ => at_save A m Q v
  | _ => True
  end.
Proof.
  intros B F. destruct B as [h m1 -> I N IN G Z|h m1 -> I IN G X|t h m1 -> NT IT I N IN ST SV G Z|t1 q t2 h m1 -> I1 I2 IN SV G|t q m1 -> IT W IN ST SV X].
  - destruct (b_state v) as [| | | | | | |[]| |]; cbn [bgood] in G; try contradiction; exact Logic.I.
  - rewrite G. exact Logic.I.
  - rewrite ST. apply none_save; auto. apply igs_left_free; assumption.
  - assert (H : at_save A (t1 ++ q :: t2 ++ h :: m1) Q v).
    { eapply req_save; eauto. eapply breq_end; [exact G|]. apply igs_left_any; auto. }
    destruct (b_state v) as [| | | | | | |[]| |]; cbn [breq] in G; try contradiction; exact H.
  - rewrite ST. apply quote_save; auto. intros E. pose proof (igs_left_any A t [WB_HebrewLetter] F IT eq_refl) as K. rewrite E in K. discriminate K.
Qed.

(** one turn of the loop *)
Definition turn (S rest : str) (idx : nat) (cat : WB) (pcat : option WB) (state savestate : wstate) (prev save : nat) (tk : bool) : outcome bvars :=
  match bwd_match state cat pcat (regional_count S prev) with
  | BNext s => bwd_loop S rest idx (BV idx prev save s savestate cat true tk None)
  | BSavePrev s => bwd_loop S rest idx (BV idx prev prev s savestate cat true tk None)
  | BSaveIdx s => bwd_loop S rest idx (BV idx prev idx s savestate cat true tk None)
  | BBreak dec tc => Ret (BV (idx - dec) prev save state savestate cat tc tk None)
  | BPanic => Panic
  end.
Lemma bwd_loop_cons S ch rest pos v : bwd_loop S (ch :: rest) pos v =
  let idx := pos - clen ch in
  let cat := match b_self v with None => wb ch | Some c => c end in
  let pcat := match rest with [] => None | n :: _ => Some (wb n) end in
  if folds cat (b_state v) then
    match b_state v with
    | WStart => turn S rest idx cat pcat WStart (b_savestate v) (b_idx v) (b_save v) true
    | WFormatExtend t => bwd_loop S rest idx (BV idx (b_idx v) (b_save v) (WFormatExtend t) (b_savestate v) cat true true None)
    | s => bwd_loop S rest idx (BV idx (b_idx v) (b_idx v) (WFormatExtend AcceptNone) s cat true true None)
    end
  else match b_state v with
  | WFormatExtend AcceptNone => turn S rest idx cat pcat (b_savestate v) (b_savestate v) (b_save v) (b_save v) false
  | s => turn S rest idx cat pcat s (b_savestate v) (b_idx v) (b_save v) true
  end.
Proof. reflexivity. Qed.

Lemma folds_not g st : ig g = false -> folds g st = false.
Proof. destruct g; intros H; try discriminate H; reflexivity. Qed.
Lemma folds_fe g t : ig g = true -> folds g (WFormatExtend t) = true.
Proof. destruct g; intros H; try discriminate H; reflexivity. Qed.
Lemma cut_here A m Q v c : inside A m Q -> m <> [] -> word_boundary A (m ++ Q) = true ->
  bwd_end v = (slen A, c) -> cacheb_ok A c -> prev_piece (A ++ m) Q (Ret v).
Proof.
  intros IN N B E C. exists v, A, m, c. split; [reflexivity|]. split; [exact E|]. split; [reflexivity|]. split; [exact C|].
  split; [reflexivity|]. split; [exact N|]. split; assumption.
Qed.
Lemma cut_saved A m Q v v' : at_save A m Q v -> bwd_end v' = (b_save v, None) -> prev_piece (A ++ m) Q (Ret v').
Proof.
  intros (start & mid & E1 & E2 & E3) E. exists v', start, mid, None. split; [reflexivity|]. split; [rewrite E, E2; reflexivity|].
  split; [exact E1|]. split; [exact I|exact E3].
Qed.
Lemma bwd_loop_at S Q : no_zwj_base_modifier (S ++ Q) -> forall rest A m v,
  rest = rev A -> S = A ++ m -> b_idx v = slen A -> b_take_curr v = true -> cacheb_ok A (b_self v) -> back_at A m Q v ->
  prev_piece S Q (bwd_loop S rest (slen A) v).
Proof.
  intros T. induction rest as [|y rest IH]; intros A m v ER ES EI ET EC B.
  { symmetry in ER. apply (f_equal (@rev _)) in ER. rewrite rev_involutive in ER. cbn in ER. subst A. cbn [app] in ES. subst m.
    cbn [bwd_loop].
    assert (NS : S <> []) by (destruct B as [? ? -> |? ? -> |t ? ? -> |t ? ? ? ? -> |t ? ? ->]; try discriminate; destruct t; discriminate).
    destruct (b_state v) eqn:ST.
    1-7,9,10: exists v, [], S, None; split; [reflexivity|]; split; [unfold bwd_end, bwd_rewind; rewrite ST, ET, EI; reflexivity|];
      split; [reflexivity|]; split; [exact I|]; split; [reflexivity|]; split; [exact NS|]; split; [reflexivity|];
      destruct B as [h m1 -> I N IN G Z|h m1 -> I IN G X|t h m1 -> NT IT I N IN ST2 SV G Z|t1 q t2 h m1 -> I1 I2 IN SV G|t q m1 -> IT W IN ST2 SV X];
      [exact IN|congruence|congruence|rewrite ST in G; contradiction|congruence].
    pose proof (fresh_save [] S Q v B eq_refl) as FS. rewrite ST in FS. destruct t.
    { exists v, [], S, None. split; [reflexivity|]. split; [unfold bwd_end, bwd_rewind; rewrite ST, ET, EI; reflexivity|].
      split; [reflexivity|]. split; [exact I|]. split; [reflexivity|]. split; [exact NS|]. split; [reflexivity|].
      destruct B as [h m1 -> I N IN G Z|h m1 -> I IN G X|t h m1 -> NT IT I N IN ST2 SV G Z|t1 q t2 h m1 -> I1 I2 IN SV G|t q m1 -> IT W IN ST2 SV X];
      [exact IN|exact IN|congruence|rewrite ST in G; contradiction|congruence]. }
    all: destruct FS as (start & mid & E1 & E2 & E3); cbn [app] in *; exists v, start, mid, None; split; [reflexivity|];
      split; [unfold bwd_end, bwd_rewind; rewrite ST; cbn; rewrite E2; reflexivity|]; split; [exact E1|]; split; [exact I|exact E3]. }
  assert (EA : exists A', A = A' ++ [y] /\ rest = rev A').
  { exists (rev rest). split; [|symmetry; apply rev_involutive]. rewrite <- (rev_involutive A), <- ER. reflexivity. }
  destruct EA as (A' & -> & ER'). clear ER.
  rewrite bwd_loop_cons. cbv zeta.
  assert (EG : match b_self v with None => wb y | Some c => c end = wb y).
  { unfold cacheb_ok, cache_ok in EC. rewrite rev_app_distr in EC. cbn [rev app] in EC. destruct (b_self v); [exact EC|reflexivity]. }
  rewrite EG, EI. clear EG EC.
  assert (EX : slen (A' ++ [y]) - clen y = slen A') by (rewrite slen_app; cbn; lia). rewrite EX.
  assert (ES2 : S = A' ++ y :: m) by (rewrite ES, <- app_assoc; reflexivity).
  set (pcat := match rest with [] => None | n :: _ => Some (wb n) end). clearbody pcat.
  assert (IHn : forall prev save s sv tk, back_at A' (y :: m) Q (BV (slen A') prev save s sv (wb y) true tk None) ->
    prev_piece S Q (bwd_loop S rest (slen A') (BV (slen A') prev save s sv (wb y) true tk None))).
  { intros prev save s sv tk B'. apply (IH A' (y :: m)); auto. exact I. }
  assert (CY : forall tk : bool, cacheb_ok (A' ++ [y]) (if tk then Some (wb y) else None)).
  { intros tk. unfold cacheb_ok. rewrite rev_app_distr. destruct tk; [reflexivity|exact I]. }
  assert (FN : fresh (cls (A' ++ [y])) = nl (wb y)) by (rewrite cls_snoc; apply fresh_snoc).
  assert (LN : lastc (cls (A' ++ [y])) = Some (wb y)) by (rewrite cls_snoc; apply lastc_snoc).
  pose proof (fresh_save _ _ _ _ B) as FS.
  destruct B as [h m1 EM Ih Nh IN G Z|h m1 EM Ih IN G X|t h m1 EM NT IT Ih Nh IN ST SV G Z|t1 q t2 h m1 EM I1 I2 IN SV G|t q m1 EM IT W IN ST SV X].
  - (* a head *)
    clear FS.
    assert (NM : m <> []) by (rewrite EM; discriminate).
    destruct (ig (wb y)) eqn:Iy.
    + destruct (folds (wb y) (b_state v)) eqn:FO.
      * assert (B' : back_at A' (y :: m) Q (BV (slen A') (slen (A' ++ [y])) (slen (A' ++ [y])) (WFormatExtend AcceptNone) (b_state v) (wb y) true true None)).
        { apply (BackNone A' (y :: m) Q _ [y] h m1);
            [rewrite EM; reflexivity|discriminate|constructor; [exact Iy|constructor]|exact Ih|exact Nh|rewrite <- EM; exact IN|reflexivity|reflexivity|exact G|].
          intros Gh E. rewrite LN in E. injection E as E. rewrite E in FO.
          destruct (b_state v) as [| | | | | |[]|[]| |]; cbn [bgood] in G; try contradiction; try discriminate FO;
            try (rewrite G in Gh; discriminate Gh). destruct G as [G _]. rewrite G in Gh. discriminate Gh. }
        destruct (b_state v) as [| | | | | |[]|[]| |]; cbn [bgood] in G; try contradiction; apply IHn; exact B'.
      * assert (EZ : b_state v = WZwj /\ wb y = WB_ZWJ).
        { destruct (wb y); try discriminate Iy; try discriminate FO. destruct (b_state v); try discriminate FO. split; reflexivity. }
        destruct EZ as [EZ1 EZ2]. rewrite EZ1 in *. unfold turn.
        assert (BM : bwd_match WZwj (wb y) pcat (regional_count S (slen (A' ++ [y]))) = BNext (WFormatExtend AcceptAny)) by (rewrite EZ2; reflexivity).
        rewrite BM. apply IHn.
        cbn [bgood] in G.
        assert (Gh : is_in [WB_GlueAfterZwj; WB_EBaseGAZ] (wb h) = true).
        { rewrite LN, EZ2 in Z. destruct (wb h); try discriminate G; try reflexivity. exfalso. apply Z; reflexivity. }
        apply (BackAny _ _ _ _ y m); [reflexivity|exact Iy| |reflexivity|].
        -- apply inside_cons; [exact IN|]. intros _. rewrite EM, wbd. cbn [app]. rewrite cls_cons.
           rewrite bnd_eq by (rewrite FN, EZ2; reflexivity). rewrite Nh, LN, EZ2, Gh. reflexivity.
        -- intros _. rewrite EM. cbn [app]. rewrite !cls_cons, kr_ig by exact Iy. rewrite kr_cons by assumption.
           apply free_right. destruct (wb h); try discriminate Gh; reflexivity.
    + rewrite folds_not by exact Iy.
      assert (KA : kl (cls (A' ++ [y])) = wb y :: kl (cls A')) by (rewrite cls_snoc; apply kl_cons_snoc; exact Iy).
      rewrite KA in G.
      pose proof (bgood_step _ _ _ _ (kr (cls (m1 ++ Q))) pcat G Iy) as STP.
      assert (ECT : regional_count S (slen (A' ++ [y])) = Ret (ri_count (wb y :: kl (cls A')))).
      { rewrite ES, regional_count_at, KA. reflexivity. }
      assert (GOAL : prev_piece S Q (turn S rest (slen A') (wb y) pcat (b_state v) (b_savestate v) (slen (A' ++ [y])) (b_save v) true)).
      { unfold turn. rewrite ECT. destruct (bwd_match (b_state v) (wb y) pcat (Ret (ri_count (wb y :: kl (cls A'))))) as [s|s|s|[|dec] []|] eqn:BM; try contradiction.
        - destruct STP as (Ny & F & G2 & EB). apply IHn. apply (BackHead _ _ _ _ y m); [reflexivity|exact Iy|exact Ny| |exact G2|].
          + apply inside_cons; [exact IN|]. intros _. rewrite EM, wbd. cbn [app]. rewrite cls_cons.
            apply bnd_join; [rewrite FN; exact Ny|exact Nh|rewrite KA; exact F].
          + intros E EL. specialize (EB E).
            destruct A' as [|z A'' _] using rev_ind; [discriminate EL|]. rewrite cls_snoc, lastc_snoc in EL. injection EL as EL.
            apply (T A'' z y (m ++ Q)); [rewrite ES2, <- !app_assoc; reflexivity|exact EL|exact E|].
            change (firstn 1 (wb4 (Some (wb y)) (cls (m ++ Q))) = [WB_EModifier]). rewrite wb4_kr by exact Ny. rewrite EM. cbn [app].
            rewrite cls_cons, kr_cons by assumption. cbn [firstn]. rewrite EB. reflexivity.
        - destruct STP as (Ny & BR). apply IHn. apply (BackReq _ _ _ _ [] y [] h m1); [rewrite EM; reflexivity|constructor|constructor| | |exact BR].
          + rewrite <- EM. exact IN.
          + reflexivity.
        - rewrite ES. apply (cut_here _ _ _ _ (Some (wb y))); [exact IN|exact NM| | |exact (CY true)].
          + rewrite EM, wbd. cbn [app]. rewrite cls_cons. destruct STP as [Ny|F].
            * rewrite cls_snoc. apply bnd_after_nl; [exact Ny|]. intros _ E. injection E as E. rewrite E in Nh. discriminate Nh.
            * apply bnd_cut; [exact Nh|exact Ih|rewrite KA; exact F|]. intros _ E. rewrite LN in E. injection E as E. rewrite E in Iy. discriminate Iy.
          + unfold bwd_end, bwd_rewind. cbn [b_state].
            destruct (b_state v) as [| | | | | |[]|[]| |]; cbn [bgood] in G; try contradiction; reflexivity. }
      destruct (b_state v) as [| | | | | |[]|[]| |]; cbn [bgood] in G; try contradiction; exact GOAL.
  - (* ignorable characters after a boundary or after ZWJ *)
    clear FS. rewrite G in *.
    assert (NM : m <> []) by (rewrite EM; discriminate).
    assert (JB : nl (wb y) = false -> word_boundary (A' ++ [y]) (m ++ Q) = false).
    { intros Ny. rewrite EM, wbd. cbn [app]. rewrite cls_cons. apply bnd_ig; [rewrite FN; exact Ny|exact Ih]. }
    destruct (ig (wb y)) eqn:Iy.
    + rewrite folds_fe by exact Iy. apply IHn. apply (BackAny _ _ _ _ y m); [reflexivity|exact Iy| |reflexivity|].
      * apply inside_cons; [exact IN|]. intros _. apply JB. apply ig_nl. exact Iy.
      * intros FA. cbn [app]. rewrite cls_cons, kr_ig by exact Iy. rewrite FN in X. specialize (X (ig_nl _ Iy)).
        rewrite cls_snoc, kl_ig in X by assumption. exact X.
    + rewrite folds_not by exact Iy. destruct (nl (wb y)) eqn:Ny.
      * assert (BM : bwd_match (WFormatExtend AcceptAny) (wb y) pcat (regional_count S (slen (A' ++ [y]))) = BBreak 0 false).
        { destruct (wb y); try discriminate Ny; reflexivity. }
        unfold turn. rewrite BM, ES. apply (cut_here _ _ _ _ (Some (wb y))); [exact IN|exact NM| |reflexivity|exact (CY true)].
        rewrite EM, wbd. cbn [app]. rewrite cls_cons, cls_snoc. apply bnd_after_nl; [exact Ny|]. intros _ E. injection E as E. rewrite E in Ih. discriminate Ih.
      * rewrite FN in X. specialize (X eq_refl). rewrite cls_snoc, kl_cons_snoc in X by exact Iy.
        pose proof (any_step (WFormatExtend AcceptAny) _ _ _ pcat (regional_count S (slen (A' ++ [y]))) (or_intror eq_refl) X Iy Ny) as STP.
        unfold turn. destruct (bwd_match (WFormatExtend AcceptAny) (wb y) pcat (regional_count S (slen (A' ++ [y])))) as [s|s|s|[|dec] []|] eqn:BM; try contradiction.
        -- destruct STP as [G2 NE]. apply IHn. apply (BackHead _ _ _ _ y m); [reflexivity|exact Iy|exact Ny| |exact G2|contradiction].
           apply inside_cons; [exact IN|]. intros _. apply JB. reflexivity.
        -- destruct STP as [-> EQ]. apply IHn. apply (BackQuote _ _ _ _ [] y m); rewrite ?app_nil_r; [reflexivity|constructor|exact EQ| |reflexivity|reflexivity|rewrite <- EQ; exact X].
           apply inside_cons; [exact IN|]. intros _. apply JB. reflexivity.
        -- destruct STP as [F NG]. rewrite ES2. apply (cut_here _ _ _ _ None); [| discriminate| | |exact I].
           ++ apply inside_cons; [exact IN|]. intros _. apply JB. reflexivity.
           ++ rewrite wbd. cbn [app]. rewrite cls_cons. apply bnd_cut; [exact Ny|exact Iy|exact F|]. rewrite NG. discriminate.
           ++ unfold bwd_end, bwd_rewind. cbn. rewrite Nat.sub_0_r. reflexivity.
  - (* ignorable characters before a head *)
    rewrite ST in *.
    assert (EAT : A' ++ y :: t = (A' ++ [y]) ++ t) by (rewrite <- app_assoc; reflexivity).
    destruct (ig (wb y)) eqn:Iy.
    + rewrite folds_fe by exact Iy. apply IHn. apply (BackNone _ _ _ _ (y :: t) h m1); rewrite ?EAT;
        [rewrite EM; reflexivity|discriminate|constructor; [exact Iy|exact IT]|exact Ih|exact Nh|exact IN|reflexivity|exact SV|exact G|exact Z].
    + rewrite folds_not by exact Iy. destruct (nl (wb y)) eqn:Ny.
      * assert (BM : bwd_match (b_savestate v) (wb y) pcat (regional_count S (b_save v)) = BBreak 0 false).
        { destruct (b_savestate v) as [| | | | | |[]|[]| |]; cbn [bgood] in G; try contradiction; destruct (wb y); try discriminate Ny; reflexivity. }
        unfold turn. rewrite BM, ES. apply (cut_saved _ _ _ v); [apply FS; exact FN|].
        unfold bwd_end, bwd_rewind. cbn [b_state].
        destruct (b_savestate v) as [| | | | | |[]|[]| |]; cbn [bgood] in G; try contradiction; reflexivity.
      * clear FS. destruct (kl_after A' y t IT Ny Iy) as [KA FA]. rewrite KA in G.
        assert (ECT : regional_count S (b_save v) = Ret (ri_count (wb y :: kl (cls A')))).
        { rewrite SV, ES, EM, app_assoc, regional_count_at, KA. reflexivity. }
        pose proof (bgood_step _ _ _ _ (kr (cls (m1 ++ Q))) pcat G Iy) as STP.
        unfold turn. rewrite ECT. destruct (bwd_match (b_savestate v) (wb y) pcat (Ret (ri_count (wb y :: kl (cls A'))))) as [s|s|s|[|dec] []|] eqn:BM; try contradiction.
        -- destruct STP as (_ & F & G2 & EB). apply IHn. destruct (cross (h :: m1) Q t (A' ++ [y])) as [C1 C2]; auto.
           { rewrite wbd. cbn [app]. rewrite cls_cons. apply bnd_join; [exact FA|exact Nh|rewrite KA; exact F]. }
           rewrite <- EM in C1, C2. apply (BackHead _ _ _ _ y m); [reflexivity|exact Iy|exact Ny| |exact G2|].
           ++ apply inside_cons; auto.
           ++ intros E EL. specialize (EB E).
              destruct A' as [|z A'' _] using rev_ind; [discriminate EL|]. rewrite cls_snoc, lastc_snoc in EL. injection EL as EL.
              apply (T A'' z y (m ++ Q)); [rewrite ES2, <- !app_assoc; reflexivity|exact EL|exact E|].
              change (firstn 1 (wb4 (Some (wb y)) (cls (m ++ Q))) = [WB_EModifier]). rewrite wb4_kr by exact Ny. rewrite EM, <- app_assoc. cbn [app].
              rewrite cls_app, kr_igs by (apply igs_cls; exact IT). rewrite cls_cons, kr_cons by assumption. cbn [firstn]. rewrite EB. reflexivity.
        -- destruct STP as (_ & BR). apply IHn. apply (BackReq _ _ _ _ [] y t h m1); [rewrite EM; reflexivity|constructor|exact IT| | |exact BR].
           ++ cbn [app]. rewrite EAT. exact IN.
           ++ cbn [app b_save]. rewrite EAT. exact SV.
        -- rewrite ES. apply (cut_saved _ _ _ v).
           ++ rewrite EM. apply none_save; auto. rewrite KA. destruct STP as [STP|STP]; [rewrite Ny in STP; discriminate STP|exact STP].
           ++ unfold bwd_end, bwd_rewind. cbn [b_state].
              destruct (b_savestate v) as [| | | | | |[]|[]| |]; cbn [bgood] in G; try contradiction; reflexivity.
  - (* a letter or digit wanted *)
    assert (EAT : A' ++ (y :: t1) ++ q :: t2 = (A' ++ [y]) ++ t1 ++ q :: t2) by (rewrite <- app_assoc; reflexivity).
    assert (SF : exists t, b_state v = WFormatExtend t /\ t <> AcceptAny /\ t <> AcceptNone).
    { destruct (b_state v) as [| | | | | | |[]| |]; cbn [breq] in G; try contradiction; eexists; repeat split; discriminate. }
    destruct SF as (ty & SF1 & SF2 & SF3).
    destruct (ig (wb y)) eqn:Iy.
    + rewrite SF1, folds_fe by exact Iy. apply IHn. apply (BackReq _ _ _ _ (y :: t1) q t2 h m1); rewrite ?EAT;
        [rewrite EM; reflexivity|constructor; [exact Iy|exact I1]|exact I2|exact IN|exact SV|cbn [b_state]; rewrite <- SF1; exact G].
    + rewrite folds_not by exact Iy.
      assert (GOAL : prev_piece S Q (turn S rest (slen A') (wb y) pcat (b_state v) (b_savestate v) (slen (A' ++ [y])) (b_save v) true)).
      2: { rewrite SF1 in *. destruct ty; try contradiction; exact GOAL. }
      assert (ENDS : forall i p tc, bwd_end (BV i p (b_save v) (b_state v) (b_savestate v) (wb y) tc true None) = (b_save v, None)).
      { intros. unfold bwd_end, bwd_rewind. cbn [b_state]. rewrite SF1. destruct ty; try contradiction; reflexivity. }
      destruct (breq_q _ _ _ G) as (Iq & Nq & Gh & Ih & Nh).
      pose proof (breq_step _ _ _ _ (kl (cls A')) (kr (cls (m1 ++ Q))) pcat (regional_count S (slen (A' ++ [y]))) G Iy) as STP.
      unfold turn. destruct (bwd_match (b_state v) (wb y) pcat (regional_count S (slen (A' ++ [y])))) as [s|s|s|[|dec] tc|] eqn:BM; try contradiction.
      * destruct STP as (Ny & F1 & F2 & G2 & NE). apply IHn.
        destruct (kl_after A' y t1 I1 Ny Iy) as [KA FA].
        assert (E2 : (A' ++ [y]) ++ t1 ++ q :: t2 = (((A' ++ [y]) ++ t1) ++ [q]) ++ t2) by (rewrite <- !app_assoc; reflexivity).
        destruct (kl_after ((A' ++ [y]) ++ t1) q t2 I2 Nq Iq) as [KQ FQ].
        rewrite E2 in IN.
        destruct (cross (h :: m1) Q t2 (((A' ++ [y]) ++ t1) ++ [q])) as [C1 C2].
        { rewrite cls_snoc, fresh_snoc. exact Nq. }
        { exact I2. }
        { exact IN. }
        { rewrite wbd. cbn [app]. rewrite cls_cons. apply bnd_join; [exact FQ|exact Nh|]. rewrite KQ, KA. exact F1. }
        destruct (cross (q :: t2 ++ h :: m1) Q t1 (A' ++ [y])) as [C3 C4].
        { rewrite FN. exact Ny. }
        { exact I1. }
        { apply inside_cons; auto. }
        { rewrite wbd. cbn [app]. rewrite cls_cons. apply bnd_join; [exact FA|exact Nq|]. rewrite KA.
          rewrite <- app_assoc. cbn [app]. rewrite cls_app, kr_igs by (apply igs_cls; exact I2). rewrite cls_cons, kr_cons by assumption. exact F2. }
        rewrite <- EM in C3, C4.
        apply (BackHead _ _ _ _ y m); [reflexivity|exact Iy|exact Ny| |exact G2|contradiction].
        apply inside_cons; auto.
      * rewrite ES. apply (cut_saved _ _ _ v); [|apply ENDS].
        destruct (nl (wb y)) eqn:Ny.
        -- specialize (FS FN). rewrite SF1 in FS. destruct ty; try contradiction; exact FS.
        -- rewrite EM. apply req_save; auto. destruct (kl_after A' y t1 I1 Ny Iy) as [KA _]. rewrite KA. exact STP.
  - (* an apostrophe *)
    rewrite ST in *.
    assert (EAT : A' ++ y :: t = (A' ++ [y]) ++ t) by (rewrite <- app_assoc; reflexivity).
    destruct (ig (wb y)) eqn:Iy.
    + rewrite folds_fe by exact Iy. apply IHn. apply (BackQuote _ _ _ _ (y :: t) q m1); rewrite ?EAT;
        [rewrite EM; reflexivity|constructor; [exact Iy|exact IT]|exact W|exact IN|reflexivity|exact SV|exact X].
    + rewrite folds_not by exact Iy. destruct (nl (wb y)) eqn:Ny.
      * assert (BM : bwd_match (WFormatExtend AcceptQLetter) (wb y) pcat (regional_count S (slen (A' ++ [y]))) = BBreak 0 true).
        { destruct (wb y); try discriminate Ny; reflexivity. }
        unfold turn. rewrite BM, ES. apply (cut_saved _ _ _ v); [apply FS; exact FN|reflexivity].
      * clear FS. destruct (kl_after A' y t IT Ny Iy) as [KA FA]. rewrite KA in X.
        destruct (WB_eqb (wb y) WB_HebrewLetter) eqn:EH.
        -- apply WB_eqb_true in EH.
           assert (BM : bwd_match (WFormatExtend AcceptQLetter) (wb y) pcat (regional_count S (slen (A' ++ [y]))) = BNext WHLetter) by (rewrite EH; reflexivity).
           unfold turn. rewrite BM. apply IHn.
           destruct (cross (q :: m1) Q t (A' ++ [y])) as [C1 C2].
           { rewrite FN. first [exact Ny | reflexivity]. }
           { exact IT. }
           { exact IN. }
           { rewrite wbd. cbn [app]. rewrite cls_cons. apply bnd_join; [exact FA|rewrite W; reflexivity|]. rewrite KA, EH, W. dec_free. }
           rewrite <- EM in C1, C2.
           apply (BackHead _ _ _ _ y m); [reflexivity|exact Iy|exact Ny| |exact EH|rewrite EH; discriminate].
           apply inside_cons; auto.
        -- assert (BM : bwd_match (WFormatExtend AcceptQLetter) (wb y) pcat (regional_count S (slen (A' ++ [y]))) = BBreak 0 true).
           { destruct (wb y); try discriminate EH; reflexivity. }
           unfold turn. rewrite BM, ES. apply (cut_saved _ _ _ v); [|reflexivity].
           rewrite EM. apply quote_save; auto; [rewrite KA; exact X|]. rewrite KA. cbn [hd_error]. intros E. injection E as E. rewrite E in EH. discriminate EH.
Qed.

(** ** One call *)
Lemma end_free S Q : bnd S Q = true -> fresh S = false -> free (kl S) (kr Q) = true.
Proof.
  intros B F. destruct Q as [|g post]; [unfold free, free_dec; cbn; rewrite ?andb_false_r; reflexivity|].
  destruct (ig g) eqn:I.
  - rewrite bnd_ig in B by assumption. discriminate B.
  - unfold kr. rewrite wb4_cons by exact I. apply (start_free _ _ _ B).
Qed.

Lemma bwd_start S Q cat : S <> [] -> word_boundary S Q = true -> cacheb_ok S cat -> no_zwj_base_modifier (S ++ Q) ->
  let len := slen S in
  let idx := len - clen (last S 0%N) in
  prev_piece S Q (bwd_loop S (rev S) len (BV idx idx idx WStart WStart WB_Other true true cat)).
Proof.
  intros N B EC T. destruct (snoc_inv S N) as (A & y & ->). cbv zeta. rewrite rev_app_distr. cbn [rev app].
  rewrite last_last.
  rewrite bwd_loop_cons. cbv zeta. cbn [b_self b_state b_savestate b_save b_idx].
  assert (EG : match cat with None => wb y | Some c => c end = wb y).
  { unfold cacheb_ok, cache_ok in EC. rewrite rev_app_distr in EC. cbn [rev app] in EC. destruct cat; [exact EC|reflexivity]. }
  rewrite EG. clear EG EC.
  assert (EX : slen (A ++ [y]) - clen y = slen A) by (rewrite slen_app; cbn; lia). rewrite EX.
  assert (FX : forall a b, (if folds (wb y) WStart then a else b) = (if folds (wb y) WStart then b else b) -> (if folds (wb y) WStart then a else b) = b :> outcome bvars).
  { intros a b ->. destruct (folds (wb y) WStart); reflexivity. }
  rewrite FX by reflexivity. clear FX.
  set (pcat := match rev A with [] => None | n :: _ => Some (wb n) end).
  assert (EP : pcat = lastc (cls A)).
  { unfold pcat, lastc, cls. rewrite <- map_rev. destruct (rev A); reflexivity. }
  assert (IHn : forall prev save s sv tk, back_at A [y] Q (BV (slen A) prev save s sv (wb y) true tk None) ->
    prev_piece (A ++ [y]) Q (bwd_loop (A ++ [y]) (rev A) (slen A) (BV (slen A) prev save s sv (wb y) true tk None))).
  { intros prev save s sv tk B'. apply (bwd_loop_at _ _ T _ A [y]); auto. exact I. }
  clearbody pcat. unfold turn.
  assert (FN : fresh (cls (A ++ [y])) = nl (wb y)) by (rewrite cls_snoc; apply fresh_snoc).
  rewrite wbd in B.
  destruct (nl (wb y)) eqn:Ny.
  - (* a line break *)
    destruct (WB_eqb (wb y) WB_LF && match pcat with Some WB_CR => true | _ => false end) eqn:CL.
    + apply andb_true_iff in CL. destruct CL as [CL1 CL2]. apply WB_eqb_true in CL1.
      destruct pcat as [p|] eqn:EPC; [|discriminate CL2]. destruct p; try discriminate CL2. clear CL2.
      assert (BM : bwd_match WStart (wb y) (Some WB_CR) (regional_count (A ++ [y]) (slen A)) = BBreak 1 true) by (rewrite CL1; reflexivity).
      rewrite BM. destruct A as [|z A' _] using rev_ind; [discriminate EP|]. rewrite cls_snoc, lastc_snoc in EP. injection EP as EP. symmetry in EP.
      assert (EA : slen (A' ++ [z]) - 1 = slen A') by (rewrite slen_app; cbn; rewrite (cr_clen z EP); lia). rewrite EA.
      rewrite <- app_assoc. cbn [app]. apply (cut_here _ _ _ _ None); [|discriminate| |reflexivity|exact I].
      * apply inside_cons; [apply inside_one|]. intros _. rewrite wbd, cls_snoc. cbn [app]. rewrite cls_cons, CL1, EP. apply bnd_crlf.
      * rewrite wbd. cbn [app]. rewrite cls_cons, EP. apply bnd_nl; [reflexivity|discriminate].
    + assert (BM : bwd_match WStart (wb y) pcat (regional_count (A ++ [y]) (slen A)) = BBreak 0 true).
      { destruct (wb y); try discriminate Ny; try reflexivity. destruct pcat as [[]|]; try reflexivity. discriminate CL. }
      rewrite BM, Nat.sub_0_r. apply (cut_here _ _ _ _ None); [apply inside_one|discriminate| |reflexivity|exact I].
      rewrite wbd. cbn [app]. rewrite cls_cons. apply bnd_nl; [exact Ny|]. intros E EL. rewrite E, EP, EL in CL. discriminate CL.
  - pose proof (end_free _ _ B FN) as F. destruct (ig (wb y)) eqn:Iy.
    + assert (BM : bwd_match WStart (wb y) pcat (regional_count (A ++ [y]) (slen A)) = BNext (WFormatExtend AcceptAny)).
      { destruct (wb y); try discriminate Iy; reflexivity. }
      rewrite BM. apply IHn. apply (BackAny _ _ _ _ y []); [reflexivity|exact Iy|apply inside_one|reflexivity|].
      intros FA. cbn [app]. rewrite cls_cons, kr_ig by exact Iy. rewrite cls_snoc, kl_ig in F by assumption. exact F.
    + rewrite cls_snoc, kl_cons_snoc in F by exact Iy.
      pose proof (any_step WStart _ _ _ pcat (regional_count (A ++ [y]) (slen A)) (or_introl eq_refl) F Iy Ny) as STP.
      destruct (bwd_match WStart (wb y) pcat (regional_count (A ++ [y]) (slen A))) as [s|s|s|[|dec] []|] eqn:BM; try contradiction.
      * destruct STP as [G NE]. apply IHn. apply (BackHead _ _ _ _ y []); [reflexivity|exact Iy|exact Ny|apply inside_one|exact G|contradiction].
      * destruct STP as [-> EQ]. apply IHn. apply (BackQuote _ _ _ _ [] y []); rewrite ?app_nil_r; [reflexivity|constructor|exact EQ|apply inside_one|reflexivity|reflexivity|].
        rewrite <- EQ. exact F.
      * destruct STP as [F2 NG]. apply (cut_here _ _ _ _ None); [apply inside_one|discriminate| | |exact I].
        -- rewrite wbd. cbn [app]. rewrite cls_cons. apply bnd_cut; [exact Ny|exact Iy|exact F2|]. rewrite NG. discriminate.
        -- unfold bwd_end, bwd_rewind. cbn. rewrite Nat.sub_0_r. reflexivity.
Qed.

Lemma words_next_back_bound Q w : w_string w <> [] -> word_boundary (w_string w) Q = true -> cacheb_ok (w_string w) (w_catb w) ->
  no_zwj_base_modifier (w_string w ++ Q) ->
  exists start piece cache, words_next_back w = Ret (WBs (w_off w) start (w_cat w) cache, Some (w_off w + slen start, piece)) /\
    cacheb_ok start cache /\ prev_bound word_boundary (w_string w) Q start piece.
Proof.
  intros N B C T. destruct (bwd_start _ Q _ N B C T) as (v & start & piece & cache & H1 & H2 & H3 & H4 & H5). cbv zeta in H1.
  exists start, piece, cache. split; [|split; assumption]. unfold words_next_back.
  destruct (snoc_inv _ N) as (A & y & E). rewrite E in *. rewrite rev_app_distr in *. cbn [rev app] in *. cbv zeta. rewrite last_last in H1.
  rewrite H1. cbn [obind]. rewrite H2. cbn [fst snd]. rewrite H3, split_at_app. reflexivity.
Qed.

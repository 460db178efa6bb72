(** Level bounds, and texts without right-to-left content. *)
From Coq Require Import List NArith ZArith Lia Bool Arith Permutation ZifyBool ZifyNat ZifyN.
Import ListNotations.
From Verif Require Import Base Enums EnumFacts UcdModel BidiModel BidiSpec BidiLemmas BidiInit BidiWeak BidiSeqs BidiExplicit BidiChars BidiPara.
Open Scope nat_scope.

Lemma Forall_expand {A} (P : A -> Prop) ws : forall l, Forall P l -> Forall P (expand ws l).
Proof.
  induction ws as [|w ws IH]; intros [|x l] F; cbn [expand]; try constructor.
  inversion F; subst. apply Forall_app. split; [|now apply IH].
  apply Forall_forall. intros y Hy. apply repeat_spec in Hy. now subst.
Qed.

Lemma level_at_app_l a b i : i < length a -> level_at (a ++ b) i = level_at a i.
Proof. intros. unfold level_at. now apply app_nth1. Qed.
Lemma level_at_app_r a b i : length a <= i -> level_at (a ++ b) i = level_at b (i - length a).
Proof. intros. unfold level_at. now apply app_nth2. Qed.
Lemma level_at_Forall (P : N -> Prop) l i : Forall P l -> i < length l -> P (level_at l i).
Proof. intros F H. rewrite Forall_forall in F. apply F. unfold level_at. now apply nth_In. Qed.

(** ** Analysis succeeds and levels are bounded *)

Definition para_ok (p : str) (lo : N) (l : list N) : Prop :=
  length l = length p /\ Forall (fun x => (lo <= x <= 126)%N) l.

Lemma char_all_ok default pieces : (forall p, In p pieces -> (plevel default p <= 125)%N) ->
  forall cc, length cc = length (concat pieces) ->
  exists ls, char_all default pieces cc = Ret (concat ls) /\
    Forall2 (fun p l => para_ok p (plevel default p) l) pieces ls.
Proof.
  induction pieces as [|p rest IH]; intros Hp cc Hc; cbn [char_all concat] in *.
  - exists []. split; [reflexivity|constructor].
  - rewrite app_length in Hc.
    destruct (char_levels_bounds (map clen p) (plevel default p) (firstn (length p) cc)) as (l & E & L & F).
    { apply Hp. now left. }
    destruct (IH (fun q Hq => Hp q (or_intror Hq)) (skipn (length p) cc)) as (ls & E2 & F2).
    { rewrite skipn_length. lia. }
    exists (l :: ls). rewrite E, E2. split; [reflexivity|]. constructor; [|assumption].
    split; [|assumption]. rewrite L, firstn_length. lia.
Qed.

Lemma para_bytes default pieces : forall ls i0,
  Forall2 (fun p l => para_ok p (plevel default p) l) pieces ls ->
  forall p i, In p (mkparas default i0 pieces) -> p_start p <= i < p_end p ->
    (p_level p <= level_at (expand (map clen (concat pieces)) (concat ls)) (i - i0) <= 126)%N /\ i0 <= i.
Proof.
  induction pieces as [|q rest IH]; intros ls i0 F p i Hin Hi; cbn [mkparas] in Hin; [destruct Hin|].
  inversion F as [|? l ? ls' (L & B) F']; subst. cbn [concat]. rewrite map_app.
  rewrite expand_app by now rewrite map_length.
  assert (LE : length (expand (map clen q) l) = slen q) by (rewrite expand_length, slen_sum; [reflexivity|now rewrite map_length]).
  destruct Hin as [<- |Hin].
  - cbn [p_start p_end p_level] in *. rewrite level_at_app_l by lia. fold (plevel default q). split; [|lia].
    apply (level_at_Forall (fun x => (plevel default q <= x <= 126)%N)); [now apply Forall_expand|lia].
  - destruct (IH ls' (i0 + slen q) F' p i Hin Hi) as (A & C). split; [|lia].
    rewrite level_at_app_r by lia. rewrite LE. replace (i - i0 - slen q) with (i - (i0 + slen q)) by lia. exact A.
Qed.

Definition default_ok (default : option N) (max : N) : Prop :=
  match default with None => True | Some l => (l <= max)%N end.

Lemma auto_level_01 cs : unwrap_level (auto_level cs) = 0%N \/ unwrap_level (auto_level cs) = 1%N.
Proof. unfold auto_level. destruct (snd (scan cs)) as [c|]; [destruct c; auto|]; auto. Qed.

Lemma plevel_ok default max p : (1 <= max)%N -> default_ok default max -> (plevel default p <= max)%N.
Proof.
  intros H1 H. unfold plevel, cur_level. destruct default as [l|]; [exact H|].
  destruct (auto_level_01 (cls p)) as [-> | ->]; lia.
Qed.

Lemma bidi_bounds t default : default_ok default 125 -> exists b,
  bidi_new t default = Ret b /\ b_text b = t /\ length (b_levels b) = slen t /\ length (b_classes b) = slen t /\
  forall p i, In p (b_paras b) -> p_start p <= i < p_end p ->
    (p_level p <= level_at (b_levels b) i <= 126)%N.
Proof.
  intros H. destruct (bidi_chars t default) as (cc & pieces & L & F & (P & _) & E).
  destruct (char_all_ok default pieces) with (cc := cc) as (ls & E2 & F2).
  - intros p _. apply plevel_ok; [lia|assumption].
  - congruence.
  - rewrite E, E2. cbn [obind]. eexists. split; [reflexivity|]. cbn [b_text b_levels b_classes b_paras].
    assert (LL : length (concat ls) = length t).
    { rewrite <- L. eapply char_all_length; [|exact E2]. congruence. }
    split; [reflexivity|]. split; [rewrite expand_length, slen_sum; [reflexivity|now rewrite map_length]|].
    split; [rewrite expand_length, slen_sum; [reflexivity|now rewrite map_length]|].
    intros p i Hin Hi. destruct (para_bytes default pieces ls 0 F2 p i Hin Hi) as (A & _).
    rewrite Nat.sub_0_r, P in A. exact A.
Qed.

(** ** Left-to-right text *)

(** classes that cannot produce a level above 0 in a left-to-right paragraph *)
Definition calm_in : list BidiClass := [cL; cEN; cES; cET; cCS; cNSM; cBN; cB; cS; cWS; cON].
Definition calm (c : BidiClass) : Prop := In c calm_in.
Definition calm_out (c : BidiClass) : Prop := calm c /\ c <> cEN.

Lemma calm_dec c : {calm c} + {~ calm c}.
Proof. apply (in_dec BC_eq_dec). Qed.
Ltac calm_case :=
  first [ unfold calm, calm_in; cbn [In]; tauto
        | exfalso; match goal with H : calm _ |- _ => revert H; unfold calm, calm_in; cbn [In]; intuition discriminate end ].

Lemma calm_next r eos : Forall calm r -> calm eos -> calm (next_in r eos).
Proof.
  intros F He. unfold next_in. destruct (find _ r) as [c|] eqn:E; [|assumption].
  apply find_some in E as [E _]. rewrite Forall_forall in F. auto.
Qed.

Lemma calm_fate r : Forall calm r -> calm (et_fate r false).
Proof.
  induction 1 as [|c r Hc _ IH]; cbn [et_fate]; [calm_case|].
  destruct c; cbn [removed_by_x9]; try assumption; calm_case.
Qed.

Lemma calm_al c : calm c -> al_after c false = false.
Proof. unfold calm, calm_in. cbn [In]. intuition subst; reflexivity. Qed.

Lemma calm_wlc eos ws : calm eos -> forall cs prev, Forall calm cs -> calm prev -> Forall calm (wlc eos ws cs prev false).
Proof.
  intros He. induction ws as [|w ws IH]; intros [|c cs] prev F Hp; cbn [wlc]; try constructor.
  inversion F as [|? ? Hc F']; subst.
  assert (FS : Forall calm (seen_after c w cs)).
  { unfold seen_after. destruct (1 <? w); [constructor|]; assumption. }
  assert (A : calm (wl_class eos c (seen_after c w cs) prev false)).
  { pose proof (calm_next _ _ FS He) as N. pose proof (calm_fate _ FS) as T.
    unfold wl_class. destruct c; try assumption; try calm_case.
    - unfold sep_class. destruct prev; try calm_case; destruct (next_in _ _); calm_case.
    - unfold sep_class. destruct prev; try calm_case; destruct (next_in _ _); calm_case.
    - destruct prev; try assumption; calm_case.
    - unfold nsm_class. destruct prev; try assumption; calm_case. }
  assert (B : calm (wl_prev eos c (seen_after c w cs) prev false)).
  { unfold wl_prev. destruct c; try exact A. destruct prev; calm_case. }
  destruct (removed_by_x9 c); constructor; auto. rewrite calm_al by assumption. now apply IH.
Qed.

Lemma calm_w7 cs : Forall calm cs -> Forall calm_out (w7l cs true).
Proof.
  induction 1 as [|c cs Hc _ IH]; cbn [w7l]; constructor.
  - split; [destruct c; try assumption; cbn; calm_case|]. destruct c; discriminate.
  - replace (l_after c true) with true; [assumption|].
    unfold calm, calm_in in Hc. cbn [In] in Hc. intuition subst; reflexivity.
Qed.

Lemma calm_nl cs : forall prev b, Forall calm_out cs -> calm_out prev ->
  Forall calm_out (nl cL cL cs prev b).
Proof.
  induction cs as [|c cs IH]; intros prev b F Hp; cbn [nl]; [constructor|].
  inversion F as [|? ? Hc F']; subst.
  assert (N : calm_out (neutral_class prev (next_non_neutral cs cL) cL)).
  { assert (HL : calm_out cL) by (split; [calm_case|discriminate]).
    destruct Hp as (P1 & P2). unfold calm, calm_in in P1. cbn [In] in P1. unfold neutral_class.
    destruct prev; try assumption; try (exfalso; intuition congruence).
    destruct (next_non_neutral cs cL); assumption. }
  destruct (is_NI c); [constructor; auto|]. destruct (b && removed_by_x9 c); constructor; auto.
Qed.

Definition zeros (lv : list N) : Prop := Forall (fun l => l = 0%N) lv.
Lemma zeros_at lv i : zeros lv -> level_at lv i = 0%N.
Proof.
  intros H. unfold level_at. destruct (Nat.ltb_spec i (length lv)).
  - unfold zeros in H. rewrite Forall_forall in H. apply H. now apply nth_In.
  - now apply nth_overflow.
Qed.

Lemma finish_zeros oc lv s : zeros lv ->
  s_sos (finish_sequence 0 oc lv s) = cL /\ s_eos (finish_sequence 0 oc lv s) = cL.
Proof.
  intros Z. unfold finish_sequence; cbn [s_sos s_eos]. rewrite !zeros_at by assumption. split.
  - destruct (rposition _ _); rewrite ?zeros_at by assumption; reflexivity.
  - destruct (is_isolate_initiator _); [reflexivity|].
    destruct (position _ _ _); rewrite ?zeros_at by assumption; reflexivity.
Qed.

Lemma calm_classes ws oc lv pc : length lv = length pc -> zeros lv -> Forall calm pc ->
  Forall calm_out (char_classes ws 0 oc lv pc).
Proof.
  intros HL Z F. destruct (char_classes_spec ws 0 oc lv pc HL) as (L & R).
  apply Forall_forall. intros c Hc. apply In_nth with (d := cL) in Hc as (k & Hk & <-).
  destruct (sequences_nodup 0 oc lv) as (_ & HI).
  assert (Hin : In k (flat_map (fun s => seq_indices (s_runs s)) (isolating_run_sequences 0 oc lv))) by (apply HI; lia).
  apply in_flat_map in Hin as (s & Hs & Hks). specialize (R s Hs).
  assert (HX : forall i, In i (seq_indices (s_runs s)) -> i < length pc).
  { intros i Hi. rewrite <- HL. apply HI. apply in_flat_map. eauto. }
  assert (A : Forall calm_out (resolve_chars ws lv s (reads pc (seq_indices (s_runs s))))).
  { unfold isolating_run_sequences in Hs. apply in_map_iff in Hs as (rs & <- & _).
    destruct (finish_zeros oc lv rs Z) as (E1 & E2). unfold resolve_chars. rewrite E1, E2.
    rewrite zeros_at by assumption. change (level_class 0) with cL. change (is_class_L cL) with true.
    apply calm_nl; [|split; [calm_case|discriminate]]. apply calm_w7. apply calm_wlc; [calm_case| |calm_case].
    unfold reads. apply Forall_map, Forall_forall. intros i Hi. rewrite Forall_forall in F. apply F.
    unfold class_at. apply nth_In. auto. }
  rewrite <- R in A. unfold reads in A. rewrite Forall_map, Forall_forall in A. exact (A k Hks).
Qed.

Lemma calm_cexp cs : Forall calm cs -> cexp 0 (cst0 0) cs = map (fun c => (0%N, c)) cs.
Proof.
  induction 1 as [|c cs Hc _ IH]; [reflexivity|]. cbn [cexp map].
  unfold calm, calm_in in Hc. cbn [In] in Hc. 
  repeat (destruct Hc as [<- |Hc]; [cbn; f_equal; exact IH|]). destruct Hc.
Qed.

Lemma calm_char_levels ws cs : Forall calm cs -> exists l, char_levels ws 0 cs = Ret l /\ length l = length cs /\ zeros l.
Proof.
  intros F. rewrite char_levels_spec by lia. eexists. split; [reflexivity|].
  assert (EL : exp_levels 0 cs = repeat 0%N (length cs)).
  { unfold exp_levels. rewrite calm_cexp by assumption. rewrite map_map. cbn [fst]. clear. induction cs; cbn; congruence. }
  assert (EC : exp_classes 0 cs = cs).
  { unfold exp_classes. rewrite calm_cexp by assumption. rewrite map_map. cbn [snd]. apply map_id. }
  split.
  { rewrite assign_removed_length, implicit_levels_length; rewrite ?exp_levels_length, ?final_classes_length; reflexivity. }
  apply assign_removed_bounds; [reflexivity|]. unfold final_classes. rewrite EC, EL.
  assert (Z : zeros (repeat 0%N (length cs))).
  { apply Forall_forall. intros x Hx. now apply repeat_spec in Hx. }
  pose proof (calm_classes ws cs (repeat 0%N (length cs)) cs (repeat_length _ _) Z F) as A.
  set (cl := char_classes _ _ _ _ _) in *. assert (B : forall n, Forall (fun l => l = 0%N) (implicit_levels (repeat 0%N n) cl)).
  { induction A as [|c cl' (H1 & H2) _ IH]; intros [|n]; cbn [repeat implicit_levels]; try constructor; [|apply IH].
    unfold calm, calm_in in H1. cbn [In] in H1. intuition (subst; try reflexivity; try congruence). }
  apply B.
Qed.

(** ** The text *)

Definition rtl_or_formatting : list BidiClass :=
  [cR; cAL; cAN; cLRE; cLRO; cRLE; cRLO; cPDF; cLRI; cRLI; cFSI; cPDI].

Lemma calm_iff c : ~ In c rtl_or_formatting -> calm c.
Proof. unfold rtl_or_formatting. destruct c; intros H; try calm_case; exfalso; apply H; cbn [In]; tauto. Qed.

Lemma fsi_resolved_calm cs ds : fsi_resolved cs ds -> Forall calm cs -> ds = cs.
Proof.
  intros (L & H) F. apply (nth_ext _ _ cL cL); [assumption|]. intros n Hn. rewrite L in Hn.
  destruct (nth_split cs cL Hn) as (l1 & l2 & E & E1).
  destruct (H l1 (nth n cs cL) l2 E) as (A & _). rewrite E1 in A.
  assert (nth n cs cL <> cFSI).
  { rewrite Forall_forall in F. specialize (F _ (nth_In cs cL Hn)). intros X. rewrite X in F.
    revert F. unfold calm, calm_in. cbn [In]. intuition discriminate. }
  specialize (A H0). now apply nth_error_nth.
Qed.

Lemma first_strong_in cs c : first_strong cs c -> In c cs.
Proof. intros (a & b & -> & _). apply in_or_app. right. now left. Qed.

Lemma calm_plevel p : Forall calm (cls p) -> plevel None p = 0%N.
Proof.
  intros F. unfold plevel, cur_level. apply auto_level_spec. rewrite Forall_forall in F.
  intros [H|H]; apply first_strong_in, F in H; revert H; unfold calm, calm_in; cbn [In]; intuition discriminate.
Qed.

Lemma calm_all pieces : forall cc, Forall calm cc -> Forall (fun p => Forall calm (cls p)) pieces ->
  length cc = length (concat pieces) ->
  exists l, char_all None pieces cc = Ret l /\ zeros l.
Proof.
  induction pieces as [|p rest IH]; intros cc F G Hc; cbn [char_all concat] in *.
  - exists []. split; [reflexivity|constructor].
  - rewrite app_length in Hc. inversion G as [|? ? G1 G2]; subst. rewrite calm_plevel by assumption.
    assert (F1 : Forall calm (firstn (length p) cc)).
    { apply Forall_forall. intros x Hx. rewrite Forall_forall in F. apply F.
      rewrite <- (firstn_skipn (length p) cc). apply in_or_app. now left. }
    assert (F2 : Forall calm (skipn (length p) cc)).
    { apply Forall_forall. intros x Hx. rewrite Forall_forall in F. apply F.
      rewrite <- (firstn_skipn (length p) cc). apply in_or_app. now right. }
    destruct (calm_char_levels (map clen p) _ F1) as (a & -> & _ & Z1).
    destruct (IH _ F2 G2) as (r & -> & Z2). { rewrite skipn_length. lia. }
    exists (a ++ r). split; [reflexivity|]. apply Forall_app. now split.
Qed.

Lemma upd_zeros lv i : zeros lv -> zeros (upd lv i 0%N).
Proof.
  intros Z. revert i. induction Z as [|x lv Hx Z' IH]; intros [|i]; cbn [upd]; constructor; auto. apply IH.
Qed.
Lemma upds_zeros is : forall lv, zeros lv -> zeros (upds lv is 0%N).
Proof.
  induction is as [|i is IH]; intros lv Z; [exact Z|]. change (zeros (upds (upd lv i 0%N) is 0%N)).
  apply IH. now apply upd_zeros.
Qed.

Lemma l1_zeros oc ws : forall i lv rf, zeros lv -> zeros (l1_loop 0 oc ws i lv rf).
Proof.
  induction ws as [|w ws IH]; intros i lv rf Z; cbn [l1_loop].
  - destruct rf; [now apply upds_zeros|assumption].
  - destruct (l1_step 0 (class_at oc i) lv rf i w) as [lv' rf'] eqn:E. apply IH.
    unfold l1_step in E. destruct (class_at oc i); inversion E; subst; auto; now apply upds_zeros.
Qed.
Lemma l1_length p oc ws : forall i lv rf, length (l1_loop p oc ws i lv rf) = length lv.
Proof.
  induction ws as [|w ws IH]; intros i lv rf; cbn [l1_loop].
  - destruct rf; [apply upds_length|reflexivity].
  - destruct (l1_step p (class_at oc i) lv rf i w) as [lv' rf'] eqn:E. rewrite IH.
    unfold l1_step in E. destruct (class_at oc i); inversion E; subst; auto; apply upds_length.
Qed.

Lemma vruns_zeros lv le : zeros lv -> forall n i start,
  vruns_loop lv le i n start 0 0 0 = ([(start, le)], 0%N, 0%N).
Proof.
  intros Z. induction n as [|n IH]; intros i start; cbn [vruns_loop]; [reflexivity|].
  rewrite zeros_at by assumption. apply IH.
Qed.

Lemma str_slice_bounds t ls le line : str_slice t ls le = Ret line -> ls <= le <= slen t /\ le = ls + slen line.
Proof.
  intros H. apply str_slice_spec in H as (a & b & -> & -> & ->). rewrite !slen_app. lia.
Qed.

Lemma zeros_reorder b ls le line : zeros (b_levels b) -> length (b_levels b) = slen (b_text b) ->
  str_slice (b_text b) ls le = Ret line -> ls < slen (b_text b) ->
  reorder_line b 0 ls le = Ret line.
Proof.
  intros Z L H Hl. destruct (str_slice_bounds _ _ _ _ H) as (B1 & B2).
  unfold reorder_line, visual_runs. rewrite L.
  destruct (Nat.leb_spec ls (slen (b_text b))); [|lia]. destruct (Nat.leb_spec le (slen (b_text b))); [|lia].
  cbn [andb]. rewrite H. cbn [obind]. rewrite l1_length, L. destruct (Nat.ltb_spec ls (slen (b_text b))); [|lia].
  pose proof (l1_zeros (b_classes b) (map clen line) 0 (b_levels b) (Some 0) Z) as Z1.
  rewrite (zeros_at _ ls Z1). rewrite vruns_zeros by assumption.
  change (level_lowest_ge_rtl 0) with (Some 1%N). cbv iota zeta. change (N.to_nat (0 + 1 - 1)) with 0.
  cbn [l2_loop obind forallb fst]. rewrite zeros_at by assumption. reflexivity.
Qed.

Lemma ltr_text t : (forall c, In c t -> ~ In (bidi_class c) rtl_or_formatting) ->
  exists b, bidi_new t None = Ret b /\
    (forall i, level_at (b_levels b) i = 0%N) /\
    (forall p, In p (b_paras b) -> p_level p = 0%N) /\
    bidi_has_rtl b = false /\
    forall p ls le line, In p (b_paras b) -> str_slice t ls le = Ret line -> ls < slen t ->
      reorder_line b (p_level p) ls le = Ret line.
Proof.
  intros H. destruct (bidi_chars t None) as (cc & pieces & L & F & (P & _) & E).
  assert (C : Forall calm (cls t)).
  { apply Forall_map, Forall_forall. intros c Hc. apply calm_iff. auto. }
  rewrite (fsi_resolved_calm _ _ F C) in *.
  assert (G : Forall (fun p => Forall calm (cls p)) pieces).
  { apply Forall_forall. intros p Hp. unfold cls. apply Forall_map, Forall_forall. intros c Hc. apply calm_iff, H.
    rewrite <- P. apply in_concat. eauto. }
  destruct (calm_all pieces (cls t) C G) as (l & E2 & Z). { congruence. }
  rewrite E, E2. cbn [obind]. eexists. split; [reflexivity|]. cbn [b_levels b_paras].
  assert (Z' : zeros (expand (map clen t) l)) by now apply Forall_expand.
  assert (PL : forall p, In p (mkparas None 0 pieces) -> p_level p = 0%N).
  { intros p Hp. apply In_nth_error in Hp as (n & Hn). apply mkparas_nth in Hn as (q & Hq & ->).
    fold (plevel None q). apply calm_plevel. rewrite Forall_forall in G. apply G. eapply nth_error_In; eauto. }
  split; [intros i; now apply zeros_at|]. split; [assumption|]. split.
  - unfold bidi_has_rtl, levels_has_rtl; cbn [b_levels]. apply not_true_iff_false. intros X.
    apply existsb_exists in X as (x & Hx & Hr). unfold zeros in Z'. rewrite Forall_forall in Z'. rewrite (Z' x Hx) in Hr. discriminate.
  - intros p ls le line Hp Hs Hl. rewrite (PL p Hp). apply zeros_reorder; cbn [b_levels b_text]; auto.
    rewrite expand_length, slen_sum; [reflexivity|]. rewrite map_length.
    apply char_all_length in E2; congruence.
Qed.

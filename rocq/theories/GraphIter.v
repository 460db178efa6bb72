(** The iterators over grapheme clusters, and a cursor under any sequence of
    operations on the whole text. *)
From Coq Require Import List NArith Lia Bool Arith.
Import ListNotations.
From Verif Require Import Base Enums TableTypes UcdModel BidiModel BidiLemmas GraphModel GraphSpec SegLemmas GraphProofs GraphCursor.
Open Scope nat_scope.
Local Opaque gcb grapheme_boundary.

Lemma indexed_app ps : forall qs o, indexed o (ps ++ qs) = indexed o ps ++ indexed (o + bytes (concat ps)) qs.
Proof.
  induction ps as [|p ps IH]; intros qs o; cbn [indexed app concat].
  - cbn. rewrite Nat.add_0_r. reflexivity.
  - rewrite IH. cbn [app]. replace (o + bytes p + bytes (concat ps)) with (o + bytes (p ++ concat ps)) by (change bytes with slen; rewrite slen_app; lia). reflexivity.
Qed.

Record iter_at (ext : bool) (df mid db : list str) (g : graphemes) : Prop := IterAt {
  ia_string : g_string g = concat df ++ concat mid ++ concat db;
  ia_front : cursor_at ext (concat df) (concat mid ++ concat db) (g_front g);
  ia_fres : c_res (g_front g) = false;
  ia_back : cursor_at ext (concat df ++ concat mid) (concat db) (g_back g);
  ia_bres : c_res (g_back g) = false
}.

Lemma iter_new ext s ps : concat ps = s -> iter_at ext [] ps [] (graphemes_new ext s).
Proof.
  intros <-. split; cbn; rewrite ?app_nil_r; auto.
  - exact (cursor_at_new ext [] (concat ps)).
  - pose proof (cursor_at_new ext (concat ps) []) as H. rewrite app_nil_r in H. exact H.
Qed.

Section Iter.
Context (ext : bool) (s : str) (ps : list str).
Hypothesis (SG : segments (grapheme_boundary ext) s ps).

Lemma iter_next df p mid db g : ps = df ++ (p :: mid) ++ db -> iter_at ext df (p :: mid) db g ->
  exists g', graphemes_next g = Ret (g', Some (slen (concat df), p)) /\ iter_at ext (df ++ [p]) mid db g'.
Proof.
  intros EP [IS IF IFR IB IBR]. unfold graphemes_next.
  pose proof SG as SG0. rewrite EP in SG0. cbn [app] in SG0.
  pose proof (segments_next _ _ _ _ _ SG0) as NB. cbn [concat] in *. rewrite concat_app in NB.
  assert (NE : p <> []) by (destruct NB as (_ & H & _); exact H).
  assert (E : c_off (g_front g) =? c_off (g_back g) = false).
  { apply Nat.eqb_neq. rewrite (at_off _ _ _ _ IF), (at_off _ _ _ _ IB), !slen_app. pose proof (slen_pos p NE). lia. }
  rewrite E. rewrite <- app_assoc in *.
  destruct (next_boundary_whole ext _ _ _ IF IFR) as (m & r & c' & H1 & H2 & H3 & H4).
  { intros H. apply app_eq_nil in H. destruct H; easy. }
  destruct (next_bound_unique _ _ _ _ _ _ _ H1 NB) as [-> ->].
  rewrite IS, H2, (at_off _ _ _ _ IF), slen_app, str_slice_app.
  eexists. split; [reflexivity|]. split; cbn; auto; rewrite ?concat_app; cbn; rewrite ?app_nil_r, <- ?app_assoc; auto.
Qed.

Lemma iter_next_back df mid p db g : ps = df ++ (mid ++ [p]) ++ db -> iter_at ext df (mid ++ [p]) db g ->
  exists g', graphemes_next_back g = Ret (g', Some (slen (concat (df ++ mid)), p)) /\ iter_at ext df mid (p :: db) g'.
Proof.
  intros EP [IS IF IFR IB IBR]. unfold graphemes_next_back.
  pose proof SG as SG0. rewrite EP in SG0. rewrite <- app_assoc in SG0. cbn [app] in SG0. rewrite app_assoc in SG0.
  pose proof (segments_prev _ _ _ _ _ SG0) as NB.
  assert (NE : p <> []) by (destruct NB as (_ & H & _); exact H).
  rewrite !concat_app in *. cbn [concat] in *. rewrite app_nil_r in *.
  assert (E : c_off (g_back g) =? c_off (g_front g) = false).
  { apply Nat.eqb_neq. rewrite (at_off _ _ _ _ IF), (at_off _ _ _ _ IB), !slen_app. pose proof (slen_pos p NE). lia. }
  rewrite E. rewrite (app_assoc (concat df)) in IB.
  destruct (prev_boundary_whole ext _ _ _ IB IBR) as (st & m & c' & H1 & H2 & H3 & H4).
  { intros H. apply app_eq_nil in H. destruct H; easy. }
  destruct (prev_bound_unique _ _ _ _ _ _ _ H1 NB) as [-> ->].
  assert (IS' : g_string g = ((concat df ++ concat mid) ++ p) ++ concat db) by (rewrite IS, <- !app_assoc; reflexivity).
  rewrite IS', H2, (at_off _ _ _ _ IB).
  rewrite <- (app_assoc (concat df ++ concat mid) p), (slen_app (concat df ++ concat mid) p), str_slice_app.
  eexists. split; [reflexivity|]. split; cbn; auto.
  - rewrite <- app_assoc. reflexivity.
  - rewrite <- app_assoc in IF. exact IF.
Qed.

Lemma iter_done df db g : iter_at ext df [] db g ->
  graphemes_next g = Ret (g, None) /\ graphemes_next_back g = Ret (g, None).
Proof.
  intros [IS IF IFR IB IBR]. unfold graphemes_next, graphemes_next_back. cbn in *. rewrite app_nil_r in IB.
  rewrite (at_off _ _ _ _ IF), (at_off _ _ _ _ IB), Nat.eqb_refl. auto.
Qed.

Lemma iter_asks asks : forall df mid db g, ps = df ++ mid ++ db -> iter_at ext df mid db g ->
  let items := indexed (slen (concat df)) mid in
  exists g' df' mid' db', run_asks g asks = Ret (g', deque items asks) /\
    ps = df' ++ mid' ++ db' /\ iter_at ext df' mid' db' g' /\
    indexed (slen (concat df')) mid' = deque_rest items asks.
Proof.
  induction asks as [|a asks IH]; intros df mid db g EP IA items; cbn [run_asks deque deque_rest].
  - exists g, df, mid, db. auto.
  - destruct a.
    + destruct mid as [|p mid].
      * destruct (iter_done _ _ _ IA) as [H _]. rewrite H. destruct (IH _ _ _ _ EP IA) as (g' & df' & mid' & db' & H1 & H2).
        rewrite H1. exists g', df', mid', db'. split; [reflexivity|exact H2].
      * destruct (iter_next _ _ _ _ _ EP IA) as (g1 & H & IA1). rewrite H.
        assert (EP1 : ps = (df ++ [p]) ++ mid ++ db) by (rewrite EP, <- app_assoc; reflexivity).
        destruct (IH _ _ _ _ EP1 IA1) as (g' & df' & mid' & db' & H1 & H2).
        rewrite H1. exists g', df', mid', db'. unfold items. cbn [indexed tl].
        assert (E : slen (concat (df ++ [p])) = slen (concat df) + bytes p).
        { rewrite concat_app, slen_app. cbn. rewrite app_nil_r. reflexivity. }
        rewrite E in *. split; [reflexivity|exact H2].
    + destruct (list_eq_dec (list_eq_dec N.eq_dec) mid []) as [->|NM].
      * destruct (iter_done _ _ _ IA) as [_ H]. rewrite H. destruct (IH _ _ _ _ EP IA) as (g' & df' & mid' & db' & H1 & H2).
        rewrite H1. exists g', df', mid', db'. split; [reflexivity|exact H2].
      * destruct (snoc_inv mid NM) as (m & p & ->).
        destruct (iter_next_back _ _ _ _ _ EP IA) as (g1 & H & IA1). rewrite H.
        assert (EP1 : ps = df ++ m ++ p :: db) by (rewrite EP, <- !app_assoc; reflexivity).
        destruct (IH _ _ _ _ EP1 IA1) as (g' & df' & mid' & db' & H1 & H2).
        rewrite H1. exists g', df', mid', db'. unfold items. rewrite indexed_app. cbn [indexed]. rewrite rev_app_distr.
        cbn [rev app tl]. rewrite rev_involutive.
        assert (E : slen (concat (df ++ m)) = slen (concat df) + bytes (concat m)).
        { rewrite concat_app, slen_app. reflexivity. }
        rewrite E. split; [reflexivity|exact H2].
Qed.

Lemma asks_spec asks : exists g, run_asks (graphemes_new ext s) asks = Ret (g, deque (indexed 0 ps) asks) /\
  let left := deque_rest (indexed 0 ps) asks in
  graphemes_as_str g = Ret (concat (map snd left)) /\
  graphemes_size_hint g = Ret (Nat.min (bytes (concat (map snd left))) 1, bytes (concat (map snd left))).
Proof.
  destruct (iter_asks asks [] ps [] (graphemes_new ext s)) as (g & df & mid & db & H1 & H2 & [IS IF _ IB _] & H4).
  - cbn. rewrite app_nil_r. reflexivity.
  - apply iter_new. apply SG.
  - cbn in H1, H4. exists g. split; [exact H1|]. cbv zeta. rewrite <- H4.
    assert (E : forall l o, map snd (indexed o l) = l) by (induction l; intros; cbn; [|rewrite IHl]; reflexivity).
    rewrite E. unfold graphemes_as_str, graphemes_size_hint.
    rewrite (at_off _ _ _ _ IF), (at_off _ _ _ _ IB), IS, slen_app. split.
    + apply str_slice_app.
    + assert (L : slen (concat df) <=? slen (concat df) + slen (concat mid) = true) by (apply Nat.leb_le; lia).
      rewrite L. change bytes with slen. replace (slen (concat df) + slen (concat mid) - slen (concat df)) with (slen (concat mid)) by lia.
      reflexivity.
Qed.

Lemma collect_from fuel : forall df mid g, ps = df ++ mid -> iter_at ext df mid [] g -> length mid <= fuel ->
  collect_fuel fuel graphemes_next g = Ret (Some (indexed (slen (concat df)) mid)).
Proof.
  induction fuel; intros df mid g EP IA L.
  - destruct mid; [|cbn in L; lia]. cbn. destruct (iter_done _ _ _ IA) as [-> _]. reflexivity.
  - destruct mid as [|p mid].
    + cbn. destruct (iter_done _ _ _ IA) as [-> _]. reflexivity.
    + assert (EP1 : ps = df ++ (p :: mid) ++ []) by (rewrite app_nil_r; exact EP).
      destruct (iter_next _ _ _ _ _ EP1 IA) as (g1 & H & IA1). cbn [collect_fuel]. rewrite H.
      rewrite (IHfuel (df ++ [p]) mid g1); auto.
      * cbn. do 3 f_equal. rewrite concat_app, slen_app. cbn. rewrite app_nil_r. reflexivity.
      * rewrite EP, <- app_assoc. reflexivity.
      * cbn in L. lia.
Qed.

Lemma collect_back_from fuel : forall mid db g, ps = mid ++ db -> iter_at ext [] mid db g -> length mid <= fuel ->
  collect_fuel fuel graphemes_next_back g = Ret (Some (rev (indexed 0 mid))).
Proof.
  induction fuel; intros mid db g EP IA L.
  - destruct mid; [|cbn in L; lia]. cbn. destruct (iter_done _ _ _ IA) as [_ ->]. reflexivity.
  - destruct (list_eq_dec (list_eq_dec N.eq_dec) mid []) as [->|NM].
    + cbn. destruct (iter_done _ _ _ IA) as [_ ->]. reflexivity.
    + destruct (snoc_inv mid NM) as (m & p & ->).
      destruct (iter_next_back [] m p db g EP IA) as (g1 & H & IA1). cbn [collect_fuel]. rewrite H.
      rewrite (IHfuel m (p :: db) g1); auto.
      * rewrite indexed_app, rev_app_distr. reflexivity.
      * rewrite EP, <- app_assoc. reflexivity.
      * rewrite app_length in L. cbn in L. lia.
Qed.
End Iter.

Lemma pieces_length (ps : list str) : Forall (fun p => p <> []) ps -> length ps <= length (concat ps).
Proof.
  induction 1 as [|p ps N _ IH]; [reflexivity|]. cbn. rewrite app_length. destruct p; [easy|]. cbn. lia.
Qed.

Lemma graphemes_forward ext s : exists ps, segments (grapheme_boundary ext) s ps /\
  grapheme_indices ext s = Ret (Some (indexed 0 ps)).
Proof.
  destruct (segments_exist (grapheme_boundary ext) (boundary_start ext) (boundary_end ext) s) as (ps & SG).
  exists ps. split; [exact SG|]. unfold grapheme_indices.
  rewrite (collect_from ext s ps SG (length s) [] ps); auto.
  - apply iter_new. apply SG.
  - destruct SG as (C & N & _). rewrite <- C. apply pieces_length. exact N.
Qed.

Lemma graphemes_backward ext s : exists ps, segments (grapheme_boundary ext) s ps /\
  grapheme_indices_rev ext s = Ret (Some (rev (indexed 0 ps))).
Proof.
  destruct (segments_exist (grapheme_boundary ext) (boundary_start ext) (boundary_end ext) s) as (ps & SG).
  exists ps. split; [exact SG|]. unfold grapheme_indices_rev.
  rewrite (collect_back_from ext s ps SG (length s) ps []); auto.
  - rewrite app_nil_r. reflexivity.
  - apply iter_new. apply SG.
  - destruct SG as (C & N & _). rewrite <- C. apply pieces_length. exact N.
Qed.

Lemma graphemes_agree ext s : exists l,
  grapheme_indices ext s = Ret (Some l) /\ grapheme_indices_rev ext s = Ret (Some (rev l)).
Proof.
  destruct (graphemes_forward ext s) as (ps & S1 & H1), (graphemes_backward ext s) as (qs & S2 & H2).
  rewrite (segments_unique _ _ _ _ S2 S1) in H2. eauto.
Qed.

Lemma graphemes_lossless ext s : exists ps,
  grapheme_indices ext s = Ret (Some (indexed 0 ps)) /\ concat ps = s /\ Forall (fun p => p <> []) ps.
Proof. destruct (graphemes_forward ext s) as (ps & (S1 & S2 & _) & H1). eauto. Qed.

Lemma graphemes_mixed ext s ps asks : segments (grapheme_boundary ext) s ps ->
  exists g, run_asks (graphemes_new ext s) asks = Ret (g, deque (indexed 0 ps) asks) /\
  let left := deque_rest (indexed 0 ps) asks in
  graphemes_as_str g = Ret (concat (map snd left)) /\
  graphemes_size_hint g = Ret (Nat.min (bytes (concat (map snd left))) 1, bytes (concat (map snd left))).
Proof. intros SG. apply asks_spec. exact SG. Qed.

(** ** A cursor *)
Definition run_op (c : cursor) (text : str) (o : cursor_op) : outcome (cursor * cursor_answer) :=
  match o with
  | OpSet n => Ret (set_cursor c n, AUnit)
  | OpIsBoundary => match is_boundary c text 0 with Ret (c, GOk b) => Ret (c, ABool b) | _ => Panic end
  | OpNext => match next_boundary c text 0 with Ret (c, GOk b) => Ret (c, AOffset b) | _ => Panic end
  | OpPrev => match prev_boundary c text 0 with Ret (c, GOk b) => Ret (c, AOffset b) | _ => Panic end
  end.
Fixpoint run_ops (c : cursor) (text : str) (os : list cursor_op) : outcome (list cursor_answer) :=
  match os with
  | [] => Ret []
  | o :: os => match run_op c text o with
               | Ret (c, a) => match run_ops c text os with Ret l => Ret (a :: l) | Panic => Panic end
               | Panic => Panic
               end
  end.

Lemma run_op_spec ext text pre post c o p' q' a : text = pre ++ post -> cursor_at ext pre post c -> c_res c = false ->
  op_spec (grapheme_boundary ext) (pre, post) o (p', q') a ->
  exists c', run_op c text o = Ret (c', a) /\ text = p' ++ q' /\ cursor_at ext p' q' c' /\ c_res c' = false.
Proof.
  intros -> A R O. inversion O; subst; cbn [run_op].
  - destruct (is_boundary_whole ext _ _ _ A) as (c' & -> & A' & R'). exists c'. rewrite R'. auto.
  - destruct (set_cursor_at ext _ _ p' q' _ A) as [A' R']; [assumption|]. eexists. split; [reflexivity|].
    change bytes with slen; rewrite R'. auto.
  - match goal with H : next_bound _ _ _ ?m ?r |- _ => rename H into NB end.
    destruct (next_boundary_whole ext _ _ _ A R) as (m & r & c' & H1 & H2 & H3 & H4).
    { destruct NB as (-> & N & _). destruct mid; [easy|discriminate]. }
    destruct (next_bound_unique _ _ _ _ _ _ _ H1 NB) as [-> ->]. rewrite H2. exists c'. split; [reflexivity|].
    split; [|auto]. destruct NB as (-> & _). rewrite <- app_assoc. reflexivity.
  - rewrite (next_boundary_end ext _ _ _ _ A). eauto.
  - match goal with H : prev_bound _ _ _ ?m ?r |- _ => rename H into NB end.
    destruct (prev_boundary_whole ext _ _ _ A R) as (st & m & c' & H1 & H2 & H3 & H4).
    { destruct NB as (-> & N & _). intros H. apply app_eq_nil in H. destruct H; easy. }
    destruct (prev_bound_unique _ _ _ _ _ _ _ H1 NB) as [-> ->]. rewrite H2. exists c'. split; [reflexivity|].
    split; [|auto]. destruct NB as (-> & _). rewrite <- app_assoc. reflexivity.
  - rewrite (prev_boundary_start ext _ _ _ _ A). eauto.
Qed.

Lemma run_ops_at ext text os : forall pre post l c, text = pre ++ post -> cursor_at ext pre post c -> c_res c = false ->
  ops_spec (grapheme_boundary ext) (pre, post) os l -> run_ops c text os = Ret l.
Proof.
  induction os as [|o os IH]; intros pre post l c E A R S0; inversion S0; subst; [reflexivity|].
  destruct q as [p' q'].
  destruct (run_op_spec ext _ pre post c o p' q' a eq_refl A R) as (c' & K1 & K2 & K3 & K4); [assumption|].
  cbn [run_ops]. rewrite K1. rewrite (IH p' q' l0 c'); auto.
Qed.

Lemma cursor_ops ext pre post os l : ops_spec (grapheme_boundary ext) (pre, post) os l ->
  run_ops (cursor_new ext (bytes pre) (bytes (pre ++ post))) (pre ++ post) os = Ret l.
Proof. intros H. apply (run_ops_at ext _ os pre post l); auto. apply cursor_at_new. Qed.

Lemma cursor_is_boundary ext pre post : exists c,
  is_boundary (cursor_new ext (bytes pre) (bytes (pre ++ post))) (pre ++ post) 0 = Ret (c, GOk (grapheme_boundary ext pre post)).
Proof. destruct (is_boundary_whole ext pre post _ (cursor_at_new ext pre post)) as (c & H & _). eauto. Qed.

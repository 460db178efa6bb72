(** Canonically equivalent texts have canonically equivalent words. *)
From Coq Require Import List NArith ZArith Lia Bool ZifyBool ZifyN Relations.
From Verif Require Import Base RangeModel TableTypes Enums EnumFacts UcdModel HangulModel HangulSpec HangulProofs BidiModel
  NormSpec NormOrder NormModel NormTables NormBubble NormIter NormRecomp NormAlgebra NormFiller NormPiecesSpec PieceTables NormCut
  GraphSpec SegLemmas SegConcat WordModel WordSpec WordConcat WordEdge WordClasses SpellTables NormPieces ClusterEquiv.
Import ListNotations.
Open Scope nat_scope.
Local Opaque word_break.

(** ** Classes of a character and of its decomposition *)
Lemma spread_shape w l : shape_w w l = true -> spread w l.
Proof.
  unfold shape_w. intros H. apply andb_true_iff in H as [H1 H2]. destruct l as [|x r]; [discriminate|]. apply andb_true_iff in H2 as [H2 H3].
  assert (x = w) as -> by (destruct x, w; try discriminate; reflexivity).
  exists r. split; [reflexivity|]. right. left. split; assumption.
Qed.
Lemma spread_char c : spread (word_break c) (map word_break (decompose false c)).
Proof.
  destruct (canonical_cases c) as [E|[E|(_ & E & _)]].
  - rewrite E. exists []. split; [reflexivity|]. left. reflexivity.
  - rewrite (wb_syllable c E). apply block_cover in E as (l & v & t & B & ->). rewrite decompose_block_eq by assumption. unfold jamo_of. pose proof B as (B1 & B2 & B3).
    assert (X1 : word_break (leading l) = WB_ALetter) by (apply wb_jamo; unfold leading; lia).
    assert (X2 : word_break (vowel v) = WB_ALetter) by (apply wb_jamo; unfold vowel; lia).
    destruct t as [|t].
    + cbn [map]. rewrite X1, X2. exists [WB_ALetter]. split; [reflexivity|]. right. right. split; [reflexivity|]. repeat constructor.
    + assert (X3 : word_break (trailing (N.pos t)) = WB_ALetter) by (apply wb_jamo; unfold trailing; lia).
      cbn [map]. rewrite X1, X2, X3. exists [WB_ALetter; WB_ALetter]. split; [reflexivity|]. right. right. split; [reflexivity|]. repeat constructor.
  - apply spread_shape. exact E.
Qed.

Definition dblocks (s : str) : list (list WB) := map (fun c => map word_break (decompose false c)) s.
Lemma dblocks_ok s : blocks (map word_break s) (dblocks s).
Proof. unfold blocks, dblocks. induction s; cbn [map]; constructor; [apply spread_char|assumption]. Qed.
Lemma dblocks_concat s : concat (dblocks s) = map word_break (flat_map (decompose false) s).
Proof. unfold dblocks. induction s; cbn [map concat flat_map]; [reflexivity|]. now rewrite map_app, IHs. Qed.

(** ** Reordering *)
Lemma nonstarter_extend c : ccc c <> 0%N -> word_break c = WB_Extend.
Proof. intros H. apply nonstarter_hangs in H. unfold hangs in H. apply andb_true_iff in H as [_ H]. destruct (word_break c); try discriminate. reflexivity. Qed.
Lemma exchange_wb l m : exchange ccc l m -> map word_break l = map word_break m.
Proof.
  intros [p a b r [R1 R2]]. rewrite !map_app. cbn [map]. rewrite (nonstarter_extend a), (nonstarter_extend b) by lia. reflexivity.
Qed.
Lemma wb_D s : map word_break (D false s) = map word_break (flat_map (decompose false) s).
Proof.
  assert (H : forall l m, clos_refl_trans _ (exchange ccc) l m -> map word_break l = map word_break m).
  { induction 1; [now apply exchange_wb|reflexivity|congruence]. }
  symmetry. apply H. apply order_exchanges.
Qed.

(** ** Words *)
Lemma first_D p r : first_piece (p ++ r) p -> D false (p ++ r) = D false p ++ D false r -> first_piece (D false (p ++ r)) (D false p).
Proof.
  intros F E. rewrite E. pose proof F as (_ & _ & _ & _ & NP & _). apply first_of_count.
  - rewrite <- E. pose proof (first_length _ _ F) as L. rewrite D_length. fold (map word_break (D false (p ++ r))). rewrite wb_D, <- dblocks_concat.
    destruct (count_blocks _ _ (dblocks_ok (p ++ r))) as [C _]. rewrite C. change wb with word_break in L. rewrite <- L.
    unfold dblocks at 1. rewrite map_app, firstn_app, map_length, Nat.sub_diag, firstn_O, app_nil_r.
    rewrite firstn_all2 by (rewrite map_length; lia). fold (dblocks p). rewrite dblocks_concat, map_length. reflexivity.
  - intros X. apply app_eq_nil in X as [X _]. exact (D_nonempty p NP X).
Qed.
Lemma fpieces_D s ps : fpieces s ps -> fpieces (D false s) (map (D false) ps).
Proof.
  assert (W : forall s ps, fpieces s ps -> D false s = concat (map (D false) ps)).
  { intros t qs H. apply words_iff in H. destruct (words_forms _ _ H) as (E & _). rewrite nfd_eq, each_D in E. congruence. }
  induction 1 as [|p r ps F P IH]; [constructor|]. cbn [map].
  assert (E : D false (p ++ r) = D false p ++ D false r) by (rewrite (W _ _ P), (W _ _ (fp_cons p r ps F P)); reflexivity).
  pose proof (first_D p r F E) as F'. rewrite E in F' |- *. constructor; assumption.
Qed.

Lemma nfd_words s ps : word_bound_indices s = Ret (Some (indexed 0 ps)) ->
  exists d qs, nfd s = Some d /\ Forall2 (fun p q => nfd p = Some q) ps qs /\ word_bound_indices d = Ret (Some (indexed 0 qs)).
Proof.
  intros H. exists (D false s), (map (D false) ps). split; [apply nfd_eq|]. split.
  - clear H. induction ps as [|p ps IH]; constructor; [apply nfd_eq|assumption].
  - apply words_iff, fpieces_D, words_iff. exact H.
Qed.
Lemma canonical_words s t ps qs : nfd s = nfd t ->
  word_bound_indices s = Ret (Some (indexed 0 ps)) -> word_bound_indices t = Ret (Some (indexed 0 qs)) ->
  Forall2 (fun p q => nfd p = nfd q) ps qs.
Proof.
  intros E H1 H2. destruct (nfd_words s ps H1) as (d & ps' & D1 & F1 & G1). destruct (nfd_words t qs H2) as (d' & qs' & D2 & F2 & G2).
  assert (d' = d) as -> by congruence. rewrite G1 in G2. injection G2 as G2. apply indexed_inj in G2. subst qs'.
  clear - F1 F2. revert qs F2. induction F1 as [|p p' ps ps' E F IH]; intros qs F2; inversion F2; subst; constructor; [congruence|auto].
Qed.
(** ** Composition, which drops U+11A7 after a syllable *)
Lemma next_letter st c : next st c <> 0%N -> word_break c = WB_ALetter.
Proof.
  unfold next. intros H. apply wb_jamo; destruct (lead c) eqn:L; unfold lead in L; try lia; destruct ((st =? 1)%N && vow c) eqn:V; unfold vow in V; try lia; contradiction H; reflexivity.
Qed.
Lemma strip_blocks l : forall st, exists k bs, blocks (map word_break (strip st l)) bs /\ map word_break l = repeat WB_ALetter k ++ concat bs /\ (st <> 2%N -> k = 0).
Proof.
  induction l as [|c l IH]; intros st; [exists 0, []; repeat split; constructor|]. cbn [strip map].
  destruct ((st =? 2)%N && (c =? 0x11A7)%N) eqn:X.
  - destruct (IH 2%N) as (k & bs & B & E & _). exists (S k), bs. split; [exact B|]. rewrite E.
    assert (c = 0x11A7%N) as -> by lia. rewrite (wb_jamo 0x11A7%N) by lia. split; [reflexivity|]. intros; lia.
  - destruct (IH (next st c)) as (k & bs & B & E & K). exists 0, ((word_break c :: repeat WB_ALetter k) :: bs). cbn [map repeat app concat]. rewrite E.
    split; [|split; [reflexivity|reflexivity]]. constructor; [|exact B]. exists (repeat WB_ALetter k). split; [reflexivity|].
    destruct k as [|k]; [now left|]. right. right. split.
    + apply (next_letter st). intros N. rewrite N in K. specialize (K ltac:(lia)). discriminate.
    + apply Forall_forall. intros x I. exact (repeat_spec _ _ _ I).
Qed.
Lemma strip_blocks_0 l : exists bs, blocks (map word_break (strip 0 l)) bs /\ map word_break l = concat bs.
Proof. destruct (strip_blocks l 0%N) as (k & bs & B & E & K). rewrite K in E by discriminate. exists bs. auto. Qed.

Lemma strip_state st y b : word_break y <> WB_ALetter -> strip st (y :: b) = strip 0 (y :: b).
Proof.
  intros N. cbn [strip]. assert ((y =? 0x11A7)%N = false) as ->. { apply N.eqb_neq. intros ->. apply N, wb_jamo; lia. }
  rewrite !andb_false_r. assert (Z : forall st, next st y = 0%N). { intros st'. destruct (N.eq_dec (next st' y) 0) as [E|E]; [exact E|]. contradiction N. exact (next_letter st' y E). }
  now rewrite !Z.
Qed.
Lemma strip_edge a z y b : apart z y -> strip 0 ((a ++ [z]) ++ y :: b) = strip 0 (a ++ [z]) ++ strip 0 (y :: b).
Proof.
  intros A. destruct (strip_app_state a 0) as (st & E). rewrite <- !app_assoc. cbn [app]. rewrite !E, <- !app_assoc. f_equal.
  assert (L : word_break z = WB_ALetter -> word_break y <> WB_ALetter).
  { intros X Y. destruct A as [A|[_ A]]; unfold wb in A; [rewrite X in A|rewrite X, Y in A]; discriminate. }
  cbn [strip]. destruct ((st =? 2)%N && (z =? 0x11A7)%N) eqn:X.
  - cbn [app]. apply (strip_state 2 y b). apply L. assert (z = 0x11A7%N) as -> by lia. apply wb_jamo; lia.
  - cbn [app]. f_equal. destruct (N.eq_dec (next st z) 0) as [Z|Z].
    + rewrite Z. reflexivity.
    + apply (strip_state (next st z) y b). apply L. exact (next_letter _ _ Z).
Qed.
Lemma each_strip ps : each (fun l => Some (strip 0 l)) ps = Some (concat (map (strip 0) ps)).
Proof. induction ps as [|p ps IH]; [reflexivity|]. cbn [each map concat]. rewrite IH. reflexivity. Qed.
Lemma strip_words s ps : fpieces s ps -> strip 0 s = concat (map (strip 0) ps).
Proof.
  intros H. apply words_iff in H. destruct (word_edges _ _ H) as (E & NE & ED).
  pose proof (pieces_form (strip 0) (fun l => Some (strip 0 l)) apart (fun _ => eq_refl) eq_refl strip_edge ps NE ED) as X.
  rewrite each_strip, E in X. congruence.
Qed.

Lemma firstn_blocks cs bs : blocks cs bs -> forall n m, n <= length bs -> m <= length bs -> length (concat (firstn n bs)) = length (concat (firstn m bs)) -> n = m.
Proof.
  induction 1 as [|c b cs bs (r & -> & _) B IH]; intros n m Hn Hm E; cbn [length] in *; [lia|].
  destruct n, m; cbn [firstn concat length app] in E; try lia. rewrite !app_length in E. f_equal. apply IH; lia.
Qed.
Lemma strip_nonempty p : p <> [] -> strip 0 p <> [].
Proof. intros N. destruct p as [|c p]; [contradiction|]. cbn [strip]. change (0 =? 2)%N with false. cbn [andb]. discriminate. Qed.
Lemma first_strip p r : first_piece (p ++ r) p -> strip 0 (p ++ r) = strip 0 p ++ strip 0 r -> first_piece (strip 0 (p ++ r)) (strip 0 p).
Proof.
  intros F E. rewrite E. pose proof F as (_ & _ & _ & _ & NP & _). apply first_of_count.
  - destruct (strip_blocks_0 p) as (bp & Bp & Ep). destruct (strip_blocks_0 r) as (br & Br & Er).
    pose proof (Forall2_app Bp Br) as B. rewrite <- map_app in B. fold (blocks (map word_break (strip 0 p ++ strip 0 r)) (bp ++ br)) in B.
    destruct (count_blocks _ _ B) as [C1 C2]. pose proof (blocks_length _ _ Bp) as Lp. rewrite map_length in Lp.
    change wb with word_break. apply (firstn_blocks _ _ B).
    + rewrite app_length. lia.
    + rewrite <- (blocks_length _ _ B). exact C2.
    + rewrite <- C1. rewrite concat_app, <- Ep, <- Er, <- map_app. rewrite Lp, firstn_app, firstn_all, Nat.sub_diag, firstn_O, app_nil_r, <- Ep, map_length.
      exact (first_length _ _ F).
  - intros X. apply app_eq_nil in X as [X _]. exact (strip_nonempty p NP X).
Qed.
Lemma fpieces_strip s ps : fpieces s ps -> fpieces (strip 0 s) (map (strip 0) ps).
Proof.
  induction 1 as [|p r ps F P IH]; [constructor|]. cbn [map].
  assert (E : strip 0 (p ++ r) = strip 0 p ++ strip 0 r) by (rewrite (strip_words _ _ P), (strip_words _ _ (fp_cons p r ps F P)); reflexivity).
  pose proof (first_strip p r F E) as F'. rewrite E in F' |- *. constructor; assumption.
Qed.

Lemma fpieces_unique s ps qs : fpieces s ps -> fpieces s qs -> ps = qs.
Proof. intros H1 H2. apply words_iff in H1, H2. rewrite H1 in H2. injection H2 as H2. exact (indexed_inj _ _ _ H2). Qed.
Lemma fpieces_C s ps : fpieces s ps -> fpieces (C false s) (map (C false) ps).
Proof.
  intros H. destruct (fpieces_exist _ (C false s) (le_n _)) as (qs & Q).
  pose proof (fpieces_strip _ _ (fpieces_D _ _ H)) as X. rewrite <- D_C_strip in X. pose proof (fpieces_D _ _ Q) as Y.
  pose proof (fpieces_unique _ _ _ X Y) as U. clear X Y.
  assert (map (C false) ps = qs) as ->; [|exact Q]. apply same_cut.
  - rewrite (fpieces_concat _ _ Q). apply words_iff in H. destruct (words_forms _ _ H) as (_ & _ & X). rewrite nfc_eq, each_C in X. congruence.
  - clear H Q. revert qs U. induction ps as [|p ps IH]; intros [|q qs] U; try discriminate; constructor.
    + cbn [map] in U. apply cons_split in U as [U _]. rewrite <- D_C_strip in U. apply (f_equal (@length _)) in U. rewrite !D_length in U. exact U.
    + apply IH. cbn [map] in U. apply cons_split in U. apply U.
Qed.
Lemma nfc_words s ps : word_bound_indices s = Ret (Some (indexed 0 ps)) ->
  exists d qs, nfc s = Some d /\ Forall2 (fun p q => nfc p = Some q) ps qs /\ word_bound_indices d = Ret (Some (indexed 0 qs)).
Proof.
  intros H. exists (C false s), (map (C false) ps). split; [apply nfc_eq|]. split.
  - clear H. induction ps as [|p ps IH]; constructor; [apply nfc_eq|assumption].
  - apply words_iff, fpieces_C, words_iff. exact H.
Qed.

(** ** Filtered words *)
Lemma indexed_snd (ps : list str) : forall o, map snd (indexed o ps) = ps.
Proof. induction ps as [|p ps IH]; intros o; [reflexivity|]. cbn [indexed map snd]. now rewrite IH. Qed.
Lemma filtered f F s d : (forall p, f p = f (F p)) -> fpieces d (map F s) -> words f d = Ret (Some (map F (filter f s))).
Proof.
  intros Hf P. unfold words. rewrite (proj2 (words_iff _ _) P). rewrite indexed_snd. f_equal. f_equal.
  clear P. induction s as [|p s IH]; [reflexivity|]. cbn [map filter]. rewrite <- Hf. destruct (f p); cbn [map]; now rewrite IH.
Qed.
Lemma words_pieces f s ws : words f s = Ret (Some ws) -> exists ps, fpieces s ps /\ ws = filter f ps.
Proof.
  destruct (fpieces_exist _ s (le_n _)) as (ps & P). intros H. exists ps. split; [exact P|]. unfold words in H. rewrite (proj2 (words_iff _ _) P) in H.
  rewrite indexed_snd in H. congruence.
Qed.
Lemma filtered_words f s ws : words f s = Ret (Some ws) ->
  ((forall p q, nfd p = Some q -> f p = f q) -> exists d qs, nfd s = Some d /\ Forall2 (fun p q => nfd p = Some q) ws qs /\ words f d = Ret (Some qs)) /\
  ((forall p q, nfc p = Some q -> f p = f q) -> exists d qs, nfc s = Some d /\ Forall2 (fun p q => nfc p = Some q) ws qs /\ words f d = Ret (Some qs)).
Proof.
  intros H. destruct (words_pieces f s ws H) as (ps & P & ->). clear H. split; intros Hf.
  - exists (D false s), (map (D false) (filter f ps)). split; [apply nfd_eq|]. split.
    + generalize (filter f ps). intros l. induction l; constructor; [apply nfd_eq|assumption].
    + apply filtered; [|apply fpieces_D; exact P]. intros p. apply Hf, nfd_eq.
  - exists (C false s), (map (C false) (filter f ps)). split; [apply nfc_eq|]. split.
    + generalize (filter f ps). intros l. induction l; constructor; [apply nfc_eq|assumption].
    + apply filtered; [|apply fpieces_C; exact P]. intros p. apply Hf, nfc_eq.
Qed.
(** a filter that does not depend on the spelling: some character is a letter *)
Definition has_letter (p : str) : bool := existsb (fun c => letter (word_break c)) p.
Lemma blocks_letter cs bs : blocks cs bs -> existsb letter (concat bs) = existsb letter cs.
Proof.
  induction 1 as [|c b cs bs (r & -> & H) B IH]; [reflexivity|]. cbn [concat app existsb]. rewrite existsb_app, IH.
  destruct (letter c) eqn:L; [reflexivity|]. cbn [orb]. assert (existsb letter r = false) as ->; [|reflexivity].
  destruct H as [->|[[_ H]|[-> _]]]; [reflexivity| |discriminate]. clear - H. induction r as [|x r IH]; [reflexivity|]. cbn [forallb existsb] in *.
  apply andb_true_iff in H as [H1 H2]. rewrite IH by assumption. destruct x; try discriminate; reflexivity.
Qed.
Lemma has_letter_map p : has_letter p = existsb letter (map word_break p).
Proof. induction p as [|c p IH]; [reflexivity|]. cbn [has_letter existsb map]. unfold has_letter in IH. now rewrite IH. Qed.
Lemma has_letter_nfd p q : nfd p = Some q -> has_letter p = has_letter q.
Proof.
  rewrite nfd_eq. intros H. assert (q = D false p) as -> by congruence. rewrite !has_letter_map, wb_D, <- dblocks_concat.
  symmetry. apply blocks_letter, dblocks_ok.
Qed.
Lemma has_letter_nfc p q : nfc p = Some q -> has_letter p = has_letter q.
Proof.
  rewrite nfc_eq. intros H. assert (q = C false p) as -> by congruence.
  rewrite (has_letter_nfd _ _ (nfd_eq p)), (has_letter_nfd _ _ (nfd_eq (C false p))), D_C_strip, !has_letter_map.
  destruct (strip_blocks_0 (D false p)) as (bs & B & ->). apply blocks_letter. exact B.
Qed.

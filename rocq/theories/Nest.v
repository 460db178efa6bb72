(** Clusters in words, words and clusters in paragraphs. *)
From Coq Require Import List NArith ZArith Lia Bool Arith ZifyBool ZifyN.
Import ListNotations.
From Verif Require Import Base RangeModel TableModel TableSpec TableProofs TableLemmas TableTypes Enums EnumFacts TablesSegment TablesWords TablesBidi
  UcdModel UcdSpec UcdProofs UcdLemmas TablePiecewise SpellTables PieceTables BidiModel BidiSpec BidiEquiv GraphModel GraphSpec GraphIter SegLemmas SegConcat GraphConcat
  WordModel WordSpec WordTables WordRules WordForward WordIter WordConcat WordConcatBack NestSpec NestRules WordCuts.
Open Scope nat_scope.

(** ** The tables *)
Definition gor (o : option GraphemeClusterBreak) := match o with Some v => v | None => GCB_Other end.
Definition wor (o : option WordBreak) := match o with Some v => v | None => WB_Other end.
Lemma link_check : check2 GRAPHEME_CLUSTER_BREAK WORD_BREAK (fun a b => linked (gor a) (wor b)) = true.
Proof. vm_cast_no_check (eq_refl true). Qed.
Lemma link c : linked (grapheme_cluster_break c) (word_break c) = true.
Proof.
  rewrite gcb_lookup, wb_lookup. exact (piecewise2 _ _ _ wf_GRAPHEME_CLUSTER_BREAK wf_WORD_BREAK link_check c).
Qed.

Definition vowels : CharDataTable unit := Direct [(0x0E33%N, tt); (0x0EB3%N, tt)].
Lemma wf_vowels : wf_table vowels.
Proof. apply wf_entriesb_sound. vm_compute. reflexivity. Qed.
Lemma vowels_in c : lookup vowels c = Some tt -> sara_am c.
Proof.
  rewrite lookup_scan by exact wf_vowels. intros H. apply scan_some in H as (e & [<-|[<-|[]]] & Hc & _);
    unfold sara_am; unfold covers in Hc; cbn [fst snd] in Hc; lia.
Qed.
Definition hanging_word (a : option GraphemeClusterBreak) (b : option WordBreak) : bool :=
  match a, b with Some GCB_SpacingMark, None => true | Some GCB_SpacingMark, Some WB_Other => true | _, _ => false end.
Lemma vowels_check : check3 GRAPHEME_CLUSTER_BREAK WORD_BREAK vowels
  (fun a b v => implb (hanging_word a b) (match v with Some _ => true | None => false end)) = true.
Proof. vm_cast_no_check (eq_refl true). Qed.
Lemma hanging_or a b : gor a = GCB_SpacingMark -> wor b = WB_Other -> hanging_word a b = true.
Proof. destruct a as [g|]; cbn [gor]; [intros ->|discriminate]. destruct b as [w|]; cbn [wor]; [intros ->|]; reflexivity. Qed.
Lemma hanging_vowel c : grapheme_cluster_break c = GCB_SpacingMark -> word_break c = WB_Other -> sara_am c.
Proof.
  rewrite gcb_lookup, wb_lookup. intros H1 H2. pose proof (hanging_or _ _ H1 H2) as H.
  pose proof (piecewise3 _ _ _ _ wf_GRAPHEME_CLUSTER_BREAK wf_WORD_BREAK wf_vowels vowels_check c) as P. cbv beta in P. rewrite H in P. cbn [implb] in P.
  apply vowels_in. destruct (lookup vowels c) as [[]|]; [reflexivity|discriminate].
Qed.
Lemma sara_am_classes c : sara_am c -> grapheme_cluster_break c = GCB_SpacingMark /\ word_break c = WB_Other.
Proof.
  intros [->| ->]; rewrite <- fgcb_ok, <- fwb_ok; split; vm_compute; reflexivity.
Qed.

(** ** The rules *)
Lemma rules_nest ext pre post : word_boundary pre post = true -> grapheme_boundary ext pre post = true \/
  ext = true /\ (exists p z, pre = p ++ [z] /\ prepended z) \/
  ext = true /\ (exists y q, post = y :: q /\ sara_am y) \/
  marked_flag pre /\ (exists y q, post = y :: q /\ indicator y).
Proof.
  intros H. destruct (word_in_cluster grapheme_cluster_break word_break link ext pre post H) as [G|[G|[(E & y & q & E1 & E2 & E3)|G]]].
  - left. exact G.
  - right. left. exact G.
  - right. right. left. split; [exact E|]. exists y, q. split; [exact E1|]. now apply hanging_vowel.
  - right. right. right. exact G.
Qed.

Lemma plain_nest ext pre post : (ext = true -> no_hanging (pre ++ post)) -> no_marked_flag (pre ++ post) ->
  word_boundary pre post = true -> grapheme_boundary ext pre post = true.
Proof.
  intros H F B. destruct (rules_nest ext pre post B) as [G|[(E & p & z & -> & Z)|[(E & y & q & -> & Y)|[(p & r & marks & rs & -> & I1 & I2 & I3 & _) _]]]].
  - exact G.
  - exfalso. specialize (H E). unfold no_hanging in H. rewrite Forall_forall in H. apply (proj2 (H z ltac:(rewrite <- app_assoc; apply in_or_app; right; left; reflexivity))). exact Z.
  - exfalso. specialize (H E). unfold no_hanging in H. rewrite Forall_forall in H. apply (proj1 (H y ltac:(apply in_or_app; right; left; reflexivity))). exact Y.
  - exfalso. destruct marks as [|m marks]; [contradiction|]. inversion I3 as [|? ? I4 _]; subst.
    apply (F p r m ((marks ++ rs) ++ post)); [|exact I1|exact I4]. rewrite <- app_assoc. reflexivity.
Qed.

Lemma no_marked_glued s : no_marked_flag s -> no_glued_flag s.
Proof.
  intros F pre z x post E Z X C.
  assert (NR : is_in [WB_RegionalIndicator] (word_break z) = false) by (rewrite Z; reflexivity).
  assert (K : hd_error (kl (map word_break (pre ++ [z]))) = Some WB_RegionalIndicator).
  { unfold class_before in C. fold (kl (map word_break (pre ++ [z]))) in C. destruct (kl (map word_break (pre ++ [z]))) as [|k l]; [discriminate C|].
    cbn [firstn] in C. injection C as ->. reflexivity. }
  destruct (flag_end word_break pre z NR) as [H|(p & r & marks & H & I1 & I2 & I3)].
  - destruct (kl (map word_break (pre ++ [z]))) as [|k l]; [discriminate K|]. injection K as ->. discriminate H.
  - destruct marks as [|m marks]; [contradiction|]. inversion I3 as [|? ? I4 _]; subst.
    apply (F p r m (marks ++ x :: post)); [|exact I1|exact I4].
    change (z :: x :: post) with ([z] ++ x :: post). rewrite app_assoc, H, <- app_assoc. reflexivity.
Qed.

(** ** Cutting twice *)
Section Twice.
  Variable inner : str -> list str -> Prop.
  Hypothesis inner_cut : forall s a b, inner s (a ++ b) -> inner (concat a) a /\ inner (concat b) b.
  Hypothesis inner_pieces : forall s qs, inner s qs -> concat qs = s /\ Forall (fun p => p <> []) qs.

  Lemma prefix_pieces (a b c d : list str) : a ++ b = c ++ d -> Forall (fun p => p <> []) (a ++ b) ->
    (exists x, concat c = concat a ++ x) -> exists m, c = a ++ m /\ b = m ++ d.
  Proof.
    intros E N [x H]. destruct (app_split _ _ _ _ E) as [(m & E1 & E2)|(m & E1 & E2)]; [exists m; auto|].
    subst a. rewrite concat_app, <- app_assoc in H. assert (L : concat m ++ x = []).
    { apply (f_equal (@length _)) in H. rewrite !app_length in H. destruct (concat m ++ x) eqn:EX; [reflexivity|].
      apply (f_equal (@length _)) in EX. rewrite app_length in EX. cbn [length] in EX. lia. }
    apply app_eq_nil in L as [L _]. destruct m as [|p m]; [exists (@nil str); rewrite !app_nil_r in *; cbn [app] in *; auto|].
    exfalso. apply Forall_app in N as [N _]. apply Forall_app in N as [_ N]. inversion N as [|? ? N1 _]; subst. cbn in L. apply app_eq_nil in L as [L _]. contradiction.
  Qed.

  Lemma twice ps : forall s qs, concat ps = s -> inner s qs ->
    (forall l r, ps = l ++ r -> exists a b, qs = a ++ b /\ concat l = concat a) -> exists qss, Forall2 inner ps qss /\ concat qss = qs.
  Proof.
    induction ps as [|p ps IH]; intros s qs E Q C.
    - exists []. split; [constructor|]. destruct (inner_pieces _ _ Q) as [E1 N]. cbn in E. subst s. destruct qs as [|q qs]; [reflexivity|].
      inversion N as [|? ? N1 _]; subst. cbn in E1. apply app_eq_nil in E1 as [E1 _]. contradiction.
    - destruct (C [p] ps eq_refl) as (a & b & EQ & EP). cbn [concat] in EP. rewrite app_nil_r in EP. subst qs. pose proof (inner_pieces _ _ Q) as [E1 N].
      destruct (inner_cut _ _ _ Q) as [Q1 Q2]. rewrite <- EP in Q1.
      assert (EB : concat b = concat ps).
      { rewrite concat_app, <- EP, <- E in E1. cbn [concat] in E1. now apply app_inv_head in E1. }
      destruct (IH (concat b) b (eq_sym EB) Q2) as (qss & F & EC).
      + intros l r EL. destruct (C (p :: l) r) as (a' & b' & E2 & E3); [rewrite EL; reflexivity|].
        destruct (prefix_pieces a b a' b' E2 N) as (m & -> & ->).
        { rewrite <- E3, <- EP. cbn [concat]. eauto. }
        exists m, b'. split; [reflexivity|]. rewrite concat_app, <- EP in E3. cbn [concat] in E3. now apply app_inv_head in E3.
      + exists (a :: qss). split; [constructor; assumption|]. cbn [concat]. rewrite EC. reflexivity.
  Qed.
End Twice.

Lemma clusters_pieces ext s qs : clusters ext s qs -> concat qs = s /\ Forall (fun p => p <> []) qs.
Proof. intros H. apply graphemes_iff in H as (E & N & _). auto. Qed.
Lemma words_fwd_pieces s qs : words_fwd s qs -> concat qs = s /\ Forall (fun p => p <> []) qs.
Proof.
  intros H. destruct (words_lossless s) as (ps & H1 & H2 & H3). unfold words_fwd in H. rewrite H in H1. injection H1 as H1. apply indexed_inj in H1. subst ps. auto.
Qed.
Lemma words_bwd_pieces s qs : words_bwd s qs -> concat qs = s /\ Forall (fun p => p <> []) qs.
Proof.
  intros H. destruct (words_lossless_rev s) as (ps & H1 & H2 & H3). unfold words_bwd in H. rewrite H in H1. injection H1 as H1.
  apply (f_equal (@rev _)) in H1. rewrite !rev_involutive in H1. apply indexed_inj in H1. subst ps. auto.
Qed.

(** clusters under any cutting at cluster boundaries *)
Lemma clusters_twice ext ps s qs : concat ps = s -> clusters ext s qs ->
  (forall l r, ps = l ++ r -> grapheme_boundary ext (concat l) (concat r) = true) -> exists qss, Forall2 (clusters ext) ps qss /\ concat qss = qs.
Proof.
  intros E Q H. apply (twice (clusters ext) (fun s a b => graphemes_cut ext s a b) (clusters_pieces ext) ps s qs E Q).
  intros l r EL. apply graphemes_iff in Q as (_ & _ & Q). destruct (proj1 (Q (concat l) (concat r) ltac:(rewrite <- E, EL, concat_app; reflexivity)) (H l r EL)) as (a & b & E1 & E2).
  eauto.
Qed.

Lemma clusters_in_words ext s : (ext = true -> no_hanging s) -> no_marked_flag s -> refines words_fwd (clusters ext) s.
Proof.
  intros H F ps qs W Q. pose proof (words_fwd_pieces _ _ W) as [E _]. apply (clusters_twice ext ps s qs E Q).
  intros l r ->. rewrite concat_app in E. apply plain_nest; [rewrite E; exact H|rewrite E; exact F|]. exact (word_cuts s l r (no_marked_glued s F) W).
Qed.
Lemma clusters_in_words_back ext s : (ext = true -> no_hanging s) -> no_marked_flag s -> no_zwj_base_modifier s -> refines words_bwd (clusters ext) s.
Proof.
  intros H F Z ps qs W Q. pose proof (words_bwd_pieces _ _ W) as [E _]. apply (clusters_twice ext ps s qs E Q).
  intros l r EL. destruct (words_backward s Z) as (ps' & SG & W'). unfold words_bwd in W. rewrite W in W'. injection W' as W'.
  apply (f_equal (@rev _)) in W'. rewrite !rev_involutive in W'. apply indexed_inj in W'. subst ps'.
  rewrite EL, concat_app in E. apply plain_nest; [rewrite E; exact H|rewrite E; exact F|]. destruct SG as (_ & _ & SG). apply (SG _ _ (eq_sym E)). eauto.
Qed.

(** ** Paragraphs *)
Lemma separator_entries : forallb (fun e : N * N * BidiClass => match snd e with BC_ParagraphSeparator => 
    existsb (fun r : N * N => (fst r <=? fst (fst e))%N && (snd (fst e) <=? snd r)%N) [(10, 10); (13, 13); (0x1C, 0x1E); (0x85, 0x85); (0x2029, 0x2029)]%N | _ => true end)
  (entries BIDI_CLASS_TABLE) = true.
Proof. vm_cast_no_check (eq_refl true). Qed.
Lemma separators c : bidi_class c = cB -> (c = 10 \/ c = 13 \/ (0x1C <= c <= 0x1E) \/ c = 0x85 \/ c = 0x2029)%N.
Proof.
  rewrite bidi_lookup. destruct (lookup BIDI_CLASS_TABLE c) as [v|] eqn:E; [|discriminate]. intros ->.
  rewrite lookup_scan in E by use_wf. apply scan_some in E as (e & He & (C1 & C2) & Hv).
  pose proof (proj1 (forallb_forall _ _) separator_entries e He) as H. cbv beta in H. rewrite Hv in H. cbn [existsb fst snd] in H. lia.
Qed.
Lemma lf_entries : forallb (fun e : N * N * WordBreak => match snd e with WB_LF => (fst (fst e) =? 10)%N && (snd (fst e) =? 10)%N | _ => true end)
  (entries WORD_BREAK) = true.
Proof. vm_cast_no_check (eq_refl true). Qed.
Lemma lf_char c : word_break c = WB_LF -> c = 10%N.
Proof.
  unfold word_break. rewrite lookup_or_lookup by use_wf.
  destruct (lookup WORD_BREAK c) as [v|] eqn:E; [|discriminate]. intros ->.
  rewrite lookup_scan in E by use_wf. apply scan_some in E as (e & He & (C1 & C2) & Hv).
  pose proof (proj1 (forallb_forall _ _) lf_entries e He) as H. cbv beta in H. rewrite Hv in H. lia.
Qed.
Lemma linked_cr g w : linked g w = true -> g = GCB_CR -> w = WB_CR.
Proof. intros H ->. destruct w; try discriminate H; reflexivity. Qed.
Lemma linked_lf g w : linked g w = true -> g = GCB_LF -> w = WB_LF.
Proof. intros H ->. destruct w; try discriminate H; reflexivity. Qed.

Lemma gb_after_control ext z P y A : ctl_g z = true -> (z = GCB_CR -> y <> GCB_LF) -> gb_boundary ext (z :: P) (y :: A) = true.
Proof. intros H C. unfold gb_boundary, first_rule, gb_rules. destruct z; try discriminate H; destruct y; try reflexivity. contradiction (C eq_refl eq_refl). Qed.

Lemma separator_cluster ext p z post : bidi_class z = cB -> ~ line_end (p ++ [z]) post -> grapheme_boundary ext (p ++ [z]) post = true.
Proof.
  intros B L. unfold grapheme_boundary. rewrite map_app, rev_app_distr. cbn [map rev app]. destruct post as [|y q]; [reflexivity|]. cbn [map].
  apply gb_after_control; [exact (separator_control z B)|]. intros H1 H2. apply L. exists p, q.
  apply (linked_cr _ _ (link z)) in H1. apply (linked_lf _ _ (link y)) in H2. apply lf_char in H2. apply cr_char in H1. subst z y. auto.
Qed.

Lemma separator_words : forallb (fun c => nl (fwb c)) [10; 13; 0x85; 0x2029]%N && forallb (fun c => WB_eqb (fwb c) WB_Other) [0x1C; 0x1D; 0x1E]%N = true.
Proof. vm_cast_no_check (eq_refl true). Qed.
Lemma separator_classes c : bidi_class c = cB -> nl (word_break c) = true \/ (0x1C <= c <= 0x1E)%N /\ word_break c = WB_Other.
Proof.
  intros H. rewrite <- fwb_ok. pose proof separator_words as W. apply andb_true_iff in W as [W1 W2]. rewrite forallb_forall in W1, W2.
  assert (D : In c [10; 13; 0x85; 0x2029]%N \/ (0x1C <= c <= 0x1E)%N /\ In c [0x1C; 0x1D; 0x1E]%N).
  { apply separators in H. cbn [In]. lia. }
  destruct D as [D|[D1 D2]]; [left; exact (W1 c D)|right]. split; [exact D1|]. apply WB_eqb_true. exact (W2 c D2).
Qed.
Lemma ignored_ig c : ig (word_break c) = true -> ignored c.
Proof. unfold ignored. generalize (word_break c). intros w. destruct w; try discriminate; cbn; auto. Qed.
Lemma separator_word p z post : bidi_class z = cB -> ~ line_end (p ++ [z]) post -> ~ marked_separator (p ++ [z]) post -> word_boundary (p ++ [z]) post = true.
Proof.
  intros B L M. unfold word_boundary. rewrite map_app. cbn [map]. destruct (separator_classes z B) as [H|[H1 H2]].
  - apply (bnd_after_nl _ _ _ H). intros H1. destruct post as [|y q]; [discriminate|]. cbn [map hd_error]. intros H2. injection H2 as H2.
    apply L. exists p, q. apply lf_char in H2. apply cr_char in H1. subst z y. auto.
  - destruct post as [|y q]; [apply bnd_end|]. cbn [map]. fold (bnd (map word_break p ++ [word_break z]) (word_break y :: map word_break q)).
    rewrite bnd_eq by (rewrite fresh_snoc, H2; reflexivity). rewrite lastc_snoc, H2. cbn [any is_in existsb WB_eqb andb orb].
    destruct (nl (word_break y)); [reflexivity|]. change (WB_eqb WB_Other WB_ZWJ) with false. cbn [orb andb].
    destruct (ig (word_break y)) eqn:I; [|rewrite kl_cons_snoc by reflexivity; apply free_left; reflexivity].
    exfalso. apply M. exists p, z, y, q. split; [reflexivity|]. split; [reflexivity|]. split; [exact H1|]. now apply ignored_ig.
Qed.

Lemma paragraph_edge s ps l r : paragraphs_of s ps -> ps = l ++ r -> l = [] \/ r = [] \/ exists p z, concat l = p ++ [z] /\ bidi_class z = cB.
Proof.
  intros (_ & _ & _ & H) E. destruct l as [|p l _] using rev_ind; [auto|]. destruct r as [|q r]; [auto|]. right. right.
  destruct (H l p (q :: r)) as (a & c & -> & C); [rewrite E, <- app_assoc; reflexivity|discriminate|].
  exists (concat l ++ a), c. split; [|exact C]. rewrite concat_app. cbn [concat]. rewrite app_nil_r, app_assoc. reflexivity.
Qed.

Lemma clusters_in_paragraphs ext s : no_line_end s -> refines paragraphs_of (clusters ext) s.
Proof.
  intros L ps qs P Q. pose proof P as (E & _). apply (clusters_twice ext ps s qs E Q).
  intros l r EL. destruct (paragraph_edge s ps l r P EL) as [->|[->|(p & z & EP & B)]].
  - reflexivity.
  - cbn [concat]. unfold grapheme_boundary. destruct (rev _); reflexivity.
  - rewrite EP. apply separator_cluster; [exact B|]. apply L. rewrite <- EP, <- concat_app, <- EL. symmetry. exact E.
Qed.
Lemma words_in_paragraphs s : no_line_end s -> no_marked_separator s -> no_double_modifier s -> glue_alone s -> refines paragraphs_of words_fwd s.
Proof.
  intros L M T1 T2 ps qs P Q. pose proof P as (E & _).
  apply (twice words_fwd words_cut words_fwd_pieces ps s qs E Q).
  intros l r EL. destruct (words_forward s T1 T2) as (qs' & (_ & _ & SG) & W). unfold words_fwd in Q. rewrite Q in W. injection W as W. apply indexed_inj in W. subst qs'.
  assert (ES : s = concat l ++ concat r) by (rewrite <- concat_app, <- EL; symmetry; exact E).
  destruct (proj1 (SG (concat l) (concat r) ES)) as (a & b & E1 & E2); [|eauto].
  destruct (paragraph_edge s ps l r P EL) as [->|[->|(p & z & EP & B)]]; [reflexivity|apply wbd_end|].
  rewrite EP in *. apply separator_word; [exact B|apply L; exact ES|apply M; exact ES].
Qed.
Lemma words_in_paragraphs_back s : no_line_end s -> no_marked_separator s -> no_zwj_base_modifier s -> refines paragraphs_of words_bwd s.
Proof.
  intros L M T ps qs P Q. pose proof P as (E & _).
  apply (twice words_bwd words_rev_cut words_bwd_pieces ps s qs E Q).
  intros l r EL. destruct (words_backward s T) as (qs' & (_ & _ & SG) & W). unfold words_bwd in Q. rewrite Q in W. injection W as W.
  apply (f_equal (@rev _)) in W. rewrite !rev_involutive in W. apply indexed_inj in W. subst qs'.
  assert (ES : s = concat l ++ concat r) by (rewrite <- concat_app, <- EL; symmetry; exact E).
  destruct (proj1 (SG (concat l) (concat r) ES)) as (a & b & E1 & E2); [|eauto].
  destruct (paragraph_edge s ps l r P EL) as [->|[->|(p & z & EP & B)]]; [reflexivity|apply wbd_end|].
  rewrite EP in *. apply separator_word; [exact B|apply L; exact ES|apply M; exact ES].
Qed.

(** ** Where it fails *)
Lemma not_refined (outer inner : str -> list str -> Prop) s p1 p2 qs : (forall s qs, inner s qs -> concat qs = s) ->
  outer s [p1; p2] -> inner s qs -> (forall a b, qs = a ++ b -> concat a <> p1) -> ~ refines outer inner s.
Proof.
  intros C O I H R. destruct (R _ _ O I) as (qss & F & E). inversion F as [|? a ? r F1 F2]; subst. inversion F2 as [|? b ? r' F3 F4]; subst. inversion F4; subst.
  apply (H a (b ++ [])); [reflexivity|]. exact (C _ _ F1).
Qed.
Lemma split1 {A} (x : A) a b : [x] = a ++ b -> a = [] \/ a = [x].
Proof. destruct a as [|y [|z a]]; cbn; intros H; [auto|injection H as -> _; auto|discriminate H]. Qed.
Lemma split2 {A} (x y : A) a b : [x; y] = a ++ b -> a = [] \/ a = [x] \/ a = [x; y].
Proof.
  destruct a as [|u [|v [|w a]]]; cbn; intros H; [auto|injection H as -> _; auto|injection H as -> -> _; auto|discriminate H].
Qed.
Lemma one_piece x y a b : [[x; y]] = a ++ b -> concat a <> [x : N].
Proof. intros H. apply split1 in H as [->| ->]; cbn; discriminate. Qed.

Lemma pair_no_flag x y : fwb x <> WB_RegionalIndicator -> no_marked_flag [x; y].
Proof.
  intros H p r m q E I. exfalso. apply H. rewrite fwb_ok. destruct p as [|? [|? p]]; cbn in E; [injection E as -> _ _; exact I|discriminate E|].
  injection E as _ _ E. destruct p; discriminate E.
Qed.
Lemma vowel_cut : exists s, no_marked_flag s /\ ~ refines words_fwd (clusters true) s /\ ~ refines words_bwd (clusters true) s.
Proof.
  exists [0x0E01; 0x0E33]%N. split; [apply pair_no_flag; vm_compute; discriminate|].
  split; eapply (not_refined _ _ _ [0x0E01%N] [0x0E33%N] [[0x0E01; 0x0E33]%N]);
    try (intros; now apply (clusters_pieces true)); try (vm_compute; reflexivity); apply one_piece.
Qed.
Lemma sign_cut : exists s, no_marked_flag s /\ ~ In 0x0E33%N s /\ ~ In 0x0EB3%N s /\ ~ refines words_fwd (clusters true) s /\ ~ refines words_bwd (clusters true) s.
Proof.
  exists [0x0600; 0x20]%N. split; [apply pair_no_flag; vm_compute; discriminate|]. split; [cbn [In]; lia|]. split; [cbn [In]; lia|].
  split; eapply (not_refined _ _ _ [0x0600%N] [0x20%N] [[0x0600; 0x20]%N]);
    try (intros; now apply (clusters_pieces true)); try (vm_compute; reflexivity); apply one_piece.
Qed.
Lemma flag_cut ext : exists s, no_hanging s /\ ~ refines words_fwd (clusters ext) s /\ ~ refines words_bwd (clusters ext) s.
Proof.
  exists [0x1F1FA; 0x301; 0x1F1FA; 0x1F1F8]%N. split.
  - assert (H : forall c, sara_am c \/ prepended c -> ~ In c [0x1F1FA; 0x301; 0x1F1F8]%N).
    { intros c [[->| ->]|P]; [cbn [In]; lia|cbn [In]; lia|]. unfold prepended in P. rewrite <- fgcb_ok in P.
      intros [<-|[<-|[<-|[]]]]; vm_compute in P; discriminate P. }
    unfold no_hanging. rewrite Forall_forall. intros c Hc. assert (Hc2 : In c [0x1F1FA; 0x301; 0x1F1F8]%N) by (cbn [In] in *; lia).
    split; intros P; eapply H; eauto.
  - split; eapply (not_refined _ _ _ [0x1F1FA; 0x301; 0x1F1FA]%N [0x1F1F8%N] [[0x1F1FA; 0x301]; [0x1F1FA; 0x1F1F8]]%N);
      try (intros; now apply (clusters_pieces ext)); try (destruct ext; vm_compute; reflexivity); try (vm_compute; reflexivity);
      intros a b E; apply split2 in E as [->|[->| ->]]; cbn; discriminate.
Qed.
Lemma glued_cut : exists s ps qs, word_bound_indices s = Ret (Some (indexed 0 (ps ++ qs))) /\ word_boundary (concat ps) (concat qs) = false.
Proof.
  exists [0x1F1FA; 0x200D; 0x2764; 0x1F1FA; 0x1F1F8]%N, [[0x1F1FA; 0x200D; 0x2764; 0x1F1FA]%N], [[0x1F1F8]%N].
  split; vm_compute; reflexivity.
Qed.

Lemma two_paragraphs x y : bidi_class x = cB -> paragraphs_of [x; y] [[x]; [y]].
Proof.
  intros B. split; [reflexivity|]. split; [intros p [<-|[<-|[]]]; discriminate|]. split.
  - intros p a c b [<-|[<-|[]]] E _; destruct a as [|? [|? ?]]; try discriminate E; injection E as _ E; auto.
  - intros front p rest E N. destruct front as [|f front].
    + injection E as <- _. exists [], x. auto.
    + exfalso. destruct front as [|g front]; [injection E as _ _ E; subst rest; contradiction|]. destruct front; discriminate E.
Qed.
Lemma line_end_cut : exists s, no_marked_separator s /\ (forall ext, ~ refines paragraphs_of (clusters ext) s) /\
  ~ refines paragraphs_of words_fwd s /\ ~ refines paragraphs_of words_bwd s.
Proof.
  assert (P : paragraphs_of [13; 10]%N [[13]; [10]]%N) by (apply two_paragraphs; vm_compute; reflexivity).
  exists [13; 10]%N. split.
  - intros pre post E (p & x & y & q & -> & -> & X & _). destruct p as [|? [|? p]]; cbn in E; [injection E as <- _ _; lia|injection E as _ <- E; discriminate E|].
    injection E as _ _ E. destruct p; discriminate E.
  - split; [|split]; intros; eapply (not_refined _ _ _ [13%N] [10%N] [[13; 10]%N]); try exact P; try apply one_piece.
    + intros; now apply (clusters_pieces ext).
    + destruct ext; vm_compute; reflexivity.
    + intros; now apply words_fwd_pieces.
    + vm_compute; reflexivity.
    + intros; now apply words_bwd_pieces.
    + vm_compute; reflexivity.
Qed.
Lemma separator_cut : exists s, no_line_end s /\ ~ refines paragraphs_of words_fwd s /\ ~ refines paragraphs_of words_bwd s.
Proof.
  assert (P : paragraphs_of [0x1C; 0x301]%N [[0x1C]; [0x301]]%N) by (apply two_paragraphs; vm_compute; reflexivity).
  exists [0x1C; 0x301]%N. split.
  - intros pre post E (p & q & -> & ->). destruct p as [|? [|? p]]; cbn in E; try discriminate E. injection E as _ _ E. destruct p; discriminate E.
  - split; eapply (not_refined _ _ _ [0x1C%N] [0x301%N] [[0x1C; 0x301]%N]); try exact P; try apply one_piece.
    + intros; now apply words_fwd_pieces.
    + vm_compute; reflexivity.
    + intros; now apply words_bwd_pieces.
    + vm_compute; reflexivity.
Qed.

(** What the tables say about the break classes and bidi classes of a
    character and of its canonical decomposition. *)
From Coq Require Import List NArith ZArith Lia Bool ZifyBool ZifyN.
From Verif Require Import Base RangeModel TableModel TableSpec TableProofs TableLemmas TableTypes Enums TablesNormal TablesSegment TablesWords TablesBidi
  UcdModel UcdProofs UcdLemmas TablePiecewise TableTree HangulModel HangulSpec HangulProofs
  NormSpec NormModel NormTables NormBubble EnumFacts PieceTables.
Import ListNotations.
Open Scope N_scope.

Definition bidi_tree := tree_of (entries BIDI_CLASS_TABLE).
Definition fbidi (c : N) := match tree_find bidi_tree c with Some v => v | None => BC_LeftToRight end.
Lemma bidi_tree_complete : tree_complete (entries BIDI_CLASS_TABLE) = true.
Proof. vm_cast_no_check (eq_refl true). Qed.
Lemma bidi_lookup c : bidi_class c = match lookup BIDI_CLASS_TABLE c with Some v => v | None => BC_LeftToRight end.
Proof. unfold bidi_class. rewrite lookup_or_lookup by use_wf. reflexivity. Qed.
Lemma fbidi_ok c : fbidi c = bidi_class c.
Proof.
  rewrite bidi_lookup. unfold fbidi, bidi_tree.
  rewrite (tree_lookup BIDI_CLASS_TABLE c wf_BIDI_CLASS_TABLE bidi_tree_complete). reflexivity.
Qed.

(** ** Shapes of decompositions *)
Definition is_extend (g : GraphemeClusterBreak) : bool := match g with GCB_Extend => true | _ => false end.
Definition shape_g (g : GraphemeClusterBreak) (l : list GraphemeClusterBreak) : bool :=
  match l with
  | [] => false
  | x :: r => forallb hangs_g r &&
      match g with
      | GCB_Other => match x with GCB_Other => true | _ => false end
      | GCB_Extend => forallb is_extend l
      | GCB_SpacingMark => hangs_g x
      | _ => false
      end
  end.
Definition shape_w (w : WordBreak) (l : list WordBreak) : bool :=
  match w with WB_ZWJ | WB_CR | WB_LF | WB_Newline => false | _ => true end &&
  match l with [] => false | x :: r => WB_eqb x w && forallb hangs_w r end.
Definition is_nsm (b : BidiClass) : bool := match b with BC_NonspacingMark => true | _ => false end.
Definition is_l (b : BidiClass) : bool := match b with BC_LeftToRight => true | _ => false end.
Definition shape_b (b : BidiClass) (l : list BidiClass) : bool :=
  match l with [] => false | x :: r => BC_eqb x b && forallb is_nsm r end
  || (is_l b && forallb (fun x => is_nsm x || is_l x) l && existsb is_l l).

Section Shapes.
  Variable g : N -> GraphemeClusterBreak.
  Variable w : N -> WordBreak.
  Variable b : N -> BidiClass.
  Variable dec : bool -> N -> list N.
  Definition shapes (c : N) : bool :=
    shape_g (g c) (map g (dec false c)) && shape_w (w c) (map w (dec false c)) && shape_b (b c) (map b (dec false c)).
  Variable g' : N -> GraphemeClusterBreak.
  Variable w' : N -> WordBreak.
  Variable b' : N -> BidiClass.
  Variable dec' : bool -> N -> list N.
  Hypothesis Hg : forall c, g c = g' c.
  Hypothesis Hw : forall c, w c = w' c.
  Hypothesis Hb : forall c, b c = b' c.
  Hypothesis Hd : forall k c, dec k c = dec' k c.
  Lemma shapes_facts c : shapes c = true ->
    shape_g (g' c) (map g' (dec' false c)) = true /\ shape_w (w' c) (map w' (dec' false c)) = true /\ shape_b (b' c) (map b' (dec' false c)) = true.
  Proof.
    unfold shapes. rewrite Hd, Hg, Hw, Hb, (map_ext _ _ Hg), (map_ext _ _ Hw), (map_ext _ _ Hb). intros H.
    apply andb_true_iff in H as [H H3]. apply andb_true_iff in H as [H1 H2]. auto.
  Qed.
End Shapes.
Definition shapes_ok (c : N) : bool := shapes fgcb fwb fbidi (decg fcanon fcompat) c.
Lemma shapes_check : check_entries (entries CANONICAL_DECOMPOSITION_MAPPING) (fun c _ => shapes_ok c) = true.
Proof. vm_cast_no_check (eq_refl true). Qed.
Definition shaped (c : N) : Prop :=
  shape_g (grapheme_cluster_break c) (map grapheme_cluster_break (decompose false c)) = true /\
  shape_w (word_break c) (map word_break (decompose false c)) = true /\
  shape_b (bidi_class c) (map bidi_class (decompose false c)) = true.
Lemma shapes_sound c : shapes_ok c = true -> shaped c.
Proof.
  exact (shapes_facts fgcb fwb fbidi (decg fcanon fcompat) grapheme_cluster_break word_break bidi_class decompose
    fgcb_ok fwb_ok fbidi_ok (decg_decompose _ _ fcanon_ok fcompat_ok) c).
Qed.

Lemma canonical_cases c : decompose false c = [c] \/ is_syllable c = true \/ shaped c.
Proof.
  destruct (is_syllable c) eqn:Es; [auto|].
  destruct (canonical_decomposition c) as [l|] eqn:Ec.
  - right. right. apply shapes_sound. exact (check_entries_sound _ _ c l wf_CANONICAL_DECOMPOSITION_MAPPING shapes_check Ec).
  - left. apply decompose_stable. split; [assumption|]. split; [assumption|discriminate].
Qed.

(** ** Syllables *)
Definition is_lvt (e : N * N * GraphemeClusterBreak) : bool := match snd e with GCB_LVT => true | _ => false end.
Definition range_eqb (e f : N * N * GraphemeClusterBreak) : bool := (fst (fst e) =? fst (fst f)) && (snd (fst e) =? snd (fst f)).
Fixpoint all2 {A} (f : A -> A -> bool) (l m : list A) : bool :=
  match l, m with [], [] => true | x :: l, y :: m => f x y && all2 f l m | _, _ => false end.
Definition lvt_ranges : list (N * N * GraphemeClusterBreak) :=
  map (fun n => (0xAC01 + 28 * N.of_nat n, 0xAC1B + 28 * N.of_nat n, GCB_LVT)) (seq 0 399).
Lemma lvt_check : all2 range_eqb (filter is_lvt (entries GRAPHEME_CLUSTER_BREAK)) lvt_ranges = true.
Proof. vm_cast_no_check (eq_refl true). Qed.
Lemma all2_in {A} (f : A -> A -> bool) l : forall m, all2 f l m = true -> forall y, In y m -> exists x, In x l /\ f x y = true.
Proof.
  induction l as [|x l IH]; intros [|y m] H; try discriminate; [intros ? []|]. cbn in H. apply andb_true_iff in H as [H1 H2].
  intros z [<-|Hz]; [exists x; split; [now left|assumption]|]. destruct (IH m H2 z Hz) as (t & T1 & T2). exists t. split; [now right|assumption].
Qed.
Lemma gcb_lvt l v t : valid_block l v t -> t <> 0 -> grapheme_cluster_break (block l v t) = GCB_LVT.
Proof.
  intros (Hl & Hv & Ht) Nt. set (n := l * 21 + v).
  destruct (all2_in _ _ _ lvt_check (0xAC01 + 28 * n, 0xAC1B + 28 * n, GCB_LVT)) as (e & He & R).
  { unfold lvt_ranges. apply in_map_iff. exists (N.to_nat n). rewrite N2Nat.id. split; [reflexivity|]. apply in_seq. unfold n. lia. }
  apply filter_In in He as [He V]. unfold range_eqb in R. cbn [fst snd] in R.
  rewrite gcb_lookup, lookup_scan by use_wf.
  destruct (scan (entries GRAPHEME_CLUSTER_BREAK) (block l v t)) as [x|] eqn:Sc.
  - apply scan_some in Sc as (e' & He' & Hc & <-).
    rewrite (entries_disjoint GRAPHEME_CLUSTER_BREAK e' e (block l v t) wf_GRAPHEME_CLUSTER_BREAK He' He Hc) by (split; unfold block, n in *; lia).
    unfold is_lvt in V. destruct (snd e); try discriminate. reflexivity.
  - exfalso. apply (scan_none _ _ Sc e He). split; unfold block, n in *; lia.
Qed.

Lemma jamo_l : constant_on BC_eqb (entries BIDI_CLASS_TABLE) 0x1100 0x11C2 BC_LeftToRight = true.
Proof. vm_cast_no_check (eq_refl true). Qed.
Lemma syllable_l : constant_on BC_eqb (entries BIDI_CLASS_TABLE) 0xAC00 0xD7A3 BC_LeftToRight = true.
Proof. vm_cast_no_check (eq_refl true). Qed.

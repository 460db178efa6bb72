(** How much longer or shorter normalization makes a text. *)
From Coq Require Import List NArith ZArith Lia Bool ZifyBool ZifyN Permutation Relations.
From Verif Require Import Base RangeModel TableModel TableSpec TableProofs TableLemmas TableTypes TablesNormal
  UcdModel UcdSpec UcdProofs UcdLemmas TablePiecewise TableTree HangulModel HangulSpec HangulProofs
  NormSpec NormModel NormTables NormOrder NormBubble NormIter NormRecomp NormAlgebra NormLemmas NormFillerSpec NormFiller IdentProofs TextModel SizeSpec.
Import ListNotations.
Open Scope N_scope.

Lemma width_pos m c : 1 <= width m c.
Proof. destruct m; cbn [width]; repeat destruct (_ <? _); lia. Qed.
Lemma size_app m s t : size m (s ++ t) = size m s + size m t.
Proof. induction s as [|c s IH]; [reflexivity|]. cbn [app size]. rewrite IH. lia. Qed.
Lemma size_perm m s t : Permutation s t -> size m s = size m t.
Proof. intros H. induction H; cbn [size]; lia. Qed.

(** ** The decomposition of a character *)
Definition fits (k : bool) (m : measure) (c : N) (l : list N) : bool :=
  (size m l <=? growth k m * width m c) && (width m c <=? shrinkage k m * size m l).
Definition fits_all (k : bool) (c : N) : bool :=
  let l := decg fcanon fcompat k c in fits k characters c l && fits k bytes_utf8 c l && fits k units_utf16 c l.
Lemma fits_canon : check_entries (entries CANONICAL_DECOMPOSITION_MAPPING) (fun c _ => fits_all false c && fits_all true c) = true.
Proof. vm_cast_no_check (eq_refl true). Qed.
Lemma fits_compat : check_entries (entries COMPATIBILITY_DECOMPOSITION_MAPPING) (fun c _ => fits_all true c) = true.
Proof. vm_cast_no_check (eq_refl true). Qed.
Lemma fits_all_sound k c m : fits_all k c = true -> fits k m c (decompose k c) = true.
Proof.
  unfold fits_all. cbv zeta. rewrite (decg_decompose _ _ fcanon_ok fcompat_ok). intros H.
  apply andb_true_iff in H as [H H3]. apply andb_true_iff in H as [H1 H2]. now destruct m.
Qed.
Lemma fits_self k m c : fits k m c [c] = true.
Proof. unfold fits. cbn [size]. pose proof (width_pos m c). destruct k, m; cbn [growth shrinkage]; lia. Qed.

Lemma width_hangul m x : 0x1100 <= x <= 0xFFFF -> width m x = match m with bytes_utf8 => 3 | _ => 1 end.
Proof.
  intros Hx. destruct m; cbn [width]; [reflexivity| |].
  - destruct (x <? 0x80) eqn:E1; [lia|]. destruct (x <? 0x800) eqn:E2; [lia|]. destruct (x <? 0x10000) eqn:E3; [reflexivity|lia].
  - destruct (x <? 0x10000) eqn:E3; [reflexivity|lia].
Qed.
Lemma decompose_fits k m c : fits k m c (decompose k c) = true.
Proof.
  destruct (is_syllable c) eqn:Es.
  - assert (0xAC00 <= c <= 0xD7A3) as R by (unfold is_syllable in Es; hconsts; lia).
    apply block_cover in Es as (l & v & t & Hb & E). rewrite E, decompose_block_eq by assumption. rewrite E in R. destruct Hb as (Hl & Hv & Ht).
    pose proof (width_hangul m) as W.
    unfold fits, jamo_of. rewrite (W (block l v t)) by lia.
    assert (width m (leading l) = match m with bytes_utf8 => 3 | _ => 1 end) as J1 by (apply W; unfold leading; lia).
    assert (width m (vowel v) = match m with bytes_utf8 => 3 | _ => 1 end) as J2 by (apply W; unfold vowel; lia).
    assert (width m (trailing t) = match m with bytes_utf8 => 3 | _ => 1 end) as J3 by (apply W; unfold trailing; lia).
    destruct t; cbn [size]; rewrite J1, J2, ?J3; destruct k, m; reflexivity.
  - destruct (canonical_decomposition c) as [l|] eqn:Ec.
    + pose proof (check_entries_sound _ _ c l wf_CANONICAL_DECOMPOSITION_MAPPING fits_canon Ec) as H. cbv beta in H.
      apply andb_true_iff in H as [H1 H2]. apply fits_all_sound. now destruct k.
    + destruct k; [destruct (compatibility_decomposition c) as [l|] eqn:Ek|].
      * unfold compatibility_decomposition in Ek.
        destruct (lookup COMPATIBILITY_DECOMPOSITION_MAPPING c) as [[ty l']|] eqn:El; [|exact (False_ind _ (eq_ind None (fun o => match o with None => True | Some _ => False end) I _ Ek))].
        apply fits_all_sound. exact (check_entries_sound _ _ c (ty, l') wf_COMPATIBILITY_DECOMPOSITION_MAPPING fits_compat El).
      * rewrite decompose_stable; [apply fits_self|]. split; [assumption|]. auto.
      * rewrite decompose_stable; [apply fits_self|]. split; [assumption|]. split; [assumption|discriminate].
Qed.

(** ** The decomposed forms *)
Lemma form_size k m s a : form k s = Some a ->
  size m a <= growth k m * size m s /\ size m s <= shrinkage k m * size m a.
Proof.
  intros H. destruct (form_preserves k s a H) as (l & Hl & Q & _). apply decomposes_all_iff in Hl. subst l.
  rewrite <- (size_perm m _ _ Q). clear H Q a. induction s as [|c s [I1 I2]]; [cbn; lia|]. cbn [flat_map size]. rewrite size_app.
  pose proof (decompose_fits k m c) as F. unfold fits in F. apply andb_true_iff in F as [F1 F2]. lia.
Qed.

(** ** Composition *)
Definition pair_fits (c : N) (l : list N) : bool :=
  match l with
  | [a; b] => forallb (fun m => width m c <=? width m a + width m b) [characters; bytes_utf8; units_utf16]
  | _ => true
  end.
Lemma pair_check : check_entries (entries CANONICAL_DECOMPOSITION_MAPPING) pair_fits = true.
Proof. vm_cast_no_check (eq_refl true). Qed.
Lemma compose_fits m a b r : compose a b = Some r -> width m r <= width m a + width m b.
Proof.
  intros H. apply compose_exact in H as [[H|(H & _)]|(l & v & Hl & Hv & -> & -> & ->)].
  - assert (forall x y z, valid_block x y z -> 0x1100 <= block x y z <= 0xFFFF) as B
      by (intros x y z (Hx & Hy & Hz); unfold block; lia).
    destruct H as [l v Hl Hv|l v t Hb Ht].
    + rewrite (width_hangul m (block l v 0)) by (apply B; repeat split; lia).
      rewrite (width_hangul m (leading l)) by (unfold leading; lia). lia.
    + rewrite !width_hangul; [lia| | |]; [|apply B; destruct Hb as (? & ? & ?); repeat split; lia|now apply B].
      destruct Hb as (? & ? & ?). unfold trailing. lia.
  - unfold canonical_mapping in H. rewrite <- lookup_scan in H by apply wf_CANONICAL_DECOMPOSITION_MAPPING.
    pose proof (check_entries_sound _ _ r [a; b] wf_CANONICAL_DECOMPOSITION_MAPPING pair_check H) as F.
    unfold pair_fits in F. rewrite forallb_forall in F. specialize (F m).
    enough (width m r <=? width m a + width m b = true) by lia. apply F. destruct m; cbn [In]; auto.
  - pose proof (width_pos m 0x11A7). lia.
Qed.

Notation step := (compose_step ccc compose).
Lemma step_size m p c : size m (step p c) <= size m p + width m c.
Proof.
  unfold compose_step. destruct (last_starter ccc p) as [[[a x] q]|] eqn:E; [|rewrite size_app; cbn [size]; lia].
  apply last_starter_split in E. destruct (blocked ccc q c); [rewrite size_app; cbn [size]; lia|].
  destruct (compose x c) as [r|] eqn:Ec; [|rewrite size_app; cbn [size]; lia].
  pose proof (compose_fits m x c r Ec). rewrite E, !size_app. cbn [size]. lia.
Qed.
Lemma steps_size m l : forall p, size m (fold_left step l p) <= size m p + size m l.
Proof.
  induction l as [|c l IH]; intros p; cbn [fold_left size]; [lia|].
  pose proof (IH (step p c)). pose proof (step_size m p c). lia.
Qed.
Lemma C_size k m s : size m (C k s) <= size m (D k s).
Proof. rewrite C_spec. unfold canonical_composition_of. pose proof (steps_size m (D k s) []) as H. cbn [size] in H. lia. Qed.
Lemma cform_form k m s d a : form k s = Some d -> cform k s = Some a -> size m a <= size m d.
Proof. rewrite form_eq, cform_eq. intros [= <-] [= <-]. apply C_size. Qed.
Lemma cform_size k m s a : cform k s = Some a -> size m a <= growth k m * size m s.
Proof.
  intros H. pose proof (form_eq k s) as F. pose proof (cform_form k m s _ a F H). pose proof (proj1 (form_size k m s _ F)). lia.
Qed.

(** ** Composed texts have at most three characters for one *)
Definition narrow (m : measure) : bool := match m with bytes_utf8 => false | _ => true end.
Definition narrow_pair (c : N) (l : list N) : bool :=
  match l with [a; b] => (width units_utf16 c <=? width units_utf16 a) | _ => true end.
Lemma narrow_check : check_entries (entries CANONICAL_DECOMPOSITION_MAPPING) narrow_pair = true.
Proof. vm_cast_no_check (eq_refl true). Qed.
Lemma compose_narrow m a b r : narrow m = true -> compose a b = Some r -> width m r <= width m a.
Proof.
  intros Hm H. destruct m; [cbn; lia|exact (False_ind _ (diff_false_true Hm))|].
  apply compose_exact in H as [[H|(H & _)]|(l & v & Hl & Hv & -> & -> & ->)]; [| |lia].
  - pose proof (width_pos units_utf16 a).
    destruct H as [l v Hl Hv|l v t (Hl & Hv & Ht) _]; rewrite width_hangul by (unfold block; lia); lia.
  - unfold canonical_mapping in H. rewrite <- lookup_scan in H by apply wf_CANONICAL_DECOMPOSITION_MAPPING.
    pose proof (check_entries_sound _ _ r [a; b] wf_CANONICAL_DECOMPOSITION_MAPPING narrow_check H) as F.
    unfold narrow_pair in F. lia.
Qed.

Definition isSome {A} (o : option A) : bool := match o with Some _ => true | None => false end.
Definition meets (cls : N -> N) (l : list N) : bool :=
  match l with
  | [x; y; z; u] => (cls x =? 0) && (cls y <=? cls z) && (cls z <=? cls u) && isSome (compose x y) &&
                    (width units_utf16 x =? 1) && (width units_utf16 y =? 1) && (width units_utf16 z =? 1) && (width units_utf16 u =? 1)
  | _ => false
  end.
Definition led (cls : N -> N) (l : list N) : bool := match l with x :: _ => cls x =? 0 | [] => false end.
Definition three (cls : N -> N) (m : measure) (c : N) (l : list N) : bool :=
  ((size m l <=? 3 * width m c) || ((size m l <=? 3 * width m c + 1) && meets cls l)) && (led cls l || (size m l <=? 2 * width m c)).
Definition three_ok (c : N) : bool :=
  let l := decg fcanon fcompat false c in three (cccg fccc) characters c l && three (cccg fccc) units_utf16 c l.
Lemma three_check : check_entries (entries CANONICAL_DECOMPOSITION_MAPPING) (fun c _ => three_ok c) = true.
Proof. vm_cast_no_check (eq_refl true). Qed.
Lemma led_ext f g l : (forall c, f c = g c) -> led f l = led g l.
Proof. intros E. destruct l; [reflexivity|]. cbn [led]. now rewrite E. Qed.
Lemma meets_ext f g l : (forall c, f c = g c) -> meets f l = meets g l.
Proof. intros E. destruct l as [|x [|y [|z [|u [|]]]]]; try reflexivity. cbn [meets]. now rewrite !E. Qed.
Lemma three_ext f g m c l : (forall c, f c = g c) -> three f m c l = three g m c l.
Proof. intros E. unfold three. now rewrite (led_ext f g l E), (meets_ext f g l E). Qed.

Lemma decompose_three m c : narrow m = true -> three ccc m c (decompose false c) = true.
Proof.
  intros Hm. destruct (is_syllable c) eqn:Es.
  - assert (0xAC00 <= c <= 0xD7A3) as R by (unfold is_syllable in Es; hconsts; lia).
    pose proof (width_hangul m c ltac:(lia)) as Wc.
    apply block_cover in Es as (l & v & t & Hb & E). rewrite E, decompose_block_eq by assumption. rewrite E in Wc. destruct Hb as (Hl & Hv & Ht).
    assert (width m (leading l) = 1) as J1 by (rewrite width_hangul by (unfold leading; lia); now destruct m).
    assert (width m (vowel v) = 1) as J2 by (rewrite width_hangul by (unfold vowel; lia); now destruct m).
    assert (width m (trailing t) = 1) as J3 by (rewrite width_hangul by (unfold trailing; lia); now destruct m).
    assert (width m (block l v t) = 1) as J4 by (rewrite Wc; now destruct m).
    assert (ccc (leading l) = 0) as J5 by (apply ccc_jamo; unfold leading; lia).
    unfold three. rewrite J4. apply andb_true_iff. split.
    + apply orb_true_iff. left. unfold jamo_of. destruct t; cbn [size]; rewrite J1, J2, ?J3; reflexivity.
    + apply orb_true_iff. left. unfold jamo_of. destruct t; cbn [led]; rewrite J5; reflexivity.
  - destruct (canonical_decomposition c) as [l|] eqn:Ec.
    + pose proof (check_entries_sound _ _ c l wf_CANONICAL_DECOMPOSITION_MAPPING three_check Ec) as H. cbv beta in H.
      unfold three_ok in H. cbv zeta in H. rewrite (decg_decompose _ _ fcanon_ok fcompat_ok) in H.
      rewrite !(three_ext (cccg fccc) ccc _ _ _ fccc_ok) in H. apply andb_true_iff in H as [H1 H2]. destruct m; [assumption| |assumption].
      exact (False_ind _ (diff_false_true Hm)).
    + rewrite decompose_stable; [|split; [assumption|]; split; [assumption|discriminate]].
      unfold three. cbn [size]. pose proof (width_pos m c). apply andb_true_iff. split; apply orb_true_iff; [left|right]; lia.
Qed.

Definition leads (c : N) : bool := led ccc (decompose false c).
Lemma split_lead : forall s, Forall (fun c => leads c = false) s \/
  exists x c t, s = x ++ c :: t /\ leads c = true /\ Forall (fun c => leads c = false) t.
Proof.
  induction s as [|c s [IH|(x & d & t & -> & Hd & Ht)]]; [left; constructor| |].
  - destruct (leads c) eqn:E; [right; exists [], c, s; auto|left; now constructor].
  - right. exists (c :: x), d, t. auto.
Qed.
Lemma D_size m s : size m (D false s) = size m (flat_map (decompose false) s).
Proof. symmetry. apply size_perm, order_perm. Qed.
Lemma unled_size m t : narrow m = true -> Forall (fun c => leads c = false) t -> size m (flat_map (decompose false) t) <= 2 * size m t.
Proof.
  intros Hm H. induction H as [|c t Hc Ht IH]; [cbn; lia|]. cbn [flat_map size]. rewrite size_app.
  pose proof (decompose_three m c Hm) as F. unfold three in F. fold (leads c) in F. rewrite Hc in F. cbn [orb] in F.
  apply andb_true_iff in F as [_ F]. lia.
Qed.
Lemma last_starter_end p x : ccc x = 0 -> last_starter ccc (p ++ [x]) = Some (p, x, []).
Proof.
  intros H. induction p as [|y p IH]; cbn [app last_starter]; [now rewrite H|now rewrite IH].
Qed.
Lemma step_narrow m p x : narrow m = true -> step p x = p ++ [x] \/ size m (step p x) <= size m p.
Proof.
  intros Hm. unfold compose_step. destruct (last_starter ccc p) as [[[a y] q]|] eqn:E; [|now left].
  apply last_starter_split in E. destruct (blocked ccc q x); [now left|].
  destruct (compose y x) as [r|] eqn:Ec; [|now left]. right.
  pose proof (compose_narrow m y x r Hm Ec). rewrite E, !size_app. cbn [size]. lia.
Qed.
Lemma meets_size m l p : narrow m = true -> meets ccc l = true -> order ccc l = l /\ size m (fold_left step l p) <= size m p + 3.
Proof.
  intros Hm H. destruct l as [|x [|y [|z [|u [|]]]]]; try exact (False_ind _ (diff_false_true H)). cbn [meets] in H.
  repeat (apply andb_true_iff in H as [H ?]).
  assert (forall c, width units_utf16 c =? 1 = true -> width m c = 1) as W.
  { intros c Hc. destruct m; [reflexivity|exact (False_ind _ (diff_false_true Hm))|now apply N.eqb_eq]. }
  split.
  - apply order_fixed. cbn [ordered]. unfold reord. repeat split; lia.
  - cbn [fold_left].
    assert (size m (step (step p x) y) <= size m p + 1) as K.
    { destruct (step_narrow m p x Hm) as [E|E].
      - rewrite E. unfold compose_step. rewrite last_starter_end by lia. cbn [blocked existsb].
        destruct (compose x y) as [r|] eqn:Ec; [|exact (False_ind _ (diff_false_true ltac:(eassumption)))].
        pose proof (compose_narrow m x y r Hm Ec) as Hr. rewrite (W x) in Hr by assumption. rewrite size_app. cbn [size]. lia.
      - pose proof (step_size m (step p x) y) as Ky. rewrite (W y) in Ky by assumption. lia. }
    pose proof (step_size m (step (step p x) y) z) as Kz. rewrite (W z) in Kz by assumption.
    pose proof (step_size m (step (step (step p x) y) z) u) as Ku. rewrite (W u) in Ku by assumption. lia.
Qed.
Lemma composed_size m : narrow m = true -> forall n s p, (length s <= n)%nat ->
  size m (fold_left step (D false s) p) <= size m p + 3 * size m s.
Proof.
  intros Hm. induction n as [|n IH]; intros s p Hn.
  { destruct s; [cbn; lia|cbn in Hn; lia]. }
  destruct (split_lead s) as [H|(x & c & t & -> & Hc & Ht)].
  - pose proof (steps_size m (D false s) p) as S1. rewrite D_size in S1. pose proof (unled_size m s Hm H). lia.
  - rewrite D_app_starter.
    2:{ unfold leads, led in Hc. destruct (decompose false c); [exact (diff_false_true Hc)|now apply N.eqb_eq]. }
    rewrite fold_left_app. rewrite app_length in Hn. cbn [length] in Hn.
    pose proof (IH x p ltac:(lia)) as Ix. rewrite size_app. cbn [size].
    set (q := fold_left step (D false x) p) in *.
    pose proof (decompose_three m c Hm) as F. unfold three in F. apply andb_true_iff in F as [F _].
    pose proof (steps_size m (D false (c :: t)) q) as S1. rewrite D_size in S1. cbn [flat_map] in S1. rewrite size_app in S1.
    pose proof (unled_size m t Hm Ht) as U.
    apply orb_true_iff in F as [F|F]; [lia|]. apply andb_true_iff in F as [F1 F2].
    destruct t as [|d t].
    + cbn [size]. destruct (meets_size m _ q Hm F2) as [O M]. unfold D. cbn [flat_map]. rewrite app_nil_r, O.
      pose proof (width_pos m c). lia.
    + assert (1 <= size m (d :: t)) by (cbn [size]; pose proof (width_pos m d); lia). lia.
Qed.
Lemma nfc_size m s a : nfc s = Some a -> size m a <= 3 * size m s.
Proof.
  intros H. destruct (narrow m) eqn:Hm.
  - rewrite nfc_eq in H. injection H as <-. rewrite C_spec. unfold canonical_composition_of.
    pose proof (composed_size m Hm (length s) s [] (le_n _)) as K. cbn [size] in K. lia.
  - pose proof (cform_size false m s a H) as K. destruct m; try exact (False_ind _ (diff_true_false Hm)). exact K.
Qed.

(** ** Shrinking *)
Lemma fillers_vanish n : nfc (0xAC00 :: repeat 0x11A7 n) = Some [0xAC00].
Proof.
  induction n as [|n IH]; [vm_compute; reflexivity|].
  assert (0xAC00 :: repeat 0x11A7 (S n) = (0xAC00 :: repeat 0x11A7 n) ++ [0x11A7]) as ->.
  { cbn [app]. f_equal. change [0x11A7] with (repeat 0x11A7 1). rewrite <- repeat_app. f_equal. lia. }
  assert (nfc [0x11A7] = Some [0x11A7]) as T by (vm_compute; reflexivity).
  rewrite <- (nfc_concat_all _ _ _ _ IH T). vm_compute. reflexivity.
Qed.

(** Each character of the decomposition accounts for what it may have come from. *)
Definition vz (z : bool) (k : bool) (m : measure) (x : N) : N :=
  match m with
  | characters => 1
  | bytes_utf8 => if z then (if k then 4 else (if 0x3400 <=? x then 4 else N.max 3 (width bytes_utf8 x))) else width bytes_utf8 x
  | units_utf16 => if k then if z && negb ((0x900 <=? x) && (x <=? 0x11FF)) then 2 else width units_utf16 x
                   else if 0x3400 <=? x then 2 else 1
  end.
Definition vsum (cls : N -> N) (k : bool) (m : measure) (l : list N) : N := fold_right (fun x n => vz (cls x =? 0) k m x + n) 0 l.
Lemma vsum_app cls k m l l' : vsum cls k m (l ++ l') = vsum cls k m l + vsum cls k m l'.
Proof. induction l as [|x l IH]; [reflexivity|]. cbn [app vsum fold_right]. fold (vsum cls k m (l ++ l')). fold (vsum cls k m l). rewrite IH. lia. Qed.
Lemma vsum_perm cls k m l l' : Permutation l l' -> vsum cls k m l = vsum cls k m l'.
Proof.
  intros H. induction H as [|x l l' H IH|x y l|l l' l'' H1 IH1 H2 IH2]; [reflexivity| | |congruence]; unfold vsum in *; cbn [fold_right]; lia.
Qed.
Lemma vsum_ext f g k m l : (forall c, f c = g c) -> vsum f k m l = vsum g k m l.
Proof. intros E. induction l as [|x l IH]; [reflexivity|]. unfold vsum in *. cbn [fold_right]. now rewrite E, IH. Qed.
Lemma vz_bounds z k m x : width m x <= vz z k m x /\ at_most (vz z k m x) (shrinkage_composed k m) (width m x).
Proof.
  destruct m; unfold vz.
  - cbn [width]. destruct k; unfold at_most; cbn [shrinkage_composed fst snd]; lia.
  - pose proof (width_pos bytes_utf8 x) as P. assert (width bytes_utf8 x <= 4) as Q by (cbn [width]; repeat destruct (_ <? _); lia).
    assert (0x3400 <=? x = true -> 3 <= width bytes_utf8 x) as T by (intros T; rewrite N.leb_le in T; cbn [width]; destruct (x <? 0x80) eqn:?; [lia|]; destruct (x <? 0x800) eqn:?; [lia|]; destruct (x <? 0x10000); lia).
    generalize dependent (width bytes_utf8 x). intros w P Q T. destruct z, k; try (destruct (0x3400 <=? x); [specialize (T eq_refl)|clear T]); unfold at_most; cbn [shrinkage_composed fst snd]; lia.
  - cbn [width]. destruct k, z; unfold at_most; cbn [andb shrinkage_composed fst snd]; destruct (x <? 0x10000) eqn:?; destruct (0x3400 <=? x) eqn:?; try destruct (negb _); lia.
Qed.

Definition before (cls : N -> N) (k : bool) (m : measure) (c : N) (l : list N) : bool := width m c <=? vsum cls k m l.
Definition after (cls : N -> N) (k : bool) (m : measure) (c : N) (l : list N) : bool := snd (shrinkage_composed k m) * vsum cls k m l <=? fst (shrinkage_composed k m) * width m c.
Definition all3 (P : measure -> bool) : bool := P characters && P bytes_utf8 && P units_utf16.
Lemma all3_sound P m : all3 P = true -> P m = true.
Proof. unfold all3. intros H. apply andb_true_iff in H as [H H3]. apply andb_true_iff in H as [H1 H2]. now destruct m. Qed.
Definition before_ok (k : bool) (c : N) : bool :=
  let l := decg fcanon fcompat k c in all3 (fun m => before (cccg fccc) k m c l).
Definition after_ok (c : N) : bool :=
  let l := decg fcanon fcompat false c in all3 (fun m => after (cccg fccc) false m c l) && all3 (fun m => after (cccg fccc) true m c l).
Lemma shares_canon : check_entries (entries CANONICAL_DECOMPOSITION_MAPPING) (fun c _ => before_ok false c && before_ok true c && after_ok c) = true.
Proof. vm_cast_no_check (eq_refl true). Qed.
Lemma shares_compat : check_entries (entries COMPATIBILITY_DECOMPOSITION_MAPPING) (fun c _ => before_ok true c) = true.
Proof. vm_cast_no_check (eq_refl true). Qed.
Lemma before_sound k m c : before_ok k c = true -> before ccc k m c (decompose k c) = true.
Proof.
  unfold before_ok. cbv zeta. rewrite (decg_decompose _ _ fcanon_ok fcompat_ok). intros H. apply (all3_sound _ m) in H.
  unfold before in *. now rewrite (vsum_ext _ _ _ _ _ fccc_ok) in H.
Qed.
Lemma after_sound k m c : after_ok c = true -> after ccc k m c (decompose false c) = true.
Proof.
  unfold after_ok. cbv zeta. rewrite (decg_decompose _ _ fcanon_ok fcompat_ok). intros H. apply andb_true_iff in H as [H1 H2].
  apply (all3_sound _ m) in H1, H2. unfold after in *.
  rewrite (vsum_ext _ _ _ _ _ fccc_ok) in H1. rewrite (vsum_ext _ _ _ _ _ fccc_ok) in H2. now destruct k.
Qed.
Lemma hangul_shares k k' m c : is_syllable c = true ->
  before ccc k m c (decompose k' c) = true /\ after ccc k m c (decompose k' c) = true.
Proof.
  intros Es. assert (0xAC00 <= c <= 0xD7A3) as R by (unfold is_syllable in Es; hconsts; lia).
  pose proof (width_hangul m c ltac:(lia)) as Wc.
  apply block_cover in Es as (l & v & t & Hb & E). rewrite E, decompose_block_eq by assumption. rewrite E in Wc. destruct Hb as (Hl & Hv & Ht).
  assert (forall x, 0x1100 <= x -> x <= 0x11C2 -> vz (ccc x =? 0) k m x = match m with bytes_utf8 => if k then 4 else 3 | _ => 1 end) as V.
  { intros x H1 H2. rewrite (ccc_jamo x H1 H2). pose proof (width_hangul bytes_utf8 x ltac:(lia)) as W1. pose proof (width_hangul units_utf16 x ltac:(lia)) as W2.
    assert (0x3400 <=? x = false) as W3 by lia. assert ((0x900 <=? x) && (x <=? 0x11FF) = true) as W4 by lia.
    change (0 =? 0) with true. destruct m; unfold vz; [reflexivity|rewrite W1, W3; now destruct k|]. rewrite W2, W3, W4. now destruct k. }
  unfold before, after, vsum, jamo_of. rewrite Wc.
  destruct t; cbn [fold_right]; rewrite !V by (unfold leading, vowel, trailing in *; lia); destruct k, m; split; reflexivity.
Qed.
Lemma self_shares k m c : before ccc k m c [c] = true /\ after ccc k m c [c] = true.
Proof. unfold before, after, vsum. cbn [fold_right]. pose proof (vz_bounds (ccc c =? 0) k m c) as [H1 H2]. rewrite N.add_0_r. split; apply N.leb_le; assumption. Qed.
Lemma decompose_before k m c : before ccc k m c (decompose k c) = true.
Proof.
  destruct (is_syllable c) eqn:Es; [now apply hangul_shares|].
  destruct (canonical_decomposition c) as [l|] eqn:Ec.
  + pose proof (check_entries_sound _ _ c l wf_CANONICAL_DECOMPOSITION_MAPPING shares_canon Ec) as H. cbv beta in H.
    apply andb_true_iff in H as [H _]. apply andb_true_iff in H as [H1 H2]. apply before_sound. now destruct k.
  + destruct k; [destruct (compatibility_decomposition c) as [l|] eqn:Ek|].
    * unfold compatibility_decomposition in Ek.
      destruct (lookup COMPATIBILITY_DECOMPOSITION_MAPPING c) as [[ty l']|] eqn:El; [|exact (False_ind _ (eq_ind None (fun o => match o with None => True | Some _ => False end) I _ Ek))].
      apply before_sound. exact (check_entries_sound _ _ c (ty, l') wf_COMPATIBILITY_DECOMPOSITION_MAPPING shares_compat El).
    * rewrite decompose_stable; [apply self_shares|]. split; [assumption|]. auto.
    * rewrite decompose_stable; [apply self_shares|]. split; [assumption|]. split; [assumption|discriminate].
Qed.
Lemma decompose_after k m c : after ccc k m c (decompose false c) = true.
Proof.
  destruct (is_syllable c) eqn:Es; [now apply hangul_shares|].
  destruct (canonical_decomposition c) as [l|] eqn:Ec.
  + pose proof (check_entries_sound _ _ c l wf_CANONICAL_DECOMPOSITION_MAPPING shares_canon Ec) as H. cbv beta in H.
    apply andb_true_iff in H as [_ H]. now apply after_sound.
  + rewrite decompose_stable; [apply self_shares|]. split; [assumption|]. split; [assumption|discriminate].
Qed.
Lemma vsum_before k m s : size m s <= vsum ccc k m (D k s).
Proof.
  unfold D. rewrite <- (vsum_perm _ k m _ _ (order_perm ccc _)). induction s as [|c s IH]; [cbn; lia|].
  cbn [flat_map size]. rewrite vsum_app. pose proof (decompose_before k m c) as H. unfold before in H. lia.
Qed.
Lemma vsum_after k m s : at_most (vsum ccc k m (D false s)) (shrinkage_composed k m) (size m s).
Proof.
  unfold D, at_most. rewrite <- (vsum_perm _ k m _ _ (order_perm ccc _)). induction s as [|c s IH].
  { cbn [flat_map vsum fold_right size]. lia. }
  cbn [flat_map size]. rewrite vsum_app. pose proof (decompose_after k m c) as H. unfold after in H. apply N.leb_le in H.
  rewrite !N.mul_add_distr_l. now apply N.add_le_mono.
Qed.
Lemma D_false_C k s : no_filler (D k s) -> D false (C k s) = D k s.
Proof.
  intros H. apply no_filler_strip in H. destruct k; [|now rewrite D_C_strip].
  assert (C true s = C false (D true s)) as -> by (unfold C; now rewrite D_canon_compat).
  rewrite D_C_strip, D_canon_compat. exact H.
Qed.
Lemma cform_shrink k m s d a : form k s = Some d -> cform k s = Some a -> no_filler d ->
  at_most (size m s) (shrinkage_composed k m) (size m a).
Proof.
  rewrite form_eq, cform_eq. intros [= <-] [= <-] H. pose proof (vsum_before k m s) as B. pose proof (vsum_after k m (C k s)) as A.
  rewrite (D_false_C k s H) in A. unfold at_most in *. etransitivity; [|exact A]. now apply N.mul_le_mono_l.
Qed.

Lemma size_characters s : size characters s = N.of_nat (length s).
Proof. induction s as [|c s IH]; [reflexivity|]. cbn [size width length]. rewrite IH. lia. Qed.
Lemma size_bytes s : size bytes_utf8 s = str_bytes s.
Proof. induction s as [|c s IH]; [reflexivity|]. cbn [size]. rewrite IH. reflexivity. Qed.
Lemma size_units s : size units_utf16 s = N.of_nat (length (flat_map encode_utf16 s)).
Proof.
  induction s as [|c s IH]; [reflexivity|]. cbn [size width flat_map]. rewrite app_length, IH. unfold encode_utf16.
  destruct (c <? 0x10000); cbn [length]; lia.
Qed.
Lemma nfc_vanishes m q : exists s a, wf_str s /\ nfc s = Some a /\ q * size m a < size m s.
Proof.
  exists (0xAC00 :: repeat 0x11A7 (N.to_nat (3 * q))), [0xAC00]. split; [|split; [apply fillers_vanish|]].
  - constructor; [unfold scalar; lia|]. apply Forall_forall. intros c H. apply repeat_spec in H. subst c. unfold scalar. lia.
  - cbn [size]. assert (forall n, N.of_nat n <= size m (repeat 0x11A7 n)) as L.
    { induction n as [|n IH]; [cbn; lia|]. cbn [repeat size]. pose proof (width_pos m 0x11A7). lia. }
    specialize (L (N.to_nat (3 * q))). pose proof (width_pos m 0xAC00).
    assert (width m 0xAC00 <= 3) by (rewrite width_hangul by lia; destruct m; lia). rewrite N.add_0_r.
    assert (q * width m 0xAC00 <= q * 3) by now apply N.mul_le_mono_l. lia.
Qed.
Lemma growth_tight m :
  (exists s a, s <> [] /\ nfd s = Some a /\ size m a = growth false m * size m s) /\
  (exists s a, s <> [] /\ nfkd s = Some a /\ size m a = growth true m * size m s) /\
  (exists s a, s <> [] /\ nfc s = Some a /\ size m a = growth_composed false m * size m s) /\
  (exists s a, s <> [] /\ nfkc s = Some a /\ size m a = growth_composed true m * size m s).
Proof.
  assert (forall (f : str -> option str) s g, s <> [] -> match f s with Some a => size m a =? g * size m s | None => false end = true ->
    exists s a, s <> [] /\ f s = Some a /\ size m a = g * size m s) as K.
  { intros f s g Hs H. destruct (f s) as [a|] eqn:E; [|exact (False_ind _ (diff_false_true H))]. exists s, a.
    split; [assumption|]. split; [assumption|]. now apply N.eqb_eq. }
  split; [|split; [|split]].
  - apply (K nfd (match m with bytes_utf8 => [0x390] | _ => [0x1F82] end)); destruct m; try (intros H; exact (nil_cons (eq_sym H))); vm_compute; reflexivity.
  - apply (K nfkd [0xFDFA]); [intros H; exact (nil_cons (eq_sym H))|]. destruct m; vm_compute; reflexivity.
  - apply (K nfc (match m with bytes_utf8 => [0x1D160] | _ => [0xFB2C] end)); destruct m; try (intros H; exact (nil_cons (eq_sym H))); vm_compute; reflexivity.
  - apply (K nfkc [0xFDFA]); [intros H; exact (nil_cons (eq_sym H))|]. destruct m; vm_compute; reflexivity.
Qed.
Lemma no_filler_out l : ~ In 0x11A7 l -> no_filler l.
Proof. intros H p a b q _ _ E. apply H. rewrite E. apply in_or_app. right. right. right. now left. Qed.
Lemma shrinkage_tight m :
  (exists s a, s <> [] /\ nfd s = Some a /\ size m s = shrinkage false m * size m a) /\
  (exists s a, s <> [] /\ nfkd s = Some a /\ size m s = shrinkage true m * size m a) /\
  (exists s d a, s <> [] /\ nfd s = Some d /\ no_filler d /\ nfc s = Some a /\
     snd (shrinkage_composed false m) * size m s = fst (shrinkage_composed false m) * size m a) /\
  (exists s d a, s <> [] /\ nfkd s = Some d /\ no_filler d /\ nfkc s = Some a /\
     snd (shrinkage_composed true m) * size m s = fst (shrinkage_composed true m) * size m a).
Proof.
  assert (forall (f : str -> option str) s g, s <> [] -> match f s with Some a => size m s =? g * size m a | None => false end = true ->
    exists s a, s <> [] /\ f s = Some a /\ size m s = g * size m a) as K.
  { intros f s g Hs H. destruct (f s) as [a|] eqn:E; [|exact (False_ind _ (diff_false_true H))]. exists s, a.
    split; [assumption|]. split; [assumption|]. now apply N.eqb_eq. }
  assert (forall (f h : str -> option str) s q, s <> [] ->
    match f s, h s with Some d, Some a => negb (existsb (N.eqb 0x11A7) d) && (snd q * size m s =? fst q * size m a) | _, _ => false end = true ->
    exists s d a, s <> [] /\ f s = Some d /\ no_filler d /\ h s = Some a /\ snd q * size m s = fst q * size m a) as L.
  { intros f h s q Hs H. destruct (f s) as [d|] eqn:E; [|exact (False_ind _ (diff_false_true H))].
    destruct (h s) as [a|] eqn:E'; [|exact (False_ind _ (diff_false_true H))]. exists s, d, a. apply andb_true_iff in H as [H1 H2].
    split; [assumption|]. split; [assumption|]. split; [|split; [assumption|now apply N.eqb_eq]]. apply no_filler_out. intros Hi.
    apply negb_true_iff in H1. assert (existsb (N.eqb 0x11A7) d = true) as H3 by (apply existsb_exists; exists 0x11A7; split; [assumption|apply N.eqb_refl]).
    rewrite H3 in H1. exact (diff_true_false H1). }
  split; [|split; [|split]].
  - apply (K nfd (match m with units_utf16 => [0x2F800] | bytes_utf8 => [0x212A] | _ => [0x41] end));
      destruct m; try (intros H; exact (nil_cons (eq_sym H))); vm_compute; reflexivity.
  - apply (K nfkd (match m with characters => [0x41] | _ => [0x1D400] end)); destruct m; try (intros H; exact (nil_cons (eq_sym H))); vm_compute; reflexivity.
  - apply (L nfd nfc (match m with bytes_utf8 => [0x1FBE; 0x308; 0x301] | _ => [0x3B1; 0x313; 0x300; 0x345] end));
      destruct m; try (intros H; exact (nil_cons (eq_sym H))); vm_compute; reflexivity.
  - apply (L nfkd nfkc (match m with bytes_utf8 => [0x1D400] | units_utf16 => [0x1D6C2; 0x313; 0x300; 0x345] | characters => [0x3B1; 0x313; 0x300; 0x345] end));
      destruct m; try (intros H; exact (nil_cons (eq_sym H))); vm_compute; reflexivity.
Qed.

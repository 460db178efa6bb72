(** Lines of a resolved text: C36, L1 and L2. *)
From Coq Require Import List NArith ZArith Lia Bool Arith Permutation ZifyBool ZifyNat ZifyN.
Import ListNotations.
From Verif Require Import Base Enums EnumFacts UcdModel BidiModel BidiSpec BidiLemmas BidiTables BidiInit BidiExplicit
  BidiWeak BidiSeqs BidiChars BidiPara BidiLtr BidiRules BidiIso BidiOrder.
Open Scope nat_scope.

(** ** Lines at the beginning of the text *)

Lemma bidi_shape t default b : bidi_new t default = Ret b -> exists cc lc pieces,
  length cc = length t /\ length lc = length t /\ fsi_resolved (cls t) cc /\ paragraphs_of t pieces /\
  char_all default pieces cc = Ret lc /\
  b = mkbidi t (expand (map clen t) cc) (expand (map clen t) lc) (mkparas default 0 pieces).
Proof.
  intros H. destruct (bidi_chars t default) as (cc & pieces & L & F & P & E). rewrite E in H.
  destruct (char_all default pieces cc) as [lc|] eqn:EC; [|discriminate]. cbn [obind] in H. injection H as <-.
  exists cc, lc, pieces. pose proof P as (PC & _).
  assert (length lc = length cc) by (eapply char_all_length; [|exact EC]; congruence).
  repeat (split; [assumption || congruence|]). reflexivity.
Qed.

Lemma first_level ws para cs l : (para <= 125)%N -> char_levels ws para cs = Ret l -> cs <> [] ->
  (level_at l 0 <= para + 2)%N.
Proof.
  intros Hp H NE. rewrite char_levels_spec in H by assumption. injection H as <-.
  pose proof (final_classes_length ws para cs) as LF. pose proof (exp_levels_length para cs) as LE.
  destruct cs as [|c cs]; [congruence|]. cbn [length] in *.
  pose proof (exp_level_state para (c :: cs) 0 Hp ltac:(cbn; lia)) as X. unfold class_at in X. cbn [nth] in X.
  assert (S1 : kept c = true -> c = cPDI -> top (ST para (c :: cs) 1) = para).
  { intros _ ->. reflexivity. }
  destruct (final_classes ws para (c :: cs)) as [|f fs]; [discriminate LF|].
  destruct (exp_levels para (c :: cs)) as [|e es]; [discriminate LE|].
  cbn [implicit_levels assign_removed]. unfold level_at in *. cbn [nth] in *.
  rewrite kept_removed. destruct (kept c) eqn:K; cbn [negb]; [|lia].
  assert (E : e = para).
  { rewrite (X eq_refl). destruct c; reflexivity. }
  rewrite E. unfold implicit_level. destruct (N.even para); destruct (is_in _ f); try destruct (is_in _ f); lia.
Qed.

Lemma all_first_level default pieces cc lc : default_ok default 123 ->
  length cc = length (concat pieces) -> (forall p, In p pieces -> p <> []) -> pieces <> [] ->
  char_all default pieces cc = Ret lc -> (level_at lc 0 <= 125)%N.
Proof.
  intros HD HL HN NE H. destruct pieces as [|p rest]; [congruence|]. cbn [char_all concat] in *. rewrite app_length in HL.
  pose proof (plevel_ok default 123 p ltac:(lia) HD) as PO.
  destruct (char_levels _ _ _) as [a|] eqn:E; [|discriminate]. cbn [obind] in H.
  destruct (char_all default rest _) as [r|]; [|discriminate]. cbn [obind] in H. injection H as <-.
  assert (NP : p <> []) by (apply HN; now left).
  assert (LP : length (firstn (length p) cc) = length p) by (rewrite firstn_length; lia).
  pose proof (char_levels_length _ _ _ _ E) as LA. rewrite LP in LA.
  apply first_level in E; [|lia|].
  - unfold level_at in *. rewrite app_nth1; [lia|]. rewrite LA. destruct p; [congruence|cbn; lia].
  - intros X. rewrite X in LP. destruct p; [congruence|discriminate LP].
Qed.

Section Prefix.
  Variables (t : str) (default : option N) (b : bidi_info) (pl : N) (line z : str) (cc : list BidiClass) (lc : list N) (ps : list para).
  Hypothesis Hb : b = mkbidi t (expand (map clen t) cc) (expand (map clen t) lc) ps.
  Hypothesis Ht : t = line ++ z.
  Hypothesis HN : line <> [].
  Hypothesis Hc : length cc = length t.
  Hypothesis Hl : length lc = length t.

  Definition lk : list N := l1c pl true (firstn (length line) cc) (firstn (length line) lc).

  Lemma lk_length : length lk = length line.
  Proof. unfold lk. rewrite l1c_length; rewrite !firstn_length, ?Hc, ?Hl, Ht, app_length; lia. Qed.

  Lemma prefix_levels : l1_loop pl (b_classes b) (map clen line) 0 (b_levels b) (Some 0)
    = expand (map clen t) (lk ++ skipn (length line) lc).
  Proof.
    rewrite Hb. cbn [b_classes b_levels].
    assert (LT : length t = length line + length z) by (rewrite Ht, app_length; lia).
    assert (LL : length (firstn (length line) lc) = length line) by (rewrite firstn_length; lia).
    assert (LC : length (firstn (length line) cc) = length line) by (rewrite firstn_length; lia).
    assert (W : map clen t = map clen line ++ map clen z) by (rewrite Ht; apply map_app).
    rewrite W. rewrite <- (firstn_skipn (length line) cc) at 1. rewrite <- (firstn_skipn (length line) lc) at 1.
    rewrite !expand_app by (rewrite ?lk_length, map_length; auto).
    pose proof (l1_loop_chars pl (expand (map clen line) (firstn (length line) cc) ++ expand (map clen z) (skipn (length line) cc))
      (expand (map clen z) (skipn (length line) lc)) (expand (map clen z) (skipn (length line) cc))
      (firstn (length line) cc) (map clen line) (firstn (length line) lc) [] [] [] [] true) as X.
    cbn [list_sum fold_right Nat.add expand app] in X. rewrite X; auto.
    - now rewrite map_length.
    - now rewrite map_length.
    - apply clens_pos.
  Qed.

  Lemma prefix_agree j : j < slen line ->
    level_at (l1_loop pl (b_classes b) (map clen line) 0 (b_levels b) (Some 0)) (slen [] + j) = level_at (expand (map clen line) lk) j.
  Proof.
    intros Hj. rewrite prefix_levels. assert (W : map clen t = map clen line ++ map clen z) by (rewrite Ht; apply map_app).
    rewrite W, expand_app by (now rewrite lk_length, map_length). unfold level_at. cbn [slen fold_right Nat.add].
    apply app_nth1. rewrite expand_length, <- slen_sum by (now rewrite lk_length, map_length). assumption.
  Qed.
End Prefix.

Lemma l1c_nth p cs : forall pend lv j, length lv = length cs -> j < length cs ->
  kept (class_at cs j) = true ->
  level_at (l1c p pend cs lv) j
  = if is_in [cB; cS] (class_at cs j) || resets (class_at cs j) && reset_here (skipn (S j) cs) then p else level_at lv j.
Proof.
  induction cs as [|c cs IH]; intros pend [|l lv] j HL Hj K; cbn [length] in *; try lia.
  destruct j as [|j].
  - unfold class_at, level_at in *. cbn [nth skipn l1c] in *. rewrite K.
    destruct (is_in [cB; cS] c); [reflexivity|]. cbn [orb]. destruct (resets c); [|reflexivity]. reflexivity.
  - change (class_at (c :: cs) (S j)) with (class_at cs j) in *. change (skipn (S (S j)) (c :: cs)) with (skipn (S j) cs).
    change (level_at (l :: lv) (S j)) with (level_at lv j). cbn [l1c].
    destruct (is_in [cB; cS] c); [|destruct (resets c); [|destruct (kept c)]];
      match goal with |- level_at (?x :: l1c p ?q cs lv) (S j) = _ => change (level_at (l1c p q cs lv) j = 
        (if is_in [cB; cS] (class_at cs j) || resets (class_at cs j) && reset_here (skipn (S j) cs) then p else level_at lv j)); apply IH; auto; lia end.
Qed.

Lemma l1c_first p cs lv : cs <> [] -> length lv = length cs -> (level_at (l1c p true cs lv) 0 <= N.max p (level_at lv 0))%N.
Proof.
  intros NE HL. destruct cs as [|c cs]; [congruence|]. destruct lv as [|l lv]; [discriminate|]. cbn [l1c]. unfold level_at.
  destruct (is_in [cB; cS] c); [|destruct (resets c); [|destruct (kept c)]]; cbn [nth andb]; try destruct (reset_here cs); lia.
Qed.

Lemma offsets_map (f : nat -> N) s : forall i, map f (char_offsets s i) = map (fun k => f (i + off (map clen s) k)) (seq 0 (length s)).
Proof.
  induction s as [|c s IH]; intros i; [reflexivity|]. cbn [char_offsets map length seq]. f_equal.
  - f_equal. unfold off. cbn. lia.
  - rewrite IH, <- seq_shift, map_map. apply map_ext. intros k. f_equal. unfold off. cbn [map firstn].
    change (list_sum (clen c :: firstn k (map clen s))) with (clen c + list_sum (firstn k (map clen s))). lia.
Qed.

Lemma per_char t lc i : length lc = length t -> i = 0 ->
  map (level_at (expand (map clen t) lc)) (char_offsets t i) = lc.
Proof.
  intros HL ->. rewrite offsets_map. apply (nth_ext _ _ 0%N 0%N).
  - now rewrite map_length, seq_length.
  - intros n Hn. rewrite map_length, seq_length in Hn.
    rewrite (nth_indep _ _ (level_at (expand (map clen t) lc) (0 + off (map clen t) 0))) by (now rewrite map_length, seq_length).
    rewrite (map_nth (fun k => level_at (expand (map clen t) lc) (0 + off (map clen t) k))).
    rewrite seq_nth by assumption. cbn [Nat.add]. apply level_expand0; [apply clens_pos|now rewrite map_length|now rewrite map_length].
Qed.

(** C36 *)
Lemma first_line t default b line z pl : default_ok default 123 -> bidi_new t default = Ret b ->
  t = line ++ z -> line <> [] -> (pl <= 125)%N ->
  exists levels runs out,
    visual_runs b pl 0 (slen line) = Ret (levels, runs) /\
    Forall (fun r => fst r < snd r) runs /\ Permutation (seq_indices runs) (seq 0 (slen line)) /\
    reorder_line b pl 0 (slen line) = Ret out /\ Permutation out line.
Proof.
  intros HD HB Ht HN HP. destruct (bidi_shape t default b HB) as (cc & lc & pieces & LC & LL & _ & P & CA & Eb).
  assert (HT : b_text b = [] ++ line ++ z) by (rewrite Eb; exact Ht).
  assert (HLb : length (b_levels b) = slen (b_text b)).
  { rewrite Eb. cbn [b_levels b_text]. rewrite expand_length, <- slen_sum; [reflexivity|now rewrite map_length]. }
  pose proof (prefix_agree t b pl line z cc lc _ Eb Ht LC LL) as PA.
  pose proof (prefix_levels t b pl line z cc lc _ Eb Ht LC LL) as PV.
  pose proof (lk_length t pl line z cc lc Ht LC LL) as LK.
  assert (HLl : length (l1_loop pl (b_classes b) (map clen line) 0 (b_levels b) (Some 0)) = length (b_levels b)).
  { rewrite PV, HLb, Eb. cbn [b_text]. rewrite expand_length, <- slen_sum; [reflexivity|].
    rewrite map_length, app_length, LK, skipn_length, LL, Ht, app_length. lia. }
  destruct (line_visual b pl [] line z (lk pl line cc lc) HT HN HLb HLl LK PA) as (mn & mx & E & B & _).
  assert (NEt : t <> []) by (rewrite Ht; destruct line; [congruence|discriminate]).
  assert (FL : (level_at lc 0 <= 125)%N).
  { eapply all_first_level; [exact HD| | | |exact CA].
    - destruct P as (-> & _). assumption.
    - apply P.
    - intros ->. destruct P as (X & _). apply NEt. symmetry. exact X. }
  assert (PLn : 0 < length line) by (destruct line; [congruence|cbn; lia]).
  assert (M : (mn <= 125)%N).
  { assert (B0 : (mn <= level_at (lk pl line cc lc) 0)%N) by (apply B; lia).
    unfold lk in B0. assert (LF : length (firstn (length line) lc) = length (firstn (length line) cc)) by (rewrite !firstn_length; congruence).
    assert (NF : firstn (length line) cc <> []).
    { intros X. apply (f_equal (@length _)) in X. rewrite firstn_length, LC, Ht, app_length in X. cbn in X. lia. }
    pose proof (l1c_first pl _ _ NF LF) as X.
    assert (Y : level_at (firstn (length line) lc) 0 = level_at lc 0).
    { unfold level_at. destruct (length line); [lia|]. destruct lc; reflexivity. }
    lia. }
  assert (EM : level_lowest_ge_rtl mn = Some (N.lor mn 1)).
  { unfold level_lowest_ge_rtl, level_new, MAX_IMPLICIT_DEPTH, MAX_EXPLICIT_DEPTH. destruct (lor_1 mn) as (_ & L & _).
    destruct (N.leb_spec (N.lor mn 1) 126); [reflexivity|lia]. }
  rewrite EM in E. change (slen [] + slen line) with (slen line) in *. change (slen []) with 0 in *.
  destruct (line_permuted b pl [] line z (lk pl line cc lc) HT HN HLb HLl LK PA _ _ E) as (A1 & A2 & out & A3 & A4).
  do 3 eexists. split; [exact E|]. split; [exact A1|]. split; [exact A2|]. split; [exact A3|exact A4].
Qed.

(** L1 for a line at the beginning of the text *)
Lemma first_line_l1 t default b line z pl : default_ok default 123 -> bidi_new t default = Ret b ->
  t = line ++ z -> line <> [] -> (pl <= 125)%N ->
  exists cc before after,
    fsi_resolved (cls t) cc /\ b_classes b = expand (map clen t) cc /\ b_levels b = expand (map clen t) before /\
    length before = length t /\ reordered_levels_per_char b pl 0 (slen line) = Ret after /\ length after = length t /\
    (forall j, j < length line -> kept (class_at cc j) = true ->
       level_at after j = if is_in [cB; cS] (class_at cc j) ||
                             is_in [cWS; cFSI; cLRI; cRLI; cPDI] (class_at cc j) && reset_here (skipn (S j) (firstn (length line) cc))
                          then pl else level_at before j) /\
    (forall j, length line <= j -> level_at after j = level_at before j).
Proof.
  intros HD HB Ht HN HP. destruct (bidi_shape t default b HB) as (cc & lc & pieces & LC & LL & FR & P & CA & Eb).
  destruct (first_line t default b line z pl HD HB Ht HN HP) as (levels & runs & out & E & _).
  pose proof (prefix_levels t b pl line z cc lc _ Eb Ht LC LL) as PV.
  pose proof (lk_length t pl line z cc lc Ht LC LL) as LK.
  assert (EL : levels = l1_loop pl (b_classes b) (map clen line) 0 (b_levels b) (Some 0)).
  { unfold visual_runs in E. destruct (_ && _); [|discriminate].
    assert (SL : str_slice (b_text b) 0 (slen line) = Ret line) by (rewrite Eb; cbn [b_text]; rewrite Ht; apply (str_slice_app [] line z)).
    rewrite SL in E. cbn [obind] in E. destruct (0 <? _); [|discriminate].
    destruct (vruns_loop _ _ _ _ _ _ _ _) as [[rs mn] mx]. destruct (level_lowest_ge_rtl mn); [|discriminate].
    now injection E as <- _. }
  assert (LA : length (lk pl line cc lc ++ skipn (length line) lc) = length t).
  { rewrite app_length, LK, skipn_length, LL, Ht, app_length. lia. }
  exists cc, lc, (lk pl line cc lc ++ skipn (length line) lc).
  split; [assumption|]. split; [now rewrite Eb|]. split; [now rewrite Eb|]. split; [assumption|]. split.
  - unfold reordered_levels_per_char, reordered_levels. rewrite E. cbn [obind fst]. rewrite EL, PV.
    assert (TT : b_text b = t) by (now rewrite Eb). rewrite TT. f_equal. now apply per_char.
  - split; [assumption|].
    assert (LT : length t = length line + length z) by (rewrite Ht, app_length; reflexivity).
    assert (CF : forall j, j < length line -> class_at (firstn (length line) cc) j = class_at cc j).
    { intros j Hj. unfold class_at. rewrite <- (firstn_skipn (length line) cc) at 2. rewrite app_nth1; [reflexivity|]. rewrite firstn_length. lia. }
    split.
    + intros j Hj K. unfold level_at at 1. rewrite app_nth1 by lia. fold (level_at (lk pl line cc lc) j). unfold lk.
      rewrite l1c_nth.
      * rewrite CF by assumption. fold (resets (class_at cc j)).
        assert (Y : level_at (firstn (length line) lc) j = level_at lc j).
        { unfold level_at. rewrite <- (firstn_skipn (length line) lc) at 2. rewrite app_nth1; [reflexivity|]. rewrite firstn_length. lia. }
        rewrite Y. reflexivity.
      * rewrite !firstn_length. lia.
      * rewrite firstn_length. lia.
      * now rewrite CF.
    + intros j Hj. unfold level_at. rewrite app_nth2, LK by lia.
      rewrite <- (firstn_skipn (length line) lc) at 2.
      rewrite app_nth2 by (rewrite firstn_length; lia). rewrite firstn_length. f_equal. lia.
Qed.

(** L2 for a line whose levels are not changed by L1 *)
Lemma line_rule_l2 t default b a line z pl out : bidi_new t default = Ret b ->
  t = a ++ line ++ z -> line <> [] ->
  reorder_line b pl (slen a) (slen a + slen line) = Ret out ->
  (exists levels, reordered_levels b pl (slen a) (slen a + slen line) = Ret levels /\
     forall i, slen a <= i < slen a + slen line -> level_at levels i = level_at (b_levels b) i) ->
  exists before, b_levels b = expand (map clen t) before /\ length before = length t /\
    out = map fst (l2_rule snd (combine line (firstn (length line) (skipn (length a) before)))).
Proof.
  intros HB Ht HN HR (levels & HL & HS). destruct (bidi_shape t default b HB) as (cc & lc & pieces & LC & LL & FR & P & CA & Eb).
  assert (TT : b_text b = t) by (now rewrite Eb).
  assert (BL : b_levels b = expand (map clen t) lc) by (now rewrite Eb).
  assert (HLb : length (b_levels b) = slen (b_text b)).
  { rewrite TT, BL, expand_length, <- slen_sum; [reflexivity|now rewrite map_length]. }
  assert (SL : str_slice (b_text b) (slen a) (slen a + slen line) = Ret line) by (rewrite TT, Ht; apply str_slice_app).
  assert (EL : levels = l1_loop pl (b_classes b) (map clen line) 0 (b_levels b) (Some 0)).
  { unfold reordered_levels, visual_runs in HL. destruct (_ && _); [|discriminate].
    rewrite SL in HL. cbn [obind] in HL. destruct (slen a <? _); [|discriminate].
    destruct (vruns_loop _ _ _ _ _ _ _ _) as [[rs mn] mx]. destruct (level_lowest_ge_rtl mn); [|discriminate].
    now injection HL as <-. }
  exists lc. split; [assumption|]. split; [assumption|].
  set (lk := firstn (length line) (skipn (length a) lc)).
  assert (LT : length t = length a + (length line + length z)) by (rewrite Ht, !app_length; lia).
  assert (LK : length lk = length line) by (unfold lk; rewrite firstn_length, skipn_length; lia).
  assert (LEQ : lc = firstn (length a) lc ++ lk ++ skipn (length a + length line) lc).
  { unfold lk. rewrite <- (firstn_skipn (length a) lc) at 1. f_equal.
    rewrite <- (firstn_skipn (length line) (skipn (length a) lc)) at 1. f_equal. now rewrite <- skipn_plus. }
  assert (BX : forall j, j < slen line -> level_at (b_levels b) (slen a + j) = level_at (expand (map clen line) lk) j).
  { intros j Hj. rewrite BL. rewrite LEQ at 1. rewrite Ht, !map_app.
    rewrite !expand_app by (rewrite ?map_length, ?firstn_length; lia). unfold level_at.
    assert (LA : length (expand (map clen a) (firstn (length a) lc)) = slen a).
    { rewrite expand_length, <- slen_sum; [reflexivity|]. rewrite map_length, firstn_length. lia. }
    rewrite app_nth2 by lia. rewrite LA. replace (slen a + j - slen a) with j by lia.
    apply app_nth1. rewrite expand_length, <- slen_sum; [assumption|]. now rewrite map_length. }
  apply (line_l2 b pl a line z lk).
  - now rewrite TT.
  - assumption.
  - assumption.
  - clear. generalize 0 as i, (Some 0). generalize (b_levels b). generalize (map clen line) as ws.
    induction ws as [|w ws IH]; intros l i rf; cbn [l1_loop].
    + destruct rf; [apply upds_length|reflexivity].
    + destruct (l1_step _ _ _ _ _ _) as [l' rf'] eqn:E. rewrite IH. rewrite l1_step_class in E.
      destruct (is_in [cB; cS] _); [|destruct (resets _); [|destruct (kept _)]]; injection E as <- <-; try reflexivity. apply upds_length.
  - assumption.
  - intros j Hj. rewrite <- EL, HS by lia. now apply BX.
  - intros j Hj. rewrite BX.
    + apply level_expand0; [apply clens_pos|now rewrite map_length|now rewrite map_length].
    + rewrite slen_sum, <- (off_all (map clen line) (length (map clen line))) by lia. apply off_lt; [apply clens_pos|]. rewrite map_length. lia.
  - assumption.
Qed.

(** A line whose levels are not changed by L1 is permuted *)
Lemma steady_line_permuted t default b a line z pl levels runs : bidi_new t default = Ret b ->
  t = a ++ line ++ z -> line <> [] ->
  visual_runs b pl (slen a) (slen a + slen line) = Ret (levels, runs) ->
  (forall i, slen a <= i < slen a + slen line -> level_at levels i = level_at (b_levels b) i) ->
  Forall (fun r => fst r < snd r) runs /\ Permutation (seq_indices runs) (seq (slen a) (slen line)) /\
  exists out, reorder_line b pl (slen a) (slen a + slen line) = Ret out /\ Permutation out line.
Proof.
  intros HB Ht HN HV HS. destruct (bidi_shape t default b HB) as (cc & lc & pieces & LC & LL & FR & P & CA & Eb).
  assert (TT : b_text b = t) by (now rewrite Eb).
  assert (BL : b_levels b = expand (map clen t) lc) by (now rewrite Eb).
  assert (HLb : length (b_levels b) = slen (b_text b)).
  { rewrite TT, BL, expand_length, <- slen_sum; [reflexivity|now rewrite map_length]. }
  assert (SL : str_slice (b_text b) (slen a) (slen a + slen line) = Ret line) by (rewrite TT, Ht; apply str_slice_app).
  assert (EL : levels = l1_loop pl (b_classes b) (map clen line) 0 (b_levels b) (Some 0)).
  { unfold visual_runs in HV. destruct (_ && _); [|discriminate].
    rewrite SL in HV. cbn [obind] in HV. destruct (slen a <? _); [|discriminate].
    destruct (vruns_loop _ _ _ _ _ _ _ _) as [[rs mn] mx]. destruct (level_lowest_ge_rtl mn); [|discriminate].
    now injection HV as <-. }
  set (lk := firstn (length line) (skipn (length a) lc)).
  assert (LT : length t = length a + (length line + length z)) by (rewrite Ht, !app_length; lia).
  assert (LK : length lk = length line) by (unfold lk; rewrite firstn_length, skipn_length; lia).
  assert (LEQ : lc = firstn (length a) lc ++ lk ++ skipn (length a + length line) lc).
  { unfold lk. rewrite <- (firstn_skipn (length a) lc) at 1. f_equal.
    rewrite <- (firstn_skipn (length line) (skipn (length a) lc)) at 1. f_equal. now rewrite <- skipn_plus. }
  assert (BX : forall j, j < slen line -> level_at (b_levels b) (slen a + j) = level_at (expand (map clen line) lk) j).
  { intros j Hj. rewrite BL. rewrite LEQ at 1. rewrite Ht, !map_app.
    rewrite !expand_app by (rewrite ?map_length, ?firstn_length; lia). unfold level_at.
    assert (LA : length (expand (map clen a) (firstn (length a) lc)) = slen a).
    { rewrite expand_length, <- slen_sum; [reflexivity|]. rewrite map_length, firstn_length. lia. }
    rewrite app_nth2 by lia. rewrite LA. replace (slen a + j - slen a) with j by lia.
    apply app_nth1. rewrite expand_length, <- slen_sum; [assumption|]. now rewrite map_length. }
  assert (LN : forall ws l i rf, length (l1_loop pl (b_classes b) ws i l rf) = length l).
  { clear. induction ws as [|w ws IH]; intros l i rf; cbn [l1_loop].
    + destruct rf; [apply upds_length|reflexivity].
    + destruct (l1_step _ _ _ _ _ _) as [l' rf'] eqn:E. rewrite IH. rewrite l1_step_class in E.
      destruct (is_in [cB; cS] _); [|destruct (resets _); [|destruct (kept _)]]; injection E as <- <-; try reflexivity. apply upds_length. }
  apply (line_permuted b pl a line z lk) with (levels := levels).
  - now rewrite TT.
  - assumption.
  - assumption.
  - apply LN.
  - assumption.
  - intros j Hj. rewrite <- EL, HS by lia. now apply BX.
  - assumption.
Qed.

(** C31 *)
Lemma bidi_paragraphs t default b : bidi_new t default = Ret b -> exists pieces,
  paragraphs_of t pieces /\ map (fun p => (p_start p, p_end p)) (b_paras b) = ranges_from 0 pieces /\
  forall n piece p, nth_error pieces n = Some piece -> nth_error (b_paras b) n = Some p ->
    match default with
    | Some l => p_level p = l
    | None => (p_level p = 1%N <-> first_strong (map bidi_class piece) cR \/ first_strong (map bidi_class piece) cAL) /\
              (p_level p = 0%N <-> ~ (first_strong (map bidi_class piece) cR \/ first_strong (map bidi_class piece) cAL))
    end.
Proof.
  intros H. destruct (bidi_shape t default b H) as (cc & lc & pieces & _ & _ & _ & P & _ & ->).
  exists pieces. split; [assumption|]. cbn [b_paras]. split; [apply mkparas_ranges|].
  intros n piece p Hn Hp. apply mkparas_nth in Hp as (q & Hq & ->). rewrite Hn in Hq. injection Hq as <-.
  destruct default as [l|]; [reflexivity|]. apply auto_level_spec.
Qed.

(** C32 *)
Lemma explicit_rules ws para cs : (para <= 125)%N -> length cs = length ws -> Forall (fun w => 0 < w) ws ->
  exists lv xc, length lv = length cs /\ length xc = length cs /\
    explicit_compute ws para (expand ws cs) (repeat para (length (expand ws cs))) (expand ws cs) = (expand ws lv, expand ws xc) /\
    Forall (fun l => (para <= l <= 125)%N) lv /\
    forall k, k < length cs -> ~ x9 (class_at cs k) ->
      nth_error (x_rules para (x_start para) cs) k = Some (level_at lv k, class_at xc k).
Proof.
  intros Hp HL Hw. set (E := cexp para (cst0 para) cs).
  assert (LE : length E = length cs) by apply cexp_length.
  exists (map fst E), (map snd E). split; [now rewrite map_length|]. split; [now rewrite map_length|].
  split; [now apply explicit_char|]. split.
  { apply Forall_map. apply (cexp_bounds para cs Hp). now apply cst0_ok. }
  pose proof (cexp_rules para cs Hp (cst0 para) (cst0_ok para Hp)) as R. change (xs_of (cst0 para)) with (x_start para) in R. fold E in R.
  revert LE R. generalize (x_rules para (x_start para) cs) as X. generalize E as Y. clear.
  induction cs as [|c cs IH]; intros [|y Y] X HL R k Hk NK; cbn [length] in *; try lia.
  destruct X as [|x X]; cbn [combine] in R; [inversion R|]. inversion R; subst. destruct k as [|k].
  - cbn [nth_error map]. unfold level_at, class_at in *. cbn [nth fst snd] in *. rewrite <- H2 by assumption. now destruct y.
  - cbn [nth_error map]. apply (IH Y X); try assumption; lia.
Qed.

(** C35 *)
Lemma paragraph_sequences ws para cs : (para <= 125)%N -> length cs = length ws -> Forall (fun w => 0 < w) ws ->
  separator_last cs -> isolates_begin_kept cs ->
  exists lv ss,
    fst (explicit_compute ws para (expand ws cs) (repeat para (length (expand ws cs))) (expand ws cs)) = expand ws lv /\
    length lv = length cs /\
    isolating_run_sequences para (expand ws cs) (expand ws lv)
    = map (fun s => mkseq (map (bound ws) (s_runs s)) (s_sos s) (s_eos s)) ss /\
    Forall (fun s => isolating_chain cs (s_runs s) /\
                     (exists l, Forall (fun r => level_at lv (fst r) = l) (s_runs s)) /\
                     sos_eos para cs lv s) ss.
Proof.
  intros Hp HL Hw HS HI. exists (exp_levels para cs), (isolating_run_sequences para cs (exp_levels para cs)).
  split; [now rewrite explicit_char|]. split; [apply exp_levels_length|].
  assert (LE : length (exp_levels para cs) = length cs) by apply exp_levels_length.
  split; [apply byte_sequences; congruence || assumption|].
  pose proof (iso_sequences para cs Hp HS HI) as I. rewrite Forall_forall in *. intros s Hin.
  destruct (I s Hin) as (A & B). split; [exact A|]. split; [exact B|]. apply sequence_borders; [congruence|assumption].
Qed.

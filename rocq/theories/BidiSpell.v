(** Canonically equivalent texts: resolved levels. *)
From Coq Require Import List NArith ZArith Lia Bool ZifyBool ZifyNat ZifyN Relations Permutation.
From Verif Require Import Base RangeModel TableModel TableSpec TableProofs TableLemmas TableTypes Enums EnumFacts TablesNormal TablesBidi TablePiecewise TableTree
  UcdModel UcdProofs UcdLemmas HangulModel HangulSpec HangulProofs
  BidiModel BidiSpec BidiLemmas BidiInit BidiWeak BidiChars BidiPara BidiLine BidiLtr BidiBlocks
  NormSpec NormOrder NormModel NormTables NormBubble NormIter NormRecomp NormAlgebra NormFiller NormPiecesSpec PieceTables NormCut SpellTables SegLemmas NormPieces BidiEquiv BidiSpellSpec.
Import ListNotations.
Open Scope nat_scope.

(** ** FSI *)
Definition fsi_of (rest : list BidiClass) : BidiClass :=
  match snd (scan (isolate_body 0 rest)) with Some cL => cLRI | Some _ => cRLI | None => cFSI end.
Fixpoint rez (cs : list BidiClass) : list BidiClass :=
  match cs with
  | [] => []
  | c :: r => match c with cFSI => fsi_of r | _ => c end :: rez r
  end.
Lemma fsi_resolution_of rest r : fsi_resolution rest r -> r = fsi_of rest.
Proof.
  unfold fsi_of. intros [(H & ->)|[([H|H] & ->)|(H & ->)]].
  - apply scan_iff in H. now rewrite H.
  - apply scan_iff in H. now rewrite H.
  - apply scan_iff in H. now rewrite H.
  - destruct (snd (scan (isolate_body 0 rest))) as [x|] eqn:E; [|reflexivity]. apply scan_iff in E. now apply H in E.
Qed.
Lemma fsi_resolved_rez cs : forall ds, fsi_resolved cs ds -> ds = rez cs.
Proof.
  induction cs as [|c cs IH]; intros [|d ds] (L & H); cbn [length] in L; try lia; [reflexivity|]. cbn [rez]. f_equal.
  - destruct (H [] c cs eq_refl) as (H1 & H2). cbn [length nth_error] in *.
    destruct c; try (specialize (H1 ltac:(discriminate)); congruence).
    destruct (H2 eq_refl) as (r & E & F). apply fsi_resolution_of in F. congruence.
  - apply IH. split; [lia|]. intros pre x post E. destruct (H (c :: pre) x post) as (H1 & H2); [cbn; congruence|]. split; [exact H1|exact H2].
Qed.
Lemma scan_tail c r : Forall (tailc c) r -> forall a d R, plainc c = true ->
  fold_left scan1 (isolate_body d (c :: r ++ R)) a = fold_left scan1 (isolate_body d R) (scan1 a c).
Proof.
  intros T a d R P.
  assert (E : isolate_body d (c :: r ++ R) = c :: isolate_body d (r ++ R)) by (destruct c; try discriminate P; destruct d; reflexivity).
  rewrite E. cbn [fold_left]. clear E. induction T as [|x r T _ IH]; [reflexivity|].
  assert (E : isolate_body d ((x :: r) ++ R) = x :: isolate_body d (r ++ R)).
  { destruct T as [->|[-> [->| ->]]]; destruct d; reflexivity. }
  rewrite E. cbn [fold_left]. rewrite <- IH. f_equal.
  destruct T as [->|[-> [->| ->]]]; [apply scan_nsm|apply scan_l|]. destruct a as [n [y|]]; cbn; [reflexivity|]. destruct n; reflexivity.
Qed.
Lemma body_blocks cs ws bs vs : blocks cs ws bs vs -> forall d a,
  fold_left scan1 (isolate_body d (concat bs)) a = fold_left scan1 (isolate_body d cs) a.
Proof.
  induction 1 as [|c w B W cs ws bs vs H _ IH]; intros d a; [reflexivity|].
  destruct H as (_ & [(w' & -> & _)|(P & r & -> & T)]); cbn [concat app].
  - cbn [isolate_body]. destruct c; try (cbn [fold_left]; apply IH); try reflexivity. destruct d; [reflexivity|cbn [fold_left]; apply IH].
  - rewrite scan_tail by assumption. rewrite IH.
    assert (E : isolate_body d (c :: cs) = c :: isolate_body d cs) by (destruct c; try discriminate P; destruct d; reflexivity).
    rewrite E. reflexivity.
Qed.
Lemma rez_tail c r R : plainc c = true -> Forall (tailc c) r -> rez (r ++ R) = r ++ rez R.
Proof.
  intros P. induction 1 as [|x r T _ IH]; [reflexivity|]. cbn [app rez]. rewrite IH. f_equal.
  destruct T as [->|[-> _]]; [reflexivity|]. destruct c; try discriminate P; reflexivity.
Qed.
Lemma rez_blocks cs ws bs vs : blocks cs ws bs vs -> exists bs', rez (concat bs) = concat bs' /\ lens bs' = lens bs /\ blocks (rez cs) ws bs' vs.
Proof.
  induction 1 as [|c w B W cs ws bs vs H HB (bs' & E1 & E2 & E3)]; [exists []; repeat split; constructor|].
  destruct H as (L & [(w' & -> & -> & S1)|(P & r & -> & T)]).
  - set (x := match c with cFSI => fsi_of cs | _ => c end).
    assert (X : sepc x = true -> sepc c = true).
    { subst x. destruct c; auto. unfold fsi_of. destruct (snd (scan (isolate_body 0 cs))) as [[]|]; discriminate. }
    exists ([x] :: bs'). cbn [concat app rez map length]. rewrite E1, E2.
    assert (F : fsi_of (concat bs) = fsi_of cs).
    { unfold fsi_of, scan. now rewrite (body_blocks _ _ _ _ HB). }
    rewrite F. split; [reflexivity|]. split; [reflexivity|]. constructor; [|assumption]. split; [reflexivity|].
    left. exists w'. split; [reflexivity|]. split; [reflexivity|]. intros Y. exact (S1 (X Y)).
  - exists ((c :: r) :: bs'). cbn [concat app rez map length]. rewrite (rez_tail c), E1, E2 by assumption.
    assert (F : forall l, match c with cFSI => fsi_of l | _ => c end = c) by (intros; destruct c; try discriminate P; reflexivity).
    rewrite !F. split; [reflexivity|]. split; [reflexivity|]. constructor; [|assumption]. split; [assumption|]. right. eauto.
Qed.

(** ** Widths of marks do not matter *)
Inductive wok : list BidiClass -> list nat -> list nat -> Prop :=
  | wok_nil : wok [] [] []
  | wok_cons c w w' cs W W' : c = cNSM \/ w = w' -> wok cs W W' -> wok (c :: cs) (w :: W) (w' :: W').
Lemma wok_refl cs : forall W, length W = length cs -> wok cs W W.
Proof. induction cs as [|c cs IH]; intros [|w W] H; cbn [length] in H; try lia; constructor; auto. Qed.
Lemma wok_trans cs W W' : wok cs W W' -> forall W'', wok cs W' W'' -> wok cs W W''.
Proof.
  induction 1 as [|c w w' cs W W' H _ IH]; intros W'' X; inversion X as [|? ? w2 ? ? ? X1 X2]; subst; constructor; auto.
  destruct H; [now left|]. destruct X1; [now left|right; congruence].
Qed.
Lemma wok_split B : forall W cs V V', length W = length B -> wok (B ++ cs) (W ++ V) V' ->
  exists W' V'', V' = W' ++ V'' /\ length W' = length B /\ wok B W W' /\ wok cs V V''.
Proof.
  induction B as [|b B IH]; intros [|w W] cs V V' L H; cbn [length] in L; try lia.
  - exists [], V'. repeat split; [constructor|assumption].
  - cbn [app] in H. inversion H as [|? ? w' ? ? V1 Hw H']; subst. apply IH in H' as (W' & V'' & -> & L' & X & Y); [|lia].
    exists (w' :: W'), V''. repeat split; [cbn; lia|constructor; assumption|assumption].
Qed.
Lemma blocks_widths cs ws bs vs : blocks cs ws bs vs -> forall V, wok (concat bs) (concat vs) V ->
  exists vs', V = concat vs' /\ blocks cs ws bs vs'.
Proof.
  induction 1 as [|c w B W cs ws bs vs H _ IH]; intros V X.
  - cbn in X. inversion X; subst. exists []. split; [reflexivity|constructor].
  - cbn [concat] in X. pose proof (proj1 H) as L. apply wok_split in X as (W' & V'' & -> & L' & X & Y); [|assumption].
    apply IH in Y as (vs' & -> & HB). exists (W' :: vs'). split; [reflexivity|]. constructor; [|assumption].
    destruct H as (_ & [(w' & -> & -> & S1)|Q]).
    + inversion X as [|? ? w2 ? ? ? Hw X']; subst. inversion X'; subst. split; [reflexivity|]. left. exists w2. split; [reflexivity|]. split; [reflexivity|].
      intros SC. destruct Hw as [->|<-]; [discriminate|auto].
    + split; [assumption|]. right. exact Q.
Qed.

(** ** Characters as blocks *)
Definition width_ok (b : BidiClass) (n : nat) : bool := plainc b || (negb (sepc b) && (n =? 1)).
Definition width_okc (c : N) : bool := width_ok (fbidi c) (length (decg fcanon fcompat false c)).
Lemma width_check : check_entries (entries CANONICAL_DECOMPOSITION_MAPPING) (fun c _ => width_okc c) = true.
Proof. vm_cast_no_check (eq_refl true). Qed.
Lemma width_sound c : width_okc c = true -> width_ok (bidi_class c) (length (decompose false c)) = true.
Proof. unfold width_okc. rewrite fbidi_ok, (decg_decompose _ _ fcanon_ok fcompat_ok). auto. Qed.
Lemma canonical_widths c : decompose false c = [c] \/ is_syllable c = true \/ (shaped c /\ width_ok (bidi_class c) (length (decompose false c)) = true).
Proof.
  destruct (is_syllable c) eqn:Es; [auto|].
  destruct (canonical_decomposition c) as [l|] eqn:Ec.
  - right. right. split.
    + apply shapes_sound. exact (check_entries_sound _ _ c l wf_CANONICAL_DECOMPOSITION_MAPPING shapes_check Ec).
    + apply width_sound. exact (check_entries_sound _ _ c l wf_CANONICAL_DECOMPOSITION_MAPPING width_check Ec).
  - left. apply decompose_stable. split; [assumption|]. split; [assumption|discriminate].
Qed.

Lemma nsm_tail b l : forallb is_nsm l = true -> Forall (tailc b) l.
Proof.
  induction l as [|x l IH]; intros H; constructor; cbn [forallb] in H; apply andb_true_iff in H as [H1 H2]; [|auto].
  left. destruct x; try discriminate; reflexivity.
Qed.
Lemma weak_tail l : forallb (fun x => is_nsm x || is_l x) l = true -> Forall (tailc cL) l.
Proof.
  induction l as [|x l IH]; intros H; constructor; cbn [forallb] in H; apply andb_true_iff in H as [H1 H2]; [|auto].
  destruct x; try discriminate; [right; auto|left; reflexivity].
Qed.
Lemma shape_blk b l r w W : shape_b b l = true -> width_ok b (length l) = true -> l = b :: r -> length W = length l -> blk b w l W.
Proof.
  intros H HW -> L. unfold shape_b in H. apply orb_true_iff in H as [H|H].
  - apply andb_true_iff in H as [_ H]. split; [assumption|]. unfold width_ok in HW. destruct (plainc b) eqn:P.
    + right. split; [reflexivity|]. exists r. split; [reflexivity|]. now apply nsm_tail.
    + cbn [orb] in HW. apply andb_true_iff in HW as [H1 H2]. apply negb_true_iff in H1. apply Nat.eqb_eq in H2. destruct r; [|discriminate H2].
      destruct W as [|w' [|]]; try discriminate L. left. exists w'. split; [reflexivity|]. split; [reflexivity|]. rewrite H1. discriminate.
  - apply andb_true_iff in H as [H _]. apply andb_true_iff in H as [H1 H2]. destruct b; try discriminate.
    split; [assumption|]. right. split; [reflexivity|]. exists r. split; [reflexivity|]. apply weak_tail in H2. now inversion H2.
Qed.
Lemma char_blk c r : map bidi_class (decompose false c) = bidi_class c :: r ->
  blk (bidi_class c) (clen c) (map bidi_class (decompose false c)) (map clen (decompose false c)).
Proof.
  intros HS. destruct (canonical_widths c) as [E|[E|((_ & _ & E) & HW)]].
  - rewrite E. split; [reflexivity|]. left. exists (clen c). auto.
  - rewrite (l_syllable c E) in *. split; [now rewrite !map_length|]. right. split; [reflexivity|].
    apply block_cover in E as (l & v & t & B & ->). rewrite decompose_block_eq by assumption. unfold jamo_of. pose proof B as (B1 & B2 & B3).
    assert (X1 : bidi_class (leading l) = cL) by (apply l_jamo; unfold leading; lia).
    assert (X2 : bidi_class (vowel v) = cL) by (apply l_jamo; unfold vowel; lia).
    assert (TL : tailc cL cL) by (right; auto).
    destruct t as [|t].
    + exists [cL]. cbn [map]. rewrite X1, X2. split; [reflexivity|]. repeat (constructor; [exact TL|]). constructor.
    + assert (X3 : bidi_class (trailing (N.pos t)) = cL) by (apply l_jamo; unfold trailing; lia).
      exists [cL; cL]. cbn [map]. rewrite X1, X2, X3. split; [reflexivity|]. repeat (constructor; [exact TL|]). constructor.
  - apply (shape_blk _ _ r); [exact E|now rewrite map_length|exact HS|now rewrite !map_length].
Qed.

(** marks that may be exchanged have the class NSM *)
Definition all_nsm (l : list N) : Prop := forall c, In c l -> ccc c <> 0%N -> bidi_class c = cNSM.
Lemma exchange_classes l m : clos_refl_trans _ (exchange ccc) l m -> all_nsm l ->
  all_nsm m /\ map bidi_class m = map bidi_class l /\ wok (map bidi_class l) (map clen l) (map clen m).
Proof.
  induction 1 as [l m [p x y q [R1 R2]]|l|l m n _ IH1 _ IH2]; intros A.
  - assert (Ex : bidi_class x = cNSM) by (apply A; [apply in_or_app; right; left; reflexivity|lia]).
    assert (Ey : bidi_class y = cNSM) by (apply A; [apply in_or_app; right; right; left; reflexivity|lia]).
    split; [|split].
    + intros c H. apply A. rewrite in_app_iff in *. cbn [In] in *. tauto.
    + rewrite !map_app. cbn [map]. now rewrite Ex, Ey.
    + induction p as [|z p IHp]; cbn [app map].
      * rewrite Ex, Ey. constructor; [now left|]. constructor; [now left|]. apply wok_refl. now rewrite !map_length.
      * constructor; [now right|]. apply IHp. intros c Hc. apply A. now right.
  - split; [assumption|]. split; [reflexivity|]. apply wok_refl. now rewrite !map_length.
  - destruct (IH1 A) as (A1 & B1 & C1). destruct (IH2 A1) as (A2 & B2 & C2). split; [assumption|]. split; [congruence|].
    eapply wok_trans; [exact C1|]. rewrite <- B1. exact C2.
Qed.

Definition heads (s : list N) : Prop := forall c, In c s -> exists r, map bidi_class (decompose false c) = bidi_class c :: r.
Lemma blocks_flat s : heads s -> blocks (cls s) (map clen s) (map (fun c => map bidi_class (decompose false c)) s) (map (fun c => map clen (decompose false c)) s).
Proof.
  induction s as [|c s IH]; intros H; [constructor|]. cbn [map cls]. unfold cls in *. cbn [map]. constructor.
  - destruct (H c (or_introl eq_refl)) as (r & E). now apply (char_blk c r).
  - apply IH. intros x Hx. apply H. now right.
Qed.
Lemma flat_concat {A} (f : N -> A) s : map f (flat_map (decompose false) s) = concat (map (fun c => map f (decompose false c)) s).
Proof. induction s as [|c s IH]; [reflexivity|]. cbn [flat_map map concat]. now rewrite map_app, IH. Qed.
Lemma blocks_D s : heads s -> all_nsm (flat_map (decompose false) s) ->
  exists bs vs, cls (D false s) = concat bs /\ map clen (D false s) = concat vs /\ lens bs = map (fun c => length (decompose false c)) s /\
    blocks (cls s) (map clen s) bs vs.
Proof.
  intros H A. destruct (exchange_classes _ _ (order_exchanges ccc (flat_map (decompose false) s)) A) as (_ & E & Wk).
  rewrite !flat_concat in *. apply (blocks_widths _ _ _ _ (blocks_flat s H)) in Wk as (vs & Ev & HB).
  exists (map (fun c => map bidi_class (decompose false c)) s), vs. split; [exact E|]. split; [exact Ev|]. split; [|exact HB].
  rewrite map_map. apply map_ext. intros c. apply map_length.
Qed.

(** ** The whole text *)
Lemma blocks_app a b ws1 ws2 bs1 bs2 vs1 vs2 : blocks a ws1 bs1 vs1 -> blocks b ws2 bs2 vs2 -> blocks (a ++ b) (ws1 ++ ws2) (bs1 ++ bs2) (vs1 ++ vs2).
Proof. induction 1; intros X; [exact X|]. cbn [app]. constructor; auto. Qed.
Lemma blocks_unapp a ws1 b : forall ws2 bs vs, length ws1 = length a -> blocks (a ++ b) (ws1 ++ ws2) bs vs ->
  exists bs1 bs2 vs1 vs2, bs = bs1 ++ bs2 /\ vs = vs1 ++ vs2 /\ blocks a ws1 bs1 vs1 /\ blocks b ws2 bs2 vs2.
Proof.
  revert ws1. induction a as [|c a IH]; intros [|w ws1] ws2 bs vs L H; cbn [length] in L; try lia.
  - exists [], bs, [], vs. repeat split; [constructor|exact H].
  - cbn [app] in H. inversion H as [|? ? B W ? ? bs' vs' H1 H2]; subst. apply IH in H2 as (bs1 & bs2 & vs1 & vs2 & -> & -> & X & Y); [|lia].
    exists (B :: bs1), bs2, (W :: vs1), vs2. repeat split; [constructor; assumption|assumption].
Qed.
Lemma lens_concat {A} (bs : list (list A)) : length (concat bs) = list_sum (lens bs).
Proof. induction bs as [|b bs IH]; [reflexivity|]. cbn [concat map]. rewrite app_length, IH. reflexivity. Qed.

Lemma char_all_blocks default ps : default_ok default 125 -> forall cc bs vs,
  blocks cc (map clen (concat ps)) bs vs -> concat vs = map clen (concat (map (D false) ps)) ->
  lens bs = map (fun c => length (decompose false c)) (concat ps) ->
  char_all default (map (D false) ps) (concat bs) = obind (char_all default ps cc) (fun l => Ret (expand (lens bs) l)).
Proof.
  intros HD. induction ps as [|p ps IH]; intros cc bs vs HB HV HN.
  - cbn [concat map] in *. inversion HB; subst. reflexivity.
  - cbn [map concat char_all] in *. rewrite !map_app in *.
    destruct (blocks_lengths _ _ _ _ HB) as (L1 & L2 & L3 & L4 & _). rewrite app_length, !map_length in L1.
    rewrite <- (firstn_skipn (length p) cc) in HB.
    assert (LF : length (firstn (length p) cc) = length p) by (rewrite firstn_length; lia).
    apply blocks_unapp in HB as (bs1 & bs2 & vs1 & vs2 & -> & -> & B1 & B2); [|rewrite map_length; congruence].
    destruct (blocks_lengths _ _ _ _ B1) as (K1 & K2 & K3 & K4 & _).
    rewrite map_app in HN. rewrite concat_app in HV.
    assert (N1 : lens bs1 = map (fun c => length (decompose false c)) p /\ lens bs2 = map (fun c => length (decompose false c)) (concat ps)).
    { apply app_len_inj; [exact HN|rewrite !map_length; congruence]. }
    destruct N1 as (N1 & N2).
    assert (LD : length (D false p) = list_sum (lens bs1)).
    { rewrite N1. unfold D. rewrite <- (Permutation_length (order_perm ccc (flat false p))). unfold flat. clear. induction p as [|c p IH]; [reflexivity|]. cbn [flat_map map]. rewrite app_length, IH. reflexivity. }
    assert (V1 : concat vs1 = map clen (D false p) /\ concat vs2 = map clen (concat (map (D false) ps))).
    { apply app_len_inj; [exact HV|rewrite lens_concat, K4, map_length; congruence]. }
    destruct V1 as (V1 & V2).
    assert (PL : plevel default (D false p) = plevel default p) by (unfold plevel; now rewrite level_D).
    assert (P5 : (plevel default p <= 125)%N) by (apply plevel_ok; [lia|assumption]).
    rewrite concat_app.
    assert (F1 : firstn (length (D false p)) (concat bs1 ++ concat bs2) = concat bs1).
    { rewrite LD, <- lens_concat, firstn_app, Nat.sub_diag, firstn_all. cbn [firstn]. apply app_nil_r. }
    assert (F2 : skipn (length (D false p)) (concat bs1 ++ concat bs2) = concat bs2).
    { rewrite LD, <- lens_concat, skipn_app, Nat.sub_diag, skipn_all. reflexivity. }
    rewrite F1, F2, PL, <- V1, (char_levels_blocks _ _ _ _ _ P5 B1), (IH _ _ _ B2 V2 N2).
    destruct (char_levels (map clen p) (plevel default p) (firstn (length p) cc)) as [l|] eqn:E; [|reflexivity]. cbn [obind].
    destruct (char_all default ps (skipn (length p) cc)) as [r|]; [|reflexivity]. cbn [obind]. rewrite map_app, expand_app; [reflexivity|].
    apply char_levels_length in E. rewrite map_length. congruence.
Qed.

Lemma spelled_decompose c : spelled c = length (decompose false c).
Proof.
  unfold spelled. rewrite nfd_eq. unfold D. rewrite <- (Permutation_length (order_perm ccc (flat false [c]))).
  unfold flat. cbn [flat_map]. now rewrite app_nil_r.
Qed.
Lemma inheriting_nsm s : inheriting (D false s) -> all_nsm (flat_map (decompose false) s).
Proof.
  intros H c Hc Hz. pose proof (nonstarter_weak c Hz) as Wk.
  assert (NL : bidi_class c <> cL). { apply H; [|assumption]. exact (Permutation_in c (order_perm ccc (flat_map (decompose false) s)) Hc). }
  destruct (bidi_class c); try discriminate Wk; congruence.
Qed.
Definition head_ok (b : BidiClass) (l : list BidiClass) : bool := match l with x :: _ => BC_eqb x b | [] => false end.
Definition balinese (c : N) : bool := (c =? 0x1B3B)%N || (c =? 0x1B3D)%N || (c =? 0x1B43)%N.
Definition head_okc (c : N) : bool := balinese c || head_ok (fbidi c) (map fbidi (decg fcanon fcompat false c)).
Lemma head_check : check_entries (entries CANONICAL_DECOMPOSITION_MAPPING) (fun c _ => head_okc c) = true.
Proof. vm_cast_no_check (eq_refl true). Qed.
Lemma head_sound c : head_okc c = true -> balinese c = false -> head_ok (bidi_class c) (map bidi_class (decompose false c)) = true.
Proof. unfold head_okc. rewrite fbidi_ok, (decg_decompose _ _ fcanon_ok fcompat_ok), (map_ext _ _ fbidi_ok). intros H B. rewrite B in H. exact H. Qed.
Lemma head_some b l : head_ok b l = true -> exists r, l = b :: r.
Proof. destruct l as [|x l]; [discriminate|]. intros H. apply bc_eqb_sound in H as ->. eauto. Qed.
Lemma steady_heads s : steady s -> heads s.
Proof.
  intros H c Hc. assert (NB : balinese c = false).
  { destruct H as (H1 & H2 & H3). destruct (balinese c) eqn:E; [|reflexivity]. exfalso. unfold balinese in E.
    apply orb_true_iff in E as [E|E]; [apply orb_true_iff in E as [E|E]|]; apply N.eqb_eq in E; subst; contradiction. }
  destruct (is_syllable c) eqn:Es.
  { rewrite (l_syllable c Es). apply block_cover in Es as (l & v & t & B & ->). rewrite decompose_block_eq by assumption. unfold jamo_of. pose proof B as (B1 & B2 & B3).
    assert (X1 : bidi_class (leading l) = cL) by (apply l_jamo; unfold leading; lia).
    destruct t; cbn [map]; rewrite X1; eauto. }
  destruct (canonical_decomposition c) as [l|] eqn:Ec.
  - apply head_some, head_sound; [|assumption]. exact (check_entries_sound _ _ c l wf_CANONICAL_DECOMPOSITION_MAPPING head_check Ec).
  - exists []. assert (E : decompose false c = [c]) by (apply decompose_stable; split; [assumption|]; split; [assumption|discriminate]).
    rewrite E. reflexivity.
Qed.
Lemma spelled_levels s d default : default_ok default 125 -> nfd s = Some d -> steady s -> inheriting d ->
  exists b b' lc, bidi_new s default = Ret b /\ bidi_new d default = Ret b' /\ length lc = length s /\
    b_levels b = expand (map clen s) lc /\ b_levels b' = expand (map clen d) (expand (map spelled s) lc).
Proof.
  intros HD E HS HI. rewrite nfd_eq in E. assert (d = D false s) as -> by congruence. clear E.
  pose proof (inheriting_nsm s HI) as A. pose proof (steady_heads s HS) as HH.
  destruct (blocks_D s HH A) as (bs & vs & E1 & E2 & E3 & HB).
  destruct (bidi_bounds s default HD) as (b & Hb & _). destruct (bidi_bounds (D false s) default HD) as (b' & Hb' & _).
  destruct (bidi_shape _ _ _ Hb) as (cc & lc & ps & L1 & L2 & F & P & CA & EB).
  destruct (bidi_shape _ _ _ Hb') as (cc' & lc' & ps' & L1' & L2' & F' & P' & CA' & EB').
  pose proof (paragraphs_D _ _ P) as PD. pose proof (paragraphs_unique _ _ _ P' PD) as ->.
  apply fsi_resolved_rez in F as ->. apply fsi_resolved_rez in F' as ->.
  destruct (rez_blocks _ _ _ _ HB) as (bs' & R1 & R2 & R3). rewrite E1, R1 in CA'.
  pose proof (proj1 P) as C1. pose proof (proj1 PD) as C2.
  rewrite (char_all_blocks default ps HD (rez (cls s)) bs' vs) in CA'.
  - rewrite CA in CA'. cbn [obind] in CA'.
    assert (EL : lc' = expand (lens bs') lc) by congruence.
    exists b, b', lc. split; [assumption|]. split; [assumption|]. split; [assumption|]. rewrite EB, EB'. cbn [b_levels]. split; [reflexivity|].
    rewrite EL, R2, E3. f_equal. f_equal. apply map_ext. intros c. symmetry. apply spelled_decompose.
  - rewrite C1. exact R3.
  - rewrite C2. congruence.
  - rewrite C1. congruence.
Qed.
Lemma equivalent_resolved s t d default : default_ok default 125 -> nfd s = Some d -> nfd t = Some d -> steady s -> steady t -> inheriting d ->
  exists b b' lc lc', bidi_new s default = Ret b /\ bidi_new t default = Ret b' /\ length lc = length s /\ length lc' = length t /\
    b_levels b = expand (map clen s) lc /\ b_levels b' = expand (map clen t) lc' /\ expand (map spelled s) lc = expand (map spelled t) lc'.
Proof.
  intros HD H1 H2 S1 S2 HI.
  destruct (spelled_levels s d default HD H1 S1 HI) as (b & bd & lc & B1 & B2 & L & E1 & E2).
  destruct (spelled_levels t d default HD H2 S2 HI) as (b' & bd' & lc' & B1' & B2' & L' & E1' & E2').
  exists b, b', lc, lc'. repeat split; try assumption.
  assert (bd = bd') as <- by congruence. rewrite E2 in E2'.
  assert (W : forall s (lc : list N), nfd s = Some d -> length lc = length s -> length (expand (map spelled s) lc) = length (map clen d)).
  { clear. intros s lc H L. rewrite nfd_eq in H. assert (d = D false s) as -> by congruence. rewrite expand_length by (rewrite map_length; congruence).
    rewrite map_length. unfold D. rewrite <- (Permutation_length (order_perm ccc (flat false s))). unfold flat. clear. induction s as [|c s IH]; [reflexivity|].
    cbn [flat_map map]. rewrite app_length, <- IH, <- spelled_decompose. reflexivity. }
  apply (expand_inj (map clen d)); [apply clens_pos|now apply W|now apply W|assumption].
Qed.

Lemma balinese_levels : forall c, In c [0x1B3B; 0x1B3D; 0x1B43]%N ->
  exists d b b' lc, nfd [0x5D0%N; c] = Some d /\ inheriting d /\ bidi_new [0x5D0%N; c] None = Ret b /\ bidi_new d None = Ret b' /\
  b_levels b = expand (map clen [0x5D0%N; c]) lc /\ length lc = 2 /\ b_levels b' <> expand (map clen d) (expand (map spelled [0x5D0%N; c]) lc).
Proof.
  intros c [<-|[<-|[<-|[]]]].
  - exists [0x5D0; 0x1B3A; 0x1B35]%N. eexists. eexists. exists [1; 2]%N.
    split; [vm_compute; reflexivity|]. split; [intros c [<-|[<-|[<-|[]]]] Z _; apply Z; vm_compute; reflexivity|].
    split; [vm_compute; reflexivity|]. split; [vm_compute; reflexivity|]. split; [vm_compute; reflexivity|]. split; [reflexivity|]. vm_compute. discriminate.
  - exists [0x5D0; 0x1B3C; 0x1B35]%N. eexists. eexists. exists [1; 2]%N.
    split; [vm_compute; reflexivity|]. split; [intros c [<-|[<-|[<-|[]]]] Z _; apply Z; vm_compute; reflexivity|].
    split; [vm_compute; reflexivity|]. split; [vm_compute; reflexivity|]. split; [vm_compute; reflexivity|]. split; [reflexivity|]. vm_compute. discriminate.
  - exists [0x5D0; 0x1B42; 0x1B35]%N. eexists. eexists. exists [1; 2]%N.
    split; [vm_compute; reflexivity|]. split; [intros c [<-|[<-|[<-|[]]]] Z _; apply Z; vm_compute; reflexivity|].
    split; [vm_compute; reflexivity|]. split; [vm_compute; reflexivity|]. split; [vm_compute; reflexivity|]. split; [reflexivity|]. vm_compute. discriminate.
Qed.

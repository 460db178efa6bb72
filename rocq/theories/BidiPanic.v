(** When [reorder_line] returns. *)
From Coq Require Import List NArith ZArith Lia Bool Arith Permutation ZifyBool ZifyNat ZifyN.
Import ListNotations.
From Verif Require Import Base RangeModel Enums EnumFacts UcdModel BidiModel BidiSpec BidiLemmas BidiTables BidiInit BidiExplicit
  BidiChars BidiLtr BidiOrder BidiLine BidiAnyLine BidiPanicSpec.
Open Scope nat_scope.

(** ** The runs *)
Lemma vruns_facts levels le n : forall i start level mn mx rs mn' mx',
  vruns_loop levels le i n start level mn mx = (rs, mn', mx') -> i + n = le -> start < i ->
  (forall j, start <= j < i -> level_at levels j = level) -> (mn <= level)%N ->
  (forall r, In r rs -> start <= fst r < le) /\
  (forall j, start <= j < le -> exists r, In r rs /\ level_at levels (fst r) = level_at levels j) /\
  (forall j, i <= j < le -> level_at levels j <> level_at levels (j - 1) -> exists e, In (j, e) rs) /\
  (forall j, start <= j < le -> (mn' <= level_at levels j)%N) /\
  (mn' = mn \/ exists j, i <= j < le /\ mn' = level_at levels j).
Proof.
  induction n as [|n IH]; intros i start level mn mx rs mn' mx' H E SI U M; cbn [vruns_loop] in H.
  - injection H as <- <- <-. split; [intros r [<-|[]]; cbn; lia|]. split.
    + intros j J. exists (start, le). split; [now left|]. cbn [fst]. rewrite !U by lia. reflexivity.
    + split; [intros; lia|]. split; [|now left]. intros j J. rewrite U by lia. exact M.
  - destruct (N.eqb_spec (level_at levels i) level) as [Q|Q].
    + destruct (IH _ _ _ _ _ _ _ _ H) as (A & B & C & D & F); try lia.
      { intros j J. destruct (Nat.eq_dec j i) as [->|]; [exact Q|apply U; lia]. }
      split; [exact A|]. split; [exact B|]. split; [|split; [exact D|]].
      * intros j J X. destruct (Nat.eq_dec j i) as [->|]; [|apply C; [lia|exact X]].
        exfalso. apply X. rewrite Q. symmetry. apply U. lia.
      * destruct F as [F|(j & J & F)]; [now left|right; exists j; split; [lia|exact F]].
    + destruct (vruns_loop levels le (S i) n i _ _ _) as [[rs0 a] b] eqn:R. injection H as <- <- <-.
      destruct (IH _ _ _ _ _ _ _ _ R) as (A & B & C & D & F); try lia.
      { intros j J. f_equal. lia. }
      split; [|split; [|split; [|split]]].
      * intros r [<-|H]; [cbn; lia|apply A in H; lia].
      * intros j J. destruct (Nat.lt_ge_cases j i).
        -- exists (start, i). split; [now left|]. cbn [fst]. rewrite !U by lia. reflexivity.
        -- destruct (B j) as (r & R1 & R2); [lia|]. exists r. split; [now right|exact R2].
      * intros j J X. destruct (Nat.eq_dec j i) as [->|].
        -- assert (G : exists e, In (i, e) rs0).
           { pose proof (vruns_chained _ _ _ _ _ _ _ _ _ _ _ R) as Ch. destruct rs0 as [|r rs0]; cbn in Ch; [lia|].
             destruct Ch as [Ch _]. exists (snd r). left. rewrite <- Ch. now destruct r. }
           destruct G as (e & G). exists e. now right.
        -- destruct (C j) as (e & G); [lia|exact X|]. exists e. now right.
      * intros j J. destruct (Nat.lt_ge_cases j i) as [L|L]; [|apply D; lia].
        rewrite U by lia. destruct F as [F|(k & K & F)]; [lia|].
        assert (Z : (a <= level_at levels i)%N) by (apply D; lia).
        (* the minimum only decreases *)
        assert (G : forall n i start level mn mx rs mn' mx', vruns_loop levels le i n start level mn mx = (rs, mn', mx') -> (mn' <= mn)%N).
        { clear. induction n as [|n IH]; intros i start level mn mx rs mn' mx' H; cbn [vruns_loop] in H.
          - injection H as _ <- _. lia.
          - destruct (_ =? _)%N; [exact (IH _ _ _ _ _ _ _ _ H)|].
            destruct (vruns_loop levels le (S i) n i _ _ _) as [[rs0 a] b] eqn:R. injection H as _ <- _. apply IH in R. lia. }
        apply G in R. lia.
      * destruct F as [F|(j & J & F)]; [|right; exists j; split; [lia|exact F]].
        destruct (N.min_spec (level_at levels i) mn) as [[_ X]|[_ X]]; rewrite X in F; [right; exists i; split; [lia|exact F]|now left].
Qed.

Lemma render_panic t levels runs r : In r runs -> str_slice t (fst r) (snd r) = Panic -> render_runs t levels runs = Panic.
Proof.
  induction runs as [|r0 runs IH]; intros I H; [destruct I|]. cbn [render_runs]. destruct I as [->|I]; [rewrite H; reflexivity|].
  destruct (str_slice t (fst r0) (snd r0)); [|reflexivity]. cbn [obind]. rewrite (IH I H). reflexivity.
Qed.

Lemma slen_nil : slen [] = 0.
Proof. reflexivity. Qed.
Lemma slen_cons c t : slen (c :: t) = clen c + slen t.
Proof. reflexivity. Qed.

(** ** Characters of one level *)
Definition whole (levels : list N) (from : nat) (line : str) : Prop := forall p c q k,
  line = p ++ c :: q -> k < clen c -> level_at levels (from + slen p + k) = level_at levels (from + slen p).
Lemma whole_or_torn levels line : forall from, whole levels from line \/ torn levels from line.
Proof.
  induction line as [|c line IH]; intros from.
  - left. intros [|? ?] ? ? ? E; discriminate E.
  - assert (G : forall n, (forall k, k < n -> level_at levels (from + k) = level_at levels from) \/
      exists k, k < n /\ level_at levels (from + k) <> level_at levels from).
    { induction n as [|n [A|(k & K & A)]]; [left; lia| |right; exists k; split; [lia|exact A]].
      destruct (N.eq_dec (level_at levels (from + n)) (level_at levels from)) as [E|E]; [|right; exists n; split; [lia|exact E]].
      left. intros k K. destruct (Nat.eq_dec k n) as [->|]; [exact E|apply A; lia]. }
    destruct (G (clen c)) as [A|(k & K & A)].
    + destruct (IH (from + clen c)) as [B|(p & d & q & k & -> & K & B)].
      * left. intros [|x p] d q k E K; cbn [app] in E; injection E as <- E.
        -- rewrite ?slen_nil, ?slen_cons. rewrite Nat.add_0_r. apply A, K.
        -- rewrite ?slen_nil, ?slen_cons. specialize (B p d q k E K). rewrite Nat.add_assoc. exact B.
      * right. exists (c :: p), d, q, k. split; [reflexivity|]. split; [exact K|]. rewrite ?slen_nil, ?slen_cons. rewrite Nat.add_assoc. exact B.
    + right. exists [], c, line, k. split; [reflexivity|]. split; [exact K|]. rewrite ?slen_nil, ?slen_cons. rewrite Nat.add_0_r. exact A.
Qed.
Lemma whole_expand levels line : forall from, whole levels from line ->
  exists lk, length lk = length line /\ forall j, j < slen line -> level_at levels (from + j) = level_at (expand (map clen line) lk) j.
Proof.
  induction line as [|c line IH]; intros from W.
  - exists []. split; [reflexivity|]. cbn. lia.
  - destruct (IH (from + clen c)) as (lk & L & H).
    { intros p d q k -> K. specialize (W (c :: p) d q k eq_refl K). rewrite ?slen_nil, ?slen_cons in W. rewrite Nat.add_assoc in W. exact W. }
    exists (level_at levels from :: lk). split; [cbn; lia|]. intros j J. cbn [map]. rewrite expand_cons. rewrite slen_cons in J.
    destruct (Nat.lt_ge_cases j (clen c)) as [K|K].
    + unfold level_at at 2. rewrite app_nth1 by (rewrite repeat_length; exact K).
      specialize (W [] c line j eq_refl K). rewrite ?slen_nil, ?slen_cons in W. rewrite Nat.add_0_r in W. rewrite W.
      symmetry. clear -K. revert j K. induction (clen c) as [|n IHn]; intros j K; [lia|]. destruct j; [reflexivity|]. cbn. apply IHn. lia.
    + unfold level_at at 2. rewrite app_nth2 by (rewrite repeat_length; lia). rewrite repeat_length.
      specialize (H (j - clen c)). unfold level_at in H at 2. rewrite <- H by lia. f_equal. lia.
Qed.
(** a torn character is cut by a change of level *)
Lemma torn_change levels line from : torn levels from line -> exists p c q j, line = p ++ c :: q /\
  from + slen p < j < from + slen p + clen c /\ level_at levels j <> level_at levels (j - 1).
Proof.
  intros (p & c & q & k & E & K & H). exists p, c, q.
  assert (G : forall n, n < clen c -> level_at levels (from + slen p + n) <> level_at levels (from + slen p) ->
    exists j, from + slen p < j <= from + slen p + n /\ level_at levels j <> level_at levels (j - 1)).
  { induction n as [|n IH]; intros N1 N2; [rewrite Nat.add_0_r in N2; contradiction|].
    destruct (N.eq_dec (level_at levels (from + slen p + n)) (level_at levels (from + slen p))) as [X|X].
    - exists (from + slen p + S n). split; [lia|]. replace (from + slen p + S n - 1) with (from + slen p + n) by lia. congruence.
    - destruct (IH ltac:(lia) X) as (j & J & Y). exists j. split; [lia|exact Y]. }
  destruct (G k K H) as (j & J & X). exists j. split; [exact E|]. split; [lia|exact X].
Qed.

(** ** L1, whose offsets are relative to the line *)
Lemma l1_loop_length pl oc ws : forall i l rf, length (l1_loop pl oc ws i l rf) = length l.
Proof.
  induction ws as [|w ws IH]; intros i l rf; cbn [l1_loop].
  - destruct rf; [apply upds_length|reflexivity].
  - destruct (l1_step _ _ _ _ _ _) as [l' rf'] eqn:E. rewrite IH. rewrite l1_step_class in E.
    destruct (is_in [cB; cS] _); [|destruct (resets _); [|destruct (kept _)]]; injection E as <- <-; try reflexivity. apply upds_length.
Qed.
Lemma upds_seq l from n pl j : from + n <= length l -> level_at (upds l (seq from n) pl) j = if (from <=? j) && (j <? from + n) then pl else level_at l j.
Proof.
  intros H. unfold level_at. rewrite nth_upds.
  - destruct (in_dec Nat.eq_dec j (seq from n)) as [I|I]; rewrite in_seq in I.
    + destruct (Nat.leb_spec from j), (Nat.ltb_spec j (from + n)); cbn; try lia; reflexivity.
    + destruct (Nat.leb_spec from j), (Nat.ltb_spec j (from + n)); cbn; try lia; reflexivity.
  - intros x X. apply in_seq in X. lia.
Qed.
Lemma l1_loop_levels pl oc ws : forall i l rf, i + list_sum ws <= length l -> (forall f, rf = Some f -> f <= i) -> forall j,
  level_at (l1_loop pl oc ws i l rf) j = level_at l j \/ j < i + list_sum ws /\ level_at (l1_loop pl oc ws i l rf) j = pl.
Proof.
  induction ws as [|w ws IH]; intros i l rf L F j; cbn [l1_loop list_sum fold_right] in *.
  - destruct rf as [f|]; [|now left]. specialize (F f eq_refl). rewrite upds_seq by lia.
    destruct (Nat.leb_spec f j), (Nat.ltb_spec j (f + (i - f))); cbn; auto. right. split; [lia|reflexivity].
  - fold (list_sum ws) in *. destruct (l1_step _ _ _ _ _ _) as [l' rf'] eqn:E. rewrite l1_step_class in E.
    assert (G : length l' = length l /\ (forall f, rf' = Some f -> f <= i + w) /\
      (level_at l' j = level_at l j \/ j < i + w /\ level_at l' j = pl)).
    { destruct (is_in [cB; cS] _).
      - injection E as <- <-. split; [apply upds_length|]. split; [discriminate|].
        assert (B : match rf with Some f => f | None => i end <= i) by (destruct rf as [f|]; [now apply F|lia]).
        set (f := match rf with Some f => f | None => i end) in *. rewrite upds_seq by lia.
        destruct (Nat.leb_spec f j), (Nat.ltb_spec j (f + (i + w - f))); cbn; auto. right. split; [lia|reflexivity].
      - destruct (resets _); [|destruct (kept _)]; injection E as <- <-; (split; [reflexivity|]); (split; [|now left]); intros f X.
        + destruct rf as [g|]; injection X as <-; [specialize (F g eq_refl)|]; lia.
        + discriminate X.
        + specialize (F f X). lia. }
    destruct G as (G1 & G2 & G3). destruct (IH (i + w) l' rf') with (j := j) as [A|[A B]]; [lia|exact G2| |].
    + rewrite A. destruct G3 as [G3|[G3 G4]]; [now left|right; split; [lia|exact G4]].
    + right. split; [lia|exact B].
Qed.

Lemma ltr_even l : level_is_ltr l = negb (N.odd l).
Proof. unfold level_is_ltr. rewrite N.negb_odd. pose proof (N.mod_lt l 2 ltac:(lia)). destruct (N.even l) eqn:E.
  - apply N.even_spec in E as [m ->]. apply N.eqb_eq. rewrite N.mul_comm, N.mod_mul by lia. reflexivity.
  - apply N.eqb_neq. intros X. apply N.mod_divide in X as [m ->]; [|lia]. rewrite N.even_mul, orb_true_r in E. discriminate E.
 Qed.

(** ** Lines *)
Section TheLine.
  Variables (t : str) (default : option N) (b : bidi_info) (pl : N) (a line z : str).
  Hypothesis HB : bidi_new t default = Ret b.
  Hypothesis Ht : t = a ++ line ++ z.
  Hypothesis HN : line <> [].
  Let levels' := l1_loop pl (b_classes b) (map clen line) 0 (b_levels b) (Some 0).

  Lemma text_t : b_text b = t.
  Proof. destruct (bidi_shape t default b HB) as (cc & lc & pieces & _ & _ & _ & _ & _ & Eb). now rewrite Eb. Qed.
  Lemma levels_len : length (b_levels b) = slen t.
  Proof.
    destruct (bidi_shape t default b HB) as (cc & lc & pieces & LC & LL & FR & P & CA & Eb).
    rewrite Eb. cbn [b_levels]. rewrite expand_length, <- slen_sum; [reflexivity|now rewrite map_length].
  Qed.
  Lemma len_t : slen t = slen a + slen line + slen z.
  Proof. rewrite Ht, !slen_app. lia. Qed.
  Lemma levels'_len : length levels' = slen t.
  Proof. unfold levels'. rewrite l1_loop_length. apply levels_len. Qed.
  Lemma levels'_at j : level_at levels' j = level_at (b_levels b) j \/ j < slen line /\ level_at levels' j = pl.
  Proof.
    unfold levels'. destruct (l1_loop_levels pl (b_classes b) (map clen line) 0 (b_levels b) (Some 0)) with (j := j) as [A|[A B]].
    - rewrite <- slen_sum, levels_len, len_t. lia.
    - intros f [= <-]. lia.
    - now left.
    - rewrite <- slen_sum in A. now right.
  Qed.

  Lemma runs_of_line : exists rs mn mx,
    visual_runs b pl (slen a) (slen a + slen line)
    = match level_lowest_ge_rtl mn with
      | None => Panic
      | Some m => Ret (levels', l2_loop (b_levels b) (N.to_nat (mx + 1 - m)) mx rs)
      end /\ chained (slen a) (slen a + slen line) rs /\
    (forall r, In r rs -> slen a <= fst r < slen a + slen line) /\
    (forall j, slen a <= j < slen a + slen line -> exists r, In r rs /\ level_at levels' (fst r) = level_at levels' j) /\
    (forall j, slen a < j < slen a + slen line -> level_at levels' j <> level_at levels' (j - 1) -> exists e, In (j, e) rs) /\
    (forall j, slen a <= j < slen a + slen line -> (mn <= level_at levels' j)%N) /\
    (exists j, slen a <= j < slen a + slen line /\ mn = level_at levels' j).
  Proof.
    assert (PL : 0 < slen line) by (now apply slen_pos).
    assert (SL : str_slice (b_text b) (slen a) (slen a + slen line) = Ret line) by (rewrite text_t, Ht; apply str_slice_app).
    destruct (vruns_loop levels' (slen a + slen line) (S (slen a)) (slen a + slen line - S (slen a)) (slen a)
      (level_at levels' (slen a)) (level_at levels' (slen a)) (level_at levels' (slen a))) as [[rs mn] mx] eqn:V.
    exists rs, mn, mx. split.
    - unfold visual_runs.
      assert (X1 : (slen a <=? length (b_levels b)) && (slen a + slen line <=? length (b_levels b)) = true).
      { apply andb_true_iff. rewrite levels_len, len_t. split; apply Nat.leb_le; lia. }
      rewrite X1, SL. cbn [obind]. fold levels'.
      destruct (Nat.ltb_spec (slen a) (length levels')) as [_|X]; [|exfalso; rewrite levels'_len, len_t in X; lia].
      rewrite V. reflexivity.
    - split; [exact (vruns_chained _ _ _ _ _ _ _ _ _ _ _ V)|].
      destruct (vruns_facts _ _ _ _ _ _ _ _ _ _ _ V) as (A & B & C & D & F); try lia.
      { intros j J. f_equal. lia. }
      split; [exact A|]. split; [exact B|]. split; [intros j J; apply C; lia|]. split; [exact D|].
      destruct F as [F|(j & J & F)]; [exists (slen a); split; [lia|exact F]|exists j; split; [lia|exact F]].
  Qed.

  Lemma lowest_ok mn : (mn <= 125)%N <-> level_lowest_ge_rtl mn <> None.
  Proof.
    unfold level_lowest_ge_rtl, level_new, MAX_IMPLICIT_DEPTH, MAX_EXPLICIT_DEPTH.
    destruct (lor_1 mn) as (O & L & _). destruct (N.leb_spec (N.lor mn 1) 126) as [X|X].
    - split; [discriminate|]. intros _. destruct (N.eq_dec mn 126) as [->|]; [|lia]. vm_compute in X. exfalso. apply X. reflexivity.
    - split; [lia|]. intros Q. contradiction.
  Qed.

  (** the levels after L1 *)
  Lemma line_levels : (pl <= 125)%N -> some_low (b_levels b) (slen a) line ->
    exists levels, reordered_levels b pl (slen a) (slen a + slen line) = Ret levels /\ length levels = slen t /\
      forall j, nth j levels 0%N = nth j (b_levels b) 0%N \/ j < slen line /\ nth j levels 0%N = pl.
  Proof.
    intros HP (i & I & Lo). destruct runs_of_line as (rs & mn & mx & V & _ & _ & _ & _ & D & _).
    assert (M : (mn <= 125)%N).
    { specialize (D i I). destruct (levels'_at i) as [X|[_ X]]; rewrite X in D; unfold level_at in D; lia. }
    apply lowest_ok in M. destruct (level_lowest_ge_rtl mn) as [m|]; [|contradiction].
    exists levels'. unfold reordered_levels. rewrite V. cbn [obind fst]. split; [reflexivity|]. split; [apply levels'_len|apply levels'_at].
  Qed.
  (** and otherwise it fails *)
  Lemma line_levels_panic : reordered_levels b pl (slen a) (slen a + slen line) = Panic -> ~ some_low (b_levels b) (slen a) line \/ (125 < pl)%N.
  Proof.
    intros H. destruct (N.le_gt_cases pl 125) as [P|P]; [left|now right]. intros L.
    destruct (line_levels P L) as (l & E & _). congruence.
  Qed.
  Lemma high_line_panics : ~ some_low (b_levels b) (slen a) line -> slen line <= slen a ->
    reordered_levels b pl (slen a) (slen a + slen line) = Panic.
  Proof.
    intros H LE. destruct runs_of_line as (rs & mn & mx & V & _ & _ & _ & _ & _ & (j & J & E)).
    unfold reordered_levels. rewrite V. destruct (level_lowest_ge_rtl mn) as [m|] eqn:Q; [|reflexivity]. exfalso.
    assert (M : (mn <= 125)%N) by (apply lowest_ok; congruence).
    apply H. exists j. split; [exact J|]. destruct (levels'_at j) as [X|[X _]]; [|lia]. unfold level_at in *. congruence.
  Qed.

  (** the result *)
  Theorem line_panics levels : reordered_levels b pl (slen a) (slen a + slen line) = Ret levels ->
    (reorder_line b pl (slen a) (slen a + slen line) = Panic <-> some_odd levels (slen a) line /\ torn levels (slen a) line).
  Proof.
    intros R. destruct runs_of_line as (rs & mn & mx & V & Ch & A & B & C & _).
    assert (SL : str_slice (b_text b) (slen a) (slen a + slen line) = Ret line) by (rewrite text_t, Ht; apply str_slice_app).
    unfold reordered_levels in R. destruct (level_lowest_ge_rtl mn) as [m|] eqn:Q; rewrite V in R; [|discriminate R].
    cbn [obind fst] in R. injection R as <-.
    set (out := l2_loop (b_levels b) (N.to_nat (mx + 1 - m)) mx rs) in *.
    assert (P : Permutation out rs) by apply l2_loop_perm.
    split.
    - intros H. unfold reorder_line in H. rewrite V in H. cbn [obind] in H.
      destruct (forallb (fun r => level_is_ltr (level_at levels' (fst r))) out) eqn:O; [congruence|]. split.
      + destruct (existsb (fun r => N.odd (level_at levels' (fst r))) out) eqn:X.
        * apply existsb_exists in X as (r & R1 & R2). exists (fst r). split; [apply A; eapply Permutation_in; eassumption|exact R2].
        * exfalso. enough (Y : forallb (fun r => level_is_ltr (level_at levels' (fst r))) out = true) by congruence.
          apply forallb_forall. intros r R1. destruct (level_is_ltr (level_at levels' (fst r))) eqn:Z; [reflexivity|].
          exfalso. enough (W : existsb (fun r => N.odd (level_at levels' (fst r))) out = true) by congruence.
          apply existsb_exists. exists r. split; [exact R1|]. rewrite ltr_even in Z. destruct (N.odd _) eqn:O2; [reflexivity|].
          discriminate Z.
      + destruct (whole_or_torn levels' line (slen a)) as [W|T]; [|exact T]. exfalso.
        destruct (whole_expand levels' line (slen a) W) as (lk & LK & HE).
        destruct (line_permuted b pl a line z lk) with (levels := levels') (runs := out) as (_ & _ & o & O1 & _).
        * rewrite text_t. exact Ht.
        * exact HN.
        * rewrite text_t. apply levels_len.
        * fold levels'. rewrite levels'_len, levels_len. reflexivity.
        * exact LK.
        * exact HE.
        * exact V.
        * unfold reorder_line in O1. rewrite V in O1. cbn [obind] in O1. rewrite O in O1. congruence.
    - intros [(i & I & Od) T]. unfold reorder_line. rewrite V. cbn [obind].
      destruct (forallb (fun r => level_is_ltr (level_at levels' (fst r))) out) eqn:O.
      + exfalso. destruct (B i I) as (r & R1 & R2). rewrite forallb_forall in O. specialize (O r).
        assert (In r out) by (eapply Permutation_in; [symmetry; exact P|exact R1]). specialize (O H). rewrite R2 in O.
        rewrite ltr_even in O. unfold level_at in O. rewrite Od in O. discriminate O.
      + destruct (torn_change _ _ _ T) as (p & c & q & j & E & J & X).
        assert (J2 : slen a < j < slen a + slen line) by (rewrite E, slen_app; rewrite ?slen_nil, ?slen_cons; lia).
        destruct (C j J2 X) as (e & Ie).
        apply render_panic with (r := (j, e)); [eapply Permutation_in; [symmetry; exact P|exact Ie]|]. cbn [fst snd].
        destruct (str_slice (b_text b) j e) as [s|] eqn:SS; [|reflexivity]. exfalso.
        apply str_slice_spec in SS as (a' & b' & E1 & E2 & _). rewrite text_t, Ht, E in E1.
        (* j is inside c *)
        rewrite <- app_assoc, app_assoc in E1. cbn [app] in E1.
        assert (G : forall (u v : str) (c : N) w x, u ++ c :: w = v ++ x -> slen u < slen v -> slen u + clen c <= slen v).
        { clear. induction u as [|y u IH]; intros v d w x E L; destruct v as [|y' v]; rewrite ?slen_nil, ?slen_cons in *; cbn [app] in *; try lia.
          - injection E as <- _. lia.
          - injection E as <- E. specialize (IH v d w x E). lia. }
        pose proof (G _ _ _ _ _ E1) as G1. rewrite slen_app in G1. lia.
  Qed.

  Lemma line_returns levels : reordered_levels b pl (slen a) (slen a + slen line) = Ret levels ->
    ~ torn levels (slen a) line -> exists out, reorder_line b pl (slen a) (slen a + slen line) = Ret out /\ Permutation out line.
  Proof.
    intros R T. destruct (reorder_line b pl (slen a) (slen a + slen line)) as [out|] eqn:O.
    - exists out. split; [reflexivity|]. destruct (reorder_any _ _ _ _ _ O) as (l & L & P).
      rewrite text_t, Ht, str_slice_app in L. injection L as <-. exact P.
    - apply (line_panics levels R) in O. destruct O as [_ O]. contradiction.
  Qed.
  (** no longer than the text before it *)
  Lemma later_line : (pl <= 125)%N -> slen line <= slen a -> some_low (b_levels b) (slen a) line ->
    exists out, reorder_line b pl (slen a) (slen a + slen line) = Ret out /\ Permutation out line.
  Proof.
    intros HP LE L. destruct (line_levels HP L) as (levels & R & _ & AT). apply (line_returns levels R).
    intros (p & c & q & k & E & K & X). apply X. clear X.
    destruct (AT (slen a + slen p + k)) as [E1|[? _]]; [|lia]. destruct (AT (slen a + slen p)) as [E2|[? _]]; [|lia]. rewrite E1, E2.
    destruct (bidi_shape t default b HB) as (cc & lc & pieces & LC & LL & _ & _ & _ & Eb). rewrite Eb. cbn [b_levels].
    assert (ET : t = (a ++ p) ++ c :: (q ++ z)) by (rewrite Ht, E, <- !app_assoc; reflexivity). rewrite ET in LL |- *.
    assert (SP : exists l1 x l2, lc = l1 ++ x :: l2 /\ length l1 = length (a ++ p)).
    { rewrite app_length in LL. cbn [length] in LL. exists (firstn (length (a ++ p)) lc).
      destruct (skipn (length (a ++ p)) lc) as [|x l2] eqn:SK.
      - apply (f_equal (@length _)) in SK. rewrite skipn_length in SK. cbn in SK. lia.
      - exists x, l2. split; [rewrite <- SK; symmetry; apply firstn_skipn|]. rewrite firstn_length. lia. }
    destruct SP as (l1 & x & l2 & -> & L1). rewrite map_app, expand_app by (rewrite map_length; exact L1).
    cbn [map]. rewrite expand_cons.
    assert (LX : length (expand (map clen (a ++ p)) l1) = slen a + slen p).
    { rewrite expand_length, <- slen_sum by (rewrite map_length; exact L1). apply slen_app. }
    assert (G : forall n m (r : list N), m < n -> nth m (repeat x n ++ r) 0%N = x).
    { clear. induction n as [|n IH]; intros m r H; [lia|]. destruct m; [reflexivity|]. cbn. apply IH. lia. }
    rewrite app_nth2 by lia. rewrite LX, G by lia. rewrite app_nth2 by lia. rewrite LX, G by lia. reflexivity.
  Qed.
  (** characters of one byte *)
  Lemma one_byte_line : (pl <= 125)%N -> Forall (fun c => clen c = 1) line -> some_low (b_levels b) (slen a) line ->
    exists out, reorder_line b pl (slen a) (slen a + slen line) = Ret out /\ Permutation out line.
  Proof.
    intros HP F L. destruct (line_levels HP L) as (levels & R & _ & _). apply (line_returns levels R).
    intros (p & c & q & k & E & K & X). apply X. subst line. apply Forall_app in F as [_ F]. inversion F; subst.
    replace k with 0 by lia. now rewrite Nat.add_0_r.
  Qed.
End TheLine.

Lemma high_line : exists t b a line, bidi_new t (Some 123%N) = Ret b /\ t = a ++ line /\ line <> [] /\
  reorder_line b 123 (slen a) (slen a + slen line) = Panic.
Proof.
  exists [0x202B; 0x61]%N. eexists. exists [0x202B%N], [0x61%N]. split; [vm_compute; reflexivity|]. split; [reflexivity|].
  split; [discriminate|]. vm_compute. reflexivity.
Qed.

(** The passes over byte-indexed arrays act on whole characters. *)
From Coq Require Import List NArith ZArith Lia Bool Arith Permutation ZifyBool ZifyNat ZifyN.
Import ListNotations.
From Verif Require Import Base Enums EnumFacts UcdModel BidiModel BidiSpec BidiLemmas BidiWeak BidiSeqs BidiExplicit.
Open Scope nat_scope.

Definition wat (ws : list nat) (k : nat) : nat := nth k ws 0.
Definition span (ws : list nat) (k : nat) : list nat := seq (off ws k) (wat ws k).

Lemma off_0 ws : off ws 0 = 0.
Proof. reflexivity. Qed.
Lemma off_S ws : forall k, k < length ws -> off ws (S k) = off ws k + wat ws k.
Proof.
  unfold off, wat. induction ws as [|w ws IH]; intros [|k] H; cbn [length] in H; try lia.
  - cbn. lia.
  - change (firstn (S (S k)) (w :: ws)) with (w :: firstn (S k) ws).
    change (firstn (S k) (w :: ws)) with (w :: firstn k ws).
    change (list_sum (w :: firstn (S k) ws)) with (w + list_sum (firstn (S k) ws)).
    change (list_sum (w :: firstn k ws)) with (w + list_sum (firstn k ws)).
    cbn [nth]. rewrite IH by lia. lia.
Qed.
Lemma off_all ws k : length ws <= k -> off ws k = list_sum ws.
Proof. intros. unfold off. now rewrite firstn_all2. Qed.
Lemma wat_pos ws k : Forall (fun w => 0 < w) ws -> k < length ws -> 0 < wat ws k.
Proof. intros H Hk. unfold wat. rewrite Forall_forall in H. apply H. now apply nth_In. Qed.
Lemma off_lt ws : Forall (fun w => 0 < w) ws -> forall a b, a < b <= length ws -> off ws a < off ws b.
Proof.
  intros H a b. induction b as [|b IH]; intros Hb; [lia|].
  rewrite off_S by lia. pose proof (wat_pos ws b H ltac:(lia)).
  destruct (Nat.eq_dec a b) as [->|]; [lia|]. specialize (IH ltac:(lia)). lia.
Qed.
Lemma off_le_total ws k : k <= length ws -> off ws k <= list_sum ws.
Proof.
  intros. unfold off. rewrite <- (firstn_skipn k ws) at 2. rewrite list_sum_app. lia.
Qed.

(** every byte belongs to a character *)
Lemma byte_char ws : forall i, i < list_sum ws -> exists k j, k < length ws /\ j < wat ws k /\ i = off ws k + j.
Proof.
  induction ws as [|w ws IH]; intros i H; [cbn in H; lia|].
  change (list_sum (w :: ws)) with (w + list_sum ws) in H.
  destruct (Nat.ltb_spec i w).
  - exists 0, i. cbn. lia.
  - destruct (IH (i - w)) as (k & j & A & B & C); [lia|].
    exists (S k), j. unfold off, wat in *. cbn [length nth firstn]. split; [lia|]. split; [assumption|].
    change (list_sum (w :: firstn k ws)) with (w + list_sum (firstn k ws)). lia.
Qed.

Section Expanded.
  Context (ws : list nat) (Hw : Forall (fun w => 0 < w) ws).

  Lemma class_expand cs k j : length cs = length ws -> k < length ws -> j < wat ws k ->
    class_at (expand ws cs) (off ws k + j) = class_at cs k.
  Proof. intros. unfold class_at, off. apply expand_nth; assumption. Qed.
  Lemma level_expand lv k j : length lv = length ws -> k < length ws -> j < wat ws k ->
    level_at (expand ws lv) (off ws k + j) = level_at lv k.
  Proof. intros. unfold level_at, off. apply expand_nth; assumption. Qed.
  Lemma class_expand0 cs k : length cs = length ws -> k < length ws ->
    class_at (expand ws cs) (off ws k) = class_at cs k.
  Proof. intros. rewrite <- (Nat.add_0_r (off ws k)). apply class_expand; auto. now apply wat_pos. Qed.
  Lemma level_expand0 lv k : length lv = length ws -> k < length ws ->
    level_at (expand ws lv) (off ws k) = level_at lv k.
  Proof. intros. rewrite <- (Nat.add_0_r (off ws k)). apply level_expand; auto. now apply wat_pos. Qed.

  Section Runs.
    Context (cs : list BidiClass) (lv : list N)
            (Hc : length cs = length ws) (Hl : length lv = length ws).

    Lemma runs_inner k cur start m : k < length ws ->
      (removed_by_x9 (class_at cs k) = true \/ level_at lv k = cur) ->
      forall d j, d + j = wat ws k ->
      level_runs_loop (expand ws lv) (expand ws cs) (off ws k + j) (d + m) cur start
      = level_runs_loop (expand ws lv) (expand ws cs) (off ws (S k)) m cur start.
    Proof.
      intros Hk Hs. induction d as [|d IH]; intros j Hj.
      - rewrite off_S by assumption. replace j with (wat ws k) by lia. reflexivity.
      - cbn [plus level_runs_loop]. rewrite class_expand, level_expand by (auto; lia).
        replace (negb (removed_by_x9 (class_at cs k)) && negb (level_at lv k =? cur)%N) with false.
        + replace (S (off ws k + j)) with (off ws k + S j) by lia. apply IH. lia.
        + destruct Hs as [-> | ->]; [reflexivity|]. rewrite N.eqb_refl. cbn. now rewrite andb_false_r.
    Qed.

    Lemma runs_chars : forall n k cur s, k + n = length ws -> s < length ws ->
      level_runs_loop (expand ws lv) (expand ws cs) (off ws k) (list_sum ws - off ws k) cur (off ws s)
      = map (bound ws) (level_runs_loop lv cs k n cur s).
    Proof.
      induction n as [|n IH]; intros k cur s Hk Hs.
      - rewrite (off_all ws k) by lia. rewrite Nat.sub_diag. cbn [level_runs_loop map bound fst snd].
        unfold bound; cbn [fst snd]. rewrite (off_all ws k) by lia. reflexivity.
      - assert (Hk' : k < length ws) by lia. pose proof (wat_pos ws k Hw Hk') as Hp.
        pose proof (off_S ws k Hk') as HS. pose proof (off_le_total ws (S k) ltac:(lia)) as HT.
        replace (list_sum ws - off ws k) with (S ((wat ws k - 1) + (list_sum ws - off ws (S k)))) by lia.
        cbn [level_runs_loop]. rewrite class_expand0, level_expand0 by assumption.
        replace (S (off ws k)) with (off ws k + 1) by lia.
        destruct (negb (removed_by_x9 (class_at cs k)) && negb (level_at lv k =? cur)%N) eqn:E.
        + cbn [map]. f_equal. rewrite runs_inner by (auto; lia). apply IH; lia.
        + rewrite runs_inner; [apply IH; lia|assumption| |lia].
          apply andb_false_iff in E as [E|E]; apply negb_false_iff in E; [now left|right; now apply N.eqb_eq in E].
    Qed.

    Lemma level_runs_chars :
      level_runs (expand ws lv) (expand ws cs) = map (bound ws) (level_runs lv cs).
    Proof.
      unfold level_runs. destruct lv as [|l0 lv'] eqn:E.
      { destruct ws; [reflexivity|cbn in Hl; lia]. }
      rewrite <- E in *. assert (H0 : 0 < length ws) by (rewrite <- Hl, E; cbn; lia).
      destruct (expand ws lv) as [|l1 r] eqn:E2.
      { exfalso. pose proof (expand_length ws lv Hl) as X. rewrite E2 in X. cbn in X.
        pose proof (off_lt ws Hw 0 (length ws) ltac:(lia)) as Y. rewrite (off_all ws (length ws)), off_0 in Y by lia. lia. }
      rewrite <- E2. assert (l1 = l0) as ->.
      { pose proof (level_expand0 lv 0 Hl H0) as X. rewrite E2 in X. rewrite E in X. exact X. }
      pose proof (wat_pos ws 0 Hw H0) as Hp. pose proof (off_S ws 0 H0) as HS. cbn [off firstn] in HS.
      pose proof (off_le_total ws 1 ltac:(lia)) as HT. rewrite off_0 in HS.
      rewrite (expand_length ws lv Hl).
      replace (list_sum ws - 1) with ((wat ws 0 - 1) + (list_sum ws - off ws 1)) by lia.
      change (level_runs_loop (expand ws lv) (expand ws cs) 1 (wat ws 0 - 1 + (list_sum ws - off ws 1)) l0 0)
        with (level_runs_loop (expand ws lv) (expand ws cs) (off ws 0 + 1) (wat ws 0 - 1 + (list_sum ws - off ws 1)) l0 (off ws 0)).
      rewrite runs_inner; [|assumption| |lia].
      - apply runs_chars; lia.
      - right. rewrite E. reflexivity.
    Qed.

    Lemma collect_chars runs : forall stack seqs, Forall (fun r => fst r < snd r <= length ws) runs ->
      collect_sequences (expand ws cs) (map (bound ws) runs) (map (map (bound ws)) stack) (map (map (bound ws)) seqs)
      = map (map (bound ws)) (collect_sequences cs runs stack seqs).
    Proof.
      induction runs as [|r runs IH]; intros stack seqs HR; cbn [map collect_sequences].
      - rewrite map_app. f_equal. induction stack as [|[|a s] st IHst]; cbn; congruence.
      - inversion HR as [|? ? H1 H2]; subst.
        assert (E1 : class_at (expand ws cs) (fst (bound ws r)) = class_at cs (fst r)).
        { unfold bound; cbn [fst]. apply class_expand0; [assumption|lia]. }
        assert (E2 : class_at (expand ws cs) (snd (bound ws r) - 1) = class_at cs (snd r - 1)).
        { unfold bound; cbn [snd]. pose proof (wat_pos ws (snd r - 1) Hw ltac:(lia)).
          replace (off ws (snd r) - 1) with (off ws (snd r - 1) + (wat ws (snd r - 1) - 1)).
          - apply class_expand; try assumption; lia.
          - replace (snd r) with (S (snd r - 1)) at 3 by lia. rewrite off_S by lia. lia. }
        rewrite E1, E2.
        assert (K : forall sq st,
          (if is_isolate_initiator (class_at cs (snd r - 1))
           then collect_sequences (expand ws cs) (map (bound ws) runs) ((map (bound ws) sq ++ [bound ws r]) :: map (map (bound ws)) st) (map (map (bound ws)) seqs)
           else collect_sequences (expand ws cs) (map (bound ws) runs) (map (map (bound ws)) st) (map (map (bound ws)) seqs ++ [map (bound ws) sq ++ [bound ws r]]))
          = map (map (bound ws)) (if is_isolate_initiator (class_at cs (snd r - 1))
              then collect_sequences cs runs ((sq ++ [r]) :: st) seqs
              else collect_sequences cs runs st (seqs ++ [sq ++ [r]]))).
        { intros sq st. destruct (is_isolate_initiator _).
          - rewrite <- IH by assumption. cbn [map]. rewrite map_app. reflexivity.
          - rewrite <- IH by assumption. rewrite map_app. cbn [map]. rewrite map_app. reflexivity. }
        destruct (class_at cs (fst r)); destruct stack as [|s [|s2 st]]; cbv iota beta zeta; cbn [map];
          first [exact (K [] []) | exact (K [] [s]) | exact (K [] (s :: s2 :: st)) | exact (K s (s2 :: st))].
    Qed.

    Lemma rposition_chars : forall k, k <= length ws ->
      rposition (expand ws cs) (off ws k)
      = match rposition cs k with Some i => Some (off ws i + (wat ws i - 1)) | None => None end.
    Proof.
      assert (Inner : forall k d, k < length ws -> removed_by_x9 (class_at cs k) = true -> d <= wat ws k ->
        rposition (expand ws cs) (off ws k + d) = rposition (expand ws cs) (off ws k)).
      { intros k d Hk Hr. induction d as [|d IH]; intros Hd; [now rewrite Nat.add_0_r|].
        rewrite Nat.add_succ_r. cbn [rposition]. unfold not_removed_by_x9. rewrite class_expand by (auto; lia).
        rewrite Hr. cbn [negb]. apply IH. lia. }
      induction k as [|k IH]; intros Hk; [reflexivity|].
      rewrite off_S by lia. cbn [rposition]. pose proof (wat_pos ws k Hw ltac:(lia)) as Hp.
      unfold not_removed_by_x9 at 1. destruct (removed_by_x9 (class_at cs k)) eqn:E; cbn [negb].
      - rewrite Inner by (auto; lia). apply IH. lia.
      - replace (off ws k + wat ws k) with (S (off ws k + (wat ws k - 1))) by lia. cbn [rposition].
        unfold not_removed_by_x9. rewrite class_expand by (auto; lia). rewrite E. reflexivity.
    Qed.

    Lemma position_chars : forall n k, k + n = length ws ->
      position (expand ws cs) (off ws k) (list_sum ws - off ws k) = option_map (off ws) (position cs k n).
    Proof.
      assert (Inner : forall k m, k < length ws -> removed_by_x9 (class_at cs k) = true ->
        forall d j, d + j = wat ws k ->
        position (expand ws cs) (off ws k + j) (d + m) = position (expand ws cs) (off ws (S k)) m).
      { intros k m Hk Hr. induction d as [|d IH]; intros j Hj.
        - rewrite off_S by assumption. replace j with (wat ws k) by lia. reflexivity.
        - cbn [plus position]. unfold not_removed_by_x9. rewrite class_expand by (auto; lia). rewrite Hr. cbn [negb].
          rewrite <- Nat.add_succ_r. apply IH. lia. }
      induction n as [|n IH]; intros k Hk.
      - rewrite off_all by lia. rewrite Nat.sub_diag. reflexivity.
      - assert (Hk' : k < length ws) by lia. pose proof (wat_pos ws k Hw Hk') as Hp.
        pose proof (off_S ws k Hk') as HS. pose proof (off_le_total ws (S k) ltac:(lia)) as HT.
        cbn [position]. unfold not_removed_by_x9 at 1. destruct (removed_by_x9 (class_at cs k)) eqn:E; cbn [negb].
        + rewrite <- (Nat.add_0_r (off ws k)) at 1.
          replace (list_sum ws - off ws k) with (wat ws k + (list_sum ws - off ws (S k))) by lia.
          rewrite Inner by (auto; lia). apply IH. lia.
        + replace (list_sum ws - off ws k) with (S (list_sum ws - off ws k - 1)) by lia. cbn [position].
          unfold not_removed_by_x9. rewrite class_expand0 by assumption. rewrite E. reflexivity.
    Qed.

    Lemma rposition_lt oc k : forall i, rposition oc k = Some i -> i < k.
    Proof.
      induction k as [|k IH]; cbn [rposition]; intros i H; [discriminate|].
      destruct (not_removed_by_x9 _); [injection H; lia|]. specialize (IH _ H). lia.
    Qed.
    Lemma position_bound oc n : forall k i, position oc k n = Some i -> k <= i < k + n.
    Proof.
      induction n as [|n IH]; cbn [position]; intros k i H; [discriminate|].
      destruct (not_removed_by_x9 _); [injection H; lia|]. specialize (IH _ _ H). lia.
    Qed.

    Lemma seq_start_map s : s <> [] -> seq_start (map (bound ws) s) = off ws (seq_start s).
    Proof. destruct s; [congruence|reflexivity]. Qed.
    Lemma last_map_ne {A B} (f : A -> B) l d d' : l <> [] -> last (map f l) d' = f (last l d).
    Proof.
      induction l as [|a l IH]; [congruence|]. intros _. destruct l as [|b l]; [reflexivity|].
      change (last (map f (b :: l)) d' = f (last (b :: l) d)). apply IH. discriminate.
    Qed.
    Lemma seq_end_map s : s <> [] -> seq_end (map (bound ws) s) = off ws (seq_end s).
    Proof. intros. unfold seq_end. now rewrite (last_map_ne _ _ run0). Qed.

    Definition map_seq (s : sequence) : sequence := mkseq (map (bound ws) (s_runs s)) (s_sos s) (s_eos s).

    Lemma finish_chars para s : s <> [] -> seq_start s < length ws -> 0 < seq_end s <= length ws ->
      finish_sequence para (expand ws cs) (expand ws lv) (map (bound ws) s)
      = map_seq (finish_sequence para cs lv s).
    Proof.
      intros Hs H1 H2. unfold finish_sequence, map_seq; cbn [s_runs s_sos s_eos].
      rewrite seq_start_map, seq_end_map by assumption.
      rewrite level_expand0 by assumption. rewrite rposition_chars by lia.
      assert (E : class_at (expand ws cs) (off ws (seq_end s) - 1) = class_at cs (seq_end s - 1)).
      { pose proof (wat_pos ws (seq_end s - 1) Hw ltac:(lia)).
        replace (off ws (seq_end s) - 1) with (off ws (seq_end s - 1) + (wat ws (seq_end s - 1) - 1)).
        - apply class_expand; try assumption; lia.
        - replace (seq_end s) with (S (seq_end s - 1)) at 3 by lia. rewrite off_S by lia. lia. }
      rewrite E. rewrite expand_length by assumption. rewrite (position_chars (length cs - seq_end s)) by lia.
      f_equal.
      - f_equal. f_equal. destruct (rposition cs (seq_start s)) as [i|] eqn:R; [|reflexivity].
        apply rposition_lt in R. pose proof (wat_pos ws i Hw ltac:(lia)). apply level_expand; auto; lia.
      - f_equal. f_equal. destruct (is_isolate_initiator _); [reflexivity|].
        destruct (position cs (seq_end s) (length cs - seq_end s)) as [i|] eqn:R; [|reflexivity].
        apply position_bound in R. cbn [option_map]. apply level_expand0; auto; lia.
    Qed.

    Lemma sequences_chars para :
      isolating_run_sequences para (expand ws cs) (expand ws lv)
      = map map_seq (isolating_run_sequences para cs lv).
    Proof.
      unfold isolating_run_sequences. rewrite level_runs_chars.
      destruct (are_level_runs_in_order _ _ _ _ (level_runs_spec lv cs)) as (O & _ & F & _).
      assert (F' : Forall (fun r => fst r < snd r <= length ws) (level_runs lv cs)) by (rewrite <- Hl; exact F).
      pose proof (collect_chars (level_runs lv cs) [[]] [] F') as C. cbn [map] in C. rewrite C.
      rewrite !map_map. apply map_ext_in. intros s Hs.
      assert (Hne : s <> []).
      { pose proof (collect_ordered cs (level_runs lv cs) [[]] [] 0 O) as X.
        assert (X1 : Forall (fun s => s <> [] /\ in_order 0 s) (collect_sequences cs (level_runs lv cs) [[]] [])).
        { apply X; [|constructor]. constructor; [|constructor]. split; [exact I|congruence]. }
        rewrite Forall_forall in X1. now apply X1. }
      assert (Hin : forall r, In r s -> fst r < snd r <= length ws).
      { intros r Hr. rewrite <- Hl. rewrite Forall_forall in F. apply F.
        eapply Permutation_in; [apply (collect_perm cs (level_runs lv cs) [[]] [])|].
        apply in_concat. eauto. }
      apply finish_chars; [assumption| |].
      - destruct s as [|r s]; [congruence|]. change (fst r < length ws). specialize (Hin r (or_introl eq_refl)). lia.
      - unfold seq_end. assert (In (last s run0) s).
        { destruct (exists_last Hne) as (a & b & ->). rewrite last_last. apply in_or_app. right. now left. }
        specialize (Hin _ H). lia.
    Qed.
  End Runs.

  (** ** The positions of a sequence *)

  Lemma span_runs : forall n a, a + n <= length ws -> seq (off ws a) (off ws (a + n) - off ws a) = flat_map (span ws) (seq a n).
  Proof.
    induction n as [|n IH]; intros a H; [rewrite Nat.add_0_r, Nat.sub_diag; reflexivity|].
    cbn [seq flat_map]. unfold span at 1. rewrite <- IH by lia.
    replace (a + S n) with (S a + n) by lia.
    assert (Hle : off ws (S a) <= off ws (S a + n)).
    { destruct n; [now rewrite Nat.add_0_r|]. apply Nat.lt_le_incl, off_lt; [assumption|lia]. }
    pose proof (off_S ws a ltac:(lia)) as HS. rewrite HS in *.
    replace (off ws (S a + n) - off ws a) with (wat ws a + (off ws (S a + n) - (off ws a + wat ws a))) by lia.
    apply seq_app.
  Qed.

  Lemma indices_chars runs : Forall (fun r => fst r < snd r <= length ws) runs ->
    seq_indices (map (bound ws) runs) = flat_map (span ws) (seq_indices runs).
  Proof.
    induction 1 as [|r runs H _ IH]; [reflexivity|].
    change (map (bound ws) (r :: runs)) with (bound ws r :: map (bound ws) runs).
    change (seq_indices (bound ws r :: map (bound ws) runs)) with (run_indices (bound ws r) ++ seq_indices (map (bound ws) runs)).
    change (seq_indices (r :: runs)) with (run_indices r ++ seq_indices runs).
    rewrite flat_map_app, IH. f_equal. unfold run_indices, bound; cbn [fst snd].
    rewrite <- span_runs by lia. replace (fst r + (snd r - fst r)) with (snd r) by lia. reflexivity.
  Qed.

  Lemma reads_chars cs idx : length cs = length ws -> (forall k, In k idx -> k < length ws) ->
    reads (expand ws cs) (flat_map (span ws) idx) = expand (map (wat ws) idx) (reads cs idx).
  Proof.
    intros Hc. induction idx as [|k idx IH]; intros H; [reflexivity|].
    cbn [flat_map map reads]. unfold reads in *. cbn [map expand]. rewrite map_app. f_equal.
    - unfold span. assert (Hk : k < length ws) by (apply H; now left).
      assert (G : forall d j, d + j = wat ws k -> map (class_at (expand ws cs)) (seq (off ws k + j) d) = repeat (class_at cs k) d).
      { induction d as [|d IHd]; intros j Hj; [reflexivity|]. cbn [seq map repeat].
        rewrite class_expand by (auto; lia). f_equal. rewrite <- Nat.add_succ_r. apply IHd. lia. }
      specialize (G (wat ws k) 0). rewrite !Nat.add_0_r in G. apply G. reflexivity.
    - apply IH. intros. apply H. now right.
  Qed.
End Expanded.

(** ** The list passes on whole characters *)

(** W1-W6 character by character; only W4 sees the widths *)
Definition seen_after (c : BidiClass) (w : nat) (r : list BidiClass) : list BidiClass :=
  if 1 <? w then c :: r else r.
Fixpoint wlc (eos : BidiClass) (ws : list nat) (cs : list BidiClass) (prev : BidiClass) (al : bool)
  : list BidiClass :=
  match ws, cs with
  | w :: ws', c :: r =>
      if removed_by_x9 c then c :: wlc eos ws' r prev al
      else let p := wl_prev eos c (seen_after c w r) prev al in
           wl_class eos c (seen_after c w r) prev al :: wlc eos ws' r p (al_after p al)
  | _, _ => []
  end.

Lemma wlc_length eos ws : forall cs prev al, length cs = length ws -> length (wlc eos ws cs prev al) = length cs.
Proof.
  induction ws as [|w ws IH]; intros [|c cs] prev al H; cbn [length] in H; try lia; [reflexivity|].
  cbn [wlc]. destruct (removed_by_x9 c); cbn [length]; rewrite IH; lia.
Qed.

Lemma find_repeat (f : BidiClass -> bool) c w l : 0 < w -> find f (repeat c w ++ l) = if f c then Some c else find f l.
Proof.
  intros Hw. destruct w as [|w]; [lia|]. clear Hw. induction w as [|w IH]; [reflexivity|].
  change (repeat c (S (S w)) ++ l) with (c :: (repeat c (S w) ++ l)). cbn [find]. destruct (f c) eqn:E; [reflexivity|].
  exact IH.
Qed.

Lemma find_expand (f : BidiClass -> bool) ws : Forall (fun w => 0 < w) ws -> forall cs, length cs = length ws ->
  find f (expand ws cs) = find f cs.
Proof.
  induction 1 as [|w ws Hp _ IH]; intros [|c cs] H; cbn [length] in H; try lia; [reflexivity|].
  cbn [expand]. rewrite find_repeat by assumption. cbn [find]. rewrite IH by lia. reflexivity.
Qed.

Lemma et_fate_repeat c w l al : 0 < w -> et_fate (repeat c w ++ l) al = et_fate (c :: l) al.
Proof.
  intros Hw. destruct w as [|w]; [lia|]. clear Hw. induction w as [|w IH]; [reflexivity|].
  change (repeat c (S (S w)) ++ l) with (c :: (repeat c (S w) ++ l)). cbn [et_fate]. rewrite IH.
  cbn [et_fate]. destruct c; try destruct (removed_by_x9 _); reflexivity.
Qed.

Lemma et_fate_expand ws al : Forall (fun w => 0 < w) ws -> forall cs, length cs = length ws ->
  et_fate (expand ws cs) al = et_fate cs al.
Proof.
  induction 1 as [|w ws Hp _ IH]; intros [|c cs] H; cbn [length] in H; try lia; [reflexivity|].
  cbn [expand]. rewrite et_fate_repeat by assumption. cbn [et_fate]. rewrite IH by lia. reflexivity.
Qed.

(** two continuations that look the same to the pass *)
Definition looks (eos : BidiClass) (R r : list BidiClass) : Prop :=
  next_in R eos = next_in r eos /\ forall al, et_fate R al = et_fate r al.

Lemma wl_class_looks eos c R r prev al : looks eos R r ->
  wl_class eos c R prev al = wl_class eos c r prev al /\ wl_prev eos c R prev al = wl_prev eos c r prev al.
Proof.
  intros (A & B). unfold wl_prev, wl_class. rewrite A, B. split; reflexivity.
Qed.

Lemma wl_repeat eos c R r : looks eos R r -> forall w prev al, 0 < w ->
  wl eos (repeat c w ++ R) prev al
  = if removed_by_x9 c then repeat c w ++ wl eos R prev al
    else let p := wl_prev eos c (seen_after c w r) prev al in
         repeat (wl_class eos c (seen_after c w r) prev al) w ++ wl eos R p (al_after p al).
Proof.
  intros HL w prev al Hp.
  destruct (removed_by_x9 c) eqn:E.
  { clear Hp. induction w as [|w IH]; [reflexivity|]. cbn [repeat app wl]. rewrite E, IH. reflexivity. }
  destruct w as [|w]; [lia|]. clear Hp. unfold seen_after.
  destruct w as [|w].
  { cbn [repeat app wl]. rewrite E. change (1 <? 1) with false. cbv iota.
    destruct (wl_class_looks eos c R r prev al HL) as (-> & ->). reflexivity. }
  change (1 <? S (S w)) with true. cbv iota zeta.
  (* the class does not change from byte to byte *)
  set (x := wl_class eos c (c :: r) prev al). set (p := wl_prev eos c (c :: r) prev al).
  set (a := al_after p al).
  assert (G : wl_class eos c (c :: r) p a = x /\ wl_prev eos c (c :: r) p a = p /\ al_after p a = a /\
              wl_class eos c r p a = x /\ wl_prev eos c r p a = p).
  { subst a p x. clear -E. destruct c; try discriminate E;
    unfold wl_prev, wl_class, next_in, sep_class, nsm_class; cbn [find not_removed_by_x9 removed_by_x9 negb et_fate al_after];
    repeat split; auto; try (destruct prev, al; reflexivity). }
  destruct G as (G1 & G2 & G3 & G4 & G5).
  assert (LC : forall w, looks eos (repeat c (S w) ++ R) (c :: r)).
  { intros n. split.
    - unfold next_in. rewrite find_repeat by lia. cbn [find]. unfold not_removed_by_x9. rewrite E. reflexivity.
    - intros b. rewrite et_fate_repeat by lia. cbn [et_fate]. now rewrite (proj2 HL). }
  assert (F : forall w, wl eos (repeat c (S w) ++ R) p a = repeat x (S w) ++ wl eos R p a).
  { induction w0 as [|n IH].
    - cbn [repeat app wl]. rewrite E. destruct (wl_class_looks eos c R r p a HL) as (-> & ->).
      now rewrite G4, G5, G3.
    - change (repeat c (S (S n)) ++ R) with (c :: (repeat c (S n) ++ R)).
      change (repeat x (S (S n)) ++ wl eos R p a) with (x :: (repeat x (S n) ++ wl eos R p a)).
      cbn [wl]. rewrite E. destruct (wl_class_looks eos c _ _ p a (LC n)) as (-> & ->).
      now rewrite G1, G2, G3, IH. }
  change (repeat c (S (S w)) ++ R) with (c :: (repeat c (S w) ++ R)). cbn [wl]. rewrite E.
  destruct (wl_class_looks eos c _ _ prev al (LC w)) as (-> & ->). fold x p a. rewrite F. reflexivity.
Qed.

Lemma looks_expand eos ws cs : Forall (fun w => 0 < w) ws -> length cs = length ws -> looks eos (expand ws cs) cs.
Proof.
  intros Hw Hc. split.
  - unfold next_in. now rewrite find_expand.
  - intros al. now apply et_fate_expand.
Qed.

Lemma wl_expand eos ws : Forall (fun w => 0 < w) ws -> forall cs prev al, length cs = length ws ->
  wl eos (expand ws cs) prev al = expand ws (wlc eos ws cs prev al).
Proof.
  induction 1 as [|w ws Hp Hw IH]; intros [|c cs] prev al H; cbn [length] in H; try lia; [reflexivity|].
  cbn [expand wlc]. rewrite (wl_repeat eos c _ cs) by (auto; apply looks_expand; auto; lia).
  destruct (removed_by_x9 c); cbn zeta; cbn [expand]; rewrite IH by lia; reflexivity.
Qed.

Lemma w7l_expand ws : Forall (fun w => 0 < w) ws -> forall cs b, length cs = length ws ->
  w7l (expand ws cs) b = expand ws (w7l cs b).
Proof.
  induction 1 as [|w ws Hp Hw IH]; intros [|c cs] b H; cbn [length] in H; try lia; [reflexivity|].
  cbn [expand w7l].
  assert (G : forall w b R, w7l (repeat c (S w) ++ R) b = repeat (w7_class c b) (S w) ++ w7l R (l_after c b)).
  { clear. induction w as [|w IH]; intros b R; [reflexivity|].
    change (repeat c (S (S w)) ++ R) with (c :: (repeat c (S w) ++ R)). cbn [w7l]. rewrite IH.
    replace (w7_class c (l_after c b)) with (w7_class c b) by (destruct c; reflexivity).
    replace (l_after c (l_after c b)) with (l_after c b) by (destruct c; reflexivity).
    reflexivity. }
  destruct w as [|w]; [lia|]. rewrite G. rewrite IH by lia. reflexivity.
Qed.

Lemma nl_expand e eos ws : Forall (fun w => 0 < w) ws -> forall cs prev b, length cs = length ws ->
  nl e eos (expand ws cs) prev b = expand ws (nl e eos cs prev b).
Proof.
  induction 1 as [|w ws Hp Hw IH]; intros [|c cs] prev b H; cbn [length] in H; try lia; [reflexivity|].
  destruct w as [|w]; [lia|]. cbn [expand nl].
  assert (NN : forall n, is_NI c = true -> next_non_neutral (repeat c n ++ expand ws cs) eos = next_non_neutral cs eos).
  { intros n Hn. unfold next_non_neutral. destruct n as [|n].
    - cbn [repeat app]. now rewrite find_expand by (auto; lia).
    - rewrite find_repeat by lia. rewrite Hn, orb_true_r. cbn [negb]. now rewrite find_expand by (auto; lia). }
  destruct (is_NI c) eqn:EN.
  - assert (G : forall n b, nl e eos (repeat c (S n) ++ expand ws cs) prev b
       = repeat (neutral_class prev (next_non_neutral cs eos) e) (S n) ++ nl e eos (expand ws cs) prev true).
    { induction n as [|n IHn]; intros b'.
      - cbn [repeat app nl]. rewrite EN. pose proof (NN 0 eq_refl) as N0. cbn [repeat app] in N0. rewrite N0. reflexivity.
      - change (repeat c (S (S n)) ++ expand ws cs) with (c :: (repeat c (S n) ++ expand ws cs)).
        cbn [nl]. rewrite EN, NN by reflexivity. rewrite IHn. reflexivity. }
    rewrite G, IH by lia. reflexivity.
  - destruct b; cbn [andb].
    + destruct (removed_by_x9 c) eqn:ER.
      * assert (G : forall n, nl e eos (repeat c n ++ expand ws cs) prev true = repeat c n ++ nl e eos (expand ws cs) prev true).
        { induction n as [|n IHn]; [reflexivity|]. cbn [repeat app nl]. rewrite EN, ER. cbn [andb]. now rewrite IHn. }
        rewrite G, IH by lia. reflexivity.
      * assert (G : forall n, nl e eos (repeat c n ++ expand ws cs) c false = repeat c n ++ nl e eos (expand ws cs) c false).
        { induction n as [|n IHn]; [reflexivity|]. cbn [repeat app nl]. rewrite EN. cbn [andb]. now rewrite IHn. }
        cbn [repeat app nl expand]. rewrite EN, ER. cbn [andb]. rewrite G, IH by lia. reflexivity.
    + assert (G : forall n, nl e eos (repeat c n ++ expand ws cs) c false = repeat c n ++ nl e eos (expand ws cs) c false).
      { induction n as [|n IHn]; [reflexivity|]. cbn [repeat app nl]. rewrite EN. cbn [andb]. now rewrite IHn. }
      cbn [repeat app nl expand]. rewrite EN. cbn [andb]. rewrite G, IH by lia. reflexivity.
Qed.

(** ** A paragraph, character by character *)

Fixpoint writes (pc : list BidiClass) (idx : list nat) (vs : list BidiClass) : list BidiClass :=
  match idx, vs with
  | i :: idx', v :: vs' => writes (upd pc i v) idx' vs'
  | _, _ => pc
  end.

Lemma writes_out idx : forall pc vs, NoDup idx -> in_range pc idx -> length vs = length idx ->
  length (writes pc idx vs) = length pc /\ reads (writes pc idx vs) idx = vs /\
  (forall j, ~ In j idx -> class_at (writes pc idx vs) j = class_at pc j).
Proof.
  induction idx as [|i idx IH]; intros pc [|v vs] ND RI HL; cbn [length] in HL; try lia.
  - repeat split; auto.
  - inversion ND as [|? ? Hni ND']; subst. cbn [writes].
    assert (Ri : i < length pc) by (apply RI; now left).
    destruct (IH (upd pc i v) vs ND') as (L & R & O); [|lia|].
    { intros j Hj. rewrite upd_length. apply RI. now right. }
    rewrite upd_length in L. split; [assumption|]. split.
    + cbn [reads map]. f_equal; [|exact R]. rewrite O by assumption.
      now rewrite class_at_upd, Nat.eqb_refl by assumption.
    + intros j Hj. rewrite O by (intros X; apply Hj; now right).
      rewrite class_at_upd by assumption. destruct (Nat.eqb_spec j i) as [->|]; [|reflexivity].
      exfalso. apply Hj. now left.
Qed.

(** the classes of the characters of a sequence after W1-W7 and N1-N2 *)
Definition resolve_chars (ws : list nat) (lv : list N) (s : sequence) (cs : list BidiClass) : list BidiClass :=
  let idx := seq_indices (s_runs s) in
  nl (level_class (level_at lv (seq_start (s_runs s)))) (s_eos s)
     (w7l (wlc (s_eos s) (map (wat ws) idx) cs (s_sos s) false) (is_class_L (s_sos s)))
     (s_sos s) false.

Definition char_step (ws : list nat) (lv : list N) (pc : list BidiClass) (s : sequence) : list BidiClass :=
  writes pc (seq_indices (s_runs s)) (resolve_chars ws lv s (reads pc (seq_indices (s_runs s)))).

(** the classes of all characters of a paragraph after the implicit rules *)
Definition char_classes (ws : list nat) (para : N) (oc : list BidiClass) (lv : list N) (pc : list BidiClass)
  : list BidiClass :=
  fold_left (char_step ws lv) (isolating_run_sequences para oc lv) pc.

Lemma sequences_nodup para oc lv :
  NoDup (flat_map (fun s => seq_indices (s_runs s)) (isolating_run_sequences para oc lv)) /\
  (forall i, In i (flat_map (fun s => seq_indices (s_runs s)) (isolating_run_sequences para oc lv)) <-> i < length lv).
Proof.
  pose proof (sequences_cover para oc lv) as P. split.
  - eapply Permutation_NoDup; [apply Permutation_sym; exact P|apply seq_NoDup].
  - intros i. split; intros H.
    + apply (Permutation_in _ P) in H. apply in_seq in H. lia.
    + apply (Permutation_in _ (Permutation_sym P)). apply in_seq. lia.
Qed.

Lemma char_classes_spec ws para oc lv pc : length lv = length pc ->
  length (char_classes ws para oc lv pc) = length pc /\
  forall s, In s (isolating_run_sequences para oc lv) ->
    reads (char_classes ws para oc lv pc) (seq_indices (s_runs s))
    = resolve_chars ws lv s (reads pc (seq_indices (s_runs s))).
Proof.
  intros HL. destruct (sequences_nodup para oc lv) as (ND & HI).
  destruct (fold_out (fun s => seq_indices (s_runs s)) (char_step ws lv)
              (fun s cs => if length cs =? length (seq_indices (s_runs s)) then resolve_chars ws lv s cs else cs))
    with (seqs := isolating_run_sequences para oc lv) (pc := pc) as (A & B & _).
  - intros s pc1 N1 R1. unfold list_out, char_step. unfold reads at 3 4. rewrite map_length, Nat.eqb_refl.
    fold (reads pc1 (seq_indices (s_runs s))). apply writes_out; auto.
    unfold resolve_chars. rewrite nl_length, w7l_length, wlc_length; unfold reads; rewrite !map_length; reflexivity.
  - assumption.
  - intros j Hj. apply HI in Hj. lia.
  - split; [exact A|]. intros s Hs. specialize (B s Hs). cbv beta in B.
    unfold reads at 2 in B. rewrite map_length, Nat.eqb_refl in B. exact B.
Qed.

Lemma map_eq_in {A B} (f g : A -> B) l : map f l = map g l -> forall x, In x l -> f x = g x.
Proof.
  induction l as [|a l IH]; intros H x []; cbn [map] in H; injection H as H1 H2; subst; auto.
Qed.

Lemma classes_ext (l m : list BidiClass) : length l = length m -> (forall i, i < length l -> class_at l i = class_at m i) -> l = m.
Proof. intros. eapply nth_ext; eauto. Qed.

Lemma fold_chars ws para oc lv pc : Forall (fun w => 0 < w) ws ->
  length oc = length ws -> length lv = length ws -> length pc = length ws ->
  fold_left (fun pc s => resolve_neutral s (expand ws lv) (resolve_weak s pc))
    (isolating_run_sequences para (expand ws oc) (expand ws lv)) (expand ws pc)
  = expand ws (char_classes ws para oc lv pc).
Proof.
  intros Hw Ho Hl Hp.
  destruct (sequences_nodup para (expand ws oc) (expand ws lv)) as (ND & HI).
  destruct (char_classes_spec ws para oc lv pc ltac:(congruence)) as (CL & CR).
  destruct (fold_out (fun s => seq_indices (s_runs s))
     (fun pc s => resolve_neutral s (expand ws lv) (resolve_weak s pc))
     (fun s cs => nl (level_class (level_at (expand ws lv) (seq_start (s_runs s)))) (s_eos s)
                     (weak_list (s_sos s) (s_eos s) cs) (s_sos s) false))
    with (seqs := isolating_run_sequences para (expand ws oc) (expand ws lv)) (pc := expand ws pc)
    as (A & B & _).
  { intros s pc1 N1 R1. destruct (resolve_weak_out s pc1 N1 R1) as (L & R & O).
    destruct (resolve_neutral_out s (expand ws lv) (resolve_weak s pc1) N1) as (L2 & R2 & O2).
    { intros j Hj. rewrite L. auto. }
    split; [congruence|]. split.
    - rewrite R2, R. reflexivity.
    - intros j Hj. rewrite O2, O by assumption. reflexivity. }
  { assumption. }
  { intros j Hj. apply HI in Hj. rewrite (expand_length ws lv Hl) in Hj. rewrite (expand_length ws pc Hp). assumption. }
  set (out := fold_left _ _ _) in *.
  rewrite (expand_length ws pc Hp) in A.
  apply classes_ext; [rewrite expand_length; [exact A|lia]|].
  intros i Hi. rewrite A in Hi.
  destruct (byte_char ws i Hi) as (k & j & Hk & Hj & E).
  destruct (sequences_nodup para oc lv) as (_ & HI2).
  assert (Hin : In k (flat_map (fun s => seq_indices (s_runs s)) (isolating_run_sequences para oc lv))) by (apply HI2; lia).
  apply in_flat_map in Hin as (s & Hs & Hks).
  assert (Hs' : In (map_seq ws s) (isolating_run_sequences para (expand ws oc) (expand ws lv))).
  { rewrite (sequences_chars ws Hw oc lv Ho Hl). now apply in_map. }
  specialize (B _ Hs'). specialize (CR _ Hs). cbn [map_seq s_runs s_sos s_eos] in B.
  assert (FR : Forall (fun r => fst r < snd r <= length ws) (s_runs s)).
  { destruct (are_level_runs_in_order _ _ _ _ (level_runs_spec lv oc)) as (_ & _ & F & _).
    apply Forall_forall. intros r Hr. rewrite Forall_forall in F. rewrite <- Hl. apply F.
    eapply Permutation_in; [apply (sequences_perm para oc lv)|]. apply in_concat. exists (s_runs s).
    split; [now apply in_map|assumption]. }
  assert (IX : forall k, In k (seq_indices (s_runs s)) -> k < length ws).
  { intros k' Hk'. rewrite <- Hl. apply HI2. apply in_flat_map. eauto. }
  assert (NE : s_runs s <> []).
  { pose proof (sequences_ordered para oc lv) as SO. rewrite Forall_forall in SO. now apply SO. }
  assert (SS : seq_start (s_runs s) < length ws).
  { destruct (s_runs s) as [|r rs]; [congruence|]. change (fst r < length ws). inversion FR; subst. lia. }
  rewrite indices_chars in B by assumption. rewrite (reads_chars ws pc) in B by assumption.
  rewrite seq_start_map, level_expand0 in B by assumption.
  set (idx := seq_indices (s_runs s)) in *.
  assert (WP : Forall (fun w => 0 < w) (map (wat ws) idx)).
  { apply Forall_map, Forall_forall. intros x Hx. apply wat_pos; auto. }
  assert (LR : length (reads pc idx) = length (map (wat ws) idx)) by (unfold reads; now rewrite !map_length).
  unfold weak_list in B. rewrite wl_expand in B by assumption.
  rewrite w7l_expand in B by (auto; rewrite wlc_length; assumption).
  rewrite nl_expand in B by (auto; rewrite w7l_length, wlc_length; assumption).
  unfold resolve_chars in CR. fold idx in CR. rewrite <- CR in B.
  rewrite <- (reads_chars ws (char_classes ws para oc lv pc)) in B by (auto; lia).
  eapply map_eq_in in B; [exact B|]. apply in_flat_map. exists k. split; [assumption|].
  unfold span. apply in_seq. lia.
Qed.

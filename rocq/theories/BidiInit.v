(** Paragraph splitting, paragraph levels and first-strong isolates. *)
From Coq Require Import List NArith ZArith Lia Bool Arith Permutation ZifyBool ZifyNat ZifyN.
Import ListNotations.
From Verif Require Import Base Enums EnumFacts UcdModel BidiTables BidiModel BidiSpec BidiLemmas.
Open Scope nat_scope.

(** ** First strong character *)

Definition strongb (c : BidiClass) : bool := match c with cL | cR | cAL => true | _ => false end.

Lemma strongb_spec c : strongb c = true <-> strong c.
Proof. unfold strong. destruct c; cbn; split; intros; try discriminate; auto; intuition discriminate. Qed.

Definition depth1 (d : nat) (c : BidiClass) : nat :=
  match c with cLRI | cRLI | cFSI => S d | cPDI => pred d | _ => d end.

Lemma isolate_depth_fold cs : forall d, isolate_depth d cs = fold_left depth1 cs d.
Proof. induction cs as [|c cs IH]; intros d; [reflexivity|]. destruct c; cbn; apply IH. Qed.

Lemma isolate_depth_snoc cs c d : isolate_depth d (cs ++ [c]) = depth1 (isolate_depth d cs) c.
Proof. now rewrite !isolate_depth_fold, fold_left_app. Qed.

(** scan: the first strong class outside isolates *)
Definition scan1 (s : nat * option BidiClass) (c : BidiClass) : nat * option BidiClass :=
  (depth1 (fst s) c,
   match snd s with
   | Some x => Some x
   | None => if strongb c && (fst s =? 0) then Some c else None
   end).
Definition scan (cs : list BidiClass) : nat * option BidiClass := fold_left scan1 cs (0, None).

Lemma scan_snoc cs c : scan (cs ++ [c]) = scan1 (scan cs) c.
Proof. unfold scan. now rewrite fold_left_app. Qed.

Lemma scan_depth cs : fst (scan cs) = isolate_depth 0 cs.
Proof.
  induction cs using rev_ind; [reflexivity|].
  rewrite scan_snoc, isolate_depth_snoc. cbn. now rewrite IHcs.
Qed.

Lemma app_snoc_inv {A} (cs : list A) c pre x post : cs ++ [c] = pre ++ x :: post ->
  (post = [] /\ cs = pre /\ c = x) \/ exists post', post = post' ++ [c] /\ cs = pre ++ x :: post'.
Proof.
  intros H. destruct (exists_last (l := x :: post)) as (l & y & E); [discriminate|].
  rewrite E in H. rewrite app_assoc in H. apply app_inj_tail in H as [-> <-].
  destruct l; cbn in E; inversion E; subst.
  - left. rewrite app_nil_r. auto.
  - right. exists l. auto.
Qed.

Lemma scan_none cs : snd (scan cs) = None ->
  forall pre c post, cs = pre ++ c :: post -> strong c -> isolate_depth 0 pre <> 0.
Proof.
  induction cs as [|y cs IH] using rev_ind; intros H pre c post E Hs.
  - destruct pre; discriminate.
  - rewrite scan_snoc in H. cbn in H. destruct (snd (scan cs)) eqn:E1; [discriminate|].
    apply app_snoc_inv in E as [(-> & -> & ->)|(post' & -> & ->)].
    + rewrite scan_depth in H. apply strongb_spec in Hs. rewrite Hs in H. cbn in H.
      destruct (Nat.eqb_spec (isolate_depth 0 pre) 0); [discriminate|assumption].
    + eapply IH; eauto.
Qed.

Lemma scan_some cs x : snd (scan cs) = Some x -> first_strong cs x.
Proof.
  induction cs as [|y cs IH] using rev_ind; intros H; [discriminate|].
  rewrite scan_snoc in H. cbn in H. destruct (snd (scan cs)) eqn:E1.
  - inversion H; subst. destruct (IH eq_refl) as (pre & post & -> & Hs & Hd & Hf).
    exists pre, (post ++ [y]). split; [now rewrite <- app_assoc|auto].
  - rewrite scan_depth in H.
    destruct (strongb y) eqn:E2; [|discriminate].
    destruct (Nat.eqb_spec (isolate_depth 0 cs) 0); [|discriminate].
    inversion H; subst. exists cs, []. repeat split; auto.
    + now apply strongb_spec.
    + intros. eapply scan_none; eauto.
Qed.

Lemma app_two {A} (p1 : list A) : forall x1 q1 p2 x2 q2, p1 ++ x1 :: q1 = p2 ++ x2 :: q2 ->
  (p1 = p2 /\ x1 = x2 /\ q1 = q2) \/ (exists m, p1 = p2 ++ x2 :: m) \/ (exists m, p2 = p1 ++ x1 :: m).
Proof.
  induction p1 as [|a p1 IH]; intros x1 q1 [|b p2] x2 q2 H; cbn in H; inversion H; subst.
  - left. auto.
  - right; right. exists p2. reflexivity.
  - right; left. exists p1. reflexivity.
  - destruct (IH _ _ _ _ _ H2) as [(-> & -> & ->)|[[m ->]|[m ->]]].
    + left; auto.
    + right; left. exists m. reflexivity.
    + right; right. exists m. reflexivity.
Qed.

Lemma first_strong_unique cs x y : first_strong cs x -> first_strong cs y -> x = y.
Proof.
  intros (p1 & q1 & -> & S1 & D1 & F1) (p2 & q2 & E & S2 & D2 & F2).
  destruct (app_two _ _ _ _ _ _ E) as [(_ & -> & _)|[[m ->]|[m ->]]]; auto.
  - exfalso. eapply F1; eauto.
  - exfalso. eapply F2; eauto.
Qed.

Lemma scan_iff cs x : first_strong cs x <-> snd (scan cs) = Some x.
Proof.
  split; [|apply scan_some].
  intros H. destruct (snd (scan cs)) as [y|] eqn:E.
  - f_equal. eapply first_strong_unique; eauto. now apply scan_some.
  - destruct H as (pre & post & -> & Hs & Hd & _). exfalso. eapply scan_none; eauto.
Qed.

Lemma first_strong_is_strong cs x : first_strong cs x -> strong x.
Proof. now intros (pre & post & _ & H & _). Qed.

(** ** Isolate bodies *)

(** depth inside the isolate, [None] once closed *)
Definition open1 (o : option nat) (c : BidiClass) : option nat :=
  match o with
  | None => None
  | Some d =>
      match c with
      | cB => None
      | cLRI | cRLI | cFSI => Some (S d)
      | cPDI => match d with O => None | S k => Some k end
      | _ => Some d
      end
  end.
Definition open_depth (o : option nat) (cs : list BidiClass) : option nat := fold_left open1 cs o.

Lemma open_depth_none cs : open_depth None cs = None.
Proof. induction cs; cbn; auto. Qed.

Lemma open_depth_snoc o cs c : open_depth o (cs ++ [c]) = open1 (open_depth o cs) c.
Proof. unfold open_depth. now rewrite fold_left_app. Qed.

Lemma body_open cs : forall d e, open_depth (Some d) cs = Some e ->
  isolate_body d cs = cs /\ isolate_depth d cs = e.
Proof.
  induction cs as [|c cs IH]; intros d e H.
  - cbn in H. inversion H; auto.
  - change (open_depth (open1 (Some d) c) cs = Some e) in H.
    destruct c, d; cbn [open1] in H; try (rewrite open_depth_none in H; discriminate);
      destruct (IH _ _ H) as [B D]; cbn [isolate_body isolate_depth pred]; rewrite B, ?D; auto.
Qed.

Lemma body_snoc_closed cs c : forall d, open_depth (Some d) cs = None ->
  isolate_body d (cs ++ [c]) = isolate_body d cs.
Proof.
  induction cs as [|y cs IH]; intros d H; [discriminate|].
  change (open_depth (open1 (Some d) y) cs = None) in H.
  destruct y, d; cbn [open1] in H; cbn [app isolate_body]; try reflexivity; f_equal; apply IH; exact H.
Qed.

Lemma body_snoc_open cs c : forall d e, open_depth (Some d) cs = Some e ->
  isolate_body d (cs ++ [c]) = match open1 (Some e) c with Some _ => cs ++ [c] | None => cs end.
Proof.
  induction cs as [|y cs IH]; intros d e H.
  - cbn in H. inversion H; subst. destruct c, e; reflexivity.
  - change (open_depth (open1 (Some d) y) cs = Some e) in H.
    destruct y, d; cbn [open1] in H; try (rewrite open_depth_none in H; discriminate);
      cbn [app isolate_body]; rewrite (IH _ _ H); destruct (open1 (Some e) c); reflexivity.
Qed.

Lemma fsi_resolution_snoc_same rest c r :
  (open_depth (Some 0) rest = Some 0 -> strongb c = false \/ r <> cFSI) ->
  fsi_resolution rest r -> fsi_resolution (rest ++ [c]) r.
Proof.
  intros Hc H. destruct (open_depth (Some 0) rest) as [d|] eqn:E.
  2:{ unfold fsi_resolution in *. now rewrite (body_snoc_closed _ _ _ E). }
  destruct (body_open _ _ _ E) as [B D].
  unfold fsi_resolution in *. rewrite (body_snoc_open _ _ _ _ E). rewrite B in H.
  destruct (open1 (Some d) c) eqn:O; [|exact H].
  assert (S : snd (scan (rest ++ [c])) = match snd (scan rest) with Some x => Some x
            | None => if strongb c && (d =? 0) then Some c else None end).
  { rewrite scan_snoc. cbn. now rewrite scan_depth, D. }
  rewrite !scan_iff in *. rewrite S.
  destruct H as [[H ->]|[[H ->]|[H ->]]].
  - left. rewrite H. auto.
  - right; left. destruct H as [H|H]; rewrite H; auto.
  - right; right. split; [|reflexivity]. intros x. rewrite scan_iff, S.
    destruct (snd (scan rest)) as [y|] eqn:Y; [exfalso; apply (H y); rewrite scan_iff; auto|].
    destruct (Nat.eqb_spec d 0) as [->|]; [|rewrite andb_false_r; discriminate].
    destruct (Hc eq_refl) as [->|N]; [discriminate|congruence].
Qed.

Lemma fsi_resolution_fsi rest : fsi_resolution rest cFSI -> snd (scan (isolate_body 0 rest)) = None.
Proof.
  intros [[_ H]|[[_ H]|[H _]]]; try discriminate.
  destruct (snd (scan (isolate_body 0 rest))) eqn:E; auto. apply scan_iff in E. now apply H in E.
Qed.

Lemma fsi_resolution_snoc_strong rest c :
  open_depth (Some 0) rest = Some 0 -> strongb c = true -> fsi_resolution rest cFSI ->
  fsi_resolution (rest ++ [c]) (match c with cL => cLRI | _ => cRLI end).
Proof.
  intros E Hs H. apply fsi_resolution_fsi in H.
  destruct (body_open _ _ _ E) as [B D]. rewrite B in H.
  unfold fsi_resolution. rewrite (body_snoc_open _ _ _ _ E).
  assert (O : open1 (Some 0) c = Some 0) by (destruct c; try discriminate; reflexivity).
  rewrite O. rewrite !scan_iff.
  rewrite scan_snoc. cbn [scan1 snd]. rewrite H, scan_depth, D, Hs. cbn [andb Nat.eqb].
  destruct c; try discriminate; cbn; auto.
Qed.

(** ** The isolate stack and the resolution of FSIs, on character classes *)

Definition initb (c : BidiClass) : bool := is_isolate_initiator c.

Definition stack_inv (tcs : list BidiClass) (ks : list nat) : Prop :=
  forall k d, nth_error ks d = Some k <->
    (k < length tcs /\ initb (nth k tcs cL) = true /\
     open_depth (Some 0) (skipn (S k) tcs) = Some d).

Definition next_ks (tcs : list BidiClass) (ks : list nat) (c : BidiClass) : list nat :=
  match c with
  | cB => []
  | cLRI | cRLI | cFSI => length tcs :: ks
  | cPDI => tl ks
  | _ => ks
  end.

Lemma skipn_snoc_lt {A} k (l : list A) x : k <= length l -> skipn k (l ++ [x]) = skipn k l ++ [x].
Proof. intros H. rewrite skipn_app. replace (k - length l) with 0 by lia. reflexivity. Qed.

Lemma nth_error_tl {A} (l : list A) d : nth_error (tl l) d = nth_error l (S d).
Proof. destruct l; [destruct d|]; reflexivity. Qed.

Lemma stack_step tcs ks c : stack_inv tcs ks -> stack_inv (tcs ++ [c]) (next_ks tcs ks c).
Proof.
  intros H k d. rewrite app_length. cbn [length].
  assert (New : k = length tcs -> skipn (S k) (tcs ++ [c]) = [] /\ nth k (tcs ++ [c]) cL = c).
  { intros ->. split; [apply skipn_all2; rewrite app_length; cbn; lia|].
    rewrite app_nth2, Nat.sub_diag by lia. reflexivity. }
  assert (Old : k < length tcs -> open_depth (Some 0) (skipn (S k) (tcs ++ [c]))
                  = open1 (open_depth (Some 0) (skipn (S k) tcs)) c /\
                  nth k (tcs ++ [c]) cL = nth k tcs cL).
  { intros L. rewrite skipn_snoc_lt, open_depth_snoc, app_nth1 by lia. auto. }
  assert (B : forall d', nth_error ks d' = Some k -> k < length tcs) by (intros d' E; apply H in E; tauto).
  destruct (lt_eq_lt_dec k (length tcs)) as [[L|L]|L].
  - destruct (Old L) as [O1 O2]. rewrite O1, O2.
    assert (K : forall d', nth_error ks d' = Some k <->
       initb (nth k tcs cL) = true /\ open_depth (Some 0) (skipn (S k) tcs) = Some d')
      by (intros d'; rewrite (H k d'); tauto).
    destruct c; cbn [next_ks open1];
      repeat match goal with
      | |- context [nth_error (length tcs :: ks) d] => destruct d; cbn [nth_error]
      | |- context [nth_error [] d] => destruct d; cbn [nth_error]
      end; rewrite ?nth_error_tl, ?K;
      destruct (open_depth (Some 0) (skipn (S k) tcs)) as [[|e]|]; cbn [open1];
      split; intros; intuition (try discriminate; try lia);
      try (match goal with
           | X : Some _ = Some _ |- _ => inversion X; subst; clear X
           end; auto; try lia; try congruence).
  - destruct (New L) as [N1 N2]. rewrite N1, N2.
    split.
    + intros E. destruct c; cbn [next_ks] in E; rewrite ?nth_error_tl in E;
        try (apply B in E; lia); try (destruct d; discriminate);
        destruct d; cbn [nth_error] in E; try (apply B in E; lia); cbn; repeat split; auto; lia.
    + intros (_ & I & E). cbn in E. inversion E; subst d.
      destruct c; try discriminate I; cbn; now subst.
  - split; [|lia]. intros E. exfalso.
    destruct c; cbn [next_ks] in E; rewrite ?nth_error_tl in E;
        try (apply B in E; lia); try (destruct d; discriminate);
        destruct d; cbn [nth_error] in E; try (apply B in E; lia); inversion E; lia.
Qed.

Definition res_inv (tcs cc : list BidiClass) : Prop :=
  length cc = length tcs /\
  forall k, k < length tcs ->
    (nth k tcs cL <> cFSI -> nth k cc cL = nth k tcs cL) /\
    (nth k tcs cL = cFSI -> fsi_resolution (skipn (S k) tcs) (nth k cc cL)).

Definition next_cc (ks : list nat) (cc : list BidiClass) (c : BidiClass) : list BidiClass :=
  (if strongb c then
     match ks with
     | k :: _ => match nth k cc cL with
                 | cFSI => upd cc k (match c with cL => cLRI | _ => cRLI end)
                 | _ => cc
                 end
     | [] => cc
     end
   else cc) ++ [c].

Lemma next_cc_length ks cc c : length (next_cc ks cc c) = S (length cc).
Proof.
  unfold next_cc. rewrite app_length. cbn [length].
  destruct (strongb c); [|lia]. destruct ks; [lia|].
  destruct (nth n cc cL); rewrite ?upd_length; lia.
Qed.

Lemma fsi_resolution_empty : fsi_resolution [] cFSI.
Proof.
  right; right. split; [|reflexivity]. intros c (pre & post & E & _). destruct pre; discriminate.
Qed.

Lemma res_step tcs ks cc c : stack_inv tcs ks -> res_inv tcs cc ->
  res_inv (tcs ++ [c]) (next_cc ks cc c).
Proof.
  intros HS [HL HR]. split.
  { rewrite next_cc_length, app_length. cbn. lia. }
  intros k Hk. rewrite app_length in Hk. cbn in Hk.
  destruct (Nat.eq_dec k (length tcs)) as [->|Hne].
  - rewrite app_nth2, Nat.sub_diag by lia. cbn [nth].
    assert (E : nth (length tcs) (next_cc ks cc c) cL = c).
    { unfold next_cc. match goal with |- nth _ (?x ++ _) _ = _ => assert (Lx : length x = length tcs) end.
      { pose proof (next_cc_length ks cc c) as Q. unfold next_cc in Q. rewrite app_length in Q. cbn in Q. lia. }
      rewrite app_nth2, Lx, Nat.sub_diag by lia. reflexivity. }
    rewrite E. split; [auto|]. intros ->.
    rewrite skipn_all2 by (rewrite app_length; cbn; lia). apply fsi_resolution_empty.
  - assert (L : k < length tcs) by lia. destruct (HR k L) as [R1 R2].
    rewrite app_nth1, skipn_snoc_lt by lia.
    assert (Q : nth k (next_cc ks cc c) cL = nth k cc cL /\
                (nth k tcs cL = cFSI -> open_depth (Some 0) (skipn (S k) tcs) = Some 0 ->
                 strongb c = false \/ nth k cc cL <> cFSI)
             \/ nth k (next_cc ks cc c) cL = (match c with cL => cLRI | _ => cRLI end) /\
                strongb c = true /\ nth k tcs cL = cFSI /\ nth k cc cL = cFSI /\
                open_depth (Some 0) (skipn (S k) tcs) = Some 0).
    { unfold next_cc. destruct (strongb c) eqn:Es.
      2:{ left. rewrite app_nth1 by lia. auto. }
      destruct ks as [|k0 ks'] eqn:Ek.
      { left. rewrite app_nth1 by lia. split; [reflexivity|]. intros F O.
        assert (X : nth_error (@nil nat) 0 = Some k) by (apply HS; rewrite F; auto). discriminate. }
      assert (K0 : k0 < length tcs /\ initb (nth k0 tcs cL) = true /\
                   open_depth (Some 0) (skipn (S k0) tcs) = Some 0) by (apply HS; reflexivity).
      destruct (Nat.eq_dec k k0) as [->|Hk0].
      - destruct (BC_eqb (nth k0 cc cL) cFSI) eqn:EF.
        + apply BC_eqb_eq in EF. right. rewrite EF.
          rewrite app_nth1 by (rewrite upd_length; lia).
          rewrite nth_upd, Nat.eqb_refl by lia. repeat split; try tauto.
          destruct (BC_eqb (nth k0 tcs cL) cFSI) eqn:ET; [now apply BC_eqb_eq|].
          assert (N : nth k0 tcs cL <> cFSI) by (intros X; apply BC_eqb_eq in X; congruence).
          rewrite <- (R1 N). assumption.
        + assert (N : nth k0 cc cL <> cFSI) by (intros X; apply BC_eqb_eq in X; congruence).
          left. split; [|intros; right; assumption].
          destruct (nth k0 cc cL) eqn:X; rewrite app_nth1 by (rewrite ?upd_length; lia); try assumption. congruence.
      - left. split.
        + destruct (nth k0 cc cL); rewrite app_nth1 by (rewrite ?upd_length; lia); try reflexivity.
          apply nth_upd_ne. assumption.
        + intros F O. exfalso. apply Hk0.
          assert (X : nth_error (k0 :: ks') 0 = Some k) by (apply HS; rewrite F; auto).
          cbn in X. congruence. }
    destruct Q as [[Q1 Q2]|(Q1 & Q2 & Q3 & Q4 & Q5)].
    + rewrite Q1. split; [exact R1|]. intros F. apply fsi_resolution_snoc_same; auto.
    + split; [intros; congruence|]. intros _. rewrite Q1.
      apply fsi_resolution_snoc_strong; auto. rewrite <- Q4. auto.
Qed.

Lemma res_inv_resolved tcs cc : res_inv tcs cc -> fsi_resolved tcs cc.
Proof.
  intros [HL HR]. split; [assumption|]. intros pre c post ->.
  assert (L : length pre < length (pre ++ c :: post)) by (rewrite app_length; cbn; lia).
  destruct (HR (length pre) L) as [R1 R2].
  rewrite app_nth2, Nat.sub_diag in R1, R2 by lia. cbn [nth] in R1, R2.
  assert (E : nth_error cc (length pre) = Some (nth (length pre) cc cL))
    by (apply nth_error_nth'; lia).
  split; intros H.
  - rewrite E. f_equal. auto.
  - exists (nth (length pre) cc cL). split; [assumption|].
    replace post with (skipn (S (length pre)) (pre ++ c :: post)); [auto|].
    rewrite skipn_app, skipn_all2 by lia. replace (S (length pre) - length pre) with 1 by lia. reflexivity.
Qed.

(** ** The loop *)


Definition cls (t : str) : list BidiClass := map bidi_class t.

Definition auto_level (cs : list BidiClass) : option N :=
  match snd (scan cs) with
  | None => None
  | Some cL => Some 0%N
  | Some _ => Some 1%N
  end.
Definition cur_level (default : option N) (cs : list BidiClass) : option N :=
  match default with Some l => Some l | None => auto_level cs end.

Fixpoint mkparas (default : option N) (i : nat) (pieces : list str) : list para :=
  match pieces with
  | [] => []
  | p :: rest => mkpara i (i + slen p) (unwrap_level (cur_level default (cls p)))
                   :: mkparas default (i + slen p) rest
  end.

Lemma mkparas_app default i ps qs :
  mkparas default i (ps ++ qs) = mkparas default i ps ++ mkparas default (i + slen (concat ps)) qs.
Proof.
  revert i; induction ps as [|p ps IH]; intros i; cbn [app mkparas concat].
  - cbn. now rewrite Nat.add_0_r.
  - rewrite IH, slen_app. f_equal. f_equal. f_equal. lia.
Qed.

Definition closed_piece (p : str) : Prop :=
  exists a c, p = a ++ [c] /\ bidi_class c = cB /\ Forall (fun x => bidi_class x <> cB) a.

Definition offset (t : str) (k : nat) : nat := slen (firstn k t).

Record init_inv (default : option N) (t1 : str) (st : init_state)
    (cc : list BidiClass) (ks : list nat) (done : list str) (cur : str) : Prop := {
  ii_text : t1 = concat done ++ cur;
  ii_done : Forall closed_piece done;
  ii_cur : Forall (fun x => bidi_class x <> cB) cur;
  ii_stack : stack_inv (cls t1) ks;
  ii_res : res_inv (cls t1) cc;
  ii_classes : i_classes st = expand (map clen t1) cc;
  ii_istack : i_stack st = map (offset t1) ks;
  ii_paras : i_paras st = mkparas default 0 done;
  ii_start : i_start st = slen (concat done);
  ii_level : i_level st = cur_level default (cls cur);
  ii_depth : length ks = isolate_depth 0 (cls cur)
}.

Lemma cls_app a b : cls (a ++ b) = cls a ++ cls b.
Proof. apply map_app. Qed.
Lemma cls_length t : length (cls t) = length t.
Proof. apply map_length. Qed.

Lemma upds_expand {A} ws : forall (cc : list A) k x, length cc = length ws -> k < length ws ->
  upds (expand ws cc) (map (fun j => list_sum (firstn k ws) + j) (seq 0 (nth k ws 0))) x
  = expand ws (upd cc k x).
Proof.
  intros cc k x HL Hk.
  assert (E1 : ws = firstn k ws ++ nth k ws 0 :: skipn (S k) ws).
  { rewrite <- (firstn_skipn k ws) at 1. f_equal.
    clear -Hk. revert ws Hk; induction k; intros [|w ws] H; cbn in *; try lia; [reflexivity|]. apply IHk; lia. }
  destruct cc as [|a0 cc0] eqn:Ecc; [cbn in HL; lia|]. rewrite <- Ecc in *. 
  assert (E2 : cc = firstn k cc ++ nth k cc a0 :: skipn (S k) cc).
  { rewrite <- (firstn_skipn k cc) at 1. f_equal.
    assert (Hk' : k < length cc) by lia. clear -Hk'. revert cc Hk'; induction k; intros [|w cc] H; cbn in *; try lia; [reflexivity|]. apply IHk; lia. }
  set (w1 := firstn k ws) in *. set (w := nth k ws 0) in *. set (w2 := skipn (S k) ws) in *.
  set (c1 := firstn k cc) in *. set (c := nth k cc a0) in *. set (c2 := skipn (S k) cc) in *.
  assert (L1 : length c1 = length w1) by (unfold c1, w1; rewrite !firstn_length; lia).
  assert (Lk : k = length c1) by (unfold c1; rewrite firstn_length; lia).
  rewrite E1, E2. rewrite expand_app by assumption.
  rewrite <- (expand_length w1 c1) by assumption.
  rewrite upds_app_r. cbn [expand]. rewrite upds_seq0 by (rewrite app_length, repeat_length; lia).
  rewrite skipn_app, repeat_length, Nat.sub_diag, skipn_all2 by (rewrite repeat_length; lia). cbn [app skipn].
  rewrite Lk, <- (Nat.add_0_r (length c1)), upd_app_r. cbn [upd].
  now rewrite expand_app by assumption.
Qed.

Lemma offset_sum t k : offset t k = list_sum (firstn k (map clen t)).
Proof. unfold offset. now rewrite slen_sum, firstn_map. Qed.

Lemma offset_snoc t c k : k < length t -> offset (t ++ [c]) k = offset t k.
Proof. intros H. unfold offset. rewrite firstn_app. replace (k - length t) with 0 by lia. cbn. now rewrite app_nil_r. Qed.

Lemma stack_inv_lt tcs ks : stack_inv tcs ks -> Forall (fun k => k < length tcs) ks.
Proof.
  intros H. apply Forall_forall. intros k Hk. apply In_nth_error in Hk as [d Hd]. apply H in Hd. tauto.
Qed.

Lemma expand_at t (cc : list BidiClass) k : length cc = length t -> k < length t ->
  class_at (expand (map clen t) cc) (offset t k) = nth k cc cL.
Proof.
  intros HL Hk. unfold class_at. rewrite offset_sum, <- (Nat.add_0_r (list_sum _)).
  apply expand_nth; rewrite ?map_length; auto.
  pose proof (clens_pos t) as P. rewrite Forall_forall in P. apply P. apply nth_In. now rewrite map_length.
Qed.

Lemma skipn_nth_cons {A} (l : list A) d : forall k, k < length l -> skipn k l = nth k l d :: skipn (S k) l.
Proof. induction l; intros [|k] H; cbn in *; try lia; [reflexivity|]. apply IHl; lia. Qed.

Lemma offset_room t k : k < length t -> offset t k + clen (nth k t 0%N) <= slen t.
Proof.
  intros H. unfold offset. rewrite <- (firstn_skipn k t) at 3. rewrite slen_app.
  rewrite (skipn_nth_cons t 0%N) by assumption. cbn. lia.
Qed.

Lemma class_at_prefix t (cc l : list BidiClass) k : length cc = length t -> k < length t ->
  class_at (expand (map clen t) cc ++ l) (offset t k) = nth k cc cL.
Proof.
  intros HL Hk. unfold class_at. rewrite app_nth1; [now apply expand_at|].
  rewrite expand_length, <- slen_sum by (rewrite map_length; lia).
  pose proof (offset_room t k Hk). pose proof (clen_pos (nth k t 0%N)). lia.
Qed.

Lemma upds_app_l {A} is : forall (l m : list A) x, (forall i, In i is -> i < length l) ->
  upds (l ++ m) is x = upds l is x ++ m.
Proof.
  induction is as [|i0 is IHis]; intros l m x Hin; [reflexivity|].
  change (upds (upd (l ++ m) i0 x) is x = upds (upd l i0 x) is x ++ m).
  rewrite upd_app_l by (apply Hin; now left). apply IHis. intros i1 Hi1. rewrite upd_length. apply Hin. now right.
Qed.

Lemma upds_offset t (cc l : list BidiClass) k w x : length cc = length t -> k < length t ->
  clen (nth k t 0%N) = w ->
  upds (expand (map clen t) cc ++ l) (map (fun j => offset t k + j) (seq 0 w)) x
  = expand (map clen t) (upd cc k x) ++ l.
Proof.
  intros HL Hk Hw. pose proof (offset_room t k Hk).
  rewrite upds_app_l.
  - rewrite offset_sum.
    assert (Hnth : nth k (map clen t) 0 = w).
    { rewrite (nth_indep _ _ (clen 0%N)) by (rewrite map_length; assumption). now rewrite map_nth. }
    rewrite <- Hnth. rewrite upds_expand by (rewrite map_length; lia). reflexivity.
  - intros i Hi. apply in_map_iff in Hi as (j & <- & Hj). apply in_seq in Hj.
    rewrite expand_length, <- slen_sum by (rewrite map_length; lia). lia.
Qed.

Definition next_done (done : list str) (cur : str) (c : N) : list str * str :=
  match bidi_class c with
  | cB => (done ++ [cur ++ [c]], [])
  | _ => (done, cur ++ [c])
  end.

Lemma auto_level_snoc cs c : auto_level (cs ++ [c]) =
  match auto_level cs with
  | Some l => Some l
  | None => if strongb c && (isolate_depth 0 cs =? 0)
            then Some (match c with cL => 0%N | _ => 1%N end) else None
  end.
Proof.
  unfold auto_level. rewrite scan_snoc. cbn [scan1 snd]. rewrite scan_depth.
  destruct (snd (scan cs)) as [[]|]; try reflexivity.
  destruct (strongb c) eqn:E; cbn [andb]; [|reflexivity].
  destruct (_ =? 0); [|reflexivity]. destruct c; reflexivity.
Qed.

Lemma map_offset_snoc t c ks : Forall (fun k => k < length t) ks ->
  map (offset (t ++ [c])) ks = map (offset t) ks.
Proof. intros H. apply map_ext_in. intros k Hk. rewrite Forall_forall in H. apply offset_snoc; auto. Qed.

Lemma init_step_inv default t1 st cc ks done cur c :
  init_inv default t1 st cc ks done cur ->
  init_inv default (t1 ++ [c]) (init_step default st (slen t1) (clen c) (bidi_class c))
    (next_cc ks cc (bidi_class c)) (next_ks (cls t1) ks (bidi_class c))
    (fst (next_done done cur c)) (snd (next_done done cur c)).
Proof.
  intros [Ht Hd Hc HS HR HC HI HP Hst HL Hdep].
  pose proof (stack_inv_lt _ _ HS) as Hlt. rewrite cls_length in Hlt.
  destruct HR as [HRL HRR]. rewrite cls_length in HRL.
  assert (Hexp : forall cc', length cc' = length t1 ->
            expand (map clen (t1 ++ [c])) (cc' ++ [bidi_class c])
            = expand (map clen t1) cc' ++ repeat (bidi_class c) (clen c)).
  { intros cc' H. rewrite map_app, expand_app by (rewrite map_length; auto). cbn. now rewrite app_nil_r. }
  assert (HFSI : forall k, k < length t1 -> nth k cc cL = cFSI -> bidi_class (nth k t1 0%N) = cFSI).
  { intros k Hk Ek. destruct (HRR k) as [R1 R2]; [rewrite cls_length; assumption|].
    unfold cls in R1. rewrite (nth_indep _ _ (bidi_class 0%N)) in R1 by (rewrite map_length; assumption).
    rewrite map_nth in R1.
    destruct (BC_eqb (bidi_class (nth k t1 0%N)) cFSI) eqn:EB; [now apply BC_eqb_eq|].
    assert (N0 : bidi_class (nth k t1 0%N) <> cFSI) by (intros X; apply BC_eqb_eq in X; congruence).
    rewrite <- (R1 N0). assumption. }
  constructor.
  - (* text *) unfold next_done. destruct (bidi_class c); cbn [fst snd];
      rewrite ?concat_app; cbn [concat]; rewrite ?app_nil_r; rewrite Ht; rewrite ?app_assoc; reflexivity.
  - (* done *) unfold next_done. destruct (bidi_class c) eqn:E; cbn [fst]; try assumption.
    apply Forall_app. split; [assumption|]. constructor; [|constructor]. exists cur, c. auto.
  - (* cur *) unfold next_done. destruct (bidi_class c) eqn:E; cbn [snd]; try (constructor; fail);
      apply Forall_app; (split; [assumption|]); (constructor; [|constructor]); rewrite E; discriminate.
  - rewrite cls_app. apply stack_step. assumption.
  - rewrite cls_app. apply res_step; [assumption|]. split; [rewrite cls_length; lia|assumption].
  - (* classes *)
    unfold init_step, next_cc.
    destruct (bidi_class c) eqn:E; cbn [strongb i_classes];
      try (rewrite HC, Hexp by lia; reflexivity);
      rewrite HI; destruct ks as [|k ks'];
      cbn [map i_classes];
      try (rewrite HC, Hexp by lia; reflexivity);
      try (destruct (i_level st); cbn [i_classes]; rewrite HC, Hexp by lia; reflexivity);
      (assert (Hk : k < length t1) by (inversion Hlt; assumption));
      rewrite HC, class_at_prefix by lia; destruct (nth k cc cL) eqn:Ek; cbn [i_classes];
      try (rewrite Hexp by lia; reflexivity);
      rewrite Hexp by (rewrite upd_length; lia);
      rewrite upds_offset; try lia; try reflexivity;
      apply fsi_width, (HFSI k Hk Ek).
  - (* stack *)
    assert (Hself : offset (t1 ++ [c]) (length t1) = slen t1).
    { unfold offset. rewrite firstn_app, firstn_all, Nat.sub_diag. cbn. now rewrite app_nil_r. }
    unfold init_step, next_ks.
    destruct (bidi_class c) eqn:E; cbn [i_stack];
      try (destruct (i_stack st) eqn:Es; [destruct (i_level st)|destruct (class_at _ _)]; cbn [i_stack]);
      try (rewrite map_offset_snoc by assumption; congruence);
      try reflexivity.
    all: try (cbn [map]; rewrite map_offset_snoc by assumption; rewrite cls_length, Hself; congruence).
    all: try (rewrite map_offset_snoc by (destruct ks; [constructor|inversion Hlt; assumption]);
              rewrite HI; destruct ks; reflexivity).
  - (* paras *)
    unfold init_step, next_done.
    destruct (bidi_class c) eqn:E; cbn [i_paras fst];
      try (destruct (i_stack st); [destruct (i_level st)|destruct (class_at _ _)]; cbn [i_paras]; assumption);
      try assumption.
    rewrite mkparas_app, HP. cbn [mkparas]. f_equal. f_equal.
    rewrite Hst, Ht, Nat.add_0_l, !slen_app. cbn [slen fold_right]. f_equal; [lia|].
    rewrite HL. unfold cur_level. destruct default; [reflexivity|].
    rewrite cls_app. cbn [cls map]. rewrite auto_level_snoc, E. cbn [strongb andb].
    destruct (auto_level (cls cur)); reflexivity.
  - (* start *)
    unfold init_step, next_done.
    destruct (bidi_class c) eqn:E; cbn [i_start fst];
      try (destruct (i_stack st); [destruct (i_level st)|destruct (class_at _ _)]; cbn [i_start]; assumption);
      try assumption.
    rewrite concat_app. cbn [concat]. rewrite app_nil_r, Ht, !slen_app. cbn [slen fold_right]. lia.
  - (* level *)
    unfold init_step, next_done.
    assert (Hd0 : (isolate_depth 0 (cls cur) =? 0) = match i_stack st with [] => true | _ => false end).
    { rewrite <- Hdep, HI. destruct ks; reflexivity. }
    assert (HX : bidi_class c <> cB -> cur_level default (cls (cur ++ [c])) =
       match i_level st with
       | Some l => Some l
       | None => if strongb (bidi_class c) && match i_stack st with [] => true | _ => false end
                 then Some (match bidi_class c with cL => 0%N | _ => 1%N end) else None
       end).
    { intros _. rewrite HL. unfold cur_level. destruct default; [reflexivity|].
      rewrite cls_app. cbn [cls map]. rewrite auto_level_snoc, Hd0. reflexivity. }
    destruct (bidi_class c) eqn:E; cbn [i_level snd];
      try (rewrite HX by discriminate; cbn [strongb andb];
           destruct (i_stack st); [destruct (i_level st) eqn:El|destruct (class_at _ _); destruct (i_level st) eqn:El]; cbn [i_level andb]; first [reflexivity|congruence]);
      try (rewrite HX by discriminate; cbn [strongb andb]; destruct (i_level st); first [reflexivity|congruence]).
    unfold cur_level. destruct default; reflexivity.
  - (* depth *)
    unfold next_done, next_ks.
    destruct (bidi_class c) eqn:E; cbn [snd length]; try reflexivity;
      rewrite cls_app; change (cls [c]) with [bidi_class c]; rewrite isolate_depth_snoc; rewrite E; cbn [depth1];
      rewrite <- ?Hdep; try reflexivity.
    destruct ks; reflexivity.
Qed.

Lemma init_loop_inv default t2 : forall t1 st cc ks done cur,
  init_inv default t1 st cc ks done cur ->
  exists cc' ks' done' cur',
    init_inv default (t1 ++ t2) (init_loop default t2 (slen t1) st) cc' ks' done' cur'.
Proof.
  induction t2 as [|c t2 IH]; intros t1 st cc ks done cur H.
  - rewrite app_nil_r. cbn. eauto.
  - cbn [init_loop]. replace (t1 ++ c :: t2) with ((t1 ++ [c]) ++ t2) by now rewrite <- app_assoc.
    replace (slen t1 + clen c) with (slen (t1 ++ [c])) by (rewrite slen_app; cbn; lia).
    eapply IH. apply init_step_inv. eassumption.
Qed.

Lemma init_inv_start default : init_inv default [] (mkinit [] [] [] 0 default) [] [] [] [].
Proof.
  constructor; try reflexivity; try (constructor; fail).
  - intros k d. split.
    + intros H; destruct d; discriminate.
    + intros (H & _). cbn in H. lia.
  - split; [reflexivity|]. intros k H. cbn in H. lia.
  - cbn. unfold cur_level. destruct default; reflexivity.
Qed.

Lemma closed_pieces_ok done : Forall closed_piece done ->
  (forall p, In p done -> p <> []) /\
  (forall p a c b, In p done -> p = a ++ c :: b -> bidi_class c = cB -> b = []).
Proof.
  intros H. rewrite Forall_forall in H. split.
  - intros p Hp. destruct (H p Hp) as (a & c & -> & _). destruct a; discriminate.
  - intros p a c b Hp E Hc. destruct (H p Hp) as (a' & c' & -> & Hc' & Ha').
    apply app_snoc_inv in E as [(-> & _ & _)|(b' & -> & ->)]; [reflexivity|].
    rewrite Forall_forall in Ha'. exfalso. apply (Ha' c); [|assumption]. apply in_or_app. right; now left.
Qed.

Lemma initial_info_spec t default : exists cc pieces,
  initial_info t default = (expand (map clen t) cc, mkparas default 0 pieces) /\
  length cc = length t /\ fsi_resolved (cls t) cc /\ paragraphs_of t pieces.
Proof.
  destruct (init_loop_inv default t [] _ _ _ _ _ (init_inv_start default)) as (cc & ks & done & cur & H).
  cbn [app slen fold_right] in H. destruct H as [Ht Hd Hc HS HR HC HI HP Hst HL Hdep].
  unfold initial_info. set (st := init_loop _ _ _ _) in *.
  pose proof (closed_pieces_ok _ Hd) as [N1 N2].
  assert (Lcc : length cc = length t) by (destruct HR as [R _]; rewrite cls_length in R; exact R).
  destruct (Nat.ltb_spec (i_start st) (slen t)) as [Lt|Ge].
  - exists cc, (done ++ [cur]). split; [|split; [assumption|split; [exact (res_inv_resolved _ _ HR)|split; [|split; [|split]]]]].
    + rewrite HC. f_equal. rewrite mkparas_app, HP. cbn [mkparas]. rewrite HL, Hst. f_equal. f_equal.
      f_equal. rewrite Ht, slen_app. lia.
    + rewrite concat_app. cbn. now rewrite app_nil_r.
    + intros p Hp. apply in_app_or in Hp as [Hp|[<-|[]]]; [auto|].
      intros ->. rewrite Hst, Ht, slen_app in Lt. cbn in Lt. lia.
    + intros p a c b Hp E Hcb. apply in_app_or in Hp as [Hp|[<-|[]]]; [eapply N2; eauto|].
      rewrite Forall_forall in Hc. exfalso. apply (Hc c); [|assumption]. rewrite E. apply in_or_app. right; now left.
    + intros front p rest E Hr.
      destruct (exists_last Hr) as (rest' & q & ->). rewrite app_comm_cons, app_assoc in E.
      apply app_inj_tail in E as [-> _]. rewrite Forall_forall in Hd.
      destruct (Hd p) as (a & c & E & Hcc & _); [apply in_or_app; right; now left|]. eauto.
  - assert (cur = []) as ->.
    { apply slen_0. rewrite Hst, Ht, slen_app in Ge. lia. }
    rewrite app_nil_r in Ht.
    exists cc, done. split; [rewrite HC, HP; reflexivity|]. split; [assumption|]. split; [exact (res_inv_resolved _ _ HR)|].
    split; [symmetry; exact Ht|]. split; [exact N1|]. split; [exact N2|].
    intros front p rest E Hr. rewrite Forall_forall in Hd.
      destruct (Hd p) as (a & c & E' & Hcc & _); [rewrite E; apply in_or_app; right; now left|]. eauto.
Qed.

Lemma mkparas_ranges default pieces : forall i,
  map (fun p => (p_start p, p_end p)) (mkparas default i pieces) = ranges_from i pieces.
Proof. induction pieces; intros i; cbn; [reflexivity|]. now rewrite IHpieces. Qed.

Lemma mkparas_nth default pieces : forall i n p, nth_error (mkparas default i pieces) n = Some p ->
  exists piece, nth_error pieces n = Some piece /\ p_level p = unwrap_level (cur_level default (cls piece)).
Proof.
  induction pieces; intros i [|n] p H; cbn in *; try discriminate.
  - inversion H; subst. eauto.
  - eauto.
Qed.

Lemma auto_level_spec cs :
  (unwrap_level (auto_level cs) = 1%N <-> first_strong cs cR \/ first_strong cs cAL) /\
  (unwrap_level (auto_level cs) = 0%N <-> ~ (first_strong cs cR \/ first_strong cs cAL)).
Proof.
  rewrite !scan_iff. unfold auto_level. destruct (snd (scan cs)) as [x|] eqn:E.
  - pose proof (first_strong_is_strong _ _ (scan_some _ _ E)) as [->|[->| ->]]; cbn;
      split; split; intros; try discriminate; try tauto; intuition discriminate.
  - cbn. split; split; intros; try discriminate; try tauto; intuition discriminate.
Qed.

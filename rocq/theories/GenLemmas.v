(** Matching with the expressions of the generator. *)
From Coq Require Import List NArith ZArith Lia Bool PeanoNat ZifyBool ZifyNat ZifyN.
From Verif Require Import Base GenRegex GenSpec.
Import ListNotations.
Open Scope N_scope.

Definition after (b : bool) (w : str) : bool := fold_left (fun _ c => c =? 10) w b.

Lemma after_app b v w : after b (v ++ w) = after (after b v) w.
Proof. apply fold_left_app. Qed.

Lemma after_none b w : w <> [] -> no_newline w -> after b w = false.
Proof.
  intros Hne Hn. destruct (exists_last Hne) as (v & c & ->). rewrite after_app. cbn.
  unfold no_newline in Hn. rewrite in_app_iff in Hn. cbn in Hn. lia.
Qed.

(** The preferred match of [r] before [u] takes exactly [w] and captures [g']. *)
Definition eats (r : re) (w u : str) (g' : list (nat * str)) : Prop :=
  forall b g, hd_error (run r (mkPlace b (w ++ u) g)) = Some (mkPlace (after b w) u (g' ++ g)).

Definition fails (r : re) (u : str) : Prop := forall b g, run r (mkPlace b u g) = [].

Lemma hd_flat_map {A B} (f : A -> list B) l x y :
  hd_error l = Some x -> hd_error (f x) = Some y -> hd_error (flat_map f l) = Some y.
Proof.
  destruct l as [|a l]; [discriminate|]. intros [= ->] Hy. cbn. destruct (f x); [discriminate|exact Hy].
Qed.

Lemma eats_seq r1 r2 w1 w2 u g1 g2 :
  eats r1 w1 (w2 ++ u) g1 -> eats r2 w2 u g2 -> eats (Seq r1 r2) (w1 ++ w2) u (g2 ++ g1).
Proof.
  intros H1 H2 b g. cbn [run]. rewrite <- app_assoc. eapply hd_flat_map; [apply H1|].
  rewrite H2, after_app, app_assoc. reflexivity.
Qed.

Lemma eats_cls p c u : p c = true -> eats (Cls p) [c] u [].
Proof. intros H b g. cbn. rewrite H. reflexivity. Qed.

Lemma eats_lit c u : eats (lit c) [c] u [].
Proof. apply eats_cls. apply N.eqb_refl. Qed.

Lemma eats_opt r w u g : eats r w u g -> eats (Opt r) w u g.
Proof.
  intros H b g'. cbn [run]. specialize (H b g'). destruct (run r _); [discriminate|exact H].
Qed.

Lemma eats_opt_no r u : fails r u -> eats (Opt r) [] u [].
Proof. intros H b g. cbn [run]. rewrite H. reflexivity. Qed.

Lemma eats_alt_l r1 r2 w u g : eats r1 w u g -> eats (Alt r1 r2) w u g.
Proof.
  intros H b g'. cbn [run]. specialize (H b g'). destruct (run r1 _); [discriminate|exact H].
Qed.

Lemma eats_alt_r r1 r2 w u g : fails r1 (w ++ u) -> eats r2 w u g -> eats (Alt r1 r2) w u g.
Proof. intros F H b g'. cbn [run]. rewrite F. apply H. Qed.

Lemma eats_cap n r w u g : eats r w u g -> eats (Cap n r) w u ((n, w) :: g).
Proof.
  intros H b g'. cbn [run]. specialize (H b g').
  destruct (run r _) as [|e l]; [discriminate|]. cbn in *. injection H as ->. cbn.
  rewrite app_length, Nat.add_sub, firstn_app, Nat.sub_diag, firstn_all. cbn. rewrite app_nil_r. reflexivity.
Qed.

Lemma eats_eol u : eats Eol [] (10 :: u) [].
Proof. intros b g. reflexivity. Qed.

Lemma fails_cls p u : not_starting (fun c => p c = true) u -> fails (Cls p) u.
Proof.
  intros H b g. destruct u as [|c u]; [reflexivity|]. cbn in *.
  destruct (p c); [now destruct H|reflexivity].
Qed.

Lemma fails_lit c u : not_starting (fun d => d = c) u -> fails (lit c) u.
Proof. intros H. apply fails_cls. destruct u; cbn in *; [exact I|]. intros E. apply H. lia. Qed.

Lemma fails_seq r1 r2 u : fails r1 u -> fails (Seq r1 r2) u.
Proof. intros H b g. cbn [run]. now rewrite H. Qed.

Lemma fails_cap n r u : fails r u -> fails (Cap n r) u.
Proof. intros H b g. cbn [run]. now rewrite H. Qed.

(** One fixed character, then failure. *)
Lemma fails_cls_seq p r c u : fails r u -> fails (Seq (Cls p) r) (c :: u).
Proof.
  intros H b g. cbn. destruct (p c); [|reflexivity]. cbn. rewrite H. reflexivity.
Qed.

(** Repetition. *)
Lemma star_fuel body s : forall n m,
  (length (ahead s) < n)%nat -> (length (ahead s) < m)%nat -> star body n s = star body m s.
Proof.
  intros n. revert s. induction n as [|n IH]; intros s m Hn Hm; [lia|].
  destruct m as [|m]; [lia|]. cbn [star]. f_equal.
  set (l := filter _ _). assert (forall e, In e l -> (length (ahead e) < length (ahead s))%nat) as Hl.
  { intros e He. apply filter_In in He as [_ He]. now apply Nat.ltb_lt. }
  clearbody l. induction l as [|e l IHl]; [reflexivity|]. cbn.
  rewrite IHl by (intros; apply Hl; now right). f_equal.
  assert (length (ahead e) < length (ahead s))%nat by (apply Hl; now left).
  apply IH; lia.
Qed.

Lemma eats_star_nil r u : fails r u -> eats (Star r) [] u [].
Proof. intros F b g. cbn [run app star]. rewrite F. reflexivity. Qed.

Lemma eats_star_cons r v w u g1 g2 : v <> [] ->
  eats r v (w ++ u) g1 -> eats (Star r) w u g2 -> eats (Star r) (v ++ w) u (g2 ++ g1).
Proof.
  intros Hv H1 H2 b g. cbn [run star ahead]. rewrite <- !app_assoc.
  specialize (H1 b g). rewrite after_app. specialize (H2 (after b v) (g1 ++ g)).
  destruct (run r _) as [|e l]; [discriminate|]. injection H1 as ->.
  cbn [filter ahead]. replace (Nat.ltb _ _) with true.
  2: { symmetry. apply Nat.ltb_lt. rewrite (app_length v). destruct v; [congruence|]. cbn. lia. }
  cbn [flat_map]. cbn [run] in H2. cbn [ahead] in H2.
  rewrite (star_fuel _ _ _ (S (length (w ++ u)))).
  - destruct (star _ _ _); [discriminate|]. exact H2.
  - cbn [ahead]. rewrite (app_length v). destruct v; [congruence|]. cbn. lia.
  - cbn [ahead]. lia.
Qed.

Lemma eats_star p w u : Forall (fun c => p c = true) w -> not_starting (fun c => p c = true) u ->
  eats (Star (Cls p)) w u [].
Proof.
  intros Hw Hu. induction Hw as [|c w Hc Hw IH].
  - apply eats_star_nil, fails_cls, Hu.
  - change (c :: w) with ([c] ++ w). change (@nil (nat * str)) with (@nil (nat * str) ++ []).
    apply eats_star_cons; [discriminate|now apply eats_cls|exact IH].
Qed.

Lemma eats_plus p w u : w <> [] -> Forall (fun c => p c = true) w ->
  not_starting (fun c => p c = true) u -> eats (plus (Cls p)) w u [].
Proof.
  intros Hne Hw Hu. destruct w as [|c w]; [congruence|]. inversion Hw; subst.
  change (c :: w) with ([c] ++ w). change (@nil (nat * str)) with (@nil (nat * str) ++ []).
  apply eats_seq; [now apply eats_cls|now apply eats_star].
Qed.

Lemma fails_plus p u : not_starting (fun c => p c = true) u -> fails (plus (Cls p)) u.
Proof. intros H. now apply fails_seq, fails_cls. Qed.

(** Code points. *)
Lemma xdigit_iff c : xdigit c = true <-> is_hex c.
Proof.
  unfold is_hex, hex_value_of, xdigit, digit.
  destruct ((0x30 <=? c) && (c <=? 0x39)); [cbn; split; congruence|].
  destruct ((0x41 <=? c) && (c <=? 0x46)); [cbn; split; congruence|].
  destruct ((0x61 <=? c) && (c <=? 0x66)); cbn; split; congruence.
Qed.

Lemma not_starting_iff (p q : N -> Prop) u : (forall c, p c <-> q c) ->
  not_starting p u -> not_starting q u.
Proof. intros E. destruct u; cbn; [auto|]. now rewrite E. Qed.

Lemma hex46_eats w u : code_point w -> not_starting is_hex u -> eats hex46 w u [].
Proof.
  intros [Hf Hl] Hu.
  assert (forall c, is_hex c -> eats (Cls xdigit) [c] u []) as _ by (intros; now apply eats_cls, xdigit_iff).
  assert (fails (Cls xdigit) u) as F.
  { apply fails_cls. revert Hu. apply not_starting_iff. intros c. now rewrite xdigit_iff. }
  assert (forall c v, is_hex c -> eats (Cls xdigit) [c] v []) as E.
  { intros c v Hc. now apply eats_cls, xdigit_iff. }
  destruct w as [|c1 [|c2 [|c3 [|c4 w]]]]; cbn in Hl; try lia.
  repeat match goal with H : Forall _ (_ :: _) |- _ => inversion H; clear H; subst end.
  unfold hex46. change (c1 :: c2 :: c3 :: c4 :: w) with ([c1] ++ [c2] ++ [c3] ++ [c4] ++ w).
  change (@nil (nat * str)) with (((((@nil (nat * str)) ++ []) ++ []) ++ []) ++ []).
  do 4 (apply eats_seq; [now apply E|]).
  destruct w as [|c5 w]; [now apply eats_opt_no, fails_seq|].
  match goal with H : Forall _ (_ :: _) |- _ => inversion H; clear H; subst end.
  apply eats_opt. change (c5 :: w) with ([c5] ++ w). change (@nil (nat * str)) with ((@nil (nat * str)) ++ []).
  apply eats_seq; [now apply E|].
  destruct w as [|c6 [|c7 w]]; [now apply eats_opt_no| |cbn in Hl; lia].
  match goal with H : Forall _ (_ :: _) |- _ => inversion H; clear H; subst end.
  now apply eats_opt, E.
Qed.

Lemma hex46_fails u : not_starting is_hex u -> fails hex46 u.
Proof.
  intros Hu. apply fails_seq, fails_cls. revert Hu. apply not_starting_iff. intros c. now rewrite xdigit_iff.
Qed.

(** * The language of an expression *)
Inductive lang : re -> str -> Prop :=
| L_cls p c : p c = true -> lang (Cls p) [c]
| L_seq a b v w : lang a v -> lang b w -> lang (Seq a b) (v ++ w)
| L_alt_l a b w : lang a w -> lang (Alt a b) w
| L_alt_r a b w : lang b w -> lang (Alt a b) w
| L_opt_no a : lang (Opt a) []
| L_opt a w : lang a w -> lang (Opt a) w
| L_star_nil a : lang (Star a) []
| L_star a v w : lang a v -> lang (Star a) w -> lang (Star a) (v ++ w)
| L_cap n a w : lang a w -> lang (Cap n a) w
| L_bol : lang Bol []
| L_eol : lang Eol [].

Lemma run_lang r : forall s e, In e (run r s) -> exists w, ahead s = w ++ ahead e /\ lang r w.
Proof.
  induction r; intros s e; cbn [run].
  - destruct (ahead s) as [|c t] eqn:E; [intros []|]. destruct (p c) eqn:Ep; [|intros []].
    intros [<-|[]]. exists [c]. split; [reflexivity|now constructor].
  - intros H. apply in_flat_map in H as (m & H1 & H2).
    apply IHr1 in H1 as (v & E1 & L1). apply IHr2 in H2 as (w & E2 & L2).
    exists (v ++ w). split; [now rewrite E1, E2, app_assoc|now constructor].
  - intros H. apply in_app_iff in H as [H|H]; [apply IHr1 in H|apply IHr2 in H];
      destruct H as (w & E & L); exists w; split; auto using lang.
  - intros H. apply in_app_iff in H as [H|[<-|[]]].
    + apply IHr in H as (w & E & L). exists w. split; auto using lang.
    + exists []. split; [reflexivity|constructor].
  - generalize (S (length (ahead s))) as n. intros n. revert s.
    induction n as [|n IHn]; intros s H; cbn [star] in H.
    + destruct H as [<-|[]]. exists []. split; [reflexivity|constructor].
    + apply in_app_iff in H as [H|[<-|[]]].
      * apply in_flat_map in H as (m & H1 & H2). apply filter_In in H1 as [H1 _].
        apply IHr in H1 as (v & E1 & L1). apply IHn in H2 as (w & E2 & L2).
        exists (v ++ w). split; [now rewrite E1, E2, app_assoc|now constructor].
      * exists []. split; [reflexivity|constructor].
  - intros H. apply in_map_iff in H as (m & <- & H). apply IHr in H as (w & E & L).
    exists w. split; [exact E|now constructor].
  - destruct (line_start s); [|intros []]. intros [<-|[]]. exists []. split; [reflexivity|constructor].
  - destruct (ahead s) as [|c t] eqn:E.
    + intros [<-|[]]. exists []. rewrite E. split; [reflexivity|constructor].
    + destruct (c =? 10); [|intros []]. intros [<-|[]]. exists []. rewrite E. split; [reflexivity|constructor].
Qed.

Lemma fails_lang r u : (forall w v, lang r w -> u = w ++ v -> False) -> fails r u.
Proof.
  intros H b g. destruct (run r (mkPlace b u g)) as [|e l] eqn:E; [reflexivity|].
  destruct (run_lang r (mkPlace b u g) e) as (w & Ew & Lw); [rewrite E; now left|].
  cbn in Ew. exfalso. eapply H; eauto.
Qed.

Lemma lang_cls_inv p w : lang (Cls p) w -> exists c, w = [c] /\ p c = true.
Proof. intros H. inversion H; subst. eauto. Qed.
Lemma lang_seq_inv a b w : lang (Seq a b) w -> exists u v, w = u ++ v /\ lang a u /\ lang b v.
Proof. intros H. inversion H; subst. eauto. Qed.
Lemma lang_opt_inv a w : lang (Opt a) w -> w = [] \/ lang a w.
Proof. intros H. inversion H; subst; auto. Qed.
Lemma lang_cap_inv n a w : lang (Cap n a) w -> lang a w.
Proof. intros H. inversion H; subst; auto. Qed.
Lemma lang_lit_inv c w : lang (lit c) w -> w = [c].
Proof. intros H. apply lang_cls_inv in H as (d & -> & E). f_equal. lia. Qed.
Lemma lang_star_inv p w : lang (Star (Cls p)) w -> Forall (fun c => p c = true) w.
Proof.
  intros H. remember (Star (Cls p)) as r eqn:E. induction H; inversion E; subst.
  - constructor.
  - apply lang_cls_inv in H as (c & -> & Ec). constructor; auto.
Qed.
Lemma lang_lits_inv s : forall c w, lang (lits c s) w -> w = c :: s.
Proof.
  unfold lits. induction s as [|d s IH] using rev_ind; intros c w H.
  - now apply lang_lit_inv in H.
  - rewrite fold_left_app in H. cbn in H. apply lang_seq_inv in H as (u & v & -> & Hu & Hv).
    apply IH in Hu as ->. apply lang_lit_inv in Hv as ->. reflexivity.
Qed.
Lemma lang_hex46_inv w : lang hex46 w -> Forall is_hex w.
Proof.
  intros H. unfold hex46 in H.
  repeat match goal with
         | H : lang (Seq _ _) _ |- _ => apply lang_seq_inv in H as (? & ? & -> & ? & ?)
         | H : lang (Opt _) _ |- _ => apply lang_opt_inv in H as [->|H]
         | H : lang (Cls _) _ |- _ => apply lang_cls_inv in H as (? & -> & H); apply xdigit_iff in H
         end; cbn [app]; repeat (constructor; [assumption|]); constructor.
Qed.

Lemma eats_lits s : forall c u, eats (lits c s) (c :: s) u [].
Proof.
  unfold lits. induction s as [|d s IH] using rev_ind; intros c u.
  - apply eats_lit.
  - rewrite fold_left_app. cbn [fold_left].
    change (c :: s ++ [d]) with ((c :: s) ++ [d]). change (@nil (nat * str)) with ((@nil (nat * str)) ++ []).
    apply eats_seq; [apply IH|apply eats_lit].
Qed.

(** * Files, line by line *)

Lemma captures_fuel r : forall n m b s, (length s < n)%nat -> (length s < m)%nat ->
  captures_loop n r b s = captures_loop m r b s.
Proof.
  induction n as [|n IH]; intros m b s Hn Hm; [lia|]. destruct m as [|m]; [lia|]. cbn [captures_loop].
  assert (match s with [] => [] | c :: t => captures_loop n r (c =? 10) t end =
          match s with [] => [] | c :: t => captures_loop m r (c =? 10) t end) as Es.
  { destruct s as [|c t]; [reflexivity|]. cbn in *. apply IH; lia. }
  rewrite Es. destruct (hd_error _) as [e|]; [|reflexivity]. f_equal.
  destruct (Nat.ltb _ _) eqn:El; [|reflexivity]. apply Nat.ltb_lt in El. apply IH; lia.
Qed.

(** Inside a line nothing is found by an expression that starts with [^]. *)
Lemma captures_step r n c u :
  captures_loop (S n) (Seq Bol r) false (c :: u) = captures_loop n (Seq Bol r) (c =? 10) u.
Proof. reflexivity. Qed.

Lemma captures_skip r : forall v n u, no_newline v ->
  (length (v ++ 10%N :: u) < n)%nat ->
  captures_loop n (Seq Bol r) false (v ++ 10 :: u) = captures_loop n (Seq Bol r) true u.
Proof.
  induction v as [|c v IH]; intros n u Hv Hn; (destruct n as [|n]; [cbn in Hn; lia|]); cbn [app] in *.
  - rewrite captures_step. cbn [length] in Hn. apply captures_fuel; lia.
  - rewrite captures_step. unfold no_newline in *. cbn in Hv. replace (c =? 10) with false by lia.
    cbn [length] in Hn. rewrite IH; [|tauto|lia].
    rewrite app_length in Hn. cbn in Hn. apply captures_fuel; lia.
Qed.

(** What the expression [^r] finds in a line. *)
Definition reads (r : re) (t : str) (o : option (list (nat * str))) : Prop :=
  no_newline t /\
  match o with
  | Some g => exists w v, t = w ++ v /\ w <> [] /\ forall u, eats r w (v ++ 10 :: u) g
  | None => forall u, fails r (t ++ 10 :: u)
  end.

Lemma captures_lines r (ls : list (str * option (list (nat * str)))) :
  fails r [] ->
  Forall (fun l => reads r (fst l) (snd l)) ls ->
  captures_iter (Seq Bol r) (concat (map (fun l => fst l ++ [10]) ls)) =
  flat_map (fun l => match snd l with Some g => [g] | None => [] end) ls.
Proof.
  unfold captures_iter. intros F H.
  assert (forall n, (length (concat (map (fun l : str * option (list (nat * str)) => (fst l ++ [10%N])%list) ls)) < n)%nat ->
    captures_loop n (Seq Bol r) true (concat (map (fun l => (fst l ++ [10%N])%list) ls)) =
    flat_map (fun l => match snd l with Some g => [g] | None => [] end) ls) as K; [|apply K; apply Nat.lt_succ_diag_r].
  induction H as [|[t o] ls [Hn Ho] Hls IH]; intros n Hlen.
  - destruct n as [|n]; [cbn in Hlen; lia|]. cbn [map concat flat_map captures_loop run line_start].
    rewrite F. reflexivity.
  - cbn [map concat flat_map fst snd] in *. rewrite <- app_assoc in *. cbn [app] in *.
    set (u := concat _) in *. destruct n as [|n]; [lia|].
    cbn [captures_loop run line_start flat_map]. rewrite app_nil_r.
    destruct o as [g|].
    + destruct Ho as (w & v & -> & Hw & Ho). specialize (Ho u true []).
      rewrite <- app_assoc in *. rewrite Ho. cbn [groups line_start ahead].
      unfold no_newline in Hn. rewrite in_app_iff in Hn.
      rewrite after_none by (unfold no_newline; tauto). rewrite app_nil_r.
      replace (Nat.ltb _ _) with true.
      2: { symmetry. apply Nat.ltb_lt. rewrite (app_length w). destruct w; [congruence|]. cbn. lia. }
      cbn [app]. f_equal. rewrite (app_length w) in Hlen.
      assert (0 < length w)%nat by (destruct w; [congruence|cbn; lia]).
      rewrite captures_skip; [|unfold no_newline; tauto|lia].
      rewrite app_length in Hlen. cbn in Hlen. apply IH. lia.
    + rewrite Ho. cbn [hd_error]. destruct t as [|c t].
      * cbn [app]. change (10 =? 10) with true. cbn in Hlen. apply IH. lia.
      * cbn [app]. unfold no_newline in Hn. cbn in Hn. replace (c =? 10) with false by lia.
        cbn [app length] in Hlen. rewrite captures_skip; [|unfold no_newline; tauto|lia].
        rewrite app_length in Hlen. cbn in Hlen. apply IH. lia.
Qed.

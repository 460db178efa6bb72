(** Walking over a text in chunks, when no decision needs context. *)
From Coq Require Import List NArith Lia Bool Arith.
Import ListNotations.
From Verif Require Import Base Enums TableTypes UcdModel BidiModel BidiLemmas GraphModel GraphSpec SegLemmas GraphProofs GraphCursor GraphIter GraphChunks.
Open Scope nat_scope.
Local Opaque gcb grapheme_boundary.

Lemma next_chunked_ok before rest c cs chunk c' v : next_boundary c chunk cs = Ret (c', GOk v) ->
  next_chunked before rest c cs chunk = Ret (c', GOk v, (before, cs, chunk, rest)).
Proof. intros H. destruct rest, before; cbn [next_chunked]; rewrite H; reflexivity. Qed.
Lemma next_chunked_more before chunk' rest c cs chunk c' : next_boundary c chunk cs = Ret (c', GErr NextChunk) ->
  next_chunked before (chunk' :: rest) c cs chunk = next_chunked (chunk :: before) rest c' (cs + slen chunk) chunk'.
Proof. intros H. destruct before; cbn [next_chunked]; rewrite H; reflexivity. Qed.
Lemma prev_chunked_ok before rest c cs chunk c' v : prev_boundary c chunk cs = Ret (c', GOk v) ->
  prev_chunked before rest c cs chunk = Ret (c', GOk v, (before, cs, chunk, rest)).
Proof. intros H. destruct before; cbn [prev_chunked]; rewrite H; reflexivity. Qed.
Lemma prev_chunked_more chunk' before rest c cs chunk c' : prev_boundary c chunk cs = Ret (c', GErr PrevChunk) ->
  prev_chunked (chunk' :: before) rest c cs chunk = prev_chunked before (chunk :: rest) c' (cs - slen chunk') chunk'.
Proof. intros H. cbn [prev_chunked]; rewrite H; reflexivity. Qed.

Definition chunk_ok (before : list str) (chunk : str) : Prop := chunk <> [] /\ (before = [] \/ self_contained chunk).

Lemma chunk_ok_clean before chunk : chunk_ok before chunk -> clean_inside (concat (rev before)) chunk.
Proof.
  intros [_ [->|H]]; [apply clean_whole|apply self_contained_clean; exact H].
Qed.

(** ** Forwards *)
Definition located (ext : bool) (pre post : str) (c : cursor) (p : place) : Prop :=
  let '(before, cs, chunk, rest) := p in
  cs = slen (concat (rev before)) /\ chunk_ok before chunk /\ Forall self_contained rest /\
  (exists m1 m2, chunk = m1 ++ m2 /\ pre = concat (rev before) ++ m1 /\ post = m2 ++ concat rest /\ (m2 <> [] \/ post = [])) /\
  cursor_at ext pre post c /\ c_res c = false.

(** what a walk from [pre0 | m0 ++ post] over [m0] to the next boundary gives *)
Definition found_next (ext : bool) (pre0 post0 : str) (r : outcome (cursor * gres (option nat) * place)) : Prop :=
  exists mid rest c' p', r = Ret (c', GOk (Some (slen (pre0 ++ mid))), p') /\
    next_bound (grapheme_boundary ext) pre0 post0 mid rest /\ located ext (pre0 ++ mid) rest c' p'.

(** no boundary after a non-empty prefix of [m0] *)
Definition passed (ext : bool) (pre0 m0 post : str) : Prop :=
  forall a b, m0 = a ++ b -> a <> [] -> grapheme_boundary ext (pre0 ++ a) (b ++ post) = false.

Lemma next_bound_passed ext pre0 m0 post mid rest : passed ext pre0 m0 post ->
  next_bound (grapheme_boundary ext) (pre0 ++ m0) post mid rest ->
  next_bound (grapheme_boundary ext) pre0 (m0 ++ post) (m0 ++ mid) rest.
Proof.
  intros P (E & N & B & F). split; [rewrite E, app_assoc; reflexivity|].
  split; [intros H; apply app_eq_nil in H; destruct H; easy|].
  split; [rewrite app_assoc; exact B|].
  intros a b H Na Nb. destruct (app_split _ _ _ _ H) as [(x & -> & ->)|(x & -> & ->)].
  - destruct x as [|y x].
    { rewrite app_nil_r in *. cbn [app] in *. rewrite <- E. exact (P m0 [] (eq_sym (app_nil_r _)) Na). }
    rewrite app_assoc. apply F; [reflexivity|discriminate|exact Nb].
  - rewrite <- app_assoc, <- E. apply P; auto.
Qed.

Lemma next_chunked_at ext n : forall rest before chunk, length rest <= n -> chunk_ok before chunk -> Forall self_contained rest ->
  let T0 := concat (rev before) in let T1 := concat rest in
  (forall m1 m2 c, chunk = m1 ++ m2 -> m2 <> [] -> c_res c = false -> cursor_at ext (T0 ++ m1) (m2 ++ T1) c ->
     found_next ext (T0 ++ m1) (m2 ++ T1) (next_chunked before rest c (slen T0) chunk)) /\
  (forall pre0 m0 c, pre0 ++ m0 = T0 -> m0 <> [] -> c_res c = true -> c_before c <> None ->
     cursor_at ext T0 (chunk ++ T1) c ->
     (forall a b, m0 = a ++ b -> a <> [] -> b <> [] -> grapheme_boundary ext (pre0 ++ a) (b ++ chunk ++ T1) = false) ->
     found_next ext pre0 (m0 ++ chunk ++ T1) (next_chunked before rest c (slen T0) chunk)).
Proof.
  induction n as [|n IH]; intros rest before chunk L CK SC T0 T1.
  all: pose proof (chunk_ok_clean _ _ CK) as CL; fold T0 in CL.
  all: assert (K : forall pre0 m0 m1 ch iter c, pre0 ++ m0 = T0 ++ m1 -> chunk = m1 ++ ch :: iter ->
    cursor_at ext (T0 ++ m1) (ch :: iter ++ T1) c -> passed ext pre0 m0 (ch :: iter ++ T1) ->
    forall cc, next_boundary cc chunk (slen T0) = next_loop chunk (slen T0) iter ch c ->
    found_next ext pre0 (m0 ++ ch :: iter ++ T1) (next_chunked before rest cc (slen T0) chunk)).
  1, 3: intros pre0 m0 m1 ch iter c E0 EC A P cc HN;
    (destruct (next_loop_at ext T0 T1 iter m1 ch c A) as [(mid & rst & c' & H1 & H2 & H3 & H4 & H5 & H6)|(NT & c' & H1 & H2 & H3 & H4 & H5 & H6)];
      [rewrite <- EC; exact CL| |]).
  1, 3: rewrite <- EC in *;
      exists (m0 ++ mid), (rst ++ T1), c', (before, slen T0, chunk, rest);
      assert (E1 : pre0 ++ m0 ++ mid = T0 ++ m1 ++ mid) by (rewrite app_assoc, E0, <- app_assoc; reflexivity);
      rewrite E1; split; [apply next_chunked_ok; rewrite HN; exact H2|]; split;
      [ rewrite <- E0 in H3; exact (next_bound_passed _ _ _ _ _ _ P H3)
      | split; [reflexivity|]; split; [exact CK|]; split; [exact SC|]; split; [|split; [exact H4|exact H5]];
        exists (m1 ++ mid), rst; split; [rewrite EC, H1, app_assoc; reflexivity|]; split; [reflexivity|]; split; [reflexivity|];
        destruct H6 as [H6|H6]; [left; exact H6|]; destruct rst; [right; exact H6|left; discriminate]].
  1: destruct rest; [exfalso; apply NT; reflexivity|cbn in L; lia].
  1: { destruct rest as [|chunk' rest]; [exfalso; apply NT; reflexivity|].
       inversion SC as [|? ? SC1 SC2]; subst x l.
       assert (CK' : chunk_ok (chunk :: before) chunk') by (split; [apply SC1|right; exact SC1]).
       destruct (IH rest (chunk :: before) chunk' ltac:(cbn in L; lia) CK' SC2) as [_ IH2].
       rewrite concat_rev_cons in IH2. fold T0 in IH2.
       rewrite <- EC in H1. rewrite (next_chunked_more _ _ _ _ _ _ c') by (rewrite HN; exact H1).
       rewrite <- slen_app. change T1 with (chunk' ++ concat rest) in *.
       assert (E1 : (m0 ++ ch :: iter) ++ chunk' ++ concat rest = m0 ++ ch :: iter ++ chunk' ++ concat rest) by (rewrite <- app_assoc; reflexivity).
       rewrite <- E1. apply IH2.
       - rewrite app_assoc, E0, EC, <- app_assoc. reflexivity.
       - intros H. apply app_eq_nil in H. destruct H; discriminate.
       - exact H4.
       - exact H5.
       - rewrite EC. exact H3.
       - intros a b H Na Nb; destruct (app_split _ _ _ _ H) as [(x & E3 & E2)|(x & E3 & E2)].
         + destruct x as [|y x].
           * rewrite app_nil_r in E3; cbn [app] in E2; subst a b. exact (P m0 [] (eq_sym (app_nil_r _)) Na).
           * rewrite E3, app_assoc, E0. apply H2; [exact E2|discriminate|exact Nb].
         + subst b. rewrite <- app_assoc. apply P; auto. }
  all: clear IH || idtac.
  all: split.
  1, 3: intros m1 m2 c EC N2 R A; destruct m2 as [|ch iter]; [easy|];
    apply (K (T0 ++ m1) [] m1 ch iter c);
    [ apply app_nil_r | exact EC | exact A
    | intros a b H Na; symmetry in H; apply app_eq_nil in H; destruct H; easy
    | unfold next_boundary;
      assert (E : c_off c =? c_len c = false) by
       (apply Nat.eqb_neq; rewrite (at_off _ _ _ _ A), (at_len _ _ _ _ A), (slen_app (T0 ++ m1));
        assert (0 < slen ((ch :: iter) ++ T1)) by (apply slen_pos; discriminate); lia);
      rewrite E, (at_off _ _ _ _ A), slen_app;
      assert (E2 : slen T0 + slen m1 <? slen T0 = false) by (apply Nat.ltb_ge; lia); rewrite E2;
      replace (slen T0 + slen m1 - slen T0) with (slen m1) by lia; rewrite EC, split_at_app, R; reflexivity ].
  all: intros pre0 m0 c E0 N0 R B A F;
    destruct CK as [NC CK]; destruct chunk as [|ch iter]; [easy|];
    assert (NB : before <> []) by (intros HB; apply N0; unfold T0 in E0; rewrite HB in E0; apply app_eq_nil in E0; apply E0);
    destruct CK as [CK|CK]; [easy|];
    assert (NT : T0 <> []) by (rewrite <- E0; intros H; apply app_eq_nil in H; destruct H; easy);
    assert (Aw : cursor_at ext (T0 ++ []) ((ch :: iter) ++ T1) (with_after c (Some (cat_or (c_after c) ch)))) by
      (rewrite app_nil_r; pose proof (cat_or_after _ _ _ (at_after _ _ _ _ A)) as HC; rewrite HC;
       destruct A; split; cbn; auto; right; reflexivity);
    (destruct (is_boundary_at ext T0 [] (ch :: iter) T1 _ Aw) as (c1 & HI & A1 & R1);
      [ discriminate | intros _; exact B
      | intros a Ha; cbn in Ha; injection Ha as <-; apply settled_spec; [exact NT|]; destruct CK as [_ CK]; eapply CK; reflexivity | ]).
  all: rewrite app_nil_r in *; cbn [app] in HI.
  all: assert (NXT : next_boundary c (ch :: iter) (slen T0) =
        if grapheme_boundary ext T0 (ch :: iter ++ T1) then Ret (with_res c1 false, GOk (Some (c_off c1)))
        else next_loop (ch :: iter) (slen T0) iter ch (with_res c1 false)) by
      (unfold next_boundary;
       assert (E : c_off c =? c_len c = false) by
        (apply Nat.eqb_neq; rewrite (at_off _ _ _ _ A), (at_len _ _ _ _ A), slen_app;
         assert (0 < slen ((ch :: iter) ++ T1)) by (apply slen_pos; discriminate); lia);
       rewrite E, (at_off _ _ _ _ A);
       assert (E2 : slen T0 <? slen T0 = false) by (apply Nat.ltb_ge; lia); rewrite E2, Nat.sub_diag, R; cbn [split_at];
       rewrite HI; destruct (grapheme_boundary ext T0 (ch :: iter ++ T1)); reflexivity).
  all: destruct (grapheme_boundary ext T0 (ch :: iter ++ T1)) eqn:GB;
    [ exists m0, ((ch :: iter) ++ T1), (with_res c1 false), (before, slen T0, ch :: iter, rest); rewrite E0;
      split; [apply next_chunked_ok; rewrite NXT, (at_off _ _ _ _ A1); reflexivity|]; split;
      [ split; [reflexivity|]; split; [exact N0|]; split; [rewrite E0; exact GB|exact F]
      | split; [reflexivity|]; split; [split; [discriminate|right; exact CK]|]; split; [exact SC|];
        split; [exists [], (ch :: iter); rewrite app_nil_r; repeat split; left; discriminate|];
        split; [destruct A1; split; auto|reflexivity] ]
    | apply (K pre0 m0 [] ch iter (with_res c1 false));
      [ rewrite app_nil_r; exact E0 | reflexivity | rewrite app_nil_r; destruct A1; split; auto
      | intros a b H Na; destruct b as [|b0 b];
        [ rewrite app_nil_r in H; subst a; rewrite E0; exact GB | apply F; auto; discriminate ]
      | exact NXT ] ].
Qed.

Lemma all_next_at ext text (ps : list str) : segments (grapheme_boundary ext) text ps ->
  forall b a c p fuel, ps = a ++ b -> located ext (concat a) (concat b) c p -> length b < fuel ->
  all_next fuel c p = Ret (Some (piece_ends (slen (concat a)) b)).
Proof.
  intros SG. induction b as [|x b IH]; intros a c p fuel EP LO LF.
  - destruct fuel; [lia|]. destruct p as [[[before cs] chunk] rest]. cbn [all_next].
    destruct LO as (_ & _ & _ & _ & A & _).
    rewrite (next_chunked_ok before rest c cs chunk c None); [reflexivity|]. apply (next_boundary_end ext _ _ _ _ A).
  - destruct fuel; [cbn in LF; lia|]. destruct p as [[[before cs] chunk] rest]. cbn [all_next].
    rewrite EP in SG. pose proof (segments_next _ _ _ _ _ SG) as NB. rewrite <- EP in SG.
    destruct LO as (-> & CK & SC & (m1 & m2 & E1 & E2 & E3 & E4) & A & R).
    destruct (next_chunked_at ext (length rest) rest before chunk (le_n _) CK SC) as [H _].
    assert (N2 : m2 <> []).
    { destruct E4 as [E4|E4]; [exact E4|]. destruct NB as (NB1 & NB2 & _). rewrite E4 in NB1. symmetry in NB1. apply app_eq_nil in NB1. destruct NB1; easy. }
    rewrite E2, E3 in A. destruct (H m1 m2 c E1 N2 R A) as (mid & rst & c' & p' & H1 & H2 & H3).
    rewrite <- E2, <- E3 in *. destruct (next_bound_unique _ _ _ _ _ _ _ H2 NB) as [-> ->].
    rewrite H1. assert (EC : concat a ++ x = concat (a ++ [x])) by (rewrite concat_app; cbn; rewrite app_nil_r; reflexivity).
    rewrite EC in *. rewrite (IH (a ++ [x]) c' p' fuel); auto.
    + cbn [piece_ends]. change bytes with slen. rewrite <- EC, slen_app. reflexivity.
    + rewrite EP, <- app_assoc. reflexivity.
    + cbn in LF. lia.
Qed.

Lemma length_slen (s : str) : length s <= slen s.
Proof. induction s as [|x s IH]; [reflexivity|]. cbn. fold (slen s). pose proof (clen_pos x). lia. Qed.

Lemma walk_forward ext first rest : first <> [] -> Forall self_contained rest ->
  exists ps, segments (grapheme_boundary ext) (first ++ concat rest) ps /\
    chunked_boundaries ext first rest = Ret (Some (piece_ends 0 ps)).
Proof.
  intros N SC.
  destruct (segments_exist (grapheme_boundary ext) (boundary_start ext) (boundary_end ext) (first ++ concat rest)) as (ps & SG).
  exists ps. split; [exact SG|]. unfold chunked_boundaries.
  rewrite (all_next_at ext _ ps SG ps []); auto.
  - destruct SG as (C & _). rewrite C. split; [reflexivity|]. split; [split; [exact N|left; reflexivity]|]. split; [exact SC|].
    split; [exists [], first; repeat split; left; exact N|]. split; [|reflexivity].
    exact (cursor_at_new ext [] (first ++ concat rest)).
  - destruct SG as (C & NE & _). pose proof (pieces_length ps NE). rewrite C in H.
    pose proof (length_slen (first ++ concat rest)). lia.
Qed.

(** ** Backwards *)
Fixpoint prefix_ok (before : list str) (chunk : str) : Prop :=
  chunk_ok before chunk /\ match before with [] => True | p :: b => prefix_ok b p end.

Definition located_back (ext : bool) (pre post : str) (c : cursor) (p : place) : Prop :=
  let '(before, cs, chunk, rest) := p in
  cs = slen (concat (rev before)) /\ prefix_ok before chunk /\
  (exists m1 m2 T1, chunk = m1 ++ m2 /\ pre = concat (rev before) ++ m1 /\ post = m2 ++ T1 /\ (m1 <> [] \/ pre = []) /\
     (c_before c <> None \/ 2 <= length m1 \/ before = [])) /\
  cursor_at ext pre post c /\ c_res c = false.

Definition found_prev (ext : bool) (pre0 post0 : str) (r : outcome (cursor * gres (option nat) * place)) : Prop :=
  exists st mid c' p', r = Ret (c', GOk (Some (slen st)), p') /\
    prev_bound (grapheme_boundary ext) pre0 post0 st mid /\ located_back ext st (mid ++ post0) c' p'.

Definition passed_back (ext : bool) (pre m0 post0 : str) : Prop :=
  forall a b, m0 = a ++ b -> b <> [] -> grapheme_boundary ext (pre ++ a) (b ++ post0) = false.

Lemma prev_bound_passed ext pre m0 post0 st mid : passed_back ext pre m0 post0 ->
  prev_bound (grapheme_boundary ext) pre (m0 ++ post0) st mid ->
  prev_bound (grapheme_boundary ext) (pre ++ m0) post0 st (mid ++ m0).
Proof.
  intros P (E & N & B & F). split; [rewrite E, app_assoc; reflexivity|].
  split; [intros H; apply app_eq_nil in H; destruct H; easy|].
  split; [rewrite <- app_assoc; exact B|].
  intros a b H Na Nb. destruct (app_split _ _ _ _ H) as [(x & -> & E2)|(x & E2 & ->)].
  - rewrite app_assoc, <- E. apply P; auto.
  - destruct x as [|y x].
    + rewrite app_nil_r in E2. subst mid. cbn [app] in *. rewrite <- E. rewrite <- (app_nil_r pre). apply (P [] m0); auto.
    + rewrite <- app_assoc. apply F; auto. discriminate.
Qed.

Lemma prev_chunked_at ext n : forall before rest chunk, length before <= n -> prefix_ok before chunk ->
  let T0 := concat (rev before) in
  (forall m1 m2 T1 c, chunk = m1 ++ m2 -> m1 <> [] -> c_res c = false -> cursor_at ext (T0 ++ m1) (m2 ++ T1) c ->
     (c_before c <> None \/ 2 <= length m1 \/ before = []) ->
     found_prev ext (T0 ++ m1) (m2 ++ T1) (prev_chunked before rest c (slen T0) chunk)) /\
  (forall m0 post0 c, m0 <> [] -> c_res c = true -> c_after c <> None ->
     cursor_at ext (T0 ++ chunk) (m0 ++ post0) c ->
     (forall a, first_class m0 = Some a -> a <> GCB_RegionalIndicator /\ a <> GCB_EModifier) ->
     (forall a b, m0 = a ++ b -> a <> [] -> b <> [] -> grapheme_boundary ext ((T0 ++ chunk) ++ a) (b ++ post0) = false) ->
     found_prev ext ((T0 ++ chunk) ++ m0) post0 (prev_chunked before rest c (slen T0) chunk)).
Proof.
  induction n as [|n IH]; intros before rest chunk L PK T0.
  all: assert (CK : chunk_ok before chunk) by (destruct before; apply PK).
  all: pose proof (chunk_ok_clean _ _ CK) as CL; fold T0 in CL.
  all: assert (K : forall iter ch m2 m0 T1 post0 c, chunk = rev iter ++ ch :: m2 -> m2 ++ T1 = m0 ++ post0 ->
    cursor_at ext (T0 ++ rev iter ++ [ch]) (m2 ++ T1) c -> passed_back ext (T0 ++ rev iter ++ [ch]) m0 post0 ->
    (c_before c <> None \/ iter <> [] \/ before = []) ->
    forall cc, prev_boundary cc chunk (slen T0) = prev_loop chunk (slen T0) iter ch c ->
    found_prev ext ((T0 ++ rev iter ++ [ch]) ++ m0) post0 (prev_chunked before rest cc (slen T0) chunk)).
  1, 3: intros iter ch m2 m0 T1 post0 c EC E0 A P KN cc HN;
    (destruct (prev_loop_at ext T0 T1 iter ch m2 c A) as [(s & mid & c' & H1 & H2 & H3 & H4 & H5 & H6 & H7)|(NT & c' & H1 & H2 & H3 & H4 & H5 & H6 & H7)];
      [rewrite <- EC; exact CL| |]).
  1, 3: rewrite <- EC in *;
      exists (T0 ++ s), (mid ++ m0), c', (before, slen T0, chunk, rest);
      split; [apply prev_chunked_ok; rewrite HN; exact H2|]; rewrite E0 in H3, H4; split;
      [ exact (prev_bound_passed _ _ _ _ _ _ P H3)
      | split; [reflexivity|]; split; [exact PK|]; rewrite <- app_assoc; split; [|split; [exact H4|exact H5]];
        exists s, (mid ++ m2), T1; split; [rewrite EC, app_assoc, <- H1, <- app_assoc; reflexivity|]; split; [reflexivity|];
        split; [rewrite <- E0, app_assoc; reflexivity|];
        split; [destruct H7 as [H7|H7]; [left; exact H7|]; destruct s; [right; rewrite H7; reflexivity|left; discriminate]|];
        destruct (list_eq_dec N.eq_dec (T0 ++ s) []) as [ES|NS]; [|left; apply H6; exact NS];
        right; right; destruct before as [|q before]; [reflexivity|];
        exfalso; apply app_eq_nil in ES; destruct ES as [ES _]; unfold T0 in ES; rewrite concat_rev_cons in ES;
        apply app_eq_nil in ES; destruct ES as [_ ES]; destruct PK as [_ PK]; destruct before; apply PK; exact ES ].
  1: destruct before; [exfalso; apply NT; reflexivity|cbn in L; lia].
  1: { destruct before as [|chunk' before]; [exfalso; apply NT; reflexivity|].
       destruct PK as [_ PK'].
       destruct (IH before (chunk :: rest) chunk' ltac:(cbn in L; lia) PK') as [_ IH2].
       assert (ET : T0 = concat (rev before) ++ chunk') by apply concat_rev_cons.
       rewrite <- EC in H1. rewrite (prev_chunked_more _ _ _ _ _ _ c') by (rewrite HN; exact H1).
       assert (EL : slen T0 - slen chunk' = slen (concat (rev before))) by (rewrite ET, slen_app; lia). rewrite EL.
       rewrite <- ET in IH2.
       assert (E1 : (T0 ++ rev iter ++ [ch]) ++ m0 = T0 ++ (rev iter ++ [ch]) ++ m0) by (rewrite <- !app_assoc; reflexivity).
       rewrite E1. apply IH2.
       - intros H. apply app_eq_nil in H. destruct H as [H _]. apply app_eq_nil in H. destruct H; discriminate.
       - exact H4.
       - apply H6. destruct KN as [KN|[KN|KN]]; [right|left|]; easy.
       - rewrite <- !app_assoc. rewrite <- E0. exact H3.
       - destruct CK as [_ [CK|[_ CK]]]; [discriminate|].
         intros a Ha. destruct (rev iter) as [|r0 ri]; cbn in Ha; injection Ha as <-;
         (split; intros Hg; [eapply (CK []); [exact EC|left; split; [exact Hg|constructor]]|eapply (CK []); [exact EC|right; split; [exact Hg|constructor]]]).
       - intros a b H Na Nb; destruct (app_split _ _ _ _ H) as [(x & E3 & E2)|(x & E3 & E2)].
         + subst a. rewrite app_assoc. apply P; auto.
         + destruct x as [|y x].
           * rewrite app_nil_r in E3; cbn [app] in E2; subst a b. rewrite <- (app_nil_r (T0 ++ rev iter ++ [ch])). apply (P [] m0); auto.
           * subst b. rewrite <- app_assoc, <- E0. apply H2; [exact E3|exact Na|discriminate]. }
  all: clear IH || idtac.
  all: split.
  1, 3: intros m1 m2 T1 c EC N1 R A KN; destruct (snoc_inv m1 N1) as (iter & ch & Em);
    assert (ER : rev m1 = ch :: rev iter) by (rewrite Em, rev_app_distr; reflexivity);
    assert (EM : m1 = rev (rev iter) ++ [ch]) by (rewrite rev_involutive; exact Em);
    rewrite <- (app_nil_r (T0 ++ m1)); rewrite EM in A |- *;
    apply (K (rev iter) ch m2 [] T1 (m2 ++ T1) c);
    [ rewrite EC, EM, <- app_assoc; reflexivity | reflexivity | exact A
    | intros a b H Nb; symmetry in H; apply app_eq_nil in H; destruct H; easy
    | destruct KN as [KN|[KN|KN]]; [left; exact KN| |right; right; exact KN];
      right; left; intros H; apply (f_equal (@length _)) in H; rewrite rev_length in H; rewrite Em, app_length in KN; cbn in H, KN; lia
    | unfold prev_boundary; rewrite <- EM in A; pose proof (slen_pos m1 N1);
      assert (E : c_off c =? 0 = false) by (apply Nat.eqb_neq; rewrite (at_off _ _ _ _ A), slen_app; lia);
      rewrite E, (at_off _ _ _ _ A), slen_app;
      assert (E2 : slen T0 + slen m1 <? slen T0 = false) by (apply Nat.ltb_ge; lia); rewrite E2;
      replace (slen T0 + slen m1 - slen T0) with (slen m1) by lia; rewrite EC, split_at_app, ER, R; reflexivity ].
  all: intros m0 post0 c N0 R AF A FC F;
    assert (NC : chunk <> []) by (destruct CK as [NC _]; exact NC);
    destruct (snoc_inv chunk NC) as (iter & ch & Em);
    assert (ER : rev chunk = ch :: rev iter) by (rewrite Em, rev_app_distr; reflexivity);
    assert (EM : chunk = rev (rev iter) ++ [ch]) by (rewrite rev_involutive; exact Em);
    assert (Aw : cursor_at ext (T0 ++ chunk) ([] ++ m0 ++ post0) (with_before c (Some (gcb ch)))) by
      (destruct A; split; cbn; auto; right; rewrite Em, app_assoc, hd_snoc; reflexivity);
    (destruct (is_boundary_at ext T0 chunk [] (m0 ++ post0) _ Aw) as (c1 & HI & A1 & R1);
      [ intros _; exact AF | discriminate
      | cbn [app]; intros a Ha; right; destruct m0 as [|z m0]; [easy|]; cbn in Ha; injection Ha as <-;
        destruct (FC _ eq_refl) as [F1 F2]; split; intros [Hg _]; contradiction | ]).
  all: rewrite app_nil_r in HI; cbn [app] in HI, A1.
  all: assert (NXT : prev_boundary c chunk (slen T0) =
        if grapheme_boundary ext (T0 ++ chunk) (m0 ++ post0) then Ret (with_res c1 false, GOk (Some (c_off c1)))
        else prev_loop chunk (slen T0) (rev iter) ch (with_res c1 false)) by
      (unfold prev_boundary; pose proof (slen_pos chunk NC);
       assert (E : c_off c =? 0 = false) by (apply Nat.eqb_neq; rewrite (at_off _ _ _ _ A), slen_app; lia);
       rewrite E, (at_off _ _ _ _ A), slen_app;
       assert (E2 : slen T0 + slen chunk <? slen T0 = false) by (apply Nat.ltb_ge; lia); rewrite E2;
       replace (slen T0 + slen chunk - slen T0) with (slen chunk) by lia;
       pose proof (split_at_app chunk []) as SA; rewrite app_nil_r in SA; rewrite SA, ER, R, HI;
       destruct (grapheme_boundary ext (T0 ++ chunk) (m0 ++ post0)); reflexivity).
  all: destruct (grapheme_boundary ext (T0 ++ chunk) (m0 ++ post0)) eqn:GB.
  1, 3: exists (T0 ++ chunk), m0, (with_res c1 false), (before, slen T0, chunk, rest);
      split; [apply prev_chunked_ok; rewrite NXT, (at_off _ _ _ _ A1); reflexivity|]; split;
      [ split; [reflexivity|]; split; [exact N0|]; split; [exact GB|exact F]
      | split; [reflexivity|]; split; [exact PK|]; split; [|split; [destruct A1; split; auto|reflexivity]];
        exists chunk, [], (m0 ++ post0); rewrite app_nil_r; split; [reflexivity|]; split; [reflexivity|]; split; [reflexivity|];
        split; [left; exact NC|]; left; cbn; eapply is_boundary_keeps; [exact HI|]; discriminate ].
  all: assert (EQ : T0 ++ chunk = T0 ++ rev (rev iter) ++ [ch]) by (rewrite <- EM; reflexivity); rewrite EQ;
      apply (K (rev iter) ch [] m0 (m0 ++ post0) post0 (with_res c1 false));
      [ exact EM | reflexivity | rewrite <- EQ; destruct A1; split; auto
      | rewrite <- EQ; intros a b H Nb; destruct a as [|a0 a];
        [ cbn [app] in H; subst b; rewrite app_nil_r; exact GB | apply F; auto; discriminate ]
      | left; cbn; eapply is_boundary_keeps; [exact HI|]; discriminate
      | exact NXT ].
Qed.

Lemma indexed_snoc ps : forall o x, indexed o (ps ++ [x]) = indexed o ps ++ [(o + slen (concat ps), x)].
Proof.
  induction ps as [|p ps IH]; intros o x; cbn [indexed app concat].
  - cbn. rewrite Nat.add_0_r. reflexivity.
  - rewrite IH. change bytes with slen. rewrite slen_app, Nat.add_assoc. reflexivity.
Qed.

Lemma all_prev_at ext text (ps : list str) : segments (grapheme_boundary ext) text ps ->
  forall a b c p fuel, ps = a ++ b -> located_back ext (concat a) (concat b) c p -> length a < fuel ->
  all_prev fuel c p = Ret (Some (rev (piece_starts a))).
Proof.
  intros SG a. induction a as [|x a IH] using rev_ind; intros b c p fuel EP LO LF.
  - destruct fuel; [lia|]. destruct p as [[[before cs] chunk] rest]. cbn [all_prev].
    destruct LO as (_ & _ & _ & A & _).
    rewrite (prev_chunked_ok before rest c cs chunk c None); [reflexivity|]. apply (prev_boundary_start ext _ _ _ _ A).
  - rewrite app_length in LF. cbn in LF.
    destruct fuel; [lia|]. destruct p as [[[before cs] chunk] rest]. cbn [all_prev].
    rewrite <- app_assoc in EP. cbn [app] in EP.
    rewrite EP in SG. pose proof (segments_prev _ _ _ _ _ SG) as NB. rewrite <- EP in SG.
    destruct LO as (-> & PK & (m1 & m2 & T1 & E1 & E2 & E3 & E4 & E5) & A & R).
    destruct (prev_chunked_at ext (length before) before rest chunk (le_n _) PK) as [H _].
    assert (N1 : m1 <> []).
    { destruct E4 as [E4|E4]; [exact E4|]. destruct NB as (NB1 & NB2 & _). rewrite E4 in NB1. symmetry in NB1. apply app_eq_nil in NB1. destruct NB1; easy. }
    rewrite E2, E3 in A. destruct (H m1 m2 T1 c E1 N1 R A E5) as (st & mid & c' & p' & H1 & H2 & H3).
    rewrite <- E2, <- E3 in *. destruct (prev_bound_unique _ _ _ _ _ _ _ H2 NB) as [-> ->].
    rewrite H1, (IH (x :: b) c' p' fuel); auto; [|lia].
    unfold piece_starts. rewrite indexed_snoc, map_app, rev_app_distr. reflexivity.
Qed.

Lemma prefix_ok_intro first mids : first <> [] -> Forall self_contained mids -> forall last, self_contained last ->
  prefix_ok (rev (first :: mids)) last.
Proof.
  intros N. induction mids as [|m mids IH] using rev_ind; intros SC last SL.
  - split; [split; [apply SL|right; exact SL]|]. split; [|trivial]. split; [exact N|left; reflexivity].
  - apply Forall_app in SC. destruct SC as [SC SM]. inversion SM; subst.
    replace (rev (first :: mids ++ [m])) with (m :: rev (first :: mids)) by (cbn; rewrite rev_app_distr; reflexivity).
    split; [split; [apply SL|right; exact SL]|]. apply IH; auto.
Qed.

Lemma walk_backward ext first mids last : first <> [] -> Forall self_contained mids -> self_contained last -> 2 <= length last ->
  exists ps, segments (grapheme_boundary ext) (first ++ concat mids ++ last) ps /\
    chunked_boundaries_rev ext (rev (first :: mids)) last = Ret (Some (rev (piece_starts ps))).
Proof.
  intros N SC SL L2. set (text := first ++ concat mids ++ last).
  destruct (segments_exist (grapheme_boundary ext) (boundary_start ext) (boundary_end ext) text) as (ps & SG).
  exists ps. split; [exact SG|]. unfold chunked_boundaries_rev. rewrite rev_involutive.
  assert (ET : concat (first :: mids) ++ last = text) by (cbn [concat]; rewrite <- app_assoc; reflexivity). rewrite ET.
  rewrite (all_prev_at ext _ ps SG ps []); auto.
  - rewrite app_nil_r. reflexivity.
  - destruct SG as (C & _). rewrite C. split; [rewrite rev_involutive; reflexivity|].
    split; [apply prefix_ok_intro; auto|].
    split; [|split; [|reflexivity]].
    + exists last, [], []. rewrite rev_involutive, ET, app_nil_r. repeat split; [left; apply SL|right; left; exact L2].
    + pose proof (cursor_at_new ext text []) as H. rewrite app_nil_r in H. exact H.
  - destruct SG as (C & NE & _). pose proof (pieces_length ps NE). rewrite C in H.
    pose proof (length_slen text). lia.
Qed.

Lemma snd_indexed ps : forall o, map snd (indexed o ps) = ps.
Proof. induction ps as [|p ps IH]; intros o; cbn [indexed map snd]; [|rewrite IH]; reflexivity. Qed.

(** Reading UnicodeData.txt. *)
From Coq Require Import String Ascii List NArith ZArith Lia Bool PeanoNat Sorted ZifyBool ZifyNat ZifyN.
From Verif Require Import Base RangeModel TableModel TextModel TableGenModel GenRegex GenModel GenSpec GenBinarySpec
  GenLemmas GenMap GenProofs GenDataModel GenDataSpec.
Import ListNotations.
Open Scope N_scope.
Open Scope list_scope.

(** * Matching a line *)
Lemma eats_fld r rest w z u g g' :
  eats r w (0x3B :: z ++ u) g -> eats rest z u g' -> eats (fld r rest) (w ++ 0x3B :: z) u (g' ++ g).
Proof.
  intros H1 H2. unfold fld. apply eats_seq; [exact H1|].
  change (0x3B :: z) with ([0x3B] ++ z). rewrite <- (app_nil_r g'). apply eats_seq; [apply eats_lit|exact H2].
Qed.

Lemma fails_opt_seq a b u : fails a u -> fails b u -> fails (Seq (Opt a) b) u.
Proof. intros Ha Hb x g. cbn [run]. rewrite Ha. cbn. now rewrite Hb. Qed.

Lemma fails_star_seq a b u : fails a u -> fails b u -> fails (Seq (Star a) b) u.
Proof. intros Ha Hb x g. cbn [run star]. rewrite Ha. cbn. now rewrite Hb. Qed.

Lemma filled_eats n t u : filled t -> eats (Cap n (plus not_semicolon)) t (0x3B :: u) [(n, t)].
Proof.
  intros [Hne [Hs _]]. apply eats_cap. unfold not_semicolon. apply eats_plus; [exact Hne| |].
  - apply Forall_forall. intros c Hc. destruct (N.eqb_spec c 0x3B) as [->|]; [contradiction|reflexivity].
  - cbn. discriminate.
Qed.

Definition capo (n : nat) (o : option str) : list (nat * str) :=
  match o with None => [] | Some t => [(n, t)] end.

Lemma opt_eats n r (P : str -> Prop) o u :
  (forall t, P t -> eats (Cap n r) t (0x3B :: u) [(n, t)]) -> fails r (0x3B :: u) ->
  opt_ok P o -> eats (Opt (Cap n r)) (opt o) (0x3B :: u) (capo n o).
Proof.
  intros He Hf Ho. destruct o as [t|]; cbn in *.
  - apply eats_opt. auto.
  - now apply eats_opt_no, fails_cap.
Qed.

Lemma optc_eats n o u : (forall c, o = Some c -> is_digit c) ->
  eats (Opt (Cap n (Cls digit))) (optc o) (0x3B :: u) (capo n (option_map (fun c => [c]) o)).
Proof.
  intros H. destruct o as [c|]; cbn.
  - apply eats_opt, eats_cap, eats_cls. apply digit_iff. auto.
  - apply eats_opt_no, fails_cap, fails_cls. cbn. discriminate.
Qed.

Lemma semi_not_hex u : not_starting is_hex (0x3B :: u).
Proof. cbn. intros K. now apply K. Qed.

Lemma code_eats n t u : code_point t -> not_starting is_hex u -> eats (Cap n hex46) t u [(n, t)].
Proof. intros H Hu. now apply eats_cap, hex46_eats. Qed.

Lemma hex_space h : forall v w u, Forall is_hex h -> Forall is_hex w ->
  not_starting (fun c => is_hex c \/ c = 0x20) u -> h ++ 0x20 :: v = w ++ u -> False.
Proof.
  induction h as [|c h IH]; intros v w u Hh Hw Hu E; destruct w as [|d w]; cbn in E.
  - destruct u; [discriminate|]. injection E as <- <-. cbn in Hu. tauto.
  - injection E as <- _. inversion Hw as [|? ? Hd _]; subst. now apply Hd.
  - destruct u; [discriminate|]. injection E as <- _. cbn in Hu. inversion Hh; subst. tauto.
  - injection E as <- E. inversion Hh; subst. inversion Hw; subst. eauto.
Qed.

Lemma last_word_fails w u : Forall is_hex w -> not_starting (fun c => is_hex c \/ c = 0x20) u ->
  fails (Seq hex46 (lit 0x20)) (w ++ u).
Proof.
  intros Hw Hu. apply fails_lang. intros x v L E. apply lang_seq_inv in L as (h & y & -> & Lh & Ly).
  apply lang_lit_inv in Ly as ->. apply lang_hex46_inv in Lh. rewrite <- app_assoc in E.
  exact (hex_space h v w u Lh Hw Hu (eq_sym E)).
Qed.

Lemma words_eats l : forall u, l <> [] -> Forall code_point l ->
  not_starting (fun c => is_hex c \/ c = 0x20) u ->
  eats (Seq (Star (Seq hex46 (lit 0x20))) hex46) (joined 0x20 l) u [].
Proof.
  intros u Hne Hl Hu. destruct (exists_last Hne) as (m & w & ->). clear Hne.
  apply Forall_app in Hl as [Hm Hw]. inversion Hw as [|? ? Hw' _]; subst.
  assert (not_starting is_hex u) as Hu'. { destruct u; cbn in *; tauto. }
  assert (joined 0x20 (m ++ [w]) = concat (map (fun x => x ++ [0x20]) m) ++ w) as ->.
  { clear. induction m as [|x m IH]; [reflexivity|]. cbn [map concat]. rewrite <- app_assoc, <- app_assoc, <- IH. clear.
    cbn [app joined]. destruct (m ++ [w]) eqn:E; [now destruct m|]. reflexivity. }
  change (@nil (nat * str)) with (@nil (nat * str) ++ []). apply eats_seq; [|now apply hex46_eats].
  clear Hw. induction Hm as [|x m Hx Hm IH]; cbn [map concat].
  - apply eats_star_nil. apply last_word_fails; [apply Hw'|exact Hu].
  - change (@nil (nat * str)) with (@nil (nat * str) ++ []). apply eats_star_cons.
    + destruct x; discriminate.
    + change (@nil (nat * str)) with (@nil (nat * str) ++ []).
      apply eats_seq; [|apply eats_lit]. apply hex46_eats; [exact Hx|]. cbn. intros K. now apply K.
    + exact IH.
Qed.

Definition decomposition_caps (d : info) : list (nat * str) :=
  match mapping d with [] => [] | l => [(7%nat, joined 0x20 l)] end ++ capo 6 (tag d).

Lemma character_code_points l : Forall character_code l -> Forall code_point l.
Proof. apply Forall_impl. now intros t [H _]. Qed.

Lemma decomposition_eats d u : info_ok d ->
  eats DECOMPOSITION (decomposition_text d) (0x3B :: u) (decomposition_caps d).
Proof.
  intros (_ & _ & _ & Ht & Hm & Htm & _). unfold DECOMPOSITION, decomposition_text, decomposition_caps.
  assert (not_starting (fun c => is_hex c \/ c = 0x20) (0x3B :: u)) as Hu.
  { cbn. intros [K|K]; [now apply K|lia]. }
  destruct (mapping d) as [|m ms] eqn:Em.
  - destruct (tag d) as [t|]; [exfalso; now apply Htm|]. cbn [joined app capo].
    apply eats_opt_no. apply fails_opt_seq.
    + apply fails_seq, fails_lit. cbn. lia.
    + apply fails_cap, fails_star_seq; [apply fails_seq|]; apply hex46_fails, semi_not_hex.
  - apply eats_opt. apply eats_seq.
    + destruct (tag d) as [t|]; cbn [capo].
      * apply eats_opt. destruct Ht as [_ Ht].
        change [(6%nat, t)] with ([(6%nat, t)] ++ []). apply eats_seq; [apply eats_lit|].
        change [(6%nat, t)] with (@nil (nat * str) ++ [(6%nat, t)]). apply eats_seq.
        -- apply eats_cap, eats_star; [|cbn; discriminate].
           apply Forall_forall. intros c Hc. destruct (N.eqb_spec c 0x3E) as [->|]; [contradiction|reflexivity].
        -- change (@nil (nat * str)) with (@nil (nat * str) ++ []). change [0x3E; 0x20] with ([0x3E] ++ [0x20]).
           apply eats_seq; apply eats_lit.
      * apply eats_opt_no, fails_seq, fails_lit. cbn [app].
        assert (code_point m) as [Hh Hl] by (inversion Hm; subst; now match goal with H : character_code m |- _ => apply H end).
        destruct m as [|c m]; [cbn in Hl; lia|].
        assert (c <> 0x3C) by (intros ->; inversion Hh as [|? ? K _]; subst; now apply K).
        destruct ms; exact H.
    + apply eats_cap, words_eats; [discriminate|now apply character_code_points|exact Hu].
Qed.

Definition caps (cp n : str) (d : info) : list (nat * str) :=
  capo 15 (title d) ++ capo 14 (lower_ d) ++ capo 13 (upper d) ++ capo 12 (old_name d) ++
  capo 11 (Some (if mirrored d then [0x59] else [0x4E])) ++ capo 10 (numeric d) ++
  capo 9 (option_map (fun c => [c]) (digit_ d)) ++ capo 8 (option_map (fun c => [c]) (decimal d)) ++
  decomposition_caps d ++ capo 5 (Some (bc d)) ++ capo 4 (Some (ccc d)) ++ capo 3 (Some (gc d)) ++
  capo 2 (Some n) ++ capo 1 (Some cp).

Definition DATA_REST : re :=
    (fld (Cap 1 hex46)
    (fld (Cap 2 (plus not_semicolon))
    (fld (Cap 3 (plus not_semicolon))
    (fld (Cap 4 (plus (Cls digit)))
    (fld (Cap 5 (plus not_semicolon))
    (fld DECOMPOSITION
    (fld (Opt (Cap 8 (Cls digit)))
    (fld (Opt (Cap 9 (Cls digit)))
    (fld (Opt (Cap 10 (plus not_semicolon)))
    (fld (Cap 11 (Cls (fun c => (c =? 0x59) || (c =? 0x4E))))
    (fld (Opt (Cap 12 (plus not_semicolon)))
    (Seq semicolon
    (fld (Opt (Cap 13 hex46))
    (fld (Opt (Cap 14 hex46))
    (Seq (Opt (Cap 15 hex46)) Eol))))))))))))))).

Lemma plus_semicolon_fails u : fails (plus not_semicolon) (0x3B :: u).
Proof. apply fails_plus. cbn. discriminate. Qed.

Lemma line_eats cp n d u : code_point cp -> filled n -> info_ok d ->
  eats DATA_REST (info_text cp n d) (10 :: u) (caps cp n d).
Proof.
  intros Hcp Hn Hd. pose proof Hd as (Hgc & (Hcne & Hcd & _) & Hbc & _ & _ & _ & Hdec & Hdig & Hnum & Hold & Hup & Hlow & Hti).
  unfold caps, info_text. cbn [joined].
  assert (forall o, opt_ok character_code o -> opt_ok code_point o) as Hco.
  { intros [t|]; cbn; [now intros [K _]|auto]. }
  apply Hco in Hup, Hlow, Hti.
  assert (forall k o u, opt_ok code_point o -> eats (Opt (Cap k hex46)) (opt o) (0x3B :: u) (capo k o)) as He.
  { intros k o z. apply opt_eats; [intros t Ht; apply code_eats; [exact Ht|apply semi_not_hex]|apply hex46_fails, semi_not_hex]. }
  replace (capo 15 (title d) ++ _) with
    (((((((((((((capo 15 (title d) ++ capo 14 (lower_ d)) ++ capo 13 (upper d)) ++ capo 12 (old_name d)) ++
      capo 11 (Some (if mirrored d then [0x59] else [0x4E]))) ++ capo 10 (numeric d)) ++
      capo 9 (option_map (fun c => [c]) (digit_ d))) ++ capo 8 (option_map (fun c => [c]) (decimal d))) ++
      decomposition_caps d) ++ capo 5 (Some (bc d))) ++ capo 4 (Some (ccc d))) ++ capo 3 (Some (gc d))) ++
      capo 2 (Some n)) ++ capo 1 (Some cp)) by now rewrite <- !app_assoc.
  unfold DATA_REST.
  apply eats_fld; [apply code_eats; [exact Hcp|apply semi_not_hex]|].
  apply eats_fld; [now apply filled_eats|].
  apply eats_fld; [now apply filled_eats|].
  apply eats_fld.
  { apply eats_cap, eats_plus; [exact Hcne| |cbn; discriminate].
    eapply Forall_iff; [|exact Hcd]. intros; now rewrite digit_iff. }
  apply eats_fld; [now apply filled_eats|].
  apply eats_fld; [now apply decomposition_eats|].
  apply eats_fld; [now apply optc_eats|].
  apply eats_fld; [now apply optc_eats|].
  apply eats_fld; [apply (opt_eats _ _ filled); [intros; now apply filled_eats|apply plus_semicolon_fails|exact Hnum]|].
  apply eats_fld; [apply eats_cap; destruct (mirrored d); now apply eats_cls|].
  apply eats_fld; [apply (opt_eats _ _ filled); [intros; now apply filled_eats|apply plus_semicolon_fails|exact Hold]|].
  rewrite <- (app_nil_r ((capo 15 _ ++ _) ++ _)). cbn [app].
  match goal with |- eats (Seq _ _) (0x3B :: ?z) _ _ => change (0x3B :: z) with ([0x3B] ++ z) end.
  apply eats_seq; [apply eats_lit|].
  apply eats_fld; [now apply He|].
  apply eats_fld; [now apply He|].
  rewrite <- (app_nil_r (opt (title d))). rewrite <- (app_nil_l (capo 15 _)).
  apply eats_seq; [|apply eats_eol]. cbn [app].
  destruct (title d) as [t|]; cbn in *.
  - apply eats_opt, code_eats; [exact Hti|]. cbn. intros K. now apply K.
  - apply eats_opt_no, fails_cap, hex46_fails. cbn. intros K. now apply K.
Qed.

Lemma filled_no_newline t : filled t -> no_newline t.
Proof. now intros [_ [_ H]]. Qed.
Lemma digits_no_newline t : Forall is_digit t -> no_newline t.
Proof. intros H. apply (no_newline_forall is_digit t H). unfold is_digit. lia. Qed.

Lemma joined_no_newline sep l : sep <> 10 -> Forall no_newline l -> no_newline (joined sep l).
Proof.
  intros Hs H. induction H as [|w l Hw Hl IH]; [now intros []|]. cbn. destruct l; [exact Hw|].
  apply no_newline_app; [exact Hw|]. change (sep :: joined sep (s :: l)) with ([sep] ++ joined sep (s :: l)).
  apply no_newline_app; [unfold no_newline; cbn; lia|exact IH].
Qed.

Lemma line_no_newline cp n d : code_point cp -> filled n -> info_ok d -> no_newline (info_text cp n d).
Proof.
  intros Hcp Hn (Hgc & (Hcne & Hcd & _) & Hbc & Ht & Hm & _ & Hdec & Hdig & Hnum & Hold & Hup & Hlow & Hti).
  assert (no_newline []) as Hnil by now intros [].
  assert (forall t, code_point t -> no_newline t) as Hc by (intros t [H _]; now apply hex_no_newline).
  assert (forall o, opt_ok character_code o -> no_newline (opt o)) as Ho.
  { intros [t|]; cbn; [intros [H _]; auto|auto]. }
  assert (forall o, opt_ok filled o -> no_newline (opt o)) as Hf.
  { intros [t|]; cbn; [apply filled_no_newline|auto]. }
  assert (forall o, (forall c, o = Some c -> is_digit c) -> no_newline (optc o)) as Hoc.
  { intros [c|] H; cbn; [|auto]. apply digits_no_newline. auto. }
  apply joined_no_newline; [lia|].
  repeat (constructor; [auto using filled_no_newline, digits_no_newline|]); [| |constructor].
  - unfold decomposition_text. apply no_newline_app.
    + destruct (tag d) as [t|]; [|auto]. destruct Ht as [[_ Ht] _].
      repeat apply no_newline_app; auto; unfold no_newline; cbn; lia.
    + apply joined_no_newline; [lia|]. eapply Forall_impl; [|exact Hm]. intros t [H _]. auto.
  - destruct (mirrored d); unfold no_newline; cbn; lia.
Qed.

Lemma line_reads cp n d : code_point cp -> filled n -> info_ok d ->
  reads DATA_REST (info_text cp n d) (Some (caps cp n d)).
Proof.
  intros Hcp Hn Hd. split; [now apply line_no_newline|].
  exists (info_text cp n d), []. split; [now rewrite app_nil_r|]. split.
  - destruct Hcp as [_ H]. destruct cp; [cbn in H; lia|discriminate].
  - intros u. cbn [app]. now apply line_eats.
Qed.

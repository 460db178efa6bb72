(** What the printed texts read as. *)
From Coq Require Import String List NArith Lia Bool PeanoNat ZifyBool ZifyNat ZifyN.
From Verif Require Import Base CliSpec RangeModel TableModel TextModel CliModel TextProofs CliProofs NameParseModel
  NameParseProofs RustSpec PrintModel PrintLex.
Import ListNotations.
Open Scope list_scope.
Open Scope N_scope.

(** * Pieces of text *)
(** [no_word s]: [s] does not go on with a word. *)
Definition no_word (s : str) : Prop := forall c r, s = c :: r -> ~ word_char c.
Definition prints (d : str) (ts : list token) : Prop :=
  forall s ts', no_word s -> lexes s ts' -> lexes (d ++ s) (ts ++ ts').
Definition free (d : str) (ts : list token) : Prop := forall s ts', lexes s ts' -> lexes (d ++ s) (ts ++ ts').

Lemma free_prints d ts : free d ts -> prints d ts.
Proof. intros H s ts' _. apply H. Qed.
Lemma free_app d ts d' ts' : free d ts -> free d' ts' -> free (d ++ d') (ts ++ ts').
Proof. intros H H' s ts0 L. rewrite <- !app_assoc. apply H, H', L. Qed.
Lemma free_prints_app d ts d' ts' : free d ts -> prints d' ts' -> prints (d ++ d') (ts ++ ts').
Proof. intros H H' s ts0 N L. rewrite <- !app_assoc. apply H, H'; assumption. Qed.
Lemma no_word_app d s : no_word d -> no_word s -> no_word (d ++ s).
Proof. intros H H'. destruct d; [exact H'|]. intros c r [= <- _]. eapply H. reflexivity. Qed.
Lemma prints_app d ts d' ts' : prints d ts -> no_word d' -> prints d' ts' -> prints (d ++ d') (ts ++ ts').
Proof.
  intros H N H' s ts0 N0 L. rewrite <- !app_assoc. apply H; [apply no_word_app; assumption|]. apply H'; assumption.
Qed.
Lemma prints_free_app d ts c d' ts' : prints d ts -> ~ word_char c -> free (c :: d') ts' -> free (d ++ c :: d') (ts ++ ts').
Proof.
  intros H N H' s ts0 L. rewrite <- !app_assoc. apply H; [intros x y [= <- _]; exact N|]. apply H', L.
Qed.

(** A lexer of words, marks and blanks, for the fixed parts of the texts. *)
Definition markb (c : N) : bool := existsb (N.eqb c) marks.
Fixpoint scan (cur : str) (s : str) : option (list token) :=
  let flush := match cur with [] => [] | _ => [TWord (rev cur)] end in
  match s with
  | [] => Some flush
  | c :: s' =>
      if wordb c then scan (c :: cur) s'
      else if (c =? 0x20) || (c =? 10) then match scan [] s' with Some ts => Some (flush ++ ts) | None => None end
      else if markb c then match scan [] s' with Some ts => Some (flush ++ TMark c :: ts) | None => None end
      else None
  end.

Lemma flush_lexes cur s ts : Forall word_char cur -> no_word s -> lexes s ts ->
  lexes (rev cur ++ s) (match cur with [] => [] | _ => [TWord (rev cur)] end ++ ts).
Proof.
  intros Hf N L. destruct cur as [|c cur]; [exact L|].
  change (lexes (rev (c :: cur) ++ s) (TWord (rev (c :: cur)) :: ts)). apply lex_word; [|exact N|exact L].
  split; [|apply Forall_rev, Hf]. cbn [rev]. intros E. apply app_eq_nil in E. destruct E as [_ E]. discriminate E.
Qed.

Lemma not_wordb c r s : wordb c = false -> s = c :: r -> no_word s.
Proof. intros H -> x y [= <- _] W. apply wordb_iff in W. congruence. Qed.

Lemma scan_prints d : forall cur ts s ts', scan cur d = Some ts -> Forall word_char cur ->
  (no_word s \/ exists p c, d = p ++ [c] /\ wordb c = false) -> lexes s ts' -> lexes (rev cur ++ d ++ s) (ts ++ ts').
Proof.
  induction d as [|c d IH]; intros cur ts s ts' H Hc Hs L; cbn [scan] in H.
  - injection H as <-. apply flush_lexes; [exact Hc| |exact L].
    destruct Hs as [Hs|(p & x & E & _)]; [exact Hs|]. destruct p; discriminate E.
  - assert (Hs' : wordb c = true -> no_word s \/ exists p x, d = p ++ [x] /\ wordb x = false).
    { intros W. destruct Hs as [Hs|(p & x & E & Hx)]; [left; exact Hs|]. right.
      destruct p as [|y p]; cbn in E; injection E as -> E; [congruence|]. eauto. }
    assert (Hs'' : no_word s \/ (exists p x, d = p ++ [x] /\ wordb x = false) \/ d = []).
    { destruct Hs as [Hs|(p & x & E & Hx)]; [left; exact Hs|]. right.
      destruct p as [|y p]; cbn in E; injection E as -> E; [right; exact E|left; eauto]. }
    assert (Hd : forall ts1, scan [] d = Some ts1 -> lexes (d ++ s) (ts1 ++ ts')).
    { intros ts1 E1. destruct Hs'' as [Hn|[Hn| ->]].
      - apply (IH [] ts1 s ts' E1); [constructor|left; exact Hn|exact L].
      - apply (IH [] ts1 s ts' E1); [constructor|right; exact Hn|exact L].
      - cbn in E1. injection E1 as <-. exact L. }
    destruct (wordb c) eqn:W.
    + specialize (IH (c :: cur) ts s ts' H). cbn [rev] in IH. rewrite <- app_assoc in IH. apply IH.
      * constructor; [apply wordb_iff, W|exact Hc].
      * apply Hs'. reflexivity.
      * exact L.
    + destruct ((c =? 0x20) || (c =? 10)) eqn:B.
      * destruct (scan [] d) as [ts1|] eqn:E1; [|discriminate H]. injection H as <-. rewrite <- app_assoc.
        apply flush_lexes; [exact Hc|eapply not_wordb; [exact W|reflexivity]|]. cbn [app]. apply lex_blank; [lia|]. apply Hd. reflexivity.
      * destruct (markb c) eqn:M; [|discriminate H].
        destruct (scan [] d) as [ts1|] eqn:E1; [|discriminate H]. injection H as <-. rewrite <- app_assoc.
        apply flush_lexes; [exact Hc|eapply not_wordb; [exact W|reflexivity]|]. cbn [app]. apply lex_mark.
        -- unfold markb in M. apply existsb_exists in M. destruct M as (x & I & E). apply N.eqb_eq in E. subst. exact I.
        -- apply Hd. reflexivity.
Qed.

Lemma scan_free d ts : scan [] d = Some ts -> (exists p c, d = p ++ [c] /\ wordb c = false) -> free d ts.
Proof. intros H He s ts' L. apply (scan_prints d [] ts s ts' H); [constructor|right; exact He|exact L]. Qed.
Lemma scan_print d ts : scan [] d = Some ts -> prints d ts.
Proof. intros H s ts' N L. apply (scan_prints d [] ts s ts' H); [constructor|left; exact N|exact L]. Qed.

Definition ends_free (d : str) : bool := match rev d with c :: _ => negb (wordb c) | [] => false end.
Lemma scanned d ts : scan [] d = Some ts -> ends_free d = true -> free d ts.
Proof.
  intros H E. apply scan_free; [exact H|]. unfold ends_free in E. destruct (rev d) as [|c r] eqn:R; [discriminate E|].
  exists (rev r), c. split; [|destruct (wordb c); [discriminate E|reflexivity]].
  rewrite <- (rev_involutive d), R. reflexivity.
Qed.

Lemma word_prints w : rust_word w -> prints w [TWord w].
Proof. intros H s ts N L. cbn [app]. apply lex_word; assumption. Qed.

(** * Literals *)
Lemma escape_unicode_escape c : scalar c -> escape (escape_unicode c) c.
Proof.
  intros Hc. assert (Hu : c <= 0xFFFFFFFF) by (unfold scalar in Hc; lia).
  destruct (fmt_lower_digits c Hu) as (ds & E & Hcan & Hv).
  exists (fmt_lower_hex c). split; [reflexivity|]. split; [|split; [|exact Hc]].
  - rewrite E, <- Hv. apply hex_number_digits; [apply Hcan|apply canonical_nonempty, Hcan].
  - rewrite E, map_length. destruct (N.eq_dec c 0) as [Ez|Hz].
    + destruct Hcan as [_ [->|(d & r & -> & Hd)]]; [cbn; lia|]. pose proof (value_ge d r Hd) as G. rewrite Hv, Ez in G.
      assert (16 ^ N.of_nat (List.length r) <> 0) by (apply N.pow_nonzero; lia). lia.
    + assert (Hnz : value 0 ds <> 0) by congruence. destruct (canonical_length ds Hcan Hnz) as [Hl _].
      rewrite Hv in Hl. destruct (Nat.le_gt_cases (List.length ds) 6) as [Hle|Hgt]; [exact Hle|exfalso].
      assert (G : 16 ^ 6 <= 16 ^ N.of_nat (List.length ds - 1)) by (apply N.pow_le_mono_r; lia).
      change (16 ^ 6) with 0x1000000 in G. unfold scalar in Hc. lia.
Qed.

Definition char_lit (c : N) : str := [0x27] ++ escape_unicode c ++ [0x27].
Lemma char_free c : scalar c -> free (char_lit c) [TChar c].
Proof.
  intros Hc s ts L. unfold char_lit. rewrite <- !app_assoc. cbn [app].
  apply (lex_char (escape_unicode c) c s ts); [right; apply escape_unicode_escape, Hc|exact L].
Qed.

Lemma escapes_text t : Forall scalar t -> text_literal (flat_map escape_unicode t) t.
Proof.
  induction 1 as [|c t Hc _ IH]; cbn [flat_map]; [constructor|].
  apply text_escape; [apply escape_unicode_escape, Hc|exact IH].
Qed.
Lemma plain_literal t : unescaped t -> text_literal t t.
Proof. induction 1 as [|c t (H1 & H2 & H3) _ IH]; constructor; assumption. Qed.
Lemma text_free b t : text_literal b t -> free ([0x22] ++ b ++ [0x22]) [TText t].
Proof.
  intros Hb s ts L. rewrite <- !app_assoc. cbn [app]. apply (lex_text b t s ts); assumption.
Qed.

Lemma dec_digits_decimal fuel : forall n acc, n < 10 ^ N.of_nat fuel -> (0 < fuel)%nat ->
  exists ds, dec_digits fuel n acc = ds ++ acc /\ decimal_of ds n.
Proof.
  induction fuel as [|fuel IH]; intros n acc Hn Hf; [lia|].
  cbn [dec_digits]. destruct (N.eqb_spec (n / 10) 0) as [E|E].
  - exists [0x30 + n mod 10]. split; [reflexivity|].
    replace n with (0x30 + n mod 10 - 0x30) at 2 by lia. constructor. unfold digit_char. lia.
  - assert (Hf' : (0 < fuel)%nat).
    { destruct fuel; [|lia]. change (10 ^ N.of_nat 1) with 10 in Hn. lia. }
    assert (Hn' : n / 10 < 10 ^ N.of_nat fuel).
    { rewrite Nat2N.inj_succ, N.pow_succ_r' in Hn. generalize dependent (10 ^ N.of_nat fuel). intros. lia. }
    destruct (IH (n / 10) (0x30 + n mod 10 :: acc) Hn' Hf') as (ds & Eq & Hd).
    exists (ds ++ [0x30 + n mod 10]). split.
    + rewrite Eq, <- app_assoc. reflexivity.
    + replace n with (n / 10 * 10 + (0x30 + n mod 10 - 0x30)) at 2 by lia. constructor; [exact Hd|unfold digit_char; lia].
Qed.
Lemma fmt_dec_decimal n : n <= 0xFFFF -> decimal_of (fmt_dec n) n.
Proof.
  intros H. destruct (dec_digits_decimal 20 n []) as (ds & E & Hd); [|lia|].
  - change (10 ^ N.of_nat 20) with 100000000000000000000. lia.
  - unfold fmt_dec. rewrite E, app_nil_r. exact Hd.
Qed.
Lemma decimal_word w n : decimal_of w n -> rust_word w.
Proof.
  intros H. destruct (decimal_digits _ _ H) as [Hf Hne]. split; [exact Hne|].
  eapply Forall_impl; [|exact Hf]. intros c Hc. left. exact Hc.
Qed.

(** * Expressions *)
(** [stop r]: what may follow an expression in a list. *)
Definition stop (r : list token) : Prop :=
  r = [] \/ exists t r', r = t :: r' /\ (t = mark "," \/ t = mark ")" \/ t = mark "]" \/ t = mark "}").
Definition reads_as (d : str) (e : expr) : Prop := exists ts, prints d ts /\ forall r, stop r -> expr_at (ts ++ r) e r.

Lemma stop_mark t r : (t = mark "," \/ t = mark ")" \/ t = mark "]" \/ t = mark "}") -> stop (t :: r).
Proof. intros H. right. eauto. Qed.
Lemma stop_no_path r : stop r -> forall r', r <> mark ":" :: mark ":" :: r'.
Proof. intros [->|(t & r0 & -> & H)] r' E; [discriminate E|]. injection E as E _. subst t. intuition discriminate. Qed.
Lemma stop_not_applied r : stop r -> ~ applied r.
Proof.
  intros [->|(t & r0 & -> & H)] (r' & [E|[E|E]]); try discriminate E; injection E as E _; subst t; intuition discriminate.
Qed.

Lemma path_stop w r : rust_name w -> stop r -> path_at (TWord w :: r) [w] r.
Proof. intros Hw Hr. apply path_one; [exact Hw|apply stop_no_path, Hr]. Qed.

Lemma reads_number n : n <= 0xFFFF -> reads_as (fmt_dec n) (Number n).
Proof.
  intros H. pose proof (fmt_dec_decimal n H) as Hd. exists [TWord (fmt_dec n)]. split.
  - apply word_prints, (decimal_word _ _ Hd).
  - intros r _. apply at_number, Hd.
Qed.
Lemma reads_name w : rust_name w -> reads_as w (Name [w]).
Proof.
  intros H. exists [TWord w]. split; [apply word_prints, H|]. intros r Hr. apply at_name; [apply path_stop; assumption|].
  apply stop_not_applied, Hr.
Qed.
Lemma reads_char c : scalar c -> reads_as (char_lit c) (Character c).
Proof. intros H. exists [TChar c]. split; [apply free_prints, char_free, H|]. intros r _. constructor. Qed.
Lemma reads_text b t : text_literal b t -> reads_as ([0x22] ++ b ++ [0x22]) (Text t).
Proof. intros H. exists [TText t]. split; [apply free_prints, text_free, H|]. intros r _. constructor. Qed.

(** Items of a list before its closing mark *)
Definition body (close : token) (b : str) (es : list expr) : Prop :=
  exists ts, prints b ts /\ forall r, list_at close (ts ++ close :: r) es r.
Definition blanks (s : str) : Prop := Forall (fun c => c = 0x20 \/ c = 10) s.

Lemma blanks_free s : blanks s -> free s [].
Proof. induction 1 as [|c s Hc _ IH]; intros s' ts L; [exact L|]. cbn [app]. apply lex_blank; [exact Hc|]. apply (IH _ _ L). Qed.

Lemma body_nil close : body close [] [].
Proof. exists []. split; [intros s ts _ L; exact L|]. intros r. constructor. Qed.
Lemma body_last close d e : closing close -> reads_as d e -> body close d [e].
Proof.
  intros Hc (ts & P & R). exists ts. split; [exact P|]. intros r. apply list_last, R, stop_mark.
  destruct Hc as [->| ->]; auto.
Qed.
Lemma body_cons close a d w b e es : blanks a -> blanks w -> reads_as d e -> body close b es ->
  body close (a ++ d ++ 0x2C :: w ++ b) (e :: es).
Proof.
  intros Ha Hw (ts & P & R) (ts' & P' & R'). exists (ts ++ mark "," :: ts'). split.
  - apply (free_prints_app _ [] _ _ (blanks_free _ Ha)). intros s ts0 N L. rewrite <- !app_assoc. cbn [app].
    apply P; [intros c r [= <- _] W; apply wordb_iff in W; discriminate W|].
    apply lex_mark; [cbn; tauto|]. rewrite <- app_assoc. apply (blanks_free _ Hw). apply P'; assumption.
  - intros r. rewrite <- app_assoc. cbn [app]. eapply list_more; [|apply R']. apply R, stop_mark. auto.
Qed.

Lemma close_word c : In c [0x29; 0x5D; 0x7D] -> ~ word_char c /\ In c marks.
Proof.
  intros I. assert (M : In c marks) by (unfold marks; cbn in *; intuition). split; [apply mark_not_word, M|exact M].
Qed.
Lemma free_close b ts c : In c [0x29; 0x5D; 0x7D] -> prints b ts -> free (b ++ [c]) (ts ++ [TMark c]).
Proof.
  intros I P. destruct (close_word c I) as [W M]. apply prints_free_app; [exact P|exact W|].
  intros s ts' L. cbn [app]. apply lex_mark; assumption.
Qed.

Lemma free_mark c : In c marks -> free [c] [TMark c].
Proof. intros H s ts L. cbn [app]. apply lex_mark; assumption. Qed.

Lemma reads_slice b es : body (mark "]") b es -> reads_as (lit "&[" ++ b ++ lit "]") (Slice es).
Proof.
  intros (ts & P & R). exists (mark "&" :: mark "[" :: ts ++ [mark "]"]). split.
  - apply free_prints. change (mark "&" :: mark "[" :: ts ++ [mark "]"]) with ([mark "&"; mark "["] ++ ts ++ [mark "]"]).
    apply free_app; [apply scanned; reflexivity|]. apply free_close; [cbn; auto|exact P].
  - intros r _. cbn [app]. apply at_slice. rewrite <- app_assoc. apply R.
Qed.
Lemma reads_tuple b es : body (mark ")") b es -> List.length es <> 1%nat -> reads_as (lit "(" ++ b ++ lit ")") (Tuple es).
Proof.
  intros (ts & P & R) Hn. exists (mark "(" :: ts ++ [mark ")"]). split.
  - apply free_prints. change (mark "(" :: ts ++ [mark ")"]) with ([mark "("] ++ ts ++ [mark ")"]).
    apply free_app; [apply scanned; reflexivity|]. apply free_close; [cbn; auto|exact P].
  - intros r _. cbn [app]. apply at_tuple; [|exact Hn]. rewrite <- app_assoc. apply R.
Qed.

(** [name], applied *)
Lemma reads_call p pt b es : prints p pt -> (forall ts, path_at (pt ++ mark "(" :: ts) es (mark "(" :: ts)) ->
  forall l, body (mark ")") b l -> reads_as (p ++ lit "(" ++ b ++ lit ")") (Call es l).
Proof.
  intros Hp Hpath l (ts & P & R). exists (pt ++ mark "(" :: ts ++ [mark ")"]). split.
  - apply free_prints. apply prints_free_app; [exact Hp|apply mark_not_word; cbn; tauto|].
    apply (free_app (lit "(") [mark "("] (b ++ lit ")") (ts ++ [mark ")"])); [apply scanned; reflexivity|].
    apply free_close; [cbn; auto|exact P].
  - intros r _. rewrite <- app_assoc. cbn [app]. eapply at_call; [apply Hpath|]. rewrite <- app_assoc. apply R.
Qed.

(** * Names *)
Definition nameb (w : str) : bool :=
  match w with [] => false | c :: _ => negb ((0x30 <=? c) && (c <=? 0x39)) end && forallb wordb w
  && negb (existsb (str_eqb w) (map chars_of kept)).
Lemma nameb_name w : nameb w = true -> rust_name w.
Proof.
  unfold nameb. intros H. apply andb_true_iff in H. destruct H as [H Hk]. apply andb_true_iff in H. destruct H as [Hd Hw].
  split; [split|split].
  - destruct w; [discriminate Hd|discriminate].
  - apply Forall_forall. intros c I. apply wordb_iff. eapply forallb_forall in Hw; eassumption.
  - intros c r ->. unfold digit_char. lia.
  - intros I. apply negb_true_iff in Hk.
    assert (E : existsb (str_eqb w) (map chars_of kept) = true).
    { apply existsb_exists. exists w. split; [exact I|]. apply NameParseProofs.str_eqb_eq. reflexivity. }
    congruence.
Qed.

Ltac fixed_name := apply nameb_name; vm_compute; reflexivity.

Lemma lit_chars s : lit s = chars_of s.
Proof. induction s as [|c s IH]; cbn; [reflexivity|rewrite IH; reflexivity]. Qed.

Lemma path2_call a b ts : rust_name a -> rust_name b ->
  path_at ([TWord a; mark ":"; mark ":"; TWord b] ++ mark "(" :: ts) [a; b] (mark "(" :: ts).
Proof.
  intros Ha Hb. cbn [app]. apply path_more; [exact Ha|]. apply path_one; [exact Hb|]. intros r' E. discriminate E.
Qed.
Lemma path1_call a ts : rust_name a -> path_at ([TWord a] ++ mark "(" :: ts) [a] (mark "(" :: ts).
Proof. intros Ha. cbn [app]. apply path_one; [exact Ha|]. intros r' E. discriminate E. Qed.

Lemma reads_path2 a b : rust_name a -> rust_name b -> reads_as (a ++ lit "::" ++ b) (Name [a; b]).
Proof.
  intros Ha Hb. exists ([TWord a] ++ [mark ":"; mark ":"] ++ [TWord b]). split.
  - apply prints_app; [apply word_prints, Ha|intros c r [= <- _]; apply mark_not_word; cbn; tauto|].
    apply free_prints_app; [apply scanned; reflexivity|apply word_prints, Hb].
  - intros r Hr. cbn [app]. apply at_name; [|apply stop_not_applied, Hr].
    apply path_more; [exact Ha|apply path_stop; assumption].
Qed.

(** * Tables *)
Lemma reads_range lo hi : scalar lo -> scalar hi ->
  reads_as (lit "chars!(" ++ char_lit lo ++ lit "..=" ++ char_lit hi ++ lit ")") (Chars lo hi).
Proof.
  intros Hl Hh.
  exists ([word "chars"; mark "!"; mark "("] ++ [TChar lo] ++ [mark "."; mark "."; mark "="] ++ [TChar hi] ++ [mark ")"]). split.
  - apply free_prints. apply free_app; [apply scanned; reflexivity|]. apply free_app; [apply char_free, Hl|].
    apply free_app; [apply scanned; reflexivity|]. apply free_app; [apply char_free, Hh|]. apply scanned; reflexivity.
  - intros r _. cbn [app]. apply at_chars.
Qed.

Lemma body_pair close d e d' e' : closing close -> reads_as d e -> reads_as d' e' ->
  body close (d ++ lit ", " ++ d') [e; e'].
Proof.
  intros Hc H H'. apply (body_cons close [] d [0x20] d' e [e']); [constructor| |exact H|apply body_last; assumption].
  constructor; [auto|constructor].
Qed.

Lemma blank4 : blanks (lit "    ").
Proof. repeat (constructor; [left; reflexivity|]). constructor. Qed.
Lemma newline : blanks [10].
Proof. constructor; [right; reflexivity|constructor]. Qed.
Lemma no_blank : blanks [].
Proof. constructor. Qed.

Ltac flat := repeat progress (cbn [lit app]; rewrite <- ?app_assoc); reflexivity.

Section Table.
  Context {V : Type} (display : V -> str) (value : V -> expr).

  Lemma range_entries (l : list (CharRange * V)) :
    Forall scalar (flat_map (fun x => [r_low (fst x); r_high (fst x)]) l) ->
    (forall v, In v (map snd l) -> reads_as (display v) (value v)) ->
    body (mark "]") (flat_map (range_entry display) l)
      (map (fun x => Tuple [Chars (r_low (fst x)) (r_high (fst x)); value (snd x)]) l).
  Proof.
    induction l as [|[cr v] l IH]; intros Hs Hv; [apply body_nil|].
    cbn [flat_map map]. cbn [flat_map app fst] in Hs. inversion Hs as [|? ? H1 Hs1]; subst. inversion Hs1 as [|? ? H2 Hs2]; subst.
    assert (E : range_entry display (cr, v) ++ flat_map (range_entry display) l =
      lit "    " ++ (lit "(" ++ ((lit "chars!(" ++ char_lit (r_low cr) ++ lit "..=" ++ char_lit (r_high cr) ++ lit ")") ++ lit ", " ++ display v) ++ lit ")")
      ++ 0x2C :: [10] ++ flat_map (range_entry display) l).
    { unfold range_entry, char_lit. cbn [fst snd]. flat. }
    rewrite E. apply body_cons; [apply blank4|apply newline| |].
    - apply reads_tuple; [|discriminate]. apply body_pair; [left; reflexivity|apply reads_range; assumption|].
      apply Hv. left. reflexivity.
    - apply IH; [exact Hs2|]. intros x I. apply Hv. right. exact I.
  Qed.

  Lemma direct_entries (l : list (N * V)) :
    Forall scalar (map fst l) ->
    (forall v, In v (map snd l) -> reads_as (display v) (value v)) ->
    body (mark "]") (flat_map (direct_entry display) l)
      (map (fun x => Tuple [Character (fst x); value (snd x)]) l).
  Proof.
    induction l as [|[c v] l IH]; intros Hs Hv; [apply body_nil|].
    cbn [flat_map map]. inversion Hs as [|? ? H1 Hs1]; subst. cbn [fst] in H1.
    assert (E : direct_entry display (c, v) ++ flat_map (direct_entry display) l =
      lit "    " ++ (lit "(" ++ (char_lit c ++ lit ", " ++ display v) ++ lit ")") ++ 0x2C :: [10] ++ flat_map (direct_entry display) l).
    { unfold direct_entry, char_lit. cbn [fst snd]. flat. }
    rewrite E. apply body_cons; [apply blank4|apply newline| |].
    - apply reads_tuple; [|discriminate]. apply body_pair; [left; reflexivity|apply reads_char; assumption|].
      apply Hv. left. reflexivity.
    - apply IH; [exact Hs1|]. intros x I. apply Hv. right. exact I.
  Qed.

  Lemma blank_body close w b es : blanks w -> body close b es -> body close (w ++ b) es.
  Proof. intros Hw (ts & P & R). exists ts. split; [apply (free_prints_app _ [] _ _ (blanks_free _ Hw) P)|exact R]. Qed.

  Lemma reads_table (t : CharDataTable V) : Forall scalar (table_chars t) ->
    (forall v, In v (table_values t) -> reads_as (display v) (value v)) ->
    reads_as (table_text display t) (table_of value t).
  Proof.
    intros Hs Hv. destruct t as [l|l]; unfold table_text, table_of; cbn [table_chars table_values] in *.
    - assert (E : lit "CharDataTable::Direct(&[" ++ [10] ++ flat_map (direct_entry display) l ++ lit "])" =
        lit "CharDataTable::Direct" ++ lit "(" ++ (lit "&[" ++ ([10] ++ flat_map (direct_entry display) l) ++ lit "]") ++ lit ")").
      { flat. }
      rewrite E. apply (reads_call _ [word "CharDataTable"; mark ":"; mark ":"; word "Direct"]).
      + apply scan_print. reflexivity.
      + intros ts. apply path2_call; fixed_name.
      + apply body_last; [left; reflexivity|]. apply reads_slice, blank_body; [apply newline|]. apply direct_entries; assumption.
    - assert (E : lit "CharDataTable::Range(&[" ++ [10] ++ flat_map (range_entry display) l ++ lit "])" =
        lit "CharDataTable::Range" ++ lit "(" ++ (lit "&[" ++ ([10] ++ flat_map (range_entry display) l) ++ lit "]") ++ lit ")").
      { flat. }
      rewrite E. apply (reads_call _ [word "CharDataTable"; mark ":"; mark ":"; word "Range"]).
      + apply scan_print. reflexivity.
      + intros ts. apply path2_call; fixed_name.
      + apply body_last; [left; reflexivity|]. apply reads_slice, blank_body; [apply newline|]. apply range_entries; assumption.
  Qed.
End Table.

(** * Files *)
Lemma file_lexes d ts : prints d ts -> lexes (file_of d) ts.
Proof.
  intros P. unfold file_of.
  change (lit "// WARNING: Auto-generated by the `unic-gen` crate.") with ([0x2F; 0x2F] ++ lit " WARNING: Auto-generated by the `unic-gen` crate.").
  change (lit "// WARNING: DO NOT EDIT MANUALLY!") with ([0x2F; 0x2F] ++ lit " WARNING: DO NOT EDIT MANUALLY!").
  rewrite <- !app_assoc. apply lex_comment.
  { intros I. assert (E : existsb (N.eqb 10) (lit " WARNING: Auto-generated by the `unic-gen` crate.") = false) by (vm_compute; reflexivity).
    assert (T : existsb (N.eqb 10) (lit " WARNING: Auto-generated by the `unic-gen` crate.") = true)
      by (apply existsb_exists; exists 10; split; [exact I|reflexivity]). congruence. }
  apply lex_comment.
  { intros I. assert (E : existsb (N.eqb 10) (lit " WARNING: DO NOT EDIT MANUALLY!") = false) by (vm_compute; reflexivity).
    assert (T : existsb (N.eqb 10) (lit " WARNING: DO NOT EDIT MANUALLY!") = true)
      by (apply existsb_exists; exists 10; split; [exact I|reflexivity]). congruence. }
  rewrite <- (app_nil_r ts). apply P.
  - intros c r [= <- _] W. apply wordb_iff in W. discriminate W.
  - apply lex_blank; [right; reflexivity|]. constructor.
Qed.

Lemma file_source d e : reads_as d e -> source (file_of d) e.
Proof.
  intros (ts & P & R). exists ts. split; [apply file_lexes, P|]. specialize (R [] (or_introl eq_refl)).
  rewrite app_nil_r in R. exact R.
Qed.

Lemma file_iff d e e' : reads_as d e -> (source (file_of d) e' <-> e' = e).
Proof.
  intros H. pose proof (file_source d e H) as S0. split; [intros S1|intros ->; exact S0].
  apply (source_unique _ _ _ S1 S0).
Qed.

(** * Values *)
Lemma reads_unit v : reads_as (unit_text v) (Tuple []).
Proof.
  unfold unit_text. apply (reads_tuple [] []); [apply body_nil|discriminate].
Qed.

Lemma comma_items close (f : N -> str) (es : N -> expr) l : closing close ->
  Forall (fun c => reads_as (f c) (es c)) l ->
  body close (flat_map (fun c => f c ++ [0x2C]) l) (map es l).
Proof.
  intros Hc. induction 1 as [|c l H _ IH]; [apply body_nil|]. cbn [flat_map map].
  rewrite <- app_assoc. apply (body_cons close [] (f c) [] _ _ _ no_blank no_blank H IH).
Qed.

Lemma chars_body l : Forall scalar l ->
  body (mark "]") (flat_map (fun c => lit "'" ++ escape_unicode c ++ lit "',") l) (map Character l).
Proof.
  intros Hs. induction Hs as [|c l H _ IH]; [apply body_nil|]. cbn [flat_map map].
  assert (E : (lit "'" ++ escape_unicode c ++ lit "',") ++ flat_map (fun c => lit "'" ++ escape_unicode c ++ lit "',") l =
     [] ++ char_lit c ++ 0x2C :: [] ++ flat_map (fun c => lit "'" ++ escape_unicode c ++ lit "',") l).
  { unfold char_lit. rewrite <- !app_assoc. flat. }
  rewrite E. apply body_cons; [constructor|constructor|apply reads_char, H|exact IH].
Qed.

Lemma reads_chars v : Forall scalar v -> reads_as (chars_text v) (chars_expr v).
Proof. intros H. apply reads_slice, chars_body, H. Qed.

Lemma pairs_body l : Forall (fun p => scalar (fst p) /\ scalar (snd p)) l ->
  body (mark "]") (flat_map (fun p => lit "('" ++ escape_unicode (fst p) ++ lit "','" ++ escape_unicode (snd p) ++ lit "'),") l)
    (map (fun p => Tuple [Character (fst p); Character (snd p)]) l).
Proof.
  intros Hs. induction Hs as [|[a b] l [Ha Hb] _ IH]; [apply body_nil|]. cbn [flat_map map fst snd] in *.
  match goal with |- body _ (_ ++ ?R) _ => set (rest := R) in * end.
  assert (E : (lit "('" ++ escape_unicode a ++ lit "','" ++ escape_unicode b ++ lit "'),") ++ rest =
     [] ++ (lit "(" ++ ([] ++ char_lit a ++ 0x2C :: [] ++ char_lit b) ++ lit ")") ++ 0x2C :: [] ++ rest).
  { unfold char_lit. flat. }
  rewrite E. apply body_cons; [constructor|constructor| |exact IH].
  apply reads_tuple; [|discriminate]. apply body_cons; [constructor|constructor|apply reads_char, Ha|].
  apply body_last; [left; reflexivity|apply reads_char, Hb].
Qed.

Lemma reads_pairs v : Forall (fun p => scalar (fst p) /\ scalar (snd p)) v ->
  reads_as (pairs_text v) (table_of Character (Direct v)).
Proof.
  intros H. unfold pairs_text.
  match goal with |- reads_as (_ ++ ?R ++ _) _ => set (rest := R) end.
  assert (E : lit "CharDataTable::Direct(&[" ++ rest ++ lit "])" =
    lit "CharDataTable::Direct" ++ lit "(" ++ (lit "&[" ++ rest ++ lit "]") ++ lit ")").
  { flat. }
  rewrite E. apply (reads_call _ [word "CharDataTable"; mark ":"; mark ":"; word "Direct"]).
  - apply scan_print. reflexivity.
  - intros ts. apply path2_call; fixed_name.
  - apply body_last; [left; reflexivity|]. apply reads_slice, pairs_body, H.
Qed.

Lemma reads_class n : n <= 255 -> reads_as (class_text n) (Call (path ["CanonicalCombiningClass"]%string) [Number n]).
Proof.
  intros H. unfold class_text.
  change (lit "CanonicalCombiningClass(") with (lit "CanonicalCombiningClass" ++ lit "("). rewrite <- app_assoc.
  apply (reads_call _ [word "CanonicalCombiningClass"]).
  - apply scan_print. reflexivity.
  - intros ts. apply path1_call. fixed_name.
  - apply body_last; [left; reflexivity|]. apply reads_number. lia.
Qed.

Lemma title_capital t : capitalize (lowercase t) = titled t.
Proof.
  destruct t as [|c r]; [reflexivity|]. unfold lowercase. cbn [map capitalize titled]. f_equal.
  unfold to_ascii_lowercase, upper_of.
  destruct ((0x41 <=? c) && (c <=? 0x5A)) eqn:E1; cbv beta zeta.
  - replace ((0x61 <=? c) && (c <=? 0x7A)) with false by lia.
    replace ((0x61 <=? c + 0x20) && (c + 0x20 <=? 0x7A)) with true by lia. lia.
  - reflexivity.
Qed.

Lemma reads_compat v : rust_name (titled (fst v)) -> Forall scalar (snd v) ->
  reads_as (compat_text v) (Tuple [Name [titled (fst v)]; chars_expr (snd v)]).
Proof.
  intros Hn Hs. unfold compat_text. rewrite title_capital.
  match goal with |- reads_as (_ ++ _ ++ _ ++ ?R ++ _) _ => set (rest := R) end.
  match goal with |- reads_as ?X _ => assert (E : X =
    lit "(" ++ (titled (fst v) ++ lit ", " ++ (lit "&[" ++ rest ++ lit "]")) ++ lit ")") end.
  { flat. }
  rewrite E. apply reads_tuple; [|discriminate]. apply body_pair; [left; reflexivity|apply reads_name, Hn|].
  apply reads_slice, chars_body, Hs.
Qed.

Lemma join_body close (f : str -> str) (es : str -> expr) l : closing close ->
  Forall (fun w => reads_as (f w) (es w)) l -> body close (join_comma (map f l)) (map es l).
Proof.
  intros Hc H. induction H as [|w l Hw Hl IH]; [apply body_nil|].
  destruct l as [|w' l]; [apply body_last; assumption|].
  change (join_comma (map f (w :: w' :: l))) with ([] ++ f w ++ 0x2C :: [0x20] ++ join_comma (map f (w' :: l))).
  change (map es (w :: w' :: l)) with (es w :: map es (w' :: l)).
  apply body_cons; [constructor|constructor; [auto|constructor]|exact Hw|exact IH].
Qed.

Lemma reads_names v : Forall rust_name v -> reads_as (names_text v) (names_expr v).
Proof.
  intros H. unfold names_text, names_expr. rewrite <- (map_id v) at 1. apply reads_slice, join_body; [right; reflexivity|].
  eapply Forall_impl; [|exact H]. intros w. apply reads_name.
Qed.

Lemma reads_quoted v : unescaped v -> reads_as (quoted_text v) (Text v).
Proof. intros H. apply (reads_text v v), plain_literal, H. Qed.

Lemma reads_texts v : Forall unescaped v -> reads_as (texts_text v) (texts_expr v).
Proof.
  intros H. apply reads_slice, join_body; [right; reflexivity|].
  eapply Forall_impl; [|exact H]. intros w. apply reads_quoted.
Qed.

Lemma reads_mapping v : rust_name (chars_of (fst v)) -> (forall m, snd v = Some m -> Forall scalar m) ->
  reads_as (mapping_text v) match snd v with Some m => Call [chars_of (fst v)] [Text m] | None => Name [chars_of (fst v)] end.
Proof.
  destruct v as [w [m|]]; cbn [fst snd]; intros Hn Hs; unfold mapping_text; cbn [fst snd]; rewrite lit_chars.
  - assert (E : lit "(""" ++ flat_map escape_unicode m ++ lit """)" = lit "(" ++ ([0x22] ++ flat_map escape_unicode m ++ [0x22]) ++ lit ")").
    { flat. }
    rewrite E. apply (reads_call _ [TWord (chars_of w)]).
    + apply word_prints, Hn.
    + intros ts. apply path1_call, Hn.
    + apply body_last; [left; reflexivity|]. apply reads_text, escapes_text, Hs. reflexivity.
  - rewrite app_nil_r. apply reads_name, Hn.
Qed.

Lemma reads_break p w : rust_name (chars_of p) -> rust_name w -> reads_as (break_text p w) (Name [chars_of p; w]).
Proof. intros Hp Hw. unfold break_text. rewrite (lit_chars p). apply reads_path2; assumption. Qed.

Lemma reads_version major minor micro : major <= 0xFFFF -> minor <= 0xFFFF -> micro <= 0xFFFF ->
  reads_as (version_text (major, minor, micro)) (version_expr (major, minor, micro)).
Proof.
  intros H1 H2 H3. pose proof (fmt_dec_decimal _ H1) as D1. pose proof (fmt_dec_decimal _ H2) as D2. pose proof (fmt_dec_decimal _ H3) as D3.
  exists ([word "UnicodeVersion"; mark "{"; word "major"; mark ":"] ++ [TWord (fmt_dec major)] ++ [mark ","; word "minor"; mark ":"] ++
          [TWord (fmt_dec minor)] ++ [mark ","; word "micro"; mark ":"] ++ [TWord (fmt_dec micro)] ++ [mark "}"]). split.
  - change (version_text (major, minor, micro)) with (lit "UnicodeVersion { major: " ++ fmt_dec major ++ lit ", minor: " ++ fmt_dec minor ++ lit ", micro: " ++ fmt_dec micro ++ lit " }").
    apply free_prints_app; [apply scanned; reflexivity|].
    apply prints_app; [apply word_prints, (decimal_word _ _ D1)|intros c r [= <- _]; apply mark_not_word; cbn; tauto|].
    apply free_prints_app; [apply scanned; reflexivity|].
    apply prints_app; [apply word_prints, (decimal_word _ _ D2)|intros c r [= <- _]; apply mark_not_word; cbn; tauto|].
    apply free_prints_app; [apply scanned; reflexivity|].
    apply prints_app; [apply word_prints, (decimal_word _ _ D3)|intros c r [= <- _] W; apply wordb_iff in W; discriminate W|].
    apply scan_print. reflexivity.
  - intros r _. cbn [app]. unfold version_expr. eapply at_struct.
    + apply path_one; [fixed_name|]. intros r' E. discriminate E.
    + eapply (fields_more (chars_of "major")); [fixed_name|apply at_number, D1|].
      eapply (fields_more (chars_of "minor")); [fixed_name|apply at_number, D2|].
      apply (fields_last (chars_of "micro")); [fixed_name|apply at_number, D3].
Qed.

(** * Declarations *)
Lemma consts_lexes l : Forall (fun d => rust_name (fst d) /\ unescaped (snd d)) l ->
  exists ts, free (consts_text l) ts /\ consts_at ts l.
Proof.
  induction 1 as [|[w t] l [Hw Ht] _ (ts & F & C)].
  - exists []. split; [intros s ts L; exact L|constructor].
  - cbn [fst snd] in *.
    exists (([word "const"] ++ [TWord w] ++ [mark ":"; mark "&"; word "str"; mark "="] ++ [TText t] ++ [mark ";"]) ++ ts). split.
    + unfold consts_text. cbn [flat_map]. apply free_app; [|exact F]. unfold const_text. cbn [fst snd].
      assert (E : lit "const " ++ w ++ lit ": &str = """ ++ t ++ lit """;" ++ [10] =
        lit "const " ++ w ++ lit ": &str = " ++ ([0x22] ++ t ++ [0x22]) ++ lit ";" ++ [10]).
      { flat. }
      rewrite E. apply free_app; [apply scanned; reflexivity|].
      apply (prints_free_app w [TWord w] 0x3A (lit " &str = " ++ ([0x22] ++ t ++ [0x22]) ++ lit ";" ++ [10])
        ([mark ":"; mark "&"; word "str"; mark "="] ++ [TText t] ++ [mark ";"])).
      * apply word_prints, Hw.
      * apply mark_not_word. cbn. tauto.
      * apply (free_app (lit ": &str = ") [mark ":"; mark "&"; word "str"; mark "="]); [apply scanned; reflexivity|].
        apply free_app; [apply text_free, plain_literal, Ht|]. apply (scanned (lit ";" ++ [10])); reflexivity.
    + cbn [app]. apply consts_more; assumption.
Qed.

Theorem consts_iff l l' : Forall (fun d => rust_name (fst d) /\ unescaped (snd d)) l ->
  (source_consts (file_of (consts_text l)) l' <-> l' = l).
Proof.
  intros H. destruct (consts_lexes l H) as (ts & F & C).
  assert (S0 : source_consts (file_of (consts_text l)) l).
  { exists ts. split; [apply file_lexes, free_prints, F|exact C]. }
  split; [intros S1; exact (source_consts_unique _ _ _ S1 S0)|intros ->; exact S0].
Qed.

(** * Tests *)
Lemma reads_escaped t : Forall scalar t -> reads_as (chars_escape t) (Text t).
Proof. intros H. apply reads_text, escapes_text, H. Qed.

Lemma clusters_join l : clusters_text l = join_comma (map chars_escape l).
Proof.
  induction l as [|c [|c' l] IH]; [reflexivity|reflexivity|].
  change (clusters_text (c :: c' :: l)) with (chars_escape c ++ lit ", " ++ clusters_text (c' :: l)). rewrite IH. reflexivity.
Qed.
Lemma clusters_body l : Forall (Forall scalar) l -> body (mark "]") (clusters_text l) (map Text l).
Proof.
  intros H. rewrite clusters_join. apply join_body; [right; reflexivity|].
  eapply Forall_impl; [|exact H]. intros w. apply reads_escaped.
Qed.
Lemma reads_clusters l : Forall (Forall scalar) l -> reads_as (lit "&[" ++ clusters_text l ++ lit "]") (texts_expr l).
Proof. intros H. apply reads_slice, clusters_body, H. Qed.

Lemma lines_body {A} (f : A -> str) (g : A -> str) (es : A -> expr) l :
  (forall x, g x = lit "    " ++ f x ++ 0x2C :: [10]) -> Forall (fun x => reads_as (f x) (es x)) l ->
  body (mark "]") (flat_map g l) (map es l).
Proof.
  intros E. induction 1 as [|x l H _ IH]; [apply body_nil|]. cbn [flat_map map]. rewrite E, <- !app_assoc. cbn [app].
  apply (body_cons (mark "]") (lit "    ") (f x) [10]); [apply blank4|apply newline|exact H|exact IH].
Qed.

Definition grapheme_test_ok (t : str * list str * option (list str)) : Prop :=
  let '(s, ext, leg) := t in
  Forall scalar s /\ Forall (Forall scalar) ext /\ match leg with Some l => Forall (Forall scalar) l | None => True end.

Lemma reads_grapheme_tests ts : Forall grapheme_test_ok ts ->
  reads_as (grapheme_tests_text ts) (Slice (map grapheme_test_expr ts)).
Proof.
  intros H. unfold grapheme_tests_text.
  assert (E : lit "&[" ++ [10] ++ flat_map grapheme_test_text ts ++ lit "]" = lit "&[" ++ ([10] ++ flat_map grapheme_test_text ts) ++ lit "]")
    by (rewrite <- !app_assoc; reflexivity).
  rewrite E. apply reads_slice, blank_body; [apply newline|].
  apply (lines_body (fun t : str * list str * option (list str) =>
    let '(s, ext, leg) := t in
    lit "(" ++ (chars_escape s ++ lit ", " ++ (lit "&[" ++ clusters_text ext ++ lit "]") ++ lit ", " ++
      match leg with Some l => lit "Some" ++ lit "(" ++ (lit "&[" ++ clusters_text l ++ lit "]") ++ lit ")" | None => lit "None" end) ++ lit ")")).
  - intros [[s ext] [leg|]]; unfold grapheme_test_text; flat.
  - eapply Forall_impl; [|exact H]. intros [[s ext] leg] (Hs & He & Hl). cbn [grapheme_test_expr].
    apply reads_tuple; [|discriminate].
    apply (body_cons (mark ")") [] (chars_escape s) [0x20]); [constructor|constructor; [auto|constructor]|apply reads_escaped, Hs|].
    apply body_pair; [left; reflexivity|apply reads_clusters, He|].
    destruct leg as [l|].
    + apply (reads_call _ [word "Some"]); [apply scan_print; reflexivity|intros r; apply path1_call; fixed_name|].
      apply body_last; [left; reflexivity|apply reads_clusters, Hl].
    + apply (reads_name (lit "None")). fixed_name.
Qed.

Lemma reads_word_tests ts : Forall (fun t => Forall scalar (fst t) /\ Forall (Forall scalar) (snd t)) ts ->
  reads_as (word_tests_text ts) (Slice (map word_test_expr ts)).
Proof.
  intros H. unfold word_tests_text.
  assert (E : lit "&[" ++ [10] ++ flat_map word_test_text ts ++ lit "]" = lit "&[" ++ ([10] ++ flat_map word_test_text ts) ++ lit "]")
    by (rewrite <- !app_assoc; reflexivity).
  rewrite E. apply reads_slice, blank_body; [apply newline|].
  apply (lines_body (fun t : str * list str =>
    lit "(" ++ (chars_escape (fst t) ++ lit ", " ++ (lit "&[" ++ clusters_text (snd t) ++ lit "]")) ++ lit ")")).
  - intros [s l]. unfold word_test_text. cbn [fst snd]. flat.
  - eapply Forall_impl; [|exact H]. intros [s l] [Hs Hl]. cbn [fst snd] in *. unfold word_test_expr. cbn [fst snd].
    apply reads_tuple; [|discriminate].
    apply body_pair; [left; reflexivity|apply reads_escaped, Hs|apply reads_clusters, Hl].
Qed.

Definition normal_test_ok (t : str * str * str * str * str) : Prop :=
  let '(a, b, c, d, e) := t in Forall (Forall scalar) [a; b; c; d; e].
Lemma reads_normal_tests ts : Forall normal_test_ok ts ->
  reads_as (normal_tests_text ts) (Slice (map normal_test_expr ts)).
Proof.
  intros H. unfold normal_tests_text.
  assert (E : lit "&[" ++ [10] ++ flat_map normal_test_text ts ++ lit "]" = lit "&[" ++ ([10] ++ flat_map normal_test_text ts) ++ lit "]")
    by (rewrite <- !app_assoc; reflexivity).
  rewrite E. apply reads_slice, blank_body; [apply newline|].
  apply (lines_body (fun t : str * str * str * str * str => let '(a, b, c, d, e) := t in
    lit "(" ++ join_comma (map chars_escape [a; b; c; d; e]) ++ lit ")")).
  - intros [[[[a b] c] d] e]. unfold normal_test_text, chars_escape. cbn [map join_comma]. flat.
  - eapply Forall_impl; [|exact H]. intros [[[[a b] c] d] e] Hs. cbn [normal_test_ok normal_test_expr] in *.
    apply reads_tuple; [|discriminate]. apply (join_body (mark ")") chars_escape Text [a; b; c; d; e]); [left; reflexivity|].
    eapply Forall_impl; [|exact Hs]. intros w. apply reads_escaped.
Qed.

(** * From readings in isolation to readings in context *)
Lemma lexes_prints d ts : lexes d ts -> prints d ts.
Proof.
  induction 1 as [|c s ts Hc H IH|l s ts Hl H IH|w s ts Hw Hs H IH|b c s ts Hb H IH|b t s ts Hb H IH|c s ts Hc H IH];
    intros s0 ts0 N0 L0.
  - exact L0.
  - cbn [app]. apply lex_blank; [exact Hc|apply IH; assumption].
  - rewrite <- !app_assoc. apply lex_comment; [exact Hl|apply IH; assumption].
  - rewrite <- app_assoc. cbn [app]. apply lex_word; [exact Hw|apply no_word_app; assumption|apply IH; assumption].
  - rewrite <- !app_assoc. cbn [app]. apply (lex_char b c); [exact Hb|apply IH; assumption].
  - rewrite <- !app_assoc. cbn [app]. apply (lex_text b t); [exact Hb|apply IH; assumption].
  - cbn [app]. apply lex_mark; [exact Hc|apply IH; assumption].
Qed.

Lemma path_app ts p r r0 : path_at ts p r -> stop r0 -> path_at (ts ++ r0) p (r ++ r0).
Proof.
  intros H S0. induction H as [w r Hw Hr|w ts p r Hw H IH]; cbn [app].
  - apply path_one; [exact Hw|]. intros r' E. destruct r as [|x [|y r]].
    + cbn in E. exact (stop_no_path _ S0 _ E).
    + cbn in E. injection E as _ E. destruct S0 as [->|(t & r1 & -> & Ht)]; [discriminate E|].
      injection E as E _. subst t. intuition discriminate.
    + cbn in E. injection E as -> -> _. eapply Hr. reflexivity.
  - apply path_more; assumption.
Qed.

Lemma expr_app r0 : stop r0 ->
  (forall ts e r, expr_at ts e r -> expr_at (ts ++ r0) e (r ++ r0)) /\
  (forall close ts l r, list_at close ts l r -> list_at close (ts ++ r0) l (r ++ r0)) /\
  (forall ts l r, fields_at ts l r -> fields_at (ts ++ r0) l (r ++ r0)).
Proof.
  intros S0. apply expr_list_fields_ind; intros; cbn [app].
  - apply at_number; assumption.
  - apply at_char.
  - apply at_text.
  - apply at_name; [apply path_app; assumption|]. intros A. destruct r as [|x r]; [exact (stop_not_applied _ S0 A)|].
    match goal with Hn : ~ applied _ |- _ => apply Hn end. destruct A as (r' & [E|[E|E]]); cbn in E; injection E as -> _; unfold applied; eauto.
  - eapply at_call; [|eassumption]. apply (path_app _ _ (mark "(" :: ts')); assumption.
  - eapply at_struct; [|eassumption]. apply (path_app _ _ (mark "{" :: ts')); assumption.
  - apply at_chars.
  - apply at_tuple; assumption.
  - apply at_slice; assumption.
  - apply list_end.
  - apply list_last. assumption.
  - eapply list_more; eassumption.
  - apply fields_end.
  - apply fields_last; assumption.
  - eapply fields_more; eassumption.
Qed.

Lemma source_reads_as d e : source d e -> reads_as d e.
Proof.
  intros (ts & L & E). exists ts. split; [apply lexes_prints, L|]. intros r Hr. apply (proj1 (expr_app r Hr) _ _ _ E).
Qed.
Lemma reads_source d e : reads_as d e -> source d e.
Proof.
  intros (ts & P & R). exists ts. split.
  - rewrite <- (app_nil_r d), <- (app_nil_r ts). apply P; [intros c r E; discriminate E|constructor].
  - specialize (R [] (or_introl eq_refl)). rewrite app_nil_r in R. exact R.
Qed.

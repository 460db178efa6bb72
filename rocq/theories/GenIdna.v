(** The reader of IdnaMappingTable.txt and its table. *)
From Coq Require Import String Ascii List NArith ZArith Lia Bool PeanoNat Sorted ZifyBool ZifyNat ZifyN.
From Verif Require Import Base RangeModel TableModel TableSpec TableTree TableProofs TextModel TableGenModel TableGenSpec
  TableGenProofs GenRegex GenModel GenSpec GenBinarySpec GenLemmas GenMap GenProofs GenDataModel GenDataSpec GenDataRead
  GenDataEntries GenDataCompose GenIdnaSpec.
Import ListNotations.
Open Scope N_scope.
Open Scope list_scope.

Local Notation nocap := (@nil (nat * str)).

Lemma eats_seq0 r1 r2 w1 w2 u g : eats r1 w1 (w2 ++ u) nocap -> eats r2 w2 u g -> eats (Seq r1 r2) (w1 ++ w2) u g.
Proof. intros H1 H2. rewrite <- (app_nil_r g). now apply eats_seq. Qed.

Lemma spaces_eats p u : Forall is_blank p -> not_starting (fun c => space c = true) u -> eats spaces p u [].
Proof. intros Hp Hu. apply eats_star; [|exact Hu]. eapply Forall_impl; [|exact Hp]. apply blank_space. Qed.

(** [hex( hex)*] *)
Definition CODES : re := Seq hex46 (Star (Seq (lit 0x20) hex46)).

Lemma codes_eats l : forall u, l <> [] -> Forall code_point l ->
  not_starting is_hex u -> fails (Seq (lit 0x20) hex46) u ->
  eats CODES (joined 0x20 l) u [].
Proof.
  intros u Hne Hl Hu Hf. destruct l as [|w l]; [congruence|]. clear Hne. inversion Hl as [|? ? Hw Hl']; subst.
  assert (joined 0x20 (w :: l) = w ++ concat (map (fun x => 0x20 :: x) l)) as ->.
  { clear. revert w. induction l as [|x l IH]; intros w; [cbn; now rewrite app_nil_r|].
    change (joined 0x20 (w :: x :: l)) with (w ++ 0x20 :: joined 0x20 (x :: l)). rewrite IH. reflexivity. }
  assert (forall l, Forall code_point l -> not_starting is_hex (concat (map (fun x => 0x20 :: x) l) ++ u)) as Hns.
  { intros [|x l0] _; [exact Hu|]. cbn. intros K. now apply K. }
  apply eats_seq0; [apply hex46_eats; [exact Hw|now apply Hns]|]. clear Hl Hw w.
  induction Hl' as [|x l Hx Hl IH]; [now apply eats_star_nil|]. cbn [map concat].
  change nocap with (nocap ++ nocap). apply eats_star_cons; [discriminate| |exact IH].
  change (0x20 :: x) with ([0x20] ++ x). apply eats_seq0; [apply eats_lit|]. apply hex46_eats; [exact Hx|now apply Hns].
Qed.

Definition EXTRA : re :=
  Seq semicolon (Seq spaces (Seq (Cap 5 (Alt (lits 0x4E (text "V8")) (lits 0x58 (text "V8")))) spaces)).
Definition MORE : re :=
  Seq semicolon (Seq spaces (Seq (Opt (Cap 4 CODES)) (Seq spaces (Opt EXTRA)))).
Definition IDNA_REST : re :=
  Seq hex_range (Seq spaces (Seq semicolon (Seq spaces (Seq (Cap 3 (Star (Cls word))) (Seq spaces
    (Seq (Opt MORE) (lit 0x23))))))).

Definition extra_caps (x : option (str * str * str)) : list (nat * str) :=
  match x with None => [] | Some (_, s, _) => [(5%nat, s)] end.
Definition more_caps (m : option (str * list str * str * option (str * str * str))) : list (nat * str) :=
  match m with
  | None => []
  | Some (_, mp, _, x) => extra_caps x ++ match mp with [] => [] | _ => [(4%nat, joined 0x20 mp)] end
  end.
Definition extra_text (x : option (str * str * str)) : str :=
  match x with None => [] | Some (p', s, q') => [0x3B] ++ p' ++ s ++ q' end.

Lemma extra_eats x u : 
  match x with
  | None => True
  | Some (p', s, q') => Forall is_blank p' /\ Forall is_blank q' /\ (s = letters "NV8" \/ s = letters "XV8")
  end -> eats (Opt EXTRA) (extra_text x) (0x23 :: u) (extra_caps x).
Proof.
  destruct x as [[[p s] q]|]; cbn [extra_text extra_caps].
  - intros (Hp & Hq & Hs). apply eats_opt. unfold EXTRA. apply eats_seq0; [apply eats_lit|].
    apply eats_seq0.
    + apply spaces_eats; [exact Hp|]. destruct Hs as [->| ->]; cbn; discriminate.
    + change [(5%nat, s)] with (nocap ++ [(5%nat, s)]). apply eats_seq; [|apply spaces_eats; [exact Hq|cbn; discriminate]].
      apply eats_cap. destruct Hs as [->| ->].
      * apply eats_alt_l. apply (eats_lits (text "V8")).
      * apply eats_alt_r; [|apply (eats_lits (text "V8"))]. repeat apply fails_seq; apply fails_lit. cbn. discriminate.
  - intros _. apply eats_opt_no, fails_seq, fails_lit. cbn. discriminate.
Qed.

Lemma blanks_not_space_hex q z : Forall is_blank q -> not_starting is_hex z -> z <> [] ->
  not_starting is_hex (q ++ z).
Proof.
  intros Hq Hz Hne. destruct q as [|c q]; [exact Hz|]. inversion Hq; subst. cbn. now apply blank_not_hex.
Qed.

Lemma space_hex_fails q z : Forall is_blank q -> not_starting (fun c => is_hex c \/ is_blank c) z ->
  fails (Seq (lit 0x20) hex46) (q ++ z).
Proof.
  intros Hq Hz. destruct q as [|c q].
  - apply fails_seq, fails_lit. destruct z as [|d z]; cbn in *; [exact I|]. intros ->. apply Hz. right. now left.
  - apply fails_cls_seq. apply hex46_fails. inversion Hq as [|? ? _ Hq']; subst. destruct q as [|d q].
    + cbn. destruct z as [|e z]; cbn in *; tauto.
    + inversion Hq'; subst. cbn. now apply blank_not_hex.
Qed.

Lemma not_starting_weaken (p q : N -> Prop) z : (forall c, p c -> q c) -> not_starting q z -> not_starting p z.
Proof. intros H. destruct z as [|c z]; cbn; auto. Qed.

Lemma more_eats m u : more_ok m -> eats (Opt MORE) (more_text m) (0x23 :: u) (more_caps m).
Proof.
  destruct m as [[[[p mp] q] x]|]; cbn [more_text more_caps more_ok].
  - intros (Hp & Hmp & Hq & Hx). apply eats_opt. unfold MORE.
    fold (extra_text x). apply eats_seq0; [apply eats_lit|].
    set (z := extra_text x ++ 0x23 :: u).
    assert (not_starting (fun c => is_hex c \/ is_blank c) z /\ not_starting (fun c => space c = true) z /\ z <> []) as (Hz1 & Hz2 & Hz3).
    { unfold z. destruct x as [[[p' s] q']|]; cbn; (split; [|split; [|discriminate]]); try discriminate;
        (intros [K|[K|K]]; [now apply K|discriminate K|discriminate K]). }
    destruct mp as [|w mp].
    + cbn [joined app]. rewrite (app_nil_r (extra_caps x)). rewrite app_assoc. apply eats_seq0.
      * apply spaces_eats; [now apply Forall_app|exact Hz2].
      * apply (eats_seq0 _ _ [] (extra_text x)).
        -- apply eats_opt_no, fails_cap, fails_seq, hex46_fails. change (extra_text x ++ 0x23 :: u) with z.
           eapply not_starting_weaken; [|exact Hz1]. now left.
        -- apply (eats_seq0 _ _ [] (extra_text x)).
           ++ apply spaces_eats; [constructor|exact Hz2].
           ++ now apply extra_eats.
    + apply eats_seq0.
      * apply spaces_eats; [exact Hp|]. inversion Hmp as [|? ? [[Hh Hlen] _] _]; subst.
        destruct w as [|c w]; [cbn in Hlen; lia|]. inversion Hh as [|? ? Hc _]; subst.
        destruct mp; cbn; apply xdigit_iff in Hc; unfold xdigit, space, digit in *; lia.
      * apply eats_seq.
        -- apply eats_opt. change [(4%nat, joined 0x20 (w :: mp))] with ([(4%nat, joined 0x20 (w :: mp))] ++ nocap).
           apply eats_cap. rewrite <- app_assoc. apply codes_eats; [discriminate|now apply character_code_points| |].
           ++ apply blanks_not_space_hex; [exact Hq| |exact Hz3]. eapply not_starting_weaken; [|exact Hz1]. now left.
           ++ now apply space_hex_fails.
        -- apply eats_seq0; [now apply spaces_eats|now apply extra_eats].
  - intros _. apply eats_opt_no, fails_seq, fails_lit. cbn. discriminate.
Qed.

Definition idna_caps (r : idna_row) : list (nat * str) :=
  (more_caps (more r) ++ [(3%nat, status r)]) ++ range_caps (ilo r) (ihi r).

Lemma status_word r : idna_row_ok r -> Forall is_word (status r).
Proof.
  intros (_ & _ & _ & _ & _ & _ & _ & (s & Hs & ->) & _). apply Forall_forall. intros c Hc. apply word_iff.
  revert c Hc. apply forallb_forall. cbn in Hs. 
  repeat (destruct Hs as [<-|Hs]; [reflexivity|]). destruct Hs.
Qed.
Lemma status_ne r : idna_row_ok r -> status r <> [].
Proof.
  intros (_ & _ & _ & _ & _ & _ & _ & (s & Hs & ->) & _). cbn in Hs. 
  repeat (destruct Hs as [<-|Hs]; [discriminate|]). destruct Hs.
Qed.

Lemma joined_no_newline l : Forall code_point l -> no_newline (joined 0x20 l).
Proof.
  induction 1 as [|w l [Hw _] Hl IH]; [intros []|]. destruct l as [|v l]; [now apply hex_no_newline|].
  change (joined 0x20 (w :: v :: l)) with (w ++ [0x20] ++ joined 0x20 (v :: l)).
  apply no_newline_app; [now apply hex_no_newline|]. apply no_newline_app; [unfold no_newline; cbn; lia|exact IH].
Qed.

Lemma one_no_newline c : c <> 10 -> no_newline [c].
Proof. intros H [K|[]]. auto. Qed.

Lemma idna_no_newline r : idna_row_ok r -> no_newline (idna_row_text r).
Proof.
  intros H. pose proof (status_word r H) as Hst. destruct H as (Hl & Hh & _ & _ & H1 & H2 & H3 & _ & Hm & Hc).
  unfold idna_row_text. apply no_newline_app; [now apply hex_no_newline, Hl|]. apply no_newline_app.
  { destruct (ihi r) as [h|]; [|intros []]. apply no_newline_app; [unfold no_newline; cbn; lia|]. now apply hex_no_newline, (Hh h). }
  apply no_newline_app; [now apply blank_no_newline|]. apply no_newline_app; [now apply one_no_newline|].
  apply no_newline_app; [now apply blank_no_newline|]. apply no_newline_app; [now apply word_no_newline|].
  apply no_newline_app; [now apply blank_no_newline|]. apply no_newline_app.
  { destruct (more r) as [[[[p mp] q] x]|]; [|intros []]. cbn [more_ok more_text] in *. destruct Hm as (Hp & Hmp & Hq & Hx).
    apply no_newline_app; [now apply one_no_newline|]. apply no_newline_app; [now apply blank_no_newline|].
    apply no_newline_app; [now apply joined_no_newline, character_code_points|]. apply no_newline_app; [now apply blank_no_newline|].
    destruct x as [[[p' s] q']|]; [|intros []]. destruct Hx as (Hp' & Hq' & Hs).
    apply no_newline_app; [now apply one_no_newline|]. apply no_newline_app; [now apply blank_no_newline|].
    apply no_newline_app; [|now apply blank_no_newline]. destruct Hs as [->| ->]; unfold no_newline; cbn; lia. }
  apply no_newline_app; [now apply one_no_newline|exact Hc].
Qed.

Lemma idna_reads r : idna_row_ok r -> reads IDNA_REST (idna_row_text r) (Some (idna_caps r)).
Proof.
  intros H. split; [now apply idna_no_newline|]. pose proof (status_word r H) as Hst. pose proof (status_ne r H) as Hsn.
  destruct H as (Hl & Hh & _ & _ & H1 & H2 & H3 & _ & Hm & Hc).
  exists (range_text (ilo r) (ihi r) ++ pad1 r ++ [0x3B] ++ pad2 r ++ status r ++ pad3 r ++ more_text (more r) ++ [0x23]), (comment r).
  split; [|split].
  - unfold idna_row_text, range_text. repeat rewrite <- app_assoc. reflexivity.
  - destruct Hl as [_ Hl]. unfold range_text. destruct (ilo r); [cbn in Hl; lia|discriminate].
  - intros u. unfold IDNA_REST, idna_caps. apply range_eats; auto.
    + destruct (pad1 r) as [|c p]; [cbn; intros [K|K]; [now apply K|lia]|]. inversion H1; subst. cbn.
      intros [K|K]; [now apply (blank_not_hex c)|]. unfold is_blank in *. lia.
    + apply eats_seq0; [apply spaces_eats; [exact H1|cbn; discriminate]|].
      apply eats_seq0; [apply eats_lit|].
      assert (forall c, is_word c -> space c <> true) as Hws by (intros c; unfold is_word, is_digit, space; lia).
      apply eats_seq0.
      * apply spaces_eats; [exact H2|]. destruct (status r) as [|c s]; [congruence|]. inversion Hst; subst. now apply Hws.
      * apply eats_seq.
        -- change [(3%nat, status r)] with ([(3%nat, status r)] ++ nocap). apply eats_cap, eats_star.
           ++ eapply Forall_impl; [|exact Hst]. intros c. apply word_iff.
           ++ destruct (pad3 r) as [|c p]; [|inversion H3 as [|? ? Hb _]; subst; cbn; intros K; apply word_iff in K; now apply (blank_not_word c)].
              destruct (more r) as [[[[p mp] q] x]|]; cbn; discriminate.
        -- apply eats_seq0.
           ++ apply spaces_eats; [exact H3|]. destruct (more r) as [[[[p mp] q] x]|]; cbn; discriminate.
           ++ change (more_caps (more r)) with (nocap ++ more_caps (more r)).
              apply eats_seq; [now apply more_eats|apply eats_lit].
Qed.

(** * The map *)
Lemma get_more_4 m s l h : get 4 ((more_caps m ++ [(3%nat, s)]) ++ range_caps l h) =
  match m with Some (_, (_ :: _) as mp, _, _) => Some (joined 0x20 mp) | _ => None end.
Proof.
  destruct m as [[[[p [|w mp]] q] [[[p' s'] q']|]]|]; cbn; destruct h; reflexivity.
Qed.
Lemma get_more m s l h n : (n < 4)%nat -> get n ((more_caps m ++ [(3%nat, s)]) ++ range_caps l h) =
  get n ((3%nat, s) :: range_caps l h).
Proof.
  intros Hn. destruct m as [[[[p [|w mp]] q] [[[p' s'] q']|]]|];
    do 4 (destruct n as [|n]; [reflexivity|]); lia.
Qed.

Definition case_of (s : str) : string :=
  match idna_status_of idna_statuses s with Ret v => v | Panic => EmptyString end.
Definition mapping_of (r : idna_row) : option str :=
  match more r with Some (_, _ :: _, _, _) => Some (row_mapping r) | _ => None end.
Definition entry_for (r : idna_row) : IdnaMappingEntry := mkIdna (case_of (status r)) (mapping_of r).

Definition idna_apply (m : list (N * IdnaMappingEntry)) (r : idna_row) : list (N * IdnaMappingEntry) :=
  if scalarb (ilow r) then
    map_insert (ihigh r) (entry_for r)
      (fold_left (fun m ch => map_insert ch (entry_for r) m) (range_chars (open_right (ilow r) (ihigh r))) m)
  else m.


Lemma idna_step_ok m r : idna_row_ok r -> idna_step m (idna_caps r) = Ret (idna_apply m r).
Proof.
  intros (Hl & Hh & Hle & Hs & _ & _ & _ & (s & Hst & Est) & Hm & _). unfold idna_step, idna_caps, index.
  rewrite get_more_4. rewrite !get_more by lia.
  assert (get 1 ((3%nat, status r) :: range_caps (ilo r) (ihi r)) = Some (ilo r)) as -> by (destruct (ihi r); reflexivity).
  assert (get 2 ((3%nat, status r) :: range_caps (ilo r) (ihi r)) = ihi r) as -> by (destruct (ihi r); reflexivity).
  assert (get 3 ((3%nat, status r) :: range_caps (ilo r) (ihi r)) = Some (status r)) as -> by reflexivity.
  cbn [obind]. rewrite hex_code_point by exact Hl. cbn [obind]. unfold idna_apply, char_from_u32. fold (ilow r).
  destruct (scalarb (ilow r)) eqn:Es; [|reflexivity]. apply scalarb_spec in Es.
  assert (match ihi r with Some t => hex_char t | None => Ret (ilow r) end = Ret (ihigh r)) as ->.
  { unfold ihigh in *. destruct (ihi r) as [h|] eqn:E; [|reflexivity]. apply hex_char_ok; [now apply Hh|].
    destruct Hs as [[_ Hs]|[H1 H2]]; [exact Hs|]. unfold scalar in Es. lia. }
  cbn [obind].
  assert (idna_status_of idna_statuses (status r) = Ret (case_of (status r))) as ->.
  { rewrite Est. unfold case_of. cbn in Hst. repeat (destruct Hst as [<-|Hst]; [reflexivity|]). destruct Hst. }
  cbn [obind].
  assert (ooption (fun t => omap hex_char (split_space t))
            match more r with Some (_, (_ :: _) as mp, _, _) => Some (joined 0x20 mp) | _ => None end
          = Ret (mapping_of r)) as ->.
  { unfold mapping_of, row_mapping. destruct (more r) as [[[[p [|w mp]] q] x]|]; [reflexivity| |reflexivity].
    cbn [more_ok] in Hm. destruct Hm as (_ & Hm & _). cbn [ooption]. rewrite split_space_joined; [|discriminate|].
    - rewrite (omap_map _ hex_number); [reflexivity|]. eapply Forall_impl; [|exact Hm].
      intros t [H1 H2]. now apply hex_char_ok.
    - eapply Forall_impl; [|exact Hm]. intros t [[H1 _] _]. now apply hex_no_space. }
  reflexivity.
Qed.

Lemma in_open_right a b c : scalar a -> scalar b -> a <= b ->
  In c (range_chars (open_right a b)) <-> scalar c /\ a <= c < b.
Proof.
  intros Ha Hb Hab. rewrite in_range_chars. unfold open_right, closed, next_back, iter_of, is_finished. cbn [i_high i_low r_low r_high].
  replace (b <? a) with false by lia. unfold range_of, step_backward. cbn [snd i_high i_low].
  destruct (b =? 0) eqn:E0; cbn [r_low r_high i_high i_low].
  - unfold MAX_CHAR. lia.
  - unfold backward, AFTER_SURROGATE, BEFORE_SURROGATE. unfold scalar in *. destruct (b =? 0xE000) eqn:E1; lia.
Qed.

Lemma idna_apply_ok m r : idna_row_ok r -> sorted_map m -> sorted_map (idna_apply m r) /\
  forall c x, In (c, x) (idna_apply m r) <->
    (scalar c /\ ilow r <= c <= ihigh r /\ x = entry_for r) \/ (~ (scalar c /\ ilow r <= c <= ihigh r) /\ In (c, x) m).
Proof.
  intros (_ & _ & Hle & Hs & _) Hm. unfold idna_apply. destruct Hs as [[Hl Hh]|[Hl Hh]].
  - apply scalarb_spec in Hl as El. rewrite El.
    destruct (insert_list (entry_for r) (range_chars (open_right (ilow r) (ihigh r))) (filter_scalar _) m Hm) as [H1 H2].
    split; [now apply map_insert_sorted|]. intros c x. rewrite map_insert_in by exact H1. rewrite H2, in_open_right by assumption.
    destruct (N.eq_dec c (ihigh r)) as [->|Hne].
    + split.
      * intros [[_ ->]|[K _]]; [|congruence]. left. split; [exact Hh|]. split; [lia|reflexivity].
      * intros [(_ & _ & ->)|[K _]]; [auto|]. exfalso. apply K. split; [exact Hh|lia].
    + assert (scalar c /\ ilow r <= c < ihigh r <-> scalar c /\ ilow r <= c <= ihigh r) as -> by (split; intros [? ?]; split; auto; lia).
      tauto.
  - replace (scalarb (ilow r)) with false.
    2:{ symmetry. destruct (scalarb (ilow r)) eqn:E; [|reflexivity]. apply scalarb_spec in E. unfold scalar in E. lia. }
    split; [exact Hm|]. intros c x. assert (~ (scalar c /\ ilow r <= c <= ihigh r)) as K by (unfold scalar; lia). tauto.
Qed.

Definition idna_pick (rs : list idna_row) (c : N) : option IdnaMappingEntry :=
  option_map entry_for (List.find (idna_covers c) (rev rs)).

Lemma idna_map_ok rs : Forall idna_row_ok rs ->
  let m := fold_left idna_apply rs [] in
  sorted_map m /\ forall c v, In (c, v) m <-> scalar c /\ idna_pick rs c = Some v.
Proof.
  cbn. induction rs as [|r rs IH] using rev_ind; intros H.
  - split; [apply sorted_map_nil|]. intros c v. cbn. intuition discriminate.
  - rewrite fold_left_app. cbn [fold_left]. apply Forall_app in H as [H Hr]. inversion Hr as [|? ? Hr' _]; subst.
    destruct (IH H) as [IHs IHi]. destruct (idna_apply_ok _ r Hr' IHs) as [H1 H2].
    split; [exact H1|]. intros c v. rewrite H2, IHi. unfold idna_pick. rewrite rev_app_distr. cbn [rev app List.find].
    destruct (idna_covers c r) eqn:E.
    + assert (ilow r <= c <= ihigh r) by (unfold idna_covers in E; lia). cbn. split.
      * intros [(? & _ & ->)|[K [? _]]]; [auto|]. exfalso. apply K. auto.
      * intros [? [= <-]]. auto.
    + assert (~ ilow r <= c <= ihigh r) by (unfold idna_covers in E; lia). tauto.
Qed.

Lemma idna_from_str_ok f : idna_file f ->
  idna_from_str (idna_text f) = Ret (fold_left idna_apply (idna_rows f) []).
Proof.
  intros Hf. unfold idna_from_str. change IDNA_REGEX with (Seq Bol IDNA_REST).
  set (pr := fun l => match l with IdnaData r => (idna_row_text r, Some (idna_caps r)) | IdnaOther t => (t, None) end).
  assert (idna_text f = concat (map (fun l : str * option (list (nat * str)) => fst l ++ [10]) (map pr f))) as ->.
  { unfold idna_text. f_equal. rewrite map_map. apply map_ext. intros []; reflexivity. }
  rewrite captures_lines.
  - assert (flat_map (fun l : str * option (list (nat * str)) => match snd l with Some g => [g] | None => [] end) (map pr f) =
      map idna_caps (idna_rows f)) as ->.
    { clear. unfold idna_rows. induction f as [|[r|t] f IH]; cbn; [reflexivity| |]; now rewrite IH. }
    apply (ofold_map idna_step idna_caps idna_apply idna_row_ok).
    + intros m r. apply idna_step_ok.
    + unfold idna_rows. clear -Hf. induction Hf as [|[r|t] f H Hf IH]; cbn; [constructor|now constructor|exact IH].
  - apply fails_seq, fails_seq, fails_cap, hex46_fails. exact I.
  - apply Forall_map. eapply Forall_impl; [|exact Hf]. intros [r|t]; cbn [pr fst snd].
    + apply idna_reads.
    + intros [Hn Hs]. split; [exact Hn|]. intros u. apply fails_seq, fails_seq, fails_cap, hex46_fails.
      apply not_starting_tail; [exact Hs|]. intros K. now apply K.
Qed.

Lemma idna_eqb_spec a b : idna_eqb a b = true <-> a = b.
Proof.
  destruct a as [s m], b as [s' m']. unfold idna_eqb. cbn [idna_status idna_mapping].
  rewrite andb_true_iff, String.eqb_eq. destruct m, m'; cbn [ostr_eqb]; rewrite ?str_eqb_spec; split;
    try (intros [-> K]; congruence); try (intros [= -> ->]; auto); try (intros K; split; congruence).
Qed.

(** Replacing the values of a table. *)
Lemma scan_map {V W} (g : V -> W) (l : list (N * N * V)) c :
  scan (map (fun e => (fst e, g (snd e))) l) c = option_map g (scan l c).
Proof.
  induction l as [|[[a b] v] l IH]; cbn [map scan fst snd]; [reflexivity|]. destruct (_ && _); [reflexivity|exact IH].
Qed.

Lemma map_values_ok {V W} (g : V -> W) (l : list (CharRange * V)) : wf_table (Range l) ->
  let t := Range (map (fun e => (fst e, g (snd e))) l) in
  wf_table t /\ forall c, find t c = obind (find (Range l) c) (fun o => Ret (option_map g o)).
Proof.
  intros Hw. cbn zeta.
  assert (entries (Range (map (fun e => (fst e, g (snd e))) l)) = map (fun e => (fst e, g (snd e))) (entries (Range l))) as E.
  { unfold entries. rewrite !map_map. reflexivity. }
  assert (wf_table (Range (map (fun e => (fst e, g (snd e))) l))) as Hw'.
  { destruct Hw as [H1 H2]. split; rewrite E.
    - clear E H2. revert H1. generalize (entries (Range l)). intros es. induction 1 as [|e es Hes IH Hf]; cbn; constructor; [exact IH|].
      apply Forall_map. exact Hf.
    - apply Forall_map. exact H2. }
  split; [exact Hw'|]. intros c. rewrite !find_scan by assumption. rewrite E, scan_map. reflexivity.
Qed.

Lemma value_says r v : idna_row_ok r -> (idna_value (entry_for r) = v <-> row_says r v).
Proof.
  intros (_ & _ & _ & _ & _ & _ & _ & (s & Hs & Es) & _). unfold row_says, idna_value, entry_for. cbn [idna_status idna_mapping].
  assert (match mapping_of r with Some s => s | None => [] end = row_mapping r) as ->.
  { unfold mapping_of, row_mapping. destruct (more r) as [[[[p [|w mp]] q] x]|]; reflexivity. }
  rewrite Es. split.
  - intros <-. exists s. cbn [fst snd]. cbn in Hs.
    repeat (destruct Hs as [<-|Hs]; [split; [cbn; tauto|split; reflexivity]|]). destruct Hs.
  - intros (s' & Hin & E & Hv). destruct v as [k m]. cbn [fst snd] in *. subst m.
    cbn in Hin. cbn in Hs.
    repeat (destruct Hs as [<-|Hs]; [repeat (destruct Hin as [[= <- <-]|Hin]; [first [discriminate E|reflexivity]|]); destruct Hin|]).
    destruct Hs.
Qed.

(** The last line covering a character decides. *)
Theorem idna_answers f : idna_file f -> exists t, emit_idna_mapping (idna_text f) = Ret t /\ wf_table t /\
  forall c, scalar c -> forall o, find t c = Ret o <->
    match last_idna_row f c with
    | None => o = None
    | Some r => exists v, o = Some v /\ row_says r v
    end.
Proof.
  intros Hf. unfold emit_idna_mapping. rewrite idna_from_str_ok by exact Hf. cbn [obind].
  assert (Forall idna_row_ok (idna_rows f)) as Hr.
  { unfold idna_rows. clear -Hf. induction Hf as [|[r|t] f H Hf IH]; cbn; [constructor|now constructor|exact IH]. }
  destruct (idna_map_ok _ Hr) as [H1 H2].
  destruct (range_table_answers idna_eqb idna_eqb_spec _ _ H1 H2) as (l & -> & Hw & Hl). cbn [obind].
  destruct (map_values_ok idna_value l Hw) as [Hw' Hl']. eexists. split; [reflexivity|]. split; [exact Hw'|].
  intros c Hc o. rewrite Hl', Hl by exact Hc. cbn [obind]. unfold idna_pick, last_idna_row.
  destruct (List.find (idna_covers c) (rev (idna_rows f))) as [r|] eqn:E; cbn [option_map].
  - assert (idna_row_ok r) as Hok.
    { apply List.find_some in E as [E _]. apply in_rev in E. rewrite Forall_forall in Hr. auto. }
    split.
    + intros [= <-]. eexists. split; [reflexivity|]. now apply value_says.
    + intros (v & -> & Hv). apply value_says in Hv; [|exact Hok]. now rewrite Hv.
  - split; congruence.
Qed.

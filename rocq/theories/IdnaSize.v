(** How long the Unicode and ASCII forms of domain names are. *)
From Coq Require Import List NArith ZArith Lia Bool ZifyBool ZifyN ZifyNat.
From Verif Require Import Base PunyModel PunySpec PunyProofs PunyDecode PunyEncode PunyLemmas PunySize
  UcdModel NormModel NormAlgebra NormLemmas IdnaModel IdnaSpec IdnaTables IdnaProofs IdnaProcess IdnaLemmas.
Import ListNotations.
Open Scope N_scope.

Lemma expands_least first bias n i out ds tr res : expands first bias n i out ds tr res -> (length res <= length out + length ds)%nat.
Proof.
  intros H. induction H as [first bias n i out|first bias n i out ds delta bias' rest tr res Hv len1 n' i' Hs Ha He IH]; [lia|].
  assert (length (insert_at i' n' out) = S (length out)) as L by (pose proof (insert_len i' n' out) as Q; unfold PunyProofs.len in Q; lia).
  rewrite L in IH. rewrite app_length. pose proof (varint_nonempty _ _ _ _ Hv). lia.
Qed.
Lemma punycode_least s p tr : punycode digit_char s p tr -> (length s <= length p)%nat.
Proof.
  intros (b & ds & cs & Hb & Hex & HF & ->). apply expands_least in Hex.
  assert (length cs = length ds) as L by (clear - HF; induction HF; cbn [length]; lia).
  destruct b as [|c b]; rewrite ?app_length; cbn [length] in *; lia.
Qed.
Lemma a_label_length u x : a_label u x -> (length u <= length x)%nat /\ (~ Forall (fun c => c < 128) u -> (length u + 4 <= length x)%nat).
Proof.
  intros [[H ->]|[H (p & tr & Hp & ->)]]; [split; [lia|contradiction]|]. apply punycode_least in Hp. rewrite app_length. cbn [length]. lia.
Qed.
Lemma labels_length : forall u us, labels_of u us -> forall a xs, labels_of a xs -> Forall2 (fun l x => length l <= length x)%nat us xs ->
  (length u <= length a)%nat.
Proof.
  induction 1 as [l Hl|l s ls Hl Hls IH]; intros a xs Ha H2.
  - inversion H2 as [|? x ? ? H H3]; subst. inversion H3; subst. inversion Ha; subst; [assumption|].
    match goal with H : labels_of _ [] |- _ => inversion H end.
  - inversion H2 as [|? x ? xs' H H3]; subst. inversion Ha as [|? s' ? Hx Hs']; subst.
    + inversion H3; subst. inversion Hls.
    + specialize (IH s' xs' Hs' H3). rewrite !app_length. cbn [length]. lia.
Qed.
Lemma Forall2_map2 {A B} (P Q : A -> B -> Prop) l m : (forall x y, P x y -> Q x y) -> Forall2 P l m -> Forall2 Q l m.
Proof. intros H G. induction G; constructor; auto. Qed.
Lemma names_length checked d f a : Forall scalar d -> len d <= 13256071 -> transitional f = false -> to_ascii checked d f = Ret (inl a) ->
  exists u, to_unicode d f = Ret (u, []) /\ (length u <= length a)%nat.
Proof.
  intros Hd Hl Ht H. destruct (to_ascii_labels checked d f a Hd Hl H) as (us & xs & Ha & H2 & _ & G).
  destruct (G Ht) as (u & Hu & Lu). exists u. split; [assumption|].
  apply (labels_length u us Lu a xs Ha). refine (Forall2_map2 _ _ _ _ _ H2). intros x y K. now apply a_label_length.
Qed.

Lemma labels_snoc : forall a ls, labels_of a ls -> labels_of (a ++ [0x2E]) (ls ++ [[]]).
Proof.
  induction 1 as [l Hl|l s ls Hl Hls IH].
  - cbn [app]. apply labels_more; [assumption|]. apply labels_one. intros [].
  - rewrite <- app_assoc. cbn [app]. now apply labels_more.
Qed.
Lemma dns_labels a xs : dns_ok a -> labels_of a xs -> Forall (fun x => length x <= 63)%nat xs.
Proof.
  intros (a' & ls & E & Hls & _ & H) Hx.
  assert (Forall (fun x => length x <= 63)%nat ls) as K by (eapply Forall_impl; [|exact H]; cbv beta; intros; lia).
  destruct E as [->| ->].
  - rewrite <- (labels_split _ _ Hx), (labels_split _ _ Hls). assumption.
  - rewrite <- (labels_split _ _ Hx), (labels_split _ _ (labels_snoc _ _ Hls)). apply Forall_app. split; [assumption|].
    constructor; [cbn; lia|constructor].
Qed.
Lemma names_dns checked d f a : Forall scalar d -> len d <= 13256071 -> transitional f = false -> verify_dns f = true ->
  to_ascii checked d f = Ret (inl a) ->
  exists u us, to_unicode d f = Ret (u, []) /\ labels_of u us /\ (length u <= 254)%nat /\
    Forall (fun l => (length l <= 63)%nat /\ (~ Forall (fun c => c < 128) l -> (length l <= 59)%nat)) us.
Proof.
  intros Hd Hl Ht Hv H. destruct (to_ascii_labels checked d f a Hd Hl H) as (us & xs & Ha & H2 & _ & G).
  destruct (G Ht) as (u & Hu & Lu). exists u, us. split; [assumption|]. split; [assumption|].
  pose proof (dns_enforced checked d f a Hd Hv H) as Ok. pose proof (dns_labels a xs Ok Ha) as K. split.
  - assert (length u <= length a)%nat as L.
    { apply (labels_length u us Lu a xs Ha). refine (Forall2_map2 _ _ _ _ _ H2). intros x y Q. now apply a_label_length. }
    destruct Ok as (a' & ls & [->| ->] & _ & B & _); [|rewrite app_length in L; cbn [length] in L]; lia.
  - clear - H2 K. induction H2 as [|l x us xs Hx H2 IH]; [constructor|]. inversion K as [|? ? K1 K2]; subst.
    constructor; [|now apply IH]. destruct (a_label_length l x Hx) as [L1 L2]. split; [lia|]. intros N. specialize (L2 N). lia.
Qed.

(** ** ASCII names *)
Lemma ascii_map_all d f m em : Forall (fun c => c < 128) d -> map_all d f = Ret (m, em) -> length m = length d /\ Forall (fun c => c < 128) m.
Proof.
  intros H. revert m em. induction H as [|c d Hc H IH]; intros m em E; cbn [map_all] in E; [injection E as <- <-; auto|].
  unfold map_char in E. rewrite (ascii_mapping c Hc) in E. cbn [obind] in E.
  destruct (map_all d f) as [[m' em']|]; [|discriminate E]. destruct (IH m' em' eq_refl) as [I1 I2]. cbn [obind fst snd] in E. injection E as <- <-.
  unfold ascii_status. destruct ((0x41 <=? c) && (c <=? 0x5A)) eqn:E1; [|destruct (_ || _)]; cbn [fst app length];
    (split; [now rewrite I1|constructor; [lia|assumption]]).
Qed.
Lemma process_label_length b f l o e : process_label b f l = Ret (o, e) -> (length o <= length l)%nat.
Proof.
  unfold process_label. destruct (strip_prefix PUNYCODE_PREFIX l) as [p|] eqn:E.
  - intros H. apply obind_some in H as (x & Hx & H).
    assert (length l = 4 + length p)%nat as L.
    { clear - E. unfold PUNYCODE_PREFIX in E. do 4 (destruct l as [|? l]; [discriminate E|]; cbn [strip_prefix] in E; destruct (_ =? _) in E; [|discriminate E]).
      cbn [strip_prefix] in E. injection E as ->. reflexivity. }
    destruct x as [s|]; [|injection H as <- <-; cbn; lia]. apply decode_length in Hx.
    apply obind_some in H as (v & _ & H). injection H as <- <-. lia.
  - intros H. apply obind_some in H as (v & _ & H). injection H as <- <-. lia.
Qed.
Lemma ascii_names d f u es : Forall (fun c => c < 128) d -> to_unicode d f = Ret (u, es) -> (length u <= length d)%nat.
Proof.
  intros Hd H. rewrite to_unicode_no_trans in H.
  assert (Forall scalar d) as Hs by (eapply Forall_impl; [|exact Hd]; cbv beta; unfold scalar; intros; lia).
  destruct (processing_inv d _ u es Hs H) as (m & em & b & outs & es' & Hp & -> & _).
  destruct (ascii_map_all _ _ _ _ Hd (pr_map _ _ _ _ _ _ _ Hp)) as [L A].
  assert (C false m = m) as Em by now apply C_ascii.
  pose proof (pr_each _ _ _ _ _ _ _ Hp) as E. rewrite Em in E. destruct (each_inv _ _ _ _ E) as [H2 _].
  rewrite <- L. apply (labels_length _ _ (pr_labels _ _ _ _ _ _ _ Hp) _ _ (split_labels m)).
  clear - H2. induction H2 as [|l o ls outs [e He] H2 IH]; constructor; [|assumption]. exact (process_label_length _ _ _ _ _ He).
Qed.

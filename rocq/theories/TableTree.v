(** Search trees over table entries, to evaluate many look-ups quickly. *)
From Coq Require Import List NArith ZArith Lia Bool Sorted ZifyBool ZifyN.
From Verif Require Import Base TableModel TableSpec TableProofs UcdModel UcdProofs.
Import ListNotations.
Open Scope N_scope.

Inductive tree (V : Type) := Leaf | Node (l : tree V) (lo hi : N) (v : V) (r : tree V).
Arguments Leaf {V}.
Arguments Node {V} l lo hi v r.

Fixpoint tree_find {V} (t : tree V) (c : N) : option V :=
  match t with
  | Leaf => None
  | Node l lo hi v r => if c <? lo then tree_find l c else if hi <? c then tree_find r c else Some v
  end.

Fixpoint inorder {V} (t : tree V) : list (N * N * V) :=
  match t with Leaf => [] | Node l lo hi v r => inorder l ++ (lo, hi, v) :: inorder r end.

(** A tree of depth at most [n] from a prefix of the list. *)
Fixpoint grow {V} (n : nat) (es : list (N * N * V)) : tree V * list (N * N * V) :=
  match n with
  | O => (Leaf, es)
  | S n' =>
      let '(l, es1) := grow n' es in
      match es1 with
      | [] => (l, [])
      | (lo, hi, v) :: es2 => let '(r, es3) := grow n' es2 in (Node l lo hi v r, es3)
      end
  end.

Lemma grow_inorder {V} n : forall (es : list (N * N * V)) t rest, grow n es = (t, rest) -> inorder t ++ rest = es.
Proof.
  induction n as [|n IH]; intros es t rest; cbn [grow].
  - intros [= <- <-]. reflexivity.
  - destruct (grow n es) as [l es1] eqn:E1. apply IH in E1. destruct es1 as [|[[lo hi] v] es2].
    + intros [= <- <-]. assumption.
    + destruct (grow n es2) as [r es3] eqn:E2. apply IH in E2. intros [= <- <-].
      cbn [inorder]. rewrite <- app_assoc. cbn [app]. now rewrite E2.
Qed.

Lemma SS_app {A} (R : A -> A -> Prop) l m : StronglySorted R (l ++ m) ->
  StronglySorted R l /\ StronglySorted R m /\ forall x y, In x l -> In y m -> R x y.
Proof.
  induction l as [|a l IH]; cbn [app]; intros H.
  - repeat split; [constructor|assumption|intros x y []].
  - inversion H as [|? ? Hs Hf]; subst. destruct (IH Hs) as (H1 & H2 & H3). rewrite Forall_app in Hf. destruct Hf as [Hl Hm].
    repeat split; [now constructor|assumption|]. intros x y [<-|Hx] Hy; [|now apply H3].
    rewrite Forall_forall in Hm. now apply Hm.
Qed.

Lemma scan_app {V} (l m : list (N * N * V)) c :
  scan (l ++ m) c = match scan l c with Some v => Some v | None => scan m c end.
Proof.
  induction l as [|[[lo hi] v] l IH]; [reflexivity|]. cbn [app scan]. destruct (_ && _); [reflexivity|apply IH].
Qed.

Lemma scan_out {V} (l : list (N * N * V)) c : (forall e, In e l -> ~ covers e c) -> scan l c = None.
Proof.
  intros H. destruct (scan l c) as [v|] eqn:E; [|reflexivity]. apply scan_some in E as (e & He & Hc & _).
  now apply H in He.
Qed.

Lemma tree_find_scan {V} (t : tree V) c : StronglySorted entry_lt (inorder t) -> Forall entry_ok (inorder t) ->
  tree_find t c = scan (inorder t) c.
Proof.
  induction t as [|l IHl lo hi v r IHr]; intros Hs Hok; [reflexivity|]. cbn [inorder] in *.
  apply SS_app in Hs as (Hl & Hr & Hlr). rewrite Forall_app in Hok. destruct Hok as [Ol Or].
  inversion Hr as [|? ? Hr' Hf]; subst. inversion Or as [|? ? Om Or']; subst.
  assert (lo <= hi) as Hlh by (destruct Om as [Om _]; exact Om).
  assert (forall e, In e (inorder l) -> snd (fst e) < lo) as Bl.
  { intros e He. exact (Hlr e (lo, hi, v) He (or_introl eq_refl)). }
  assert (forall e, In e (inorder r) -> hi < fst (fst e)) as Br.
  { intros e He. rewrite Forall_forall in Hf. exact (Hf e He). }
  rewrite scan_app. cbn [scan tree_find].
  destruct (N.ltb_spec c lo) as [H1|H1].
  - rewrite (IHl Hl Ol). destruct (N.leb_spec lo c); [lia|]. cbn [andb].
    rewrite (scan_out (inorder r)); [now destruct (scan _ c)|].
    intros e He [Hc _]. specialize (Br e He). lia.
  - rewrite (scan_out (inorder l)).
    2:{ intros e He [_ Hc]. specialize (Bl e He). lia. }
    destruct (N.leb_spec lo c); [|lia]. destruct (N.ltb_spec hi c); destruct (N.leb_spec c hi); try lia; cbn [andb].
    + now apply IHr.
    + reflexivity.
Qed.

(** The tree of a table; 16 levels hold every shipped table. *)
Definition tree_of {V} (es : list (N * N * V)) : tree V := fst (grow 16 es).
Definition tree_complete {V} (es : list (N * N * V)) : bool := match snd (grow 16 es) with [] => true | _ => false end.

Lemma tree_lookup {V} (t : CharDataTable V) c : wf_table t -> tree_complete (entries t) = true ->
  tree_find (tree_of (entries t)) c = lookup t c.
Proof.
  intros Hwf Hc. unfold tree_complete in Hc. unfold tree_of. destruct (grow 16 (entries t)) as [tr rest] eqn:E.
  cbn [snd fst] in *. destruct rest; [|discriminate]. apply grow_inorder in E. rewrite app_nil_r in E.
  rewrite lookup_scan by assumption. destruct Hwf as [Hs Ho]. rewrite <- E in *. now apply tree_find_scan.
Qed.

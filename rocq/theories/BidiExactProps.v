(** Property C38 for every sequence: what the neutral pass does. *)
From Coq Require Import List NArith Bool.
Import ListNotations.
From Verif Require Import Base Enums UcdModel BidiModel BidiLemmas BidiSpec BidiSeqs BidiWeak BidiExactSpec BidiExact.
Open Scope nat_scope.

(** Every neutral character is resolved by N1 and N2, unless going back over
    neutral and removed characters one ends with a removed one: then it takes the
    embedding direction.  Other characters keep their class. *)
Theorem C38_neutrals_exact : forall s levels pc, NoDup (seq_indices (s_runs s)) -> in_range pc (seq_indices (s_runs s)) ->
  let e := if N.odd (level_at levels (seq_start (s_runs s))) then cR else cL in
  forall pre c post, reads pc (seq_indices (s_runs s)) = pre ++ c :: post ->
  exists d, nth_error (reads (resolve_neutral s levels pc) (seq_indices (s_runs s))) (length pre) = Some d /\
    (neutral c = false -> d = c) /\
    (neutral c = true -> cut_off pre -> d = e) /\
    (neutral c = true -> ~ cut_off pre -> d = n_class e (nearest (s_sos s) (rev (filter kept pre))) (nearest (s_eos s) (filter kept post))).
Proof. exact neutral_exact. Qed.
Print Assumptions C38_neutrals_exact.

(** R BN WS R and R WS BN R at level 0 *)
Example C38_ex_cut_off : cut_off [cR; cBN] /\ ~ cut_off [cR] /\
  resolve_neutral (mkseq [(0, 4)] cL cL) [0; 0; 0; 0]%N [cR; cBN; cWS; cR] = [cR; cBN; cL; cR] /\
  resolve_neutral (mkseq [(0, 4)] cL cL) [0; 0; 0; 0]%N [cR; cWS; cBN; cR] = [cR; cR; cBN; cR].
Proof.
  split; [|split; [|split; vm_compute; reflexivity]].
  - exists [cR], cBN, []. repeat split; auto. right. exists [], cR. auto.
  - intros H. apply (cut_off_snoc [] cR) in H as [[X _]|[X _]]; [discriminate|exact (cut_off_nil X)].
Qed.

(** Property C37 for every sequence: what the weak pass does. *)
From Coq Require Import List NArith Bool.
Import ListNotations.
From Verif Require Import Base Enums UcdModel BidiModel BidiLemmas BidiSpec BidiSeqs BidiWeak BidiWeakExactSpec BidiWeakExact.
Open Scope nat_scope.

(** The new class of every position of a sequence is [weak_result] of the classes
    around it; removed characters keep theirs. *)
Theorem C37_weak_exact : forall s pc, NoDup (seq_indices (s_runs s)) -> in_range pc (seq_indices (s_runs s)) ->
  (s_sos s = cL \/ s_sos s = cR) -> (s_eos s = cL \/ s_eos s = cR) ->
  forall pre c post, reads pc (seq_indices (s_runs s)) = pre ++ c :: post ->
  nth_error (reads (resolve_weak s pc) (seq_indices (s_runs s))) (length pre)
  = Some (if kept c then weak_result (s_sos s) (rev (filter kept pre)) c (filter kept post) else c).
Proof. exact weak_exact. Qed.
Print Assumptions C37_weak_exact.

(** AL does not reach the digit; the separator after a terminator joins; a final
    terminator and a mark after a pending one stay; a removed character is passed over *)
Example C37_ex_weak_exact :
  weak_result cR [cAL] cEN [] = cEN /\
  weak_result cR [cET; cEN] cES [cEN] = cEN /\
  weak_result cR [cR] cET [] = cET /\ weak_result cR [cR] cET [cNSM; cEN] = cEN /\ weak_result cR [cET; cR] cNSM [cEN] = cET /\
  weak_result cL [cR; cL] cEN [] = cEN /\ weak_result cL [cCS; cL] cEN [] = cL /\
  resolve_weak (mkseq [(0, 9)] cR cR) [cAL; cEN; cET; cBN; cCS; cEN; cR; cET; cNSM]
  = [cR; cEN; cEN; cBN; cEN; cEN; cR; cET; cET].
Proof. vm_compute. repeat split; reflexivity. Qed.

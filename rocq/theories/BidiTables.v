(** The only character of class FSI is U+2068, three bytes in UTF-8. *)
From Coq Require Import List NArith ZArith Lia Bool ZifyBool ZifyN.
From Verif Require Import Base RangeModel TableModel TableSpec TableProofs TableLemmas Enums EnumFacts TableTypes
  TablesBidi UcdModel UcdSpec UcdProofs BidiModel.
Import ListNotations.
Open Scope N_scope.

Lemma fsi_entries : forallb (fun e : N * N * BidiClass =>
  match snd e with cFSI => (fst (fst e) =? 0x2068) && (snd (fst e) =? 0x2068) | _ => true end)
  (entries BIDI_CLASS_TABLE) = true.
Proof. vm_cast_no_check (eq_refl true). Qed.

Lemma fsi_char c : bidi_class c = cFSI -> c = 0x2068.
Proof.
  unfold bidi_class. rewrite lookup_or_lookup by use_wf.
  destruct (lookup BIDI_CLASS_TABLE c) as [v|] eqn:E; [|discriminate]. intros ->.
  rewrite lookup_scan in E by use_wf.
  apply scan_some in E as (e & He & [H1 H2] & Hv).
  pose proof fsi_entries as F. rewrite forallb_forall in F. specialize (F e He).
  rewrite Hv in F. lia.
Qed.

Lemma fsi_width c : bidi_class c = cFSI -> clen c = 3%nat.
Proof. intros H. apply fsi_char in H. now subst. Qed.

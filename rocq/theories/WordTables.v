(** The only character of class CR is U+000D, one byte in UTF-8. *)
From Coq Require Import List NArith ZArith Lia Bool ZifyBool ZifyN.
From Verif Require Import Base RangeModel TableModel TableSpec TableProofs TableLemmas Enums EnumFacts TableTypes
  TablesSegment UcdModel UcdSpec UcdProofs BidiModel WordModel.
Import ListNotations.
Open Scope N_scope.

Lemma cr_entries : forallb (fun e : N * N * WordBreak =>
  match snd e with WB_CR => (fst (fst e) =? 13) && (snd (fst e) =? 13) | _ => true end)
  (entries WORD_BREAK) = true.
Proof. vm_cast_no_check (eq_refl true). Qed.

Lemma cr_char c : wb c = WB_CR -> c = 13.
Proof.
  unfold wb, word_break. rewrite lookup_or_lookup by use_wf.
  destruct (lookup WORD_BREAK c) as [v|] eqn:E; [|discriminate]. intros ->.
  rewrite lookup_scan in E by use_wf. apply scan_some in E as (e & He & (C1 & C2) & Hv).
  pose proof (proj1 (forallb_forall _ _) cr_entries e He) as H. cbv beta in H. rewrite Hv in H. lia.
Qed.

Lemma cr_clen c : wb c = WB_CR -> clen c = 1%nat.
Proof. intros H. rewrite (cr_char c H). reflexivity. Qed.

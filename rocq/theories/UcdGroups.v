(** The major groups of general categories against the two-letter abbreviations. *)
From Coq Require Import List NArith Bool.
From Verif Require Import Base Enums UcdModel.
Import ListNotations.
Open Scope N_scope.

Lemma gc_groups_named g : exists major minor,
  GC_abbr g = [major; minor] /\
  (gc_is_letter g = true <-> major = 0x4C) /\
  (gc_is_mark g = true <-> major = 0x4D) /\
  (gc_is_number g = true <-> major = 0x4E) /\
  (gc_is_punctuation g = true <-> major = 0x50) /\
  (gc_is_symbol g = true <-> major = 0x53) /\
  (gc_is_separator g = true <-> major = 0x5A) /\
  (gc_is_other g = true <-> major = 0x43) /\
  (gc_is_cased_letter g = true <-> major = 0x4C /\ (minor = 0x75 \/ minor = 0x6C \/ minor = 0x74)).
Proof.
  destruct g; cbv [GC_abbr]; eexists _, _; (split; [reflexivity|]);
    cbv [gc_is_letter gc_is_mark gc_is_number gc_is_punctuation gc_is_symbol gc_is_separator
         gc_is_other gc_is_cased_letter]; intuition congruence.
Qed.

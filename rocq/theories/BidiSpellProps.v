(** Property C102: canonical equivalence and resolved levels. *)
From Coq Require Import List NArith Bool.
From Verif Require Import Base Enums TableTypes UcdModel NormModel BidiModel BidiSpec BidiLtr BidiSpellSpec BidiSpell.
Import ListNotations.
Open Scope nat_scope.

(** In the decomposed text every character has the level of the character it comes
    from.  Missing for all texts: three Balinese vowels and the left-to-right
    combining marks, for which it is false (below, and C102_levels_refuted). *)
Theorem C102_resolved_nfd_partial : forall s d default, default_ok default 125 -> nfd s = Some d -> steady s -> inheriting d ->
  exists b b' lc, bidi_new s default = Ret b /\ bidi_new d default = Ret b' /\ length lc = length s /\
    b_levels b = expand (map clen s) lc /\ b_levels b' = expand (map clen d) (expand (map spelled s) lc).
Proof. exact spelled_levels. Qed.
Print Assumptions C102_resolved_nfd_partial.

(** Equivalent texts: the levels agree where the two spellings of a character are put side by side. *)
Theorem C102_resolved_equivalent_partial : forall s t d default, default_ok default 125 -> nfd s = Some d -> nfd t = Some d ->
  steady s -> steady t -> inheriting d ->
  exists b b' lc lc', bidi_new s default = Ret b /\ bidi_new t default = Ret b' /\ length lc = length s /\ length lc' = length t /\
    b_levels b = expand (map clen s) lc /\ b_levels b' = expand (map clen t) lc' /\ expand (map spelled s) lc = expand (map spelled t) lc'.
Proof. exact equivalent_resolved. Qed.
Print Assumptions C102_resolved_equivalent_partial.

(** The three vowels after an alef *)
Theorem C102_balinese_refuted : forall c, In c [0x1B3B; 0x1B3D; 0x1B43]%N ->
  exists d b b' lc, nfd [0x5D0%N; c] = Some d /\ inheriting d /\ bidi_new [0x5D0%N; c] None = Ret b /\ bidi_new d None = Ret b' /\
  b_levels b = expand (map clen [0x5D0%N; c]) lc /\ length lc = 2 /\ b_levels b' <> expand (map clen d) (expand (map spelled [0x5D0%N; c]) lc).
Proof. exact balinese_levels. Qed.
Print Assumptions C102_balinese_refuted.

(** a Hebrew letter with a point, composed; a digit, a plus and a letter with two marks in either order *)
Example C102_ex_resolved : exists b b',
  nfd [0xFB2E; 0x31; 0x2B; 0x31; 0x1E69]%N = Some [0x5D0; 0x5B7; 0x31; 0x2B; 0x31; 0x73; 0x323; 0x307]%N /\
  nfd [0x5D0; 0x5B7; 0x31; 0x2B; 0x31; 0x1E61; 0x323]%N = Some [0x5D0; 0x5B7; 0x31; 0x2B; 0x31; 0x73; 0x323; 0x307]%N /\
  bidi_new [0xFB2E; 0x31; 0x2B; 0x31; 0x1E69]%N None = Ret b /\
  bidi_new [0x5D0; 0x5B7; 0x31; 0x2B; 0x31; 0x1E61; 0x323]%N None = Ret b' /\
  b_levels b = expand [3; 1; 1; 1; 3] [1; 2; 2; 2; 2]%N /\
  b_levels b' = expand [2; 2; 1; 1; 1; 3; 2] [1; 1; 2; 2; 2; 2; 2]%N /\
  steady [0xFB2E; 0x31; 0x2B; 0x31; 0x1E69]%N.
Proof.
  eexists. eexists. split; [vm_compute; reflexivity|]. split; [vm_compute; reflexivity|]. split; [vm_compute; reflexivity|]. split; [vm_compute; reflexivity|].
  split; [vm_compute; reflexivity|]. split; [vm_compute; reflexivity|].
  repeat split; intros [H|[H|[H|[H|[H|[]]]]]]; discriminate H.
Qed.

(** Property C96: paragraphs are analysed independently. *)
From Coq Require Import List NArith Bool.
From Verif Require Import Base Enums UcdModel BidiModel BidiSpec BidiConcat.
Import ListNotations.
Open Scope nat_scope.

(** ** C96 *)
Theorem C96_paragraphs_alone : forall t d pieces, paragraphs_of t pieces ->
  (bidi_new t d = Panic <-> exists p, In p pieces /\ bidi_new p d = Panic) /\
  forall b, bidi_new t d = Ret b -> exists xs,
    Forall2 (fun p x => bidi_new p d = Ret x) pieces xs /\
    b_classes b = concat (map b_classes xs) /\ b_levels b = concat (map b_levels xs) /\
    map p_level (b_paras b) = concat (map (fun x => map p_level (b_paras x)) xs).
Proof. exact bidi_paragraphs_alone. Qed.
Print Assumptions C96_paragraphs_alone.
Theorem C96_append : forall a b d, a = [] \/ (exists u c, a = u ++ [c] /\ bidi_class c = cB) ->
  forall x y, bidi_new a d = Ret x -> bidi_new b d = Ret y ->
  bidi_new (a ++ b) d = Ret (mkbidi (b_text x ++ b_text y) (b_classes x ++ b_classes y) (b_levels x ++ b_levels y)
    (b_paras x ++ map (fun p => mkpara (slen (b_text x) + p_start p) (slen (b_text x) + p_end p) (p_level p)) (b_paras y))).
Proof. exact bidi_append. Qed.
Print Assumptions C96_append.
(** an isolate and an embedding that are left open end with their paragraph *)
Example C96_ex : exists x y, bidi_new [0x2067; 0x5D0; 0x202B; 0xA]%N None = Ret x /\ bidi_new [0x61; 0x31]%N None = Ret y /\
  bidi_new [0x2067; 0x5D0; 0x202B; 0xA; 0x61; 0x31]%N None = Ret (mkbidi [0x2067; 0x5D0; 0x202B; 0xA; 0x61; 0x31]%N
    (b_classes x ++ b_classes y) (b_levels x ++ b_levels y) [mkpara 0 9 0%N; mkpara 9 11 0%N]) /\
  b_levels y = [0; 0]%N /\ level_at (b_levels x) 3 = 1%N.
Proof. eexists. eexists. split; [vm_compute; reflexivity|]. split; [vm_compute; reflexivity|]. repeat split; vm_compute; reflexivity. Qed.

(** Property C97: the parts of a domain name are processed independently. *)
From Coq Require Import List NArith Bool.
From Verif Require Import Base Enums TableTypes UcdModel NormModel PunyModel IdnaModel IdnaSpec IdnaErrorSpec IdnaConcat.
Import ListNotations.
Open Scope N_scope.

(** ** C97 *)
Theorem C97_unicode_cut : forall c d1 d2 f u es, In c [0x2E; 0x3002; 0xFF0E; 0xFF61] ->
  to_unicode (d1 ++ c :: d2) f = Ret (u, es) ->
  exists u1 e1 u2 e2, to_unicode d1 f = Ret (u1, e1) /\ to_unicode d2 f = Ret (u2, e2) /\ u = u1 ++ 0x2E :: u2 /\
    (forall x, In x e1 \/ In x e2 -> In x es) /\
    (forall x, In x es ->
       x <> ValidityCriteria \/
       ((exists ls, mapped_labels false d1 ls /\ bidi_name d1 ls) <-> (exists ls, mapped_labels false d2 ls /\ bidi_name d2 ls)) ->
       In x e1 \/ In x e2).
Proof. exact to_unicode_stop. Qed.
Print Assumptions C97_unicode_cut.
Theorem C97_unicode_join : forall c d1 d2 f u1 e1 u2 e2, In c [0x2E; 0x3002; 0xFF0E; 0xFF61] ->
  to_unicode d1 f = Ret (u1, e1) -> to_unicode d2 f = Ret (u2, e2) ->
  exists es, to_unicode (d1 ++ c :: d2) f = Ret (u1 ++ 0x2E :: u2, es).
Proof. exact to_unicode_join. Qed.
Print Assumptions C97_unicode_join.
Theorem C97_ascii_cut : forall checked c d1 d2 f a, In c [0x2E; 0x3002; 0xFF0E; 0xFF61] -> verify_dns f = false ->
  to_ascii checked (d1 ++ c :: d2) f = Ret (inl a) ->
  exists a1 a2, to_ascii checked d1 f = Ret (inl a1) /\ to_ascii checked d2 f = Ret (inl a2) /\ a = a1 ++ 0x2E :: a2.
Proof. exact to_ascii_stop. Qed.
Print Assumptions C97_ascii_cut.
Theorem C97_ascii_join : forall checked c d1 d2 f a1 a2, In c [0x2E; 0x3002; 0xFF0E; 0xFF61] -> verify_dns f = false ->
  ((exists ls, mapped_labels (transitional f) d1 ls /\ bidi_name d1 ls) <->
   (exists ls, mapped_labels (transitional f) d2 ls /\ bidi_name d2 ls)) ->
  to_ascii checked d1 f = Ret (inl a1) -> to_ascii checked d2 f = Ret (inl a2) ->
  to_ascii checked (d1 ++ c :: d2) f = Ret (inl (a1 ++ 0x2E :: a2)).
Proof. exact to_ascii_join. Qed.
Print Assumptions C97_ascii_join.
(** "É" and "B" around an ideographic full stop; and "1", which is valid alone but not in
    a name with a Hebrew label *)
Example C97_ex : let f := mkFlags true false false in
  to_ascii true [0xC9; 0x3002; 0x42] f = Ret (inl [0x78; 0x6E; 0x2D; 0x2D; 0x39; 0x63; 0x61; 0x2E; 0x62]) /\
  to_ascii true [0xC9] f = Ret (inl [0x78; 0x6E; 0x2D; 0x2D; 0x39; 0x63; 0x61]) /\ to_ascii true [0x42] f = Ret (inl [0x62]).
Proof. split; [vm_compute; reflexivity|]. split; vm_compute; reflexivity. Qed.
Example C97_ex_bidi : let f := mkFlags true false false in
  to_unicode [0x31; 0x2E; 0x5D0] f = Ret ([0x31; 0x2E; 0x5D0], [ValidityCriteria]) /\
  to_unicode [0x31] f = Ret ([0x31], []) /\ to_unicode [0x5D0] f = Ret ([0x5D0], []).
Proof. split; [vm_compute; reflexivity|]. split; vm_compute; reflexivity. Qed.

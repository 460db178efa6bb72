(** C06, C07, C08: character tables, the shipped tables, the table generator. *)
From Coq Require Import List NArith Sorted.
From Verif Require Import Base RangeModel TableModel TableSpec TableProofs
  TableGenModel TableGenSpec TableGenProofs Enums TableTypes TablesNormal TablesBidi UcdModel UcdProofs TableLemmas.
Import ListNotations.
Open Scope N_scope.

(** C06. In a well-formed table, [find] returns [v] exactly when an entry with
    value [v] covers the character, and [None] exactly when no entry does. *)
Theorem C06_find_covering_entry : forall V (t : CharDataTable V) c, wf_table t ->
  (forall v, find t c = Ret (Some v) <-> exists e, In e (entries t) /\ covers e c /\ snd e = v) /\
  (find t c = Ret None <-> forall e, In e (entries t) -> ~ covers e c).
Proof. exact find_covering_entry. Qed.
Print Assumptions C06_find_covering_entry.

(** At most one entry covers a character. *)
Theorem C06_entry_unique : forall V (t : CharDataTable V) c e e', wf_table t ->
  In e (entries t) -> In e' (entries t) -> covers e c -> covers e' c -> e = e'.
Proof. exact entry_unique. Qed.
Print Assumptions C06_entry_unique.

(** [contains], [find_or_default] and [find_with_range] agree with [find]. *)
Theorem C06_accessors_agree : forall V (t : CharDataTable V) (d : V) c, wf_table t ->
  exists o, find t c = Ret o /\
    tcontains t c = Ret (match o with Some _ => true | None => false end) /\
    find_or_default d t c = Ret (match o with Some v => v | None => d end) /\
    (forall l, t = Range l ->
       match o with
       | Some v => exists r, find_with_range t c = Ret (Some (r, v)) /\ In (r, v) l /\
                             r_low r <= c <= r_high r
       | None => find_with_range t c = Ret None
       end).
Proof. exact accessors_agree. Qed.
Print Assumptions C06_accessors_agree.

(** Iterating a table yields its entries in order, then stops. *)
Theorem C06_iteration : forall V (t : CharDataTable V) l,
  table_collects t 0 l <-> map (fun rv => (r_low (fst rv), r_high (fst rv), snd rv)) l = entries t.
Proof. exact table_iteration. Qed.
Print Assumptions C06_iteration.

Example C06_example :
  wf_table (Range [(mkRange 10 20, 1); (mkRange 30 40, 2)]) /\
  find (Range [(mkRange 10 20, 1); (mkRange 30 40, 2)]) 33 = Ret (Some 2) /\
  find (Range [(mkRange 10 20, 1); (mkRange 30 40, 2)]) 25 = Ret None.
Proof. split; [apply wf_entriesb_sound; reflexivity|split; reflexivity]. Qed.

(** C07. All shipped tables are well formed; hence every look-up equals the
    linear scan, and never panics. *)
Theorem C07_shipped_tables_well_formed : forall t, In t shipped ->
  wf_table (projT2 t) /\
  forall c, find (projT2 t) c = Ret (scan (entries (projT2 t)) c) /\
    tcontains (projT2 t) c =
      Ret (match scan (entries (projT2 t)) c with Some _ => true | None => false end).
Proof. exact shipped_tables_ok. Qed.
Print Assumptions C07_shipped_tables_well_formed.

(** The nested tables of the canonical composition mapping as well. *)
Theorem C07_composition_tables_well_formed : forall c t,
  canonical_composition c = Some t -> wf_table t.
Proof. exact composition_tables_ok. Qed.
Print Assumptions C07_composition_tables_well_formed.

Example C07_example : In (existT _ _ BIDI_CLASS_TABLE) shipped /\
  bidi_class 0x5D0 = BC_RightToLeft /\ bidi_class 0x41 = BC_LeftToRight /\
  (exists t, canonical_composition 0x41 = Some t).
Proof.
  split; [cbv [shipped In]; tauto|]. split; [vm_compute; reflexivity|]. split; [vm_compute; reflexivity|].
  vm_compute. eauto.
Qed.

(** C08. The generated range table never trips the generator's assertion, is
    well formed, maximally merged, and represents the input map. *)
Theorem C08_range_table : forall T (teqb : T -> T -> bool),
  (forall a b, teqb a b = true <-> a = b) ->
  forall m, sorted_map m ->
  exists l, to_range_char_table teqb m = Ret (Range l) /\ wf_table (Range l) /\
    maximally_merged l /\
    forall c v, find (Range l) c = Ret (Some v) <-> In (c, v) m.
Proof. exact @to_range_ok. Qed.
Print Assumptions C08_range_table.

Theorem C08_direct_table : forall T (m : list (N * T)), sorted_map m ->
  wf_table (to_direct_char_table m) /\
  forall c v, find (to_direct_char_table m) c = Ret (Some v) <-> In (c, v) m.
Proof. exact @to_direct_ok. Qed.
Print Assumptions C08_direct_table.

Theorem C08_set_table : forall s, sorted_set s ->
  exists l, to_range_char_set s = Ret (Range l) /\ wf_table (Range l) /\ maximally_merged l /\
    forall c, tcontains (Range l) c = Ret true <-> In c s.
Proof. exact to_set_ok. Qed.
Print Assumptions C08_set_table.

Example C08_example :
  to_range_char_table N.eqb [(0xD7FE, 1); (0xD7FF, 1); (0xE000, 1); (0xE001, 2); (0xE002, 2)] =
    Ret (Range [(mkRange 0xD7FE 0xD7FF, 1); (mkRange 0xE000 0xE000, 1); (mkRange 0xE001 0xE002, 2)]) /\
  sorted_map [(0xD7FE, 1); (0xD7FF, 1); (0xE000, 1); (0xE001, 2); (0xE002, 2)].
Proof. exact gen_example. Qed.

(** Property C92: blocks and ages. *)
From Coq Require Import List NArith Sorted.
From Verif Require Import Base RangeModel Enums TableTypes UcdModel NameSpec BlockModel BlockSpec BlockProofs.
Import ListNotations.
Open Scope N_scope.

(** What the iterator yields: blocks in order without overlaps, each of whole columns of
    sixteen, with names that differ even under loose matching; [Block::of] finds exactly the
    block around the character. *)
Theorem C92_blocks : exists l k, block_collects block_iter_new l k /\ block_next k = (None, k) /\
  (forall l' k', block_collects block_iter_new l' k' -> l' = l /\ k' = k) /\
  StronglySorted (fun a b => r_high (fst a) < r_low (fst b)) l /\
  NoDup (map (fun b => loose_name (snd b)) l) /\ NoDup (map snd l) /\
  (forall b, In b l -> r_low (fst b) < r_high (fst b) /\ r_low (fst b) mod 16 = 0 /\ r_high (fst b) mod 16 = 15) /\
  (forall c b, block_of c = Some b <-> In b l /\ in_block b c).
Proof. exact blocks_spec. Qed.
Print Assumptions C92_blocks.

(** A character has an age exactly if it is assigned or a noncharacter. *)
Theorem C92_age_exact : forall c, c <= 0x10FFFF ->
  ((exists v, age_of c = Some v) <-> general_category c <> GC_Unassigned \/ noncharacter c).
Proof. exact age_exact. Qed.
Print Assumptions C92_age_exact.

(** Ages are versions from 1.1.0 to the version of the data, without update number. *)
Theorem C92_age_values : forall c v, age_of c = Some v -> micro v = 0 /\
  (1 < major v \/ major v = 1 /\ minor v = 1) /\
  (major v < major UNICODE_VERSION \/ major v = major UNICODE_VERSION /\ minor v <= minor UNICODE_VERSION).
Proof. exact age_values. Qed.
Print Assumptions C92_age_values.
(** and some character is as new as that version *)
Theorem C92_version_reached : exists c v, age_of c = Some v /\ general_category c <> GC_Unassigned /\
  major v = major UNICODE_VERSION /\ minor v = minor UNICODE_VERSION.
Proof. exact version_reached. Qed.
Print Assumptions C92_version_reached.

(** the second block; a reserved character in a block and one in none; a noncharacter, and the bitcoin sign *)
Example C92_ex : block_next 1 = (Some (mkRange 0x80 0xFF, [0x4C; 0x61; 0x74; 0x69; 0x6E; 0x2D; 0x31; 0x20; 0x53; 0x75; 0x70; 0x70;
    0x6C; 0x65; 0x6D; 0x65; 0x6E; 0x74]), 2%nat) /\
  block_of 0xE9 = fst (block_next 1) /\ general_category 0x378 = GC_Unassigned /\
  option_map fst (block_of 0x378) = Some (mkRange 0x370 0x3FF) /\ age_of 0x378 = None /\ block_of 0x2FE0 = None /\
  age_of 0xFFFE = Some (mkVersion 1 1 0) /\ general_category 0xFFFE = GC_Unassigned /\ age_of 0x20BF = Some (mkVersion 10 0 0).
Proof. vm_compute. auto 10. Qed.

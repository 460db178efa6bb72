(** Characters on which IDNA processing of compatibility equivalent names may differ. *)
From Coq Require Import List NArith.
From Verif Require Import Base NormModel IdnaEquivSpec.
Import ListNotations.
Open Scope N_scope.

(** characters whose compatibility decomposition has a full stop; they are disallowed *)
Definition dotted : list N :=
  [0x2024; 0x2025; 0x2026; 0x2488; 0x2489; 0x248A; 0x248B; 0x248C; 0x248D; 0x248E; 0x248F; 0x2490; 0x2491; 0x2492;
   0x2493; 0x2494; 0x2495; 0x2496; 0x2497; 0x2498; 0x2499; 0x249A; 0x249B; 0x33C2; 0x33C7; 0x33D8; 0xFE12; 0xFE19;
   0xFE30; 0xFE52; 0x1F100].
(** variants of GREEK SMALL LETTER FINAL SIGMA; they map to sigma, the final sigma itself does not *)
Definition sigmas : list N := [0x3F2; 0x1D6D3; 0x1D70D; 0x1D747; 0x1D781; 0x1D7BB].
(** the Hangul fillers, disallowed like the filler they decompose to *)
Definition fillers : list N := [0x3164; 0xFFA0].
(** the Hebrew letter symbols (left-to-right, decomposing to right-to-left letters) and the
    presentation forms of Arabic marks (right-to-left, decomposing to a space and a mark) *)
Definition sided : list N :=
  [0x2135; 0x2136; 0x2137; 0x2138; 0xFC5E; 0xFC5F; 0xFC60; 0xFC61; 0xFC62; 0xFC63;
   0xFE70; 0xFE72; 0xFE74; 0xFE76; 0xFE78; 0xFE7A; 0xFE7C; 0xFE7E].
(** with the ideographs that make canonically equivalent names differ *)
Definition apart : list N := dotted ++ sigmas ++ dropped ++ sided.

(** Compatibility equivalent texts: the same NFKD. *)
Definition compatible (a b : str) : Prop := nfkd a = nfkd b.

(** C109: accepted domain names are normalized, folded and free of hidden characters. *)
From Coq Require Import List NArith Bool.
From Verif Require Import Base Enums UcdModel NormModel PunySpec PunyProofs IdnaModel IdnaSpec IdnaCleanSpec IdnaClean.
Import ListNotations.
Open Scope N_scope.

(** Every character of a name accepted by [to_unicode], decoded labels included. *)
Theorem C109_characters : forall d f u, Forall scalar d -> to_unicode d f = Ret (u, []) -> Forall (clean_char (use_std3 f)) u.
Proof. exact unicode_clean. Qed.
Print Assumptions C109_characters.

(** The name as a whole is in NFKC: no compatibility characters are left. *)
Theorem C109_nfkc : forall d f u, Forall scalar d -> to_unicode d f = Ret (u, []) -> nfkc u = Some u.
Proof. exact unicode_nfkc. Qed.
Print Assumptions C109_nfkc.

(** With the STD3 rules a name accepted by [to_ascii] is made of small letters, digits, hyphens and full stops. *)
Theorem C109_ascii : forall checked d f a, Forall scalar d -> len d <= 13256071 -> use_std3 f = true ->
  to_ascii checked d f = Ret (inl a) -> Forall (fun c => host_char c \/ c = 0x2E) a.
Proof. exact ascii_host. Qed.
Print Assumptions C109_ascii.

(** U+2167 ROMAN NUMERAL EIGHT, a full stop and sharp s; a no-break space is accepted only without the STD3
    rules, as a space; a directional mark never. *)
Example C109_ex :
  to_unicode [0x2167; 0x2E; 0xDF] (mkFlags true false false) = Ret ([0x76; 0x69; 0x69; 0x69; 0x2E; 0xDF], []) /\
  to_unicode [0x61; 0xA0; 0x62] (mkFlags false false false) = Ret ([0x61; 0x20; 0x62], []) /\
  to_unicode [0x61; 0xA0; 0x62] (mkFlags true false false) = Ret ([0x61; 0x20; 0x62], [DisallowedMappedInStd3; ValidityCriteria]) /\
  to_unicode [0x61; 0x200E] (mkFlags false false false) = Ret ([0x61; 0x200E], [DisallowedCharacter; ValidityCriteria]) /\
  to_ascii true [0x2167; 0x2E; 0xDF] (mkFlags true false false) =
    Ret (inl [0x76; 0x69; 0x69; 0x69; 0x2E; 0x78; 0x6E; 0x2D; 0x2D; 0x7A; 0x63; 0x61]).
Proof. vm_compute. repeat split. Qed.

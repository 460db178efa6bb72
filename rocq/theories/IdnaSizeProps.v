(** C111: how long encoded names are. *)
From Coq Require Import List NArith Bool.
From Verif Require Import Base PunyModel PunySize IdnaModel IdnaSpec PunyProofs IdnaSize.
Import ListNotations.
Open Scope N_scope.

(** What is decoded has at most as many characters as the input, fewer if there is a delimiter
    after something. *)
Theorem C111_decode : forall p s, decode p = Ret (Some s) -> (length s <= length p)%nat.
Proof. exact decode_length. Qed.
Print Assumptions C111_decode.
Theorem C111_decode_delimiter : forall b q s, b <> [] -> decode (b ++ 0x2D :: q) = Ret (Some s) ->
  (length s < length (b ++ 0x2D%N :: q))%nat.
Proof. exact decode_length_delimiter. Qed.
Print Assumptions C111_decode_delimiter.

(** What is encoded takes one character for each ASCII character, one for the delimiter if
    there are any, and one to ten for each other character. *)
Theorem C111_encode : forall checked s p, Forall scalar s -> len s <= U32_MAX -> encode checked s = Ret (Some p) ->
  let basic := (length (filter (fun c => c <? 128) s) + (if existsb (fun c => c <? 128) s then 1 else 0))%nat in
  let others := length (filter (fun c => negb (c <? 128)) s) in
  (basic + others <= length p <= basic + 10 * others)%nat.
Proof. exact encode_length. Qed.
Print Assumptions C111_encode.
(** There are texts with a character that takes ten. *)
Theorem C111_ten : exists s p, Forall scalar s /\ existsb (fun c => c <? 128) s = false /\ encode true s = Ret (Some p) /\
  (length p = length s + 9)%nat.
Proof. exact ten_digits. Qed.
Print Assumptions C111_ten.

(** The Unicode form of an accepted name has at most as many characters as its ASCII form, *)
Theorem C111_names : forall checked d f a, Forall scalar d -> len d <= 13256071 -> transitional f = false ->
  to_ascii checked d f = Ret (inl a) -> exists u, to_unicode d f = Ret (u, []) /\ (length u <= length a)%nat.
Proof. exact names_length. Qed.
Print Assumptions C111_names.
(** so with verified lengths at most 254 (with a final full stop), at most 63 in a label and
    at most 59 in a label that is not ASCII. *)
Theorem C111_names_dns : forall checked d f a, Forall scalar d -> len d <= 13256071 -> transitional f = false -> verify_dns f = true ->
  to_ascii checked d f = Ret (inl a) ->
  exists u us, to_unicode d f = Ret (u, []) /\ labels_of u us /\ (length u <= 254)%nat /\
    Forall (fun l => (length l <= 63)%nat /\ (~ Forall (fun c => c < 128) l -> (length l <= 59)%nat)) us.
Proof. exact names_dns. Qed.
Print Assumptions C111_names_dns.
(** An ASCII name never becomes longer, accepted or not. *)
Theorem C111_ascii_names : forall d f u es, Forall (fun c => c < 128) d -> to_unicode d f = Ret (u, es) ->
  (length u <= length d)%nat.
Proof. exact ascii_names. Qed.
Print Assumptions C111_ascii_names.

Example C111_ex : decode [0x62; 0x63; 0x2D; 0x58; 0x4B; 0x61] = Ret (Some [0x62; 0xFC; 0x63]) /\
  encode true [0x62; 0xFC; 0x63] = Ret (Some [0x62; 0x63; 0x2D; 0x78; 0x6B; 0x61]) /\
  decode [0x2D; 0x61] = Ret None /\ decode [0x61; 0x61] = Ret (Some [0x80; 0x80]).
Proof. vm_compute. auto. Qed.
(** 57 times "ü" fill a label. *)
Example C111_ex_long : exists a, to_ascii true (repeat 0xFC 57) (mkFlags true false true) = Ret (inl a) /\ length a = 63%nat.
Proof. eexists. split; [vm_compute; reflexivity|vm_compute; reflexivity]. Qed.

(** Where a word boundary is inside a grapheme cluster, and a paragraph boundary inside a cluster or a word. *)
From Coq Require Import List NArith.
From Verif Require Import Base Enums TableTypes UcdModel BidiModel GraphModel GraphSpec WordModel WordSpec.
Import ListNotations.
Open Scope N_scope.

(** the two vowels, Thai and Lao, that hang on the character before but are words of their own *)
Definition sara_am (c : N) : Prop := c = 0x0E33 \/ c = 0x0EB3.
(** a sign that stays with the character after it, as the Arabic number sign does *)
Definition prepended (c : N) : Prop := grapheme_cluster_break c = GCB_Prepend.
(** what a word boundary is never before: marks, format characters and the joiner *)
Definition ignored (c : N) : Prop := In (word_break c) [WB_Extend; WB_Format; WB_ZWJ].
Definition indicator (c : N) : Prop := word_break c = WB_RegionalIndicator.

(** [text] ends in regional indicators that come after a regional indicator with marks *)
Definition marked_flag (text : str) : Prop := exists p r marks rs,
  text = p ++ r :: marks ++ rs /\ indicator r /\ marks <> [] /\ Forall ignored marks /\ rs <> [] /\ Forall indicator rs.

(** texts without such characters *)
Definition no_marked_flag (text : str) : Prop := forall p r m q, text = p ++ r :: m :: q -> indicator r -> ~ ignored m.
Definition no_hanging (text : str) : Prop := Forall (fun c => ~ sara_am c /\ ~ prepended c) text.

(** no Glue_After_Zwj, as the heart is, joined to a regional indicator *)
Definition no_glued_flag (text : str) : Prop := forall pre z x post, text = pre ++ z :: x :: post ->
  word_break z = WB_ZWJ -> word_break x = WB_GlueAfterZwj -> class_before (pre ++ [z]) <> [WB_RegionalIndicator].

(** CR and LF next to each other are two paragraph separators, but one cluster and one word *)
Definition line_end (pre post : str) : Prop := exists p q, pre = p ++ [0xD] /\ post = 0xA :: q.
Definition no_line_end (text : str) : Prop := forall pre post, text = pre ++ post -> ~ line_end pre post.
(** a separator of information, with a mark *)
Definition marked_separator (pre post : str) : Prop := exists p x y q, pre = p ++ [x] /\ post = y :: q /\ 0x1C <= x <= 0x1E /\ ignored y.
Definition no_marked_separator (text : str) : Prop := forall pre post, text = pre ++ post -> ~ marked_separator pre post.

(** cutting with [outer] and the pieces again with [inner] gives what [inner] gives *)
Definition refines (outer inner : str -> list str -> Prop) (text : str) : Prop :=
  forall ps qs, outer text ps -> inner text qs -> exists qss, Forall2 inner ps qss /\ concat qss = qs.

(** the pieces the iterators give *)
Definition clusters (ext : bool) (s : str) (ps : list str) : Prop := grapheme_indices ext s = Ret (Some (indexed 0 ps)).
Definition words_fwd (s : str) (ps : list str) : Prop := word_bound_indices s = Ret (Some (indexed 0 ps)).
Definition words_bwd (s : str) (ps : list str) : Prop := word_bound_indices_rev s = Ret (Some (rev (indexed 0 ps))).

(** Regular expressions as the [regex] crate matches them (library code, not in
    /repo): leftmost match, and among the matches at the leftmost position the
    one a backtracking matcher finds first ("leftmost-first").  Only the
    constructs the generator uses are modelled. *)
From Coq Require Import List NArith Bool PeanoNat.
From Verif Require Import Base.
Import ListNotations.
Open Scope N_scope.

(** A place in the text: whether a line starts here, what follows, and the
    groups captured so far, latest first. *)
Record place := mkPlace { line_start : bool; ahead : str; groups : list (nat * str) }.

Inductive re :=
| Cls (p : N -> bool)        (* one character of a class *)
| Seq (a b : re)
| Alt (a b : re)             (* a|b, [a] preferred *)
| Opt (a : re)               (* a?, greedy *)
| Star (a : re)              (* a*, greedy *)
| Cap (n : nat) (a : re)     (* the n-th group *)
| Bol                        (* ^ with the flag m *)
| Eol.                       (* $ with the flag m *)

(** All ways to repeat [body], the preferred ones first; a repetition that
    consumes nothing is not repeated. *)
Fixpoint star (body : place -> list place) (fuel : nat) (s : place) : list place :=
  match fuel with
  | O => [s]
  | S fuel' =>
      flat_map (star body fuel')
               (filter (fun s' => Nat.ltb (length (ahead s')) (length (ahead s))) (body s)) ++ [s]
  end.

(** All matches of [r] at [s], as the places where they end, in the order in
    which a backtracking matcher tries them. *)
Fixpoint run (r : re) (s : place) : list place :=
  match r with
  | Cls p =>
      match ahead s with
      | c :: t => if p c then [mkPlace (c =? 10) t (groups s)] else []
      | [] => []
      end
  | Seq a b => flat_map (run b) (run a s)
  | Alt a b => run a s ++ run b s
  | Opt a => run a s ++ [s]
  | Star a => star (run a) (S (length (ahead s))) s
  | Cap n a =>
      map (fun s' => mkPlace (line_start s') (ahead s')
                             ((n, firstn (length (ahead s) - length (ahead s')) (ahead s))
                              :: groups s'))
          (run a s)
  | Bol => if line_start s then [s] else []
  | Eol => match ahead s with
           | [] => [s]
           | c :: _ => if c =? 10 then [s] else []
           end
  end.

(** [Regex::captures_iter]: the groups of the successive matches.  After an
    empty match the search goes on one character later. *)
Fixpoint captures_loop (fuel : nat) (r : re) (b : bool) (s : str) : list (list (nat * str)) :=
  match fuel with
  | O => []
  | S fuel' =>
      let skip := match s with [] => [] | c :: t => captures_loop fuel' r (c =? 10) t end in
      match hd_error (run r (mkPlace b s [])) with
      | None => skip
      | Some e =>
          groups e :: (if Nat.ltb (length (ahead e)) (length s)
                       then captures_loop fuel' r (line_start e) (ahead e)
                       else skip)
      end
  end.

Definition captures_iter (r : re) (s : str) : list (list (nat * str)) :=
  captures_loop (S (length s)) r true s.

(** [Captures::get] *)
Fixpoint get (n : nat) (g : list (nat * str)) : option str :=
  match g with
  | [] => None
  | (k, t) :: g' => if Nat.eqb k n then Some t else get n g'
  end.

(** [capture[n]] panics if the group took no part in the match. *)
Definition index (n : nat) (g : list (nat * str)) : outcome str :=
  match get n g with Some t => Ret t | None => Panic end.

(** Abbreviations. *)
Definition lit (c : N) : re := Cls (N.eqb c).
Definition plus (a : re) : re := Seq a (Star a).

Definition lits (c : N) (s : str) : re := fold_left (fun r d => Seq r (lit d)) s (lit c).

(** ASCII classes: [[:xdigit:]], [[:digit:]], [[:alpha:]], [[:word:]],
    [[:blank:]], [[:space:]]; [.] is any character but the line feed. *)
Definition digit (c : N) : bool := (0x30 <=? c) && (c <=? 0x39).
Definition xdigit (c : N) : bool :=
  digit c || ((0x41 <=? c) && (c <=? 0x46)) || ((0x61 <=? c) && (c <=? 0x66)).
Definition alpha (c : N) : bool := ((0x41 <=? c) && (c <=? 0x5A)) || ((0x61 <=? c) && (c <=? 0x7A)).
Definition alnum (c : N) : bool := alpha c || digit c.
Definition word (c : N) : bool := alnum c || (c =? 0x5F).
Definition blank (c : N) : bool := (c =? 0x20) || (c =? 9).
Definition space (c : N) : bool := (c =? 0x20) || ((9 <=? c) && (c <=? 13)).
Definition dot : re := Cls (fun c => negb (c =? 10)).

(** [[:xdigit:]]{4,6} *)
Definition hex46 : re :=
  let x := Cls xdigit in Seq x (Seq x (Seq x (Seq x (Opt (Seq x (Opt x)))))).

(** Model of unic/idna/src/process.rs (UTS #46 processing). *)
From Coq Require Import List NArith Bool.
From Verif Require Import Base Enums TableTypes UcdModel NormModel PunyModel.
Import ListNotations.
Open Scope N_scope.

(** process.rs:280-299 [struct Flags] *)
Record Flags : Type := mkFlags { use_std3 : bool; transitional : bool; verify_dns : bool }.

(** process.rs:301-312 [enum Error] *)
Inductive Error : Type :=
| PunycodeError | ValidityCriteria | DisallowedByStd3AsciiRules | DisallowedMappedInStd3 | DisallowedCharacter
| TooLongForDns | TooShortForDns.

(** process.rs:20 "xn--" *)
Definition PUNYCODE_PREFIX : str := [0x78; 0x6E; 0x2D; 0x2D].
Definition DOT : N := 0x2E.
Definition HYPHEN : N := 0x2D.

(** [s.split('.')]: always at least one piece. *)
Fixpoint split_dot (s : str) : list str :=
  match s with
  | [] => [[]]
  | c :: r =>
      if c =? DOT then [] :: split_dot r
      else match split_dot r with
           | [] => [[c]]
           | l :: ls => (c :: l) :: ls
           end
  end.

(** [s.starts_with(p)], giving the rest as [&s[p.len()..]]. *)
Fixpoint strip_prefix (p s : str) : option str :=
  match p, s with
  | [], _ => Some s
  | a :: p', c :: s' => if a =? c then strip_prefix p' s' else None
  | _ :: _, [] => None
  end.

Fixpoint str_eqb (a b : str) : bool :=
  match a, b with
  | [], [] => true
  | x :: a', y :: b' => (x =? y) && str_eqb a' b'
  | _, _ => false
  end.

(** [s.nfc()] collected; the normalization model always returns. *)
Definition nfc_ (s : str) : outcome str := match nfc s with Some t => Ret t | None => Panic end.

(** process.rs:22-51: what is appended to the output and to the errors. *)
Definition map_char (c : N) (f : Flags) : outcome (str * list Error) :=
  let* m := mapping_of c in
  Ret match m with
      | IM_Valid => ([c], [])
      | IM_Ignored => ([], [])
      | IM_Mapped s => (s, [])
      | IM_Deviation s => if transitional f then (s, []) else ([c], [])
      | IM_Disallowed => ([c], [DisallowedCharacter])
      | IM_DisallowedStd3Valid => ([c], if use_std3 f then [DisallowedByStd3AsciiRules] else [])
      | IM_DisallowedStd3Mapped s => (s, if use_std3 f then [DisallowedMappedInStd3] else [])
      end.

(** process.rs:218-221 *)
Fixpoint map_all (s : str) (f : Flags) : outcome (str * list Error) :=
  match s with
  | [] => Ret ([], [])
  | c :: r =>
      let* a := map_char c f in
      let* b := map_all r f in
      Ret (fst a ++ fst b, snd a ++ snd b)
  end.

(** process.rs:73-75 *)
Definition in_rule5 (b : BidiClass) : bool :=
  match b with
  | BC_LeftToRight | BC_EuropeanNumber | BC_EuropeanSeparator | BC_CommonSeparator | BC_EuropeanTerminator
  | BC_OtherNeutral | BC_BoundaryNeutral | BC_NonspacingMark => true
  | _ => false
  end.
(** process.rs:119 *)
Definition in_rule2 (b : BidiClass) : bool :=
  match b with
  | BC_RightToLeft | BC_ArabicLetter | BC_ArabicNumber | BC_EuropeanNumber | BC_EuropeanSeparator
  | BC_CommonSeparator | BC_EuropeanTerminator | BC_OtherNeutral | BC_BoundaryNeutral | BC_NonspacingMark => true
  | _ => false
  end.
(** process.rs:79-94 and 125-139: the last character that is not NSM; the
    argument is the reversed label. *)
Fixpoint skip_nsm (rev_chars : str) : option N :=
  match rev_chars with
  | [] => None
  | c :: r => if BC_eqb (bidi_class c) BC_NonspacingMark then skip_nsm r else Some c
  end.

(** process.rs:54-159.  The early [return false] inside the loops becomes
    [forallb]; [found_en] and [found_an] become [existsb]. *)
Definition passes_bidi (label : str) (is_bidi_domain : bool) : bool :=
  if negb is_bidi_domain then true else
  match label with
  | [] => true
  | c0 :: chars =>
      match bidi_class c0 with
      | BC_LeftToRight =>
          if negb (forallb (fun c => in_rule5 (bidi_class c)) chars) then false else
          match skip_nsm (rev label) with
          | Some c => BC_eqb (bidi_class c) BC_LeftToRight || BC_eqb (bidi_class c) BC_EuropeanNumber
          | None => true
          end
      | BC_RightToLeft | BC_ArabicLetter =>
          if negb (forallb (fun c => in_rule2 (bidi_class c)) chars) then false else
          match skip_nsm (rev label) with
          | Some c =>
              match bidi_class c with
              | BC_RightToLeft | BC_ArabicLetter | BC_EuropeanNumber | BC_ArabicNumber =>
                  negb (existsb (fun c => BC_eqb (bidi_class c) BC_ArabicNumber) chars &&
                        existsb (fun c => BC_eqb (bidi_class c) BC_EuropeanNumber) chars)
              | _ => false
              end
          | None => false
          end
      | _ => false
      end
  end.

(** process.rs:195-200: the character is not permitted by the mapping table *)
Definition not_permitted (f : Flags) (c : N) : outcome bool :=
  let* m := mapping_of c in
  Ret match m with
      | IM_Valid => false
      | IM_Deviation _ => transitional f
      | IM_DisallowedStd3Valid => use_std3 f
      | _ => true
      end.
(** [label.chars().any(..)], stopping at the first character found *)
Fixpoint any_not_permitted (f : Flags) (s : str) : outcome bool :=
  match s with
  | [] => Ret false
  | c :: r => let* b := not_permitted f c in if b then Ret true else any_not_permitted f r
  end.

Definition last_is (c : N) (s : str) : bool := match rev s with x :: _ => x =? c | [] => false end.

(** process.rs:163-212; [is_combining_mark] with the table of the crate's
    default features. *)
Definition validate (label : str) (is_bidi_domain : bool) (f : Flags) : outcome (list Error) :=
  match label with
  | [] => Ret []
  | first_char :: _ =>
      let* n := nfc_ label in
      if negb (str_eqb n label) then Ret [ValidityCriteria]
      else if (first_char =? HYPHEN) || last_is HYPHEN label then Ret [ValidityCriteria]
      else if is_combining_mark_table first_char then Ret [ValidityCriteria]
      else
        let* bad := any_not_permitted f label in
        if bad then Ret [ValidityCriteria]
        else if negb (passes_bidi label is_bidi_domain) then Ret [ValidityCriteria]
        else Ret []
  end.

(** process.rs:226-228, 234-236 *)
Definition rtl_class (b : BidiClass) : bool :=
  match b with BC_RightToLeft | BC_ArabicLetter | BC_ArabicNumber => true | _ => false end.
Definition has_rtl_char (s : str) : bool := existsb (fun c => rtl_class (bidi_class c)) s.

(** process.rs:229-247: some label is Punycode that contains a bidi character
    or cannot be decoded. *)
Fixpoint bidi_labels (labels : list str) : outcome bool :=
  match labels with
  | [] => Ret false
  | l :: ls =>
      let* b := match strip_prefix PUNYCODE_PREFIX l with
                | None => Ret false
                | Some p => let* o := decode p in
                            Ret match o with Some s => has_rtl_char s | None => true end
                end in
      let* bs := bidi_labels ls in
      Ret (b || bs)
  end.

(** process.rs:257-273: one label of the validated text, with the errors *)
Definition process_label (is_bidi_domain : bool) (f : Flags) (label : str) : outcome (str * list Error) :=
  match strip_prefix PUNYCODE_PREFIX label with
  | Some p =>
      let* o := decode p in
      match o with
      | Some s =>
          let* e := validate s is_bidi_domain (mkFlags (use_std3 f) false (verify_dns f)) in
          Ret (s, e)
      | None => Ret ([], [PunycodeError])
      end
  | None =>
      let* e := validate label is_bidi_domain f in
      Ret (label, e)
  end.

(** process.rs:250-274: pieces are joined with full stops (also in
    [to_ascii]: process.rs:321-340). *)
Fixpoint join_dot (labels : list str) : str :=
  match labels with
  | [] => []
  | [l] => l
  | l :: ls => l ++ DOT :: join_dot ls
  end.

(** A loop over labels collecting text and errors. *)
Fixpoint each {A} (step : A -> outcome (str * list Error)) (labels : list A) : outcome (list str * list Error) :=
  match labels with
  | [] => Ret ([], [])
  | l :: ls =>
      let* a := step l in
      let* b := each step ls in
      Ret (fst a :: fst b, snd a ++ snd b)
  end.

(** process.rs:215-276 *)
Definition processing (domain : str) (f : Flags) : outcome (str * list Error) :=
  let* m := map_all domain f in
  let* normalized := nfc_ (fst m) in
  let* is_bidi_domain := if has_rtl_char domain then Ret true else bidi_labels (split_dot normalized) in
  let* v := each (process_label is_bidi_domain f) (split_dot normalized) in
  Ret (join_dot (fst v), snd m ++ snd v).

(** process.rs:327-339 *)
Definition ascii_label (checked : bool) (label : str) : outcome (str * list Error) :=
  if forallb is_ascii label then Ret (label, [])
  else
    let* o := encode checked label in
    Ret match o with
        | Some x => (PUNYCODE_PREFIX ++ x, [])
        | None => ([], [PunycodeError])
        end.

Definition is_empty (s : str) : bool := match s with [] => true | _ => false end.

(** process.rs:342-354 *)
Definition dns_errors (result : str) : list Error :=
  let domain := if last_is DOT result then removelast result else result in
  (if is_empty domain || existsb is_empty (split_dot domain) then [TooShortForDns] else []) ++
  (if (253 <? str_bytes domain) || existsb (fun l => 63 <? str_bytes l) (split_dot domain) then [TooLongForDns] else []).

(** process.rs:319-359; [inr] is [Err].  [checked]: compiled with overflow checks. *)
Definition to_ascii (checked : bool) (domain : str) (f : Flags) : outcome (str + list Error) :=
  let* p := processing domain f in
  let* r := each (ascii_label checked) (split_dot (fst p)) in
  let result := join_dot (fst r) in
  let errors := snd p ++ snd r ++ (if verify_dns f then dns_errors result else []) in
  Ret match errors with [] => inl result | _ => inr errors end.

(** process.rs:364-374; no errors is [Ok(())]. *)
Definition to_unicode (domain : str) (f : Flags) : outcome (str * list Error) :=
  processing domain (mkFlags (use_std3 f) false (verify_dns f)).

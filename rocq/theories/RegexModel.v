(** Model of hachoir/regex/regex.py: regex objects, their concatenation (&, +),
    union (|) and repetition, and their length bounds.
    Simplifications: a regex is an immutable value (the one place where the code
    changes an operand in place, RegexAnd._and, is modelled by the value it
    returns; [and_effect] and [and_alias] model what it does to the operands);
    [==] of two lists of RegexRangeItem objects, which compares the identity of the
    items, is the parameter [same_items]; the cached text of __str__ is not
    modelled; 'or' between an object and None always takes the object, since no
    regex class defines __len__ or __bool__. *)
From Verif Require Export Base DictModel.

(** regex.py:426-447: RegexRangeItem *)
Record item := { cmin : Z; cmax : Z }.
(** regex.py:445-447: [value in item] *)
Definition item_in (value it : item) : bool := (cmin it <=? cmin value) && (cmax value <=? cmax it).
(** regex.py:464-467: RegexRangeCharacter *)
Definition range_char (c : Z) : item := {| cmin := c; cmax := c |}.

(** The classes of regex.py *)
Inductive regex :=
| REmpty | RWord | RStart | REnd | RDot
| RString (text : str)
| RRange (ranges : list item) (exclude : bool)
| RAnd (content : list regex)
| ROr (content : list regex)
| RRepeat (regex : regex) (rmin : Z) (rmax : option Z).

(** [self.__class__ == other.__class__] *)
Definition same_class (a b : regex) : bool :=
  match a, b with
  | REmpty, REmpty | RWord, RWord | RStart, RStart | REnd, REnd | RDot, RDot => true
  | RString _, RString _ | RRange _ _, RRange _ _ | RAnd _, RAnd _ | ROr _, ROr _ | RRepeat _ _ _, RRepeat _ _ _ => true
  | _, _ => false
  end.

(** regex.py:41-63: matchSingleValue *)
Fixpoint matchSingleValue (r : regex) : bool :=
  match r with
  | REmpty | RString _ | RStart | REnd => true
  | RAnd content => forallb matchSingleValue content
  | RRange [i] _ => cmax i - cmin i + 1 =? 1
  | _ => false
  end.

(** regex.py:482-510: RegexRange.rangeAdd; [range_hit] is the first item that
    merges with [itemb], or [None] when [itemb] is already covered. *)
Fixpoint range_hit (before ranges : list item) (itemb : item) : option (option (list item * item)) :=
  match ranges with
  | [] => Some None
  | itema :: after =>
      if item_in itema itemb then Some (Some (rev before ++ after, itemb))
      else if item_in itemb itema then None
      else if cmax itemb + 1 =? cmin itema then Some (Some (rev before ++ after, {| cmin := cmin itemb; cmax := cmax itema |}))
      else if cmax itema + 1 =? cmin itemb then Some (Some (rev before ++ after, {| cmin := cmin itema; cmax := cmax itemb |}))
      else range_hit (itema :: before) after itemb
  end.
Fixpoint range_add (fuel : nat) (ranges : list item) (itemb : item) : list item :=
  match fuel with
  | O => ranges ++ [itemb]
  | S fuel =>
      match range_hit [] ranges itemb with
      | None => ranges
      | Some None => ranges ++ [itemb]
      | Some (Some (ranges', new)) => range_add fuel ranges' new
      end
  end.
Definition rangeAdd (ranges : list item) (itemb : item) : list item := range_add (length ranges) ranges itemb.
(** Python's stable list.sort(key=cmin) *)
Fixpoint insert_item (i : item) (l : list item) : list item :=
  match l with [] => [i] | j :: l' => if cmin i <? cmin j then i :: l else j :: insert_item i l' end.
Definition sort_items (l : list item) : list item := fold_left (fun acc i => insert_item i acc) l [].
(** regex.py:472-480: RegexRange(ranges, exclude), optimize=True *)
Definition mk_range (ranges : list item) (exclude : bool) : regex := RRange (sort_items (fold_left rangeAdd ranges [])) exclude.
(** regex.py:98-108: createRange *)
Definition createRange (text : str) (exclude : bool) : regex := mk_range (map range_char text) exclude.
(** regex.py:85-95: createString *)
Definition createString (text : str) : regex := match text with [] => REmpty | _ => RString text end.

(** ** Concatenation *)
(** regex.py:168-173, 283-317, 352-359, 651-655: the methods _and for an operand that is
    not a RegexAnd *)
Fixpoint and1 (a b : regex) : option regex :=
  match a with
  | REmpty => Some b
  | RWord => match b with RWord => Some a | _ => None end
  | RStart => match b with RStart => Some a | _ => None end
  | REnd => match b with REnd => Some a | _ => None end
  | RString t => match b with RString u => Some (RString (t ++ u)) | _ => None end
  | RAnd content =>
      Some (RAnd ((fix last (l : list regex) : list regex :=
        match l with
        | [] => [b]
        | [x] => match and1 x b with Some y => [y] | None => [x; b] end
        | x :: l => x :: last l
        end) content))
  | _ => None
  end.
(** regex.py:175-192, 646-650: a & b (and a + b) *)
Fixpoint rand (b a : regex) : regex :=
  match b with
  | REmpty => a
  | RAnd items =>
      match a with
      | REmpty => b
      | RAnd _ => fold_left (fun total i => rand i total) items a
      | _ => RAnd [a; b]
      end
  | _ => match and1 a b with Some r => r | None => RAnd [a; b] end
  end.
Definition and_ (a b : regex) : regex := rand b a.
(** regex.py:74-82, 660-666: RegexAnd.join *)
Definition and_join (l : list regex) : regex := match l with [] => REmpty | r :: l => fold_left and_ l r end.
(** regex.py:651-654: what [a & b] leaves in the variable a: when a is a
    RegexAnd whose last item absorbs b, the item is replaced in place. *)
Definition and_effect (a b : regex) : regex :=
  match a, b with
  | RAnd _, (REmpty | RAnd _) => a
  | RAnd content, _ => match rev content with x :: _ => match and1 x b with Some _ => and_ a b | None => a end | [] => a end
  | _, _ => a
  end.
(** regex.py:646-650: [a & a] for a RegexAnd: the loop reads the items of the
    object it may be changing.  [shared] says whether [total] is still [a];
    [index] is the position of the loop in the content of [a]. *)
Fixpoint and_alias (fuel : nat) (index : nat) (shared : bool) (self total : list regex) : list regex :=
  match fuel with
  | O => total
  | S fuel =>
      match nth_error self index with
      | None => total
      | Some i =>
          match and_ (RAnd total) i with
          | RAnd total' =>
              let in_place := Nat.eqb (length total') (length total) in
              let self' := if shared && in_place then total' else self in
              and_alias fuel (S index) (shared && in_place) self' total'
          | _ => total
          end
      end
  end.

(** ** Union *)
(** regex.py:262-269, 364-391: findPrefix *)
Fixpoint common_length (a b : str) : nat :=
  match a, b with x :: a, y :: b => if x =? y then S (common_length a b) else 0%nat | _, _ => 0%nat end.
Definition findPrefix (a b : regex) : option (regex * regex * regex) :=
  match a, b with
  | RString ta, RString tb =>
      match ta, tb with
      | [x], [y] => Some (createRange [x; y] false, REmpty, REmpty)
      | _, _ =>
          let common := common_length ta tb in
          if Nat.eqb common 0 then None
          else Some (RString (firstn common ta), createString (skipn common ta), createString (skipn common tb))
      end
  | _, _ => None
  end.

Section Or.
Context (same_items : list item -> list item -> bool).

(** regex.py:247-250 and the methods _eq (286, 338, 422, 569-572, 671-674, 757-760, 891-896) *)
Fixpoint req (a b : regex) : bool :=
  match a, b with
  | REmpty, REmpty | RWord, RWord | RStart, RStart | REnd, REnd | RDot, RDot => true
  | RString t, RString u => str_eqb t u
  | RRange r e, RRange r' e' => Bool.eqb e e' && same_items r r'
  | RAnd l, RAnd l' | ROr l, ROr l' =>
      (fix all (l l' : list regex) : bool :=
         match l, l' with [], [] => true | x :: l, y :: l' => req x y && all l l' | _, _ => false end) l l'
  | RRepeat r n p, RRepeat r' n' p' =>
      (n =? n') && (match p, p' with Some x, Some y => x =? y | None, None => true | _, _ => false end) && req r r'
  | _, _ => false
  end.

(** regex.py:159-166, 331-336, 515-531: the methods _match *)
Definition rmatch (a b : regex) : bool :=
  match a, b with
  | RDot, RRange _ _ => true
  | RDot, RString [_] => true
  | RRange r false, RString [c] => existsb (item_in (range_char c)) r
  | RRange r e, RRange r' e' => Bool.eqb e e' && forallb (fun ib => existsb (item_in ib) r) r'
  | _, _ => false
  end.

(** The longest common prefix of two contents (regex.py:617-622) *)
Fixpoint common_items (a b : list regex) : nat :=
  match a, b with x :: a, y :: b => if req x y then S (common_items a b) else 0%nat | _, _ => 0%nat end.

(** regex.py:233-245: __or__ in terms of or_ *)
Definition bar_ (orr : regex -> regex -> res (option regex)) (a b : regex) : res regex :=
  do o <- orr a b; match o with Some r => Ok r | None => Ok (ROr [a; b]) end.
Fixpoint bars (orr : regex -> regex -> res (option regex)) (total : regex) (l : list regex) : res regex :=
  match l with [] => Ok total | i :: l => do t <- bar_ orr total i; bars orr t l end.
(** regex.py:708-713: the first item that merges with other *)
Fixpoint or_item (orr : regex -> regex -> res (option regex)) (other : regex) (before l : list regex) : res (option (list regex)) :=
  match l with
  | [] => Ok None
  | i :: l => do o <- orr i other; match o with Some n => Ok (Some (rev before ++ n :: l)) | None => or_item orr other (i :: before) l end
  end.
(** regex.py:226-231, 393-420, 533-549, 605-636, 696-718: the methods _or_ *)
Definition or1 (orr : regex -> regex -> res (option regex)) (self other : regex) (reverse : bool) : res (option regex) :=
  match self with
  | RString _ =>
      match findPrefix self other with
      | Some (p, a, b) => do r <- (if reverse then bar_ orr b a else bar_ orr a b); Ok (Some (and_ p r))
      | None => Ok None
      end
  | RRange r e =>
      let branges :=
        match other with
        | RString [c] => if negb e then Some [range_char c] else None
        | RRange r' e' => if Bool.eqb e e' then Some r' else None
        | _ => None
        end in
      match branges with Some l => Ok (Some (RRange (fold_left rangeAdd l r) e)) | None => Ok None end
  | RAnd content =>
      let contentb := match other with RString _ => Some [other] | RAnd c => Some c | _ => None end in
      match contentb with
      | None => Ok None
      | Some contentb =>
          let '(ca, cb) := if reverse then (contentb, content) else (content, contentb) in
          let index := common_items ca cb in
          if negb (Nat.eqb index 0) then
            do r <- bar_ orr (and_join (skipn index ca)) (and_join (skipn index cb));
            Ok (Some (and_ (and_join (firstn index ca)) r))
          else
            match ca, cb with
            | a0 :: ca', b0 :: cb' =>
                match findPrefix a0 b0 with
                | Some (p, a, b) =>
                    do r <- bar_ orr (and_ a (and_join ca')) (and_ b (and_join cb'));
                    if matchSingleValue p || matchSingleValue r then Ok (Some (and_ p r)) else Ok None
                | None => Ok None
                end
            | _, _ => Err IndexError
            end
      end
  | ROr content =>
      match other with
      | ROr contentb => do t <- bars orr self contentb; Ok (Some t)
      | _ =>
          do c <- or_item orr other [] content;
          match c with
          | Some c => Ok (Some (ROr c))
          | None => Ok (Some (ROr (if reverse then other :: content else content ++ [other])))
          end
      end
  | _ => Ok None
  end.
(** regex.py:194-224: or_ *)
Fixpoint or_f (fuel : nat) (a b : regex) : res (option regex) :=
  match fuel with
  | O => Err OutOfFuel
  | S fuel =>
      if req a b then Ok (Some a)
      else if rmatch a b then Ok (Some a)
      else if rmatch b a then Ok (Some b)
      else if negb (same_class a b) then
        do o <- or1 (or_f fuel) a b false;
        match o with Some r => Ok (Some r) | None => or1 (or_f fuel) b a true end
      else or1 (or_f fuel) a b false
  end.
(** A bound of the recursion depth; [or_enough] shows that it suffices. *)
Fixpoint weight (r : regex) : nat :=
  match r with
  | REmpty => 1
  | RString t => 8 + 16 * length t
  | RAnd l | ROr l => S (list_sum (map weight l))
  | RRepeat r _ _ => 8 + weight r
  | _ => 8
  end.
Definition or_ (a b : regex) : res (option regex) := or_f (weight a + weight b) a b.
(** a | b *)
Definition bar (a b : regex) : res regex := bar_ or_ a b.
(** regex.py:74-82, 746-752: RegexOr.join *)
Definition or_join (l : list regex) : res regex := match l with [] => Ok REmpty | r :: l => bars or_ r l end.

(** ** Repetition *)
(** regex.py:842-851: the post-conditions of RegexRepeat *)
Definition mk_repeat_raw (r : regex) (rmin : Z) (rmax : option Z) : res regex :=
  do _ <- assert_ (0 <=? rmin);
  match rmax with
  | Some m => if (m <? rmin) || (m =? 0) || ((rmin =? m) && (m =? 1)) then Err ValueError else Ok (RRepeat r rmin rmax)
  | None => Ok (RRepeat r rmin rmax)
  end.
Definition is_none {A} (o : option A) : bool := match o with None => true | _ => false end.
(** regex.py:763-803: optimizeRepeatOr *)
Definition repeat_min (content : list regex) (rmin : Z) : Z :=
  fold_left (fun rmin i =>
    match i with
    | REmpty => 0
    | RRepeat _ n _ => if (n =? 0) && (rmin =? 1) then 0 else rmin
    | _ => rmin
    end) content rmin.
Fixpoint repeat_items (rmin : Z) (rmax : option Z) (content : list regex) : res (list regex) :=
  match content with
  | [] => Ok []
  | REmpty :: l => repeat_items rmin rmax l
  | RRepeat r n p as i :: l =>
      do i' <-
        (if n =? 0 then
           if (rmin =? 0) || (rmin =? 1) then
             if is_none rmax && is_none p then Ok r else mk_repeat_raw r 1 p
           else Ok i
         else if n =? 1 then Ok (if is_none rmax && is_none p then r else i)
         else if is_none rmax && is_none p then mk_repeat_raw r n (Some n) else Ok i);
      do l' <- repeat_items rmin rmax l; Ok (i' :: l')
  | i :: l => do l' <- repeat_items rmin rmax l; Ok (i :: l')
  end.
(** regex.py:821-851: RegexRepeat(regex, rmin, rmax); [regex.max and rmax] is
    false for None and for 0 *)
Definition truthy (o : option Z) : bool := match o with Some z => negb (z =? 0) | None => false end.
Definition mk_repeat (r : regex) (rmin : Z) (rmax : option Z) : res regex :=
  match r with
  | RRepeat r' n p =>
      if negb ((rmin =? 0) && (match rmax with Some m => m =? 1 | None => false end)) then
        mk_repeat_raw r' (rmin * n) (match p, rmax with Some p', Some m => if truthy p && truthy rmax then Some (m * p') else None | _, _ => None end)
      else mk_repeat_raw r rmin rmax
  | ROr content =>
      let rmin' := repeat_min content rmin in
      do l <- repeat_items rmin' rmax content;
      do r' <- or_join l;
      mk_repeat_raw r' rmin' rmax
  | _ => mk_repeat_raw r rmin rmax
  end.
End Or.

(** ** Length bounds *)
(** regex.py:116-128, 277, 325, 349, 512, 581-603, 727-744, 853-871:
    minLength and maxLength; [None] is "no limit"; None * int is TypeError *)
Definition add_lengths (l : list (res (option Z))) : res (option Z) :=
  (fix go total l := match l with [] => Ok (Some total) | x :: l => do o <- x; match o with None => Ok None | Some n => go (total + n) l end end) 0 l.
Definition merge_lengths (f : Z -> Z -> Z) (l : list (res (option Z))) : res (option Z) :=
  (fix go value l := match l with [] => Ok value | x :: l => do o <- x; match o with None => Ok None | Some n => go (Some (match value with None => n | Some v => f v n end)) l end end) None l.
Definition times (o : option Z) (n : Z) : res (option Z) := match o with None => Err TypeError | Some m => Ok (Some (m * n)) end.
Fixpoint minLength (r : regex) : res (option Z) :=
  match r with
  | REmpty | RWord | RStart | REnd => Ok (Some 0)
  | RDot | RRange _ _ => Ok (Some 1)
  | RString t => Ok (Some (zlen t))
  | RAnd l => add_lengths (map minLength l)
  | ROr l => merge_lengths Z.min (map minLength l)
  | RRepeat r n _ => do m <- minLength r; times m n
  end.
Fixpoint maxLength (r : regex) : res (option Z) :=
  match r with
  | REmpty | RWord | RStart | REnd => Ok (Some 0)
  | RDot | RRange _ _ => Ok (Some 1)
  | RString t => Ok (Some (zlen t))
  | RAnd l => add_lengths (map maxLength l)
  | ROr l => merge_lengths Z.max (map maxLength l)
  | RRepeat r _ p => match p with None => Ok None | Some p => do m <- maxLength r; times m p end
  end.

(** Model of the texts of regexes: hachoir/regex/regex.py __str__ and
    hachoir/regex/parser.py.
    Simplifications: SyntaxError is [ParserError]; a repetition without previous
    expression written with braces, which the code turns into RegexRepeat(None, ...),
    is [AttributeError] (the error the first use of the object raises);
    makePrintable/__repr__ are not modelled. *)
From Coq Require Import String.
From Verif Require Export Base DictModel Lit BitsModel FieldModel RegexModel.
Open Scope Z_scope.

(** parser.py:15 and the class of regex.py:71 *)
Definition command_characters : str := lit ".^$[](){}|+?*\".
Definition is_command (c : Z) : bool := existsb (Z.eqb c) command_characters.
(** regex.py:66-71: escapeRegex *)
Definition escape_char (c : Z) : str := if is_command c then [92; c] else [c].
Definition escapeRegex (t : str) : str := List.concat (map escape_char t).
(** regex.py:449-458: RegexRangeItem.__str__ *)
Definition item_str (i : item) : str :=
  if cmin i =? cmax i then [cmin i] else if cmin i + 1 =? cmax i then [cmin i; cmax i] else [cmin i; 45; cmax i].
(** list.remove: the first equal element *)
Fixpoint remove_first (x : str) (l : list str) : list str :=
  match l with [] => [] | y :: l => if str_eqb y x then l else y :: remove_first x l end.
(** regex.py:551-567: RegexRange._str *)
Definition range_str (l : list item) (exclude : bool) : str :=
  let content := map item_str l in
  let '(content, suffix) := if existsb (str_eqb [45]) content then (remove_first [45] content, [45]) else (content, []) in
  let '(content, prefix) := if existsb (str_eqb [93]) content then (remove_first [93] content, [93]) else (content, []) in
  let text := prefix ++ List.concat content ++ suffix in
  if exclude then lit "[^" ++ text ++ lit "]" else lit "[" ++ text ++ lit "]".
(** regex.py:130-136, 280, 297, 308, 319, 328, 361, 657, 720-725, 873-889: __str__(python=...) *)
Fixpoint rstr (python : bool) (r : regex) : str :=
  match r with
  | REmpty => []
  | RWord => lit "\b"
  | RStart => lit "^"
  | REnd => lit "$"
  | RDot => lit "."
  | RString t => escapeRegex t
  | RRange l ex => range_str l ex
  | RAnd l => List.concat (map (rstr python) l)
  | ROr l => lit (if python then "(?:" else "(") ++ join (lit "|") (map (rstr python) l) ++ lit ")"
  | RRepeat r lo hi =>
      let text := rstr false r in
      let text := match r with
                  | RAnd _ => lit "(" ++ text ++ lit ")"
                  | RString t => if 1 <? zlen t then lit "(" ++ text ++ lit ")" else text
                  | _ => text
                  end in
      text ++
      match hi with
      | Some h => if (lo =? 0) && (h =? 1) then lit "?" else if lo =? h then lit "{" ++ dec lo ++ lit "}" else lit "{" ++ dec lo ++ lit "," ++ dec h ++ lit "}"
      | None => if lo =? 0 then lit "*" else if lo =? 1 then lit "+" else lit "{" ++ dec lo ++ lit ",}"
      end
  end.

(** ** The parser *)
(** text[index] for an index that is not negative *)
Definition char_at (text : str) (index : Z) : res Z := match nth_error text (Z.to_nat index) with Some c => Ok c | None => Err IndexError end.
(** The tests [index + k < len(text) and text[...] == c] *)
Definition char_is (text : str) (index c : Z) : bool := match nth_error text (Z.to_nat index) with Some x => x =? c | None => false end.
(** RegexRangeItem(cmin, cmax), regex.py:428-440 *)
Definition range_item (a b : Z) : res item := if b <? a then Err TypeError else Ok {| cmin := a; cmax := b |}.
(** parser.py:42-58: the loop of parseRange; each turn moves the index, so the
    length of the text is enough fuel *)
Fixpoint range_loop (fuel : nat) (text : str) (index : Z) (items : list item) : res (list item * Z) :=
  match fuel with
  | O => Ok (items, index)
  | S fuel =>
      if (index <? zlen text) && negb (char_is text index 93) then
        if (index + 1 <? zlen text) && char_is text index 92 then
          do c <- char_at text (index + 1); range_loop fuel text (index + 2) (items ++ [range_char c])
        else if (index + 1 <? zlen text) && char_is text index 45 && char_is text (index + 1) 93 then Ok (items, index)
        else if (index + 3 <? zlen text) && char_is text (index + 1) 45 && negb (char_is text (index + 2) 93) then
          do a <- char_at text index; do b <- char_at text (index + 2); do i <- range_item a b;
          range_loop fuel text (index + 3) (items ++ [i])
        else do c <- char_at text index; range_loop fuel text (index + 1) (items ++ [range_char c])
      else Ok (items, index)
  end.
(** parser.py:18-64: parseRange *)
Definition parseRange (text : str) (start : Z) : res (regex * Z) :=
  do c <- char_at text start;
  let '(exclude, index) := if c =? 94 then (true, start + 1) else (false, start) in
  do c <- char_at text index;
  let '(items, index) := if c =? 93 then ([range_char 93], index + 1) else ([], index) in
  do l <- range_loop (length text) text index items;
  let '(items, index) := l in
  let '(items, index) := if (index <? zlen text) && char_is text index 45 then (items ++ [range_char 45], index + 1) else (items, index) in
  if (index =? zlen text) || negb (char_is text index 93) then Err ParserError
  else Ok (mk_range items exclude, index + 1).
(** parser.py:100-122: parseRepeat, the regular expression ([0-9]+)(,[0-9]* )?} *)
Definition is_digit (c : Z) : bool := (48 <=? c) && (c <=? 57).
Fixpoint digits (text : str) : str * str :=
  match text with c :: l => if is_digit c then let '(d, rest) := digits l in (c :: d, rest) else ([], text) | [] => ([], []) end.
Definition to_int (d : str) : Z := fold_left (fun n c => 10 * n + (c - 48)) d 0.
Definition parseRepeat (text : str) (start : Z) : res (Z * option Z * Z) :=
  let '(d1, rest) := digits (skipn (Z.to_nat start) text) in
  match d1 with
  | [] => Err ParserError
  | _ =>
      match rest with
      | 125 :: _ => Ok (to_int d1, Some (to_int d1), start + zlen d1 + 1)
      | 44 :: rest =>
          let '(d2, rest) := digits rest in
          match rest with
          | 125 :: _ => Ok (to_int d1, match d2 with [] => None | _ => Some (to_int d2) end, start + zlen d1 + 1 + zlen d2 + 1)
          | _ => Err ParserError
          end
      | _ => Err ParserError
      end
  end.
(** parser.py:127: CHAR_TO_REPEAT *)
Definition char_to_repeat (c : Z) : option (Z * option Z) :=
  if c =? 42 then Some (0, None) else if c =? 63 then Some (0, Some 1) else if c =? 43 then Some (1, None) else None.

Section Parser.
Context (same_items : list item -> list item -> bool).
(** parser.py:130-186 (_parse, from the loop on) and 67-97 (parseOr, from the
    loop on) *)
Definition add_last (regex : regex) (last : option RegexModel.regex) : RegexModel.regex :=
  match last with Some l => and_ regex l | None => regex end.
Fixpoint parse_loop (fuel : nat) (text : str) (until : bool) (index : Z) (regex : regex) (last : option RegexModel.regex) : res (RegexModel.regex * Z) :=
  match fuel with
  | O => Err OutOfFuel
  | S fuel =>
      if index <? zlen text then
        do char <- char_at text index;
        if until && ((char =? 124) || (char =? 41)) then Ok (add_last regex last, index)
        else if is_command char then
          do step <-
            (if char =? 91 then do r <- parseRange text (index + 1); Ok (fst r, snd r, last)
             else if char =? 40 then do r <- parse_or fuel text (index + 1); Ok (fst r, snd r, last)
             else if char =? 46 then Ok (RDot, index + 1, last)
             else if char =? 94 then Ok (RStart, index + 1, last)
             else if char =? 36 then Ok (REnd, index + 1, last)
             else if char =? 123 then
               do p <- parseRepeat text (index + 1);
               let '(rmin, rmax, index) := p in
               match last with
               | None => Err AttributeError
               | Some l => do r <- mk_repeat same_items l rmin rmax; Ok (r, index, None)
               end
             else match char_to_repeat char with
             | Some (rmin, rmax) =>
               match last with
               | None => Err ParserError
               | Some l => do r <- mk_repeat same_items l rmin rmax; Ok (r, index + 1, None)
               end
             | None =>
               if char =? 92 then
                 if index + 1 =? zlen text then Err ParserError
                 else
                   do c <- char_at text (index + 1);
                   if c =? 98 then Ok (RWord, index + 2, last)
                   else if is_command c || (c =? 32) || (c =? 39) then Ok (RString [c], index + 2, last)
                   else Err ParserError
               else Err NotImplementedError
             end);
          let '(new, index, last) := step in
          parse_loop fuel text until index (add_last regex last) (Some new)
        else parse_loop fuel text until (index + 1) (add_last regex last) (Some (RString [char]))
      else Ok (add_last regex last, index)
  end
with parse_or (fuel : nat) (text : str) (start : Z) : res (regex * Z) :=
  match fuel with
  | O => Err OutOfFuel
  | S fuel =>
      let index := if char_is text start 63 && char_is text (start + 1) 58 then start + 2 else start in
      do c <- char_at text index;
      if c =? 63 then Err NotImplementedError else or_loop fuel text index None
  end
with or_loop (fuel : nat) (text : str) (index : Z) (regex : option regex) : res (RegexModel.regex * Z) :=
  match fuel with
  | O => Err OutOfFuel
  | S fuel =>
      do p <- (if zlen text =? index then Ok (REmpty, 0) else parse_loop fuel text true index REmpty None);
      let '(new, index) := p in
      do r <- match regex with Some r => bar same_items r new | None => Ok new end;
      if zlen text <=? index then Err ParserError
      else if char_is text index 41 then Ok (r, index + 1)
      else or_loop fuel text (index + 1) (Some r)
  end.
(** parser.py:189-204: parse *)
Definition parse (fuel : nat) (text : str) : res regex :=
  do p <- (if zlen text =? 0 then Ok (REmpty, 0) else parse_loop fuel text false 0 REmpty None);
  do _ <- assert_ (snd p =? zlen text);
  Ok (fst p).
End Parser.

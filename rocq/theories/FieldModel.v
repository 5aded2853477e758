(** Model of hachoir/field/generic_field_set.py (GenericFieldSet: lazy feeding,
    autofix, truncation), hachoir/field/basic_field_set.py:117-123
    (setUniqueFieldName), hachoir/field/fake_array.py and of the lookup part of
    hachoir/field/field.py.

    Simplifications, for the whole file:
    - the generator object returned by createFields() is a well-founded tree of
      events: it stops, raises, or yields a field and goes on in a way that may
      depend on what it can see of its field set when it is resumed;
    - [self._fields] (core/dict.py) is the list of its values; the keys are the
      names of the fields (C19 shows that Dict is such an ordered map);
    - the root has a known size (a stream of known size), so _checkSize always
      ends at an ancestor with a size;
    - a field set is fed by its parent (in _addField) or, once added, by the
      user; the generator of a field set does not feed a field set before it
      yields it;
    - warnings are not modelled. *)
From Verif Require Export Base DictModel ToolsModel.

(** ** Names *)
(** The decimal digits of n ("%u" % n). *)
Fixpoint dec_loop (fuel : nat) (n : Z) (acc : str) : str :=
  match fuel with
  | O => acc
  | S fuel => if n <? 10 then (48 + n) :: acc else dec_loop fuel (n / 10) ((48 + n mod 10) :: acc)
  end.
Definition dec (n : Z) : str := dec_loop (S (Z.to_nat n)) n [].

Definition brackets : str := [91; 93].             (* "[]" *)
Definition raw_name : str := [114; 97; 119; 91; 93]. (* "raw[]" *)
(** [name.endswith("[]")] *)
Definition ends_brackets (s : str) : bool :=
  match rev s with 93 :: 91 :: _ => true | _ => false end.
(** [key + "[%u]" % n] *)
Definition array_name (key : str) (n : Z) : str := key ++ [91] ++ dec n ++ [93].

(** basic_field_set.py:117-123: setUniqueFieldName *)
Definition unique_name (counts : pydict) (name : str) : str * pydict :=
  let key := firstn (length name - 2) name in
  let n := match pd_get counts key with Some c => c + 1 | None => 0 end in
  (array_name key n, pd_set counts key n).

(** ** Parsers *)
(** What a generator sees of its field set: names, addresses and sizes of the
    fields so far, the [_size] attribute, and the room there is (what eof
    compares with).  Values of fields are functions of the stream and of these. *)
Record view := { v_fields : list (str * Z * Z); v_size : option Z; v_room : Z }.

(** createFields(): what is yielded or raised next. *)
Inductive gen :=
| GStop
| GRaise (e : exn)
| GYield (s : spec) (k : view -> gen)
(** A field as built by its constructor: a leaf and its size in bits, or a
    field set, its size if known and its generator. *)
with spec :=
| SLeaf (name : str) (size : Z)
| SSet (name : str) (size : option Z) (g : gen).

(** Fields: name, address relative to the parent, and size or content.
    A field set: [_fields], [_size], [_current_size], [_field_array_count] and
    [_field_generator]. *)
Inductive field :=
| FLeaf (n : str) (a : Z) (size : Z)
| FSet (n : str) (a : Z) (s : fset)
with fset :=
| MkSet (fields : list field) (size : option Z) (cur : Z) (counts : pydict) (resume : option (view -> gen)).

Definition fields (s : fset) := let 'MkSet l _ _ _ _ := s in l.
Definition fsize (s : fset) := let 'MkSet _ z _ _ _ := s in z.
Definition cur (s : fset) := let 'MkSet _ _ c _ _ := s in c.
Definition counts (s : fset) := let 'MkSet _ _ _ n _ := s in n.
Definition resume (s : fset) := let 'MkSet _ _ _ _ r := s in r.
Definition with_resume (s : fset) r := MkSet (fields s) (fsize s) (cur s) (counts s) r.
Definition with_counts (s : fset) c := MkSet (fields s) (fsize s) (cur s) c (resume s).

Definition f_name (f : field) : str := match f with FLeaf n _ _ => n | FSet n _ _ => n end.
Definition f_addr (f : field) : Z := match f with FLeaf _ a _ => a | FSet _ a _ => a end.
(** [field.size] of a field whose size is known. *)
Definition f_size (f : field) : Z :=
  match f with FLeaf _ _ z => z | FSet _ _ s => match fsize s with Some z => z | None => cur s end end.
Definition layout (l : list field) : list (str * Z * Z) := map (fun f => (f_name f, f_addr f, f_size f)) l.

(** generic_field_set.py:125-139: _checkSize is [avail - size]: [room] is what
    the ancestors leave when the set has no size of its own. *)
Definition avail (room : Z) (s : fset) : Z := match fsize s with Some z => z | None => room end.
Definition view_of (room : Z) (s : fset) : view :=
  {| v_fields := layout (fields s); v_size := fsize s; v_room := avail room s |}.

(** [name in self._fields] *)
Definition has_name (l : list field) (n : str) : bool := existsb (fun f => str_eqb n (f_name f)) l.
(** [self._fields[name]] *)
Definition find_name (l : list field) (n : str) : option field := find (fun f => str_eqb n (f_name f)) l.

(** ** Truncation *)
(** generic_field_set.py:235-258: _truncate.  [cut] deletes the last fields
    while their address is not below [size], then truncates the last one left
    or replaces it by a raw field. *)
Fixpoint truncate (s : fset) (size : Z) {struct s} : res fset :=
  let 'MkSet l z c n r := s in
  if negb (0 <? size) then Err AssertionError
  else if size <? c then
    do o <- (fix cut (seen : bool) (l : list field) {struct l} : res (option (list field)) :=
        match l with
        | [] => Ok None
        | f :: l' =>
            do o <- cut (seen || str_eqb raw_name (f_name f)) l';
            match o with
            | Some l2 => Ok (Some (f :: l2))
            | None =>
                if f_addr f <? size then
                  let rest := size - f_addr f in
                  if rest <? f_size f then
                    match f with
                    | FSet fn fa fs => do fs <- truncate fs rest; Ok (Some [FSet fn fa fs])
                    | FLeaf _ fa _ => if seen then Err UniqKeyError else Ok (Some [FLeaf raw_name fa rest])
                    end
                  else Ok (Some [f])
                else Ok None
            end
        end) false l;
    match o with
    | None => Err IndexError
    | Some l => Ok (MkSet l (Some size) size n None)
    end
  else
    do _ <- assert_ (match z with None => true | Some z => size <? z end);
    Ok (MkSet l (Some size) c n (if size =? c then None else r)).

(** ** End of feeding *)
(** generic_field_set.py:278-282: delete the last fields while the set is too
    big.  [l] is the reversed list of fields. *)
Fixpoint delete_too_big (size : Z) (l : list field) (c : Z) : res (list field * Z) :=
  if size <? c then
    match l with
    | [] => Err IndexError
    | f :: l' => delete_too_big size l' (c - f_size f)
    end
  else Ok (l, c).

(** generic_field_set.py:267-296: _fixLastField.  Returns the raw field added,
    if any. *)
Definition fix_last (size : Z) (s : fset) : fset * res (option field) :=
  match delete_too_big size (rev (fields s)) (cur s) with
  | Err e => (with_resume s None, Err e)
  | Ok (l, c) =>
      let l := rev l in
      let rest := size - c in
      if rest =? 0 then (MkSet l (fsize s) c (counts s) None, Ok None)
      else if rest <=? 0 then (MkSet l (fsize s) c (counts s) None, Err OtherError)
      else
        let f := FLeaf raw_name c rest in
        if has_name l raw_name then (MkSet l (fsize s) (c + rest) (counts s) None, Err UniqKeyError)
        else (MkSet (l ++ [f]) (fsize s) (c + rest) (counts s) None, Ok (Some f))
  end.

(** generic_field_set.py:298-309: _stopFeeding *)
Definition stop_feeding (autofix hasp : bool) (s : fset) : fset * res (option field) :=
  match fsize s with
  | None => (MkSet (fields s) (if hasp then Some (cur s) else None) (cur s) (counts s) None, Ok None)
  | Some z =>
      if negb (z =? cur s) then
        if autofix then fix_last z s else (s, Err ParserError)
      else (with_resume s None, Ok None)
  end.

(** generic_field_set.py:311-319 and its callers: _fixFeedError, then raise if
    it returns False. *)
Definition fix_feed_error (autofix : bool) (s : fset) (e : exn) : fset * res (option field) :=
  match fsize s with
  | None => (s, Err e)
  | Some z => if autofix then fix_last z s else (s, Err e)
  end.

(** ** Feeding *)
(** How _addField ends: the field was added, StopIteration, another
    exception. *)
Inductive add_res := AddOk (f : field) | AddStop | AddErr (e : exn).
(** How a feeding loop ends: at the wanted field, at the end (with the raw
    field that was added, if any) or with an exception. *)
Inductive feed_res := FFound (f : field) | FEnd (o : option field) | FRaised (e : exn).
Definition feed_end (r : fset * res (option field)) : fset * feed_res :=
  match r with (s, Ok o) => (s, FEnd o) | (s, Err e) => (s, FRaised e) end.

(** generic_field_set.py:188-201: _addField, once the size is accepted. *)
Definition add_append (s : fset) (f : field) (ask_stop : bool) : fset * add_res :=
  let c := cur s + f_size f in
  let ok s f := (s, if ask_stop then AddStop else AddOk f) in
  if has_name (fields s) (f_name f) then
    let '(n, ct) := unique_name (counts s) (f_name f ++ brackets) in
    let f := match f with FLeaf _ a z => FLeaf n a z | FSet _ a x => FSet n a x end in
    if has_name (fields s) n then (MkSet (fields s) (fsize s) c ct (resume s), AddErr UniqKeyError)
    else ok (MkSet (fields s ++ [f]) (fsize s) c ct (resume s)) f
  else ok (MkSet (fields s ++ [f]) (fsize s) c (counts s) (resume s)) f.

(** generic_field_set.py:179-186 and 203-213: the size check of _addField and
    _fixFieldSize. *)
Definition add_check (autofix : bool) (room : Z) (s : fset) (f : field) (ask_stop : bool) : fset * add_res :=
  let is_set := match f with FSet _ _ _ => true | _ => false end in
  let dsize := avail room s - (f_addr f + f_size f) in
  if (dsize <? 0) || (is_set && (f_size f <=? 0)) then
    if autofix && negb (cur s =? 0) then
      let new_size := f_size f + dsize in
      if 0 <? new_size then
        match f with
        | FSet n a x =>
            if 0 <? f_size f then
              match truncate x new_size with
              | Ok x => add_append s (FSet n a x) ask_stop
              | Err e => (s, AddErr e)
              end
            else (MkSet (fields s) (match fsize s with None => Some (cur s + new_size) | z => z end)
                        (cur s) (counts s) (resume s), AddStop)
        | FLeaf _ _ _ =>
            (MkSet (fields s) (match fsize s with None => Some (cur s + new_size) | z => z end)
                   (cur s) (counts s) (resume s), AddStop)
        end
      else (s, AddStop)
    else (s, AddErr ParserError)
  else add_append s f ask_stop.

Definition s_name (s : spec) : str := match s with SLeaf n _ => n | SSet n _ _ => n end.

(** generic_field_set.py:143-201: _addField and the feeding loops
    (_feedUntil 321-343, _feedAll 364-375), which stop after the first added
    field accepted by [p].  [hasp]: the set has a parent.  [feed g s] starts
    when the generator has just produced [g]. *)
Fixpoint feed (autofix : bool) (p : field -> bool) (hasp : bool) (room : Z) (g : gen) (s : fset) {struct g}
  : fset * feed_res :=
  match g with
  | GStop => feed_end (stop_feeding autofix hasp (with_resume s (Some (fun _ => GStop))))
  | GRaise e => feed_end (fix_feed_error autofix (with_resume s (Some (fun _ => GStop))) e)
  | GYield x k =>
      match add_field autofix room x (with_resume s (Some k)) with
      | (s, AddOk f) => if p f then (s, FFound f) else feed autofix p hasp room (k (view_of room s)) s
      | (s, AddStop) => feed_end (stop_feeding autofix hasp s)
      | (s, AddErr e) => feed_end (fix_feed_error autofix s e)
      end
  end
with add_field (autofix : bool) (room : Z) (x : spec) (s : fset) {struct x} : fset * add_res :=
  let '(n, ct) := if ends_brackets (s_name x) then unique_name (counts s) (s_name x) else (s_name x, counts s) in
  let s := with_counts s ct in
  let a := cur s in
  match x with
  | SLeaf _ size => add_check autofix room s (FLeaf n a size) false
  | SSet _ (Some size) g =>
      add_check autofix room s (FSet n a (MkSet [] (Some size) 0 [] (Some (fun _ => g)))) false
  | SSet _ None g =>
      let room' := avail room s - a in
      match feed autofix (fun _ => false) true room' g (MkSet [] None 0 [] (Some (fun _ => g))) with
      | (c, FRaised e) =>
          (* [field.current_length and field.eof] *)
          if negb (zlen (fields c) =? 0) && (avail room' c - (cur c + 1) <? 0) then
            match stop_feeding autofix true c with
            | (c, Ok _) => add_check autofix room s (FSet n a c) true
            | (_, Err e) => (s, AddErr e)
            end
          else (s, AddErr e)
      | (c, _) => add_check autofix room s (FSet n a c) false
      end
  end.

(** next(self._field_generator): the generator runs from where it was
    suspended. *)
Definition feed_from (autofix : bool) (p : field -> bool) (hasp : bool) (s : fset) : fset * feed_res :=
  match resume s with
  | None => (s, FEnd None)
  | Some k => feed autofix p hasp 0 (k (view_of 0 s)) s
  end.

(** One turn of a feeding loop. *)
Definition step (autofix hasp : bool) (s : fset) : fset * feed_res := feed_from autofix (fun _ => true) hasp s.

(** generic_field_set.py:343-360: readMoreFields *)
Fixpoint read_more (autofix hasp : bool) (number : nat) (s : fset) : fset * option exn :=
  match number with
  | O => (s, None)
  | S n =>
      match resume s with
      | None => (s, None)   (* only on entry: [number] is never reached again then *)
      | Some _ =>
          match step autofix hasp s with
          | (s, FFound _) => read_more autofix hasp n s
          | (s, FEnd _) => (s, None)
          | (s, FRaised e) => (s, Some e)
          end
      end
  end.

(** ** What a user calls *)
Inductive access :=
| AAll                 (* _feedAll: what len() and size do first *)
| ALen
| ASize
| AName (n : str)      (* self[n], n a single name *)
| AIndex (i : Z)       (* self[i] *)
| AMore (n : nat)      (* readMoreFields(n) *)
| ANext (done : nat)   (* an iterator that has produced [done] fields is asked for one more *)
| AIn (n : str) (a : access).  (* the same inside the field set named n, if there is one *)
(** What the user sees. *)
Inductive answer := RField (f : str * Z * Z) | RNum (n : Z) | RSize (z : option Z) | RStop | RUnit | RFail (e : exn).

Definition show (f : field) := (f_name f, f_addr f, f_size f).
Definition answer_feed (r : feed_res) : answer := match r with FRaised e => RFail e | _ => RUnit end.

(** generic_field_set.py:215-222: _getField, name not made of dots. *)
Definition get_name (autofix hasp : bool) (n : str) (s : fset) : fset * answer :=
  match find_name (fields s) n with
  | Some f => (s, RField (show f))
  | None =>
      match resume s with
      | None => (s, RFail MissingField)
      | Some _ =>
          match feed_from autofix (fun f => str_eqb (f_name f) n) hasp s with
          | (s, FFound f) => (s, RField (show f))
          | (s, FEnd _) => (s, RFail MissingField)
          | (s, FRaised e) => (s, RFail e)
          end
      end
  end.
(** generic_field_set.py:224-233: getField with an integer, const=False. *)
Definition get_index (autofix hasp : bool) (i : Z) (s : fset) : fset * answer :=
  if i <? 0 then (s, RFail KeyError)
  else
    match read_more autofix hasp (Z.to_nat (i + 1 - zlen (fields s))) s with
    | (s, Some e) => (s, RFail e)
    | (s, None) => match nth_error (fields s) (Z.to_nat i) with
                   | Some f => (s, RField (show f))
                   | None => (s, RFail MissingField)
                   end
    end.
(** generic_field_set.py:377-406: one next() on the iterator returned by
    __iter__, which has produced the first [done] fields. *)
Definition iter_next (autofix hasp : bool) (done : nat) (s : fset) : fset * answer :=
  match nth_error (fields s) done with
  | Some f => (s, RField (show f))
  | None =>
      match resume s with
      | None => (s, RStop)
      | Some _ =>
          match step autofix hasp s with
          | (s, FFound f) => (s, RField (show f))
          | (s, FEnd (Some f)) => (s, RField (show f))
          | (s, FEnd None) => (s, RStop)
          | (s, FRaised e) => (s, RFail e)
          end
      end
  end.

(** Apply [h] to the field set named [n]. *)
Fixpoint in_child (n : str) (h : fset -> fset * answer) (l : list field) : list field * answer :=
  match l with
  | [] => ([], RFail MissingField)
  | f :: l' =>
      if str_eqb n (f_name f) then
        match f with
        | FSet fn fa x => let '(x, r) := h x in (FSet fn fa x :: l', r)
        | _ => (l, RFail AttributeError)
        end
      else let '(l', r) := in_child n h l' in (f :: l', r)
  end.

Fixpoint do_access (autofix hasp : bool) (a : access) (s : fset) {struct a} : fset * answer :=
  match a with
  | AAll => let '(s, r) := feed_from autofix (fun _ => false) hasp s in (s, answer_feed r)
  | ALen => let '(s, r) := feed_from autofix (fun _ => false) hasp s in
            (s, match r with FRaised e => RFail e | _ => RNum (zlen (fields s)) end)
  | ASize => match fsize s with
             | Some z => (s, RSize (Some z))
             | None => let '(s, r) := feed_from autofix (fun _ => false) hasp s in
                       (s, match r with FRaised e => RFail e | _ => RSize (fsize s) end)
             end
  | AName n => get_name autofix hasp n s
  | AIndex i => get_index autofix hasp i s
  | AMore n => let '(s', r) := read_more autofix hasp n s in
               (s', match r with Some e => RFail e | None => RNum (zlen (fields s') - zlen (fields s)) end)
  | ANext d => iter_next autofix hasp d s
  | AIn n a => let '(l, r) := in_child n (do_access autofix true a) (fields s) in
               (MkSet l (fsize s) (cur s) (counts s) (resume s), r)
  end.
Fixpoint do_accesses (autofix : bool) (l : list access) (s : fset) : fset * list answer :=
  match l with
  | [] => (s, [])
  | a :: l' => let '(s1, r) := do_access autofix false a s in
               let '(s2, rs) := do_accesses autofix l' s1 in (s2, r :: rs)
  end.

(** hachoir/field/parser.py:16-31: the root field set of a parser for a stream
    of [size] bits. *)
Definition root_set (g : gen) (size : Z) : fset := MkSet [] (Some size) 0 [] (Some (fun _ => g)).

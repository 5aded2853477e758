(** Model of the parser database (parser/parser_list.py), of the choice of a
    parser (parser/guess.py) and of HachoirParser.__init__ (parser/parser.py). *)
From Coq Require Import String.
From Verif Require Import Lit.
From Verif Require Export Base DictModel.
Open Scope Z_scope.

(** Values of PARSER_TAGS. Other Python values (floats, bytes, functions) are left
    out; the values under "magic" are not looked at by the code below. *)
Inductive atom := AStr (s : str) | AInt (n : Z).
Definition atom_eqb (a b : atom) : bool :=
  match a, b with AStr s, AStr t => str_eqb s t | AInt n, AInt m => n =? m | _, _ => false end.
Inductive tagval := VAtom (a : atom) | VTuple (l : list atom) | VList (l : list atom) | VMagic.
Definition tagdict := list (str * tagval).
Fixpoint assoc {A} (k : str) (d : list (str * A)) : option A :=
  match d with [] => None | (k', v) :: d => if str_eqb k k' then Some v else assoc k d end.
(** parser.py:131-137: getParserTags, over the dictionaries of the classes of the
    method resolution order, most derived first. [None]: the class has no
    PARSER_TAGS of its own; with single inheritance the attribute it shows is
    then the one of its base, which changes nothing. *)
Fixpoint dict_set {A} (k : str) (v : A) (d : list (str * A)) : list (str * A) :=
  match d with [] => [(k, v)] | (k', v') :: d => if str_eqb k k' then (k', v) :: d else (k', v') :: dict_set k v d end.
Definition dict_update {A} (d u : list (str * A)) : list (str * A) := fold_left (fun d kv => dict_set (fst kv) (snd kv) d) u d.
Fixpoint shown_tags (mro : list (option tagdict)) : option tagdict :=
  match mro with [] => None | Some t :: _ => Some t | None :: mro => shown_tags mro end.
Fixpoint getParserTags (mro : list (option tagdict)) : tagdict :=
  match mro with
  | [] => []
  | c :: mro' => match shown_tags (c :: mro') with Some t => dict_update (getParserTags mro') t | None => getParserTags mro' end
  end.

(** A parser class is a number. parser_list.py:15-17 *)
Record database := { parser_list : list Z; bytag : list (str * list (atom * list Z)) }.
Definition empty_db : database := {| parser_list := []; bytag := [(lit "id", []); (lit "category", [])] |}.
Fixpoint aassoc {A} (k : atom) (d : list (atom * A)) : option A :=
  match d with [] => None | (k', v) :: d => if atom_eqb k k' then Some v else aassoc k d end.

(** parser_list.py:11-13 *)
Definition valid_category : list str :=
  [lit "archive"; lit "audio"; lit "container"; lit "file_system"; lit "game"; lit "image"; lit "misc"; lit "program"; lit "video"].
Definition id_char (c : Z) : bool := ((97 <=? c) && (c <=? 122)) || ((48 <=? c) && (c <=? 57)).
Definition id_word (s : str) : bool :=
  match s with c :: d :: e :: r => id_char c && forallb (fun c => id_char c || (c =? 95)) (d :: e :: r) | _ => false end.
(** The dollar of the regular expression also accepts a last newline. *)
Definition id_match (s : str) : bool :=
  id_word s || match rev s with 10 :: r => id_word (rev r) | _ => false end.

(** parser_list.py:19-41: translate; [None] for the boolean True *)
Definition translate_tag (db : database) (name : str) (value : tagval) : res (option (list atom)) :=
  let values := match value with VAtom a => [a] | VTuple l => l | VList l => l | VMagic => [] end in
  if str_eqb name (lit "magic") then Ok None
  else if str_eqb name (lit "min_size") then
    match value with VAtom (AInt n) => if 0 <? n then Ok None else Err ValueError | _ => Err TypeError end
  else if str_eqb name (lit "description") then
    match value with VAtom (AStr (_ :: _)) => Ok None | _ => Err ValueError end
  else if str_eqb name (lit "category") then
    match value with VAtom (AStr s) => if existsb (str_eqb s) valid_category then Ok (Some values) else Err ValueError | _ => Err ValueError end
  else if str_eqb name (lit "id") then
    match value with
    | VAtom (AStr s) =>
        if id_match s then
          match assoc (lit "id") (bytag db) with
          | None => Err KeyError
          | Some byname => match aassoc (AStr s) byname with Some (_ :: _) => Err ValueError | _ => Ok (Some values) end
          end
        else Err ValueError
    | _ => Err ValueError
    end
  else Ok (Some values).
(** parser_list.py:43-60: validParser *)
Definition validParser (tags : tagdict) : bool :=
  match assoc (lit "id") tags, assoc (lit "description") tags with
  | Some _, Some _ =>
      match assoc (lit "file_ext") tags with None | Some (VTuple _) | Some (VList _) => true | _ => false end &&
      match assoc (lit "mime") tags with
      | None => true
      | Some (VTuple l) => forallb (fun a => match a with AStr _ => true | AInt _ => false end) l
      | _ => false
      end
  | _, _ => false
  end.
(** parser_list.py:80-83 *)
Fixpoint add_value (v : atom) (p : Z) (byname : list (atom * list Z)) : list (atom * list Z) :=
  match byname with
  | [] => [(v, [p])]
  | (v', l) :: d => if atom_eqb v v' then (v', l ++ [p]) :: d else (v', l) :: add_value v p d
  end.
Fixpoint add_tag (name : str) (values : list atom) (p : Z) (d : list (str * list (atom * list Z))) : list (str * list (atom * list Z)) :=
  match d with
  | [] => [(name, fold_left (fun b v => add_value v p b) values [])]
  | (n, b) :: d => if str_eqb name n then (n, fold_left (fun b v => add_value v p b) values b) :: d else (n, b) :: add_tag name values p d
  end.
(** parser_list.py:69-76: a refusal is the error ValueError here; the code prints
    a message and returns. *)
Fixpoint translate_all (db : database) (tags : tagdict) : res (list (str * list atom)) :=
  match tags with
  | [] => Ok []
  | (n, v) :: tags =>
      do t <- translate_tag db n v;
      do rest <- translate_all db tags;
      Ok (match t with None => rest | Some vs => (n, vs) :: rest end)
  end.
(** parser_list.py:62-83: add; the result says if the parser was added *)
Definition add_parser (db : database) (p : Z) (tags : tagdict) : res (database * bool) :=
  if negb (validParser tags) then Ok (db, false)
  else match translate_all db tags with
       | Err ValueError => Ok (db, false)
       | Err e => Err e
       | Ok ts => Ok ({| parser_list := parser_list db ++ [p]; bytag := fold_left (fun d nv => add_tag (fst nv) (snd nv) p d) ts (bytag db) |}, true)
       end.
(** parser_list.py:211-217: the parsers loaded one after the other *)
Fixpoint load (db : database) (classes : list (Z * tagdict)) : res database :=
  match classes with
  | [] => Ok db
  | (p, tags) :: classes => do r <- add_parser db p tags; load (fst r) classes
  end.

(** ** guess.py *)
(** What a tag of the constructor may be *)
Inductive qtag := TNone | TCall (f : Z -> bool) | TClass (p : Z) | TArgs (a : Z) | TTag (name : str) (value : option str).
Section Query.
(** [lower]: str.lower; [order i s]: the order in which Python iterates the set [s]
    when it handles the i-th tag (any order). *)
Context (lower : str -> str) (order : nat -> list Z -> list Z).

(** os.path.basename(value).split("."): what follows the last slash, then the last
    dot; [None] without dot *)
Definition after_last (c : Z) (s : str) : option str :=
  (fix go (s acc : str) : option str := match s with [] => None | x :: s => if x =? c then Some acc else go s (x :: acc) end) (rev s) [].
Definition basename (s : str) : str := match after_last 47 s with Some t => t | None => s end.
(** guess.py:39-47: translate *)
Definition q_translate (name : str) (value : option str) : res (str * option str) :=
  if str_eqb name (lit "filename") then
    match value with
    | None => Err TypeError
    | Some v => Ok (lit "file_ext", Some (match after_last 46 (basename v) with Some e => lower e | None => [] end))
    end
  else Ok (name, value).

Record query := { q_validate : bool; q_fallback : option bool; q_other : option Z; q_args : option Z; q_parsers : list Z }.
(** Constructor state: validate, fallback, args, self.parsers (a set), parsers *)
Record qstate := { s_validate : bool; s_fallback : option bool; s_args : option Z; s_set : list Z; s_parsers : list Z }.

Fixpoint mem (p : Z) (l : list Z) : bool := match l with [] => false | x :: l => (p =? x) || mem p l end.
Definition remove (p : Z) (l : list Z) : list Z := filter (fun x => negb (x =? p)) l.
(** guess.py:75-79 *)
Fixpoint take_all (l : list Z) (set : list Z) : list Z * list Z :=
  match l with
  | [] => ([], set)
  | p :: l => if mem p set then let (f, s) := take_all l (remove p set) in (p :: f, s) else take_all l set
  end.
(** guess.py:49-80: _getByTag; what is found and the new state *)
Definition getByTag (db : database) (i : nat) (t : qtag) (st : qstate) : res (list Z * qstate) :=
  match t with
  | TNone => Ok ([], {| s_validate := s_validate st; s_fallback := s_fallback st; s_args := s_args st; s_set := []; s_parsers := s_parsers st |})
  | TCall f =>
      let found := filter f (order i (s_set st)) in
      Ok (found, {| s_validate := s_validate st; s_fallback := s_fallback st; s_args := s_args st; s_set := fold_left (fun s p => remove p s) found (s_set st); s_parsers := s_parsers st |})
  | TClass p => Ok ([p], {| s_validate := false; s_fallback := s_fallback st; s_args := s_args st; s_set := s_set st; s_parsers := s_parsers st |})
  | TArgs a => Ok ([], {| s_validate := s_validate st; s_fallback := s_fallback st; s_args := Some a; s_set := s_set st; s_parsers := s_parsers st |})
  | TTag name value =>
      do nv <- q_translate name value;
      let byname := match assoc (fst nv) (bytag db) with Some b => b | None => [] end in
      let values := match snd nv with
                    | None => map snd byname
                    | Some v => [match aassoc (AStr v) byname with Some l => l | None => [] end]
                    end in
      let (found, set) := take_all (List.concat values) (s_set st) in
      Ok (found, {| s_validate := s_validate st && negb (str_eqb (fst nv) (lit "id")); s_fallback := s_fallback st; s_args := s_args st; s_set := set; s_parsers := s_parsers st |})
  end.
(** guess.py:24-29 *)
Fixpoint q_loop (db : database) (i : nat) (tags : list qtag) (st : qstate) : res qstate :=
  match tags with
  | [] => Ok st
  | t :: tags =>
      match s_set st with
      | [] => Ok st
      | _ =>
          do r <- getByTag db i t st;
          let (found, st) := r in
          let parsers := s_parsers st ++ found in
          let fallback := match s_fallback st with None => Some (zlen parsers =? 1) | f => f end in
          q_loop db (S i) tags {| s_validate := s_validate st; s_fallback := fallback; s_args := s_args st; s_set := s_set st; s_parsers := parsers |}
      end
  end.
(** guess.py:17-34: QueryParser.__init__ *)
Definition make_query (db : database) (tags : list qtag) : res query :=
  do st <- q_loop db 0 tags {| s_validate := true; s_fallback := None; s_args := None; s_set := parser_list db; s_parsers := [] |};
  let rest := order (length tags) (s_set st) in
  Ok {| q_validate := s_validate st; q_fallback := s_fallback st; q_other := hd_error rest; q_args := s_args st;
        q_parsers := s_parsers st ++ rest |}.
End Query.

(** ** Parsing *)
(** What calling a parser class does: a parser, ValidateError, another exception *)
Inductive outcome := Good | Invalid | Raises.
(** What the method validate of a parser gives *)
Inductive vresult := VTrue | VFalse | VMessage | VRaise.
(** parser.py:31-44: HachoirParser.__init__; [sizeGe n]: the stream has n bits at
    least. The constructor of the field set (GenericParser) is taken to succeed. *)
Definition construct (min_size : option Z) (sizeGe : Z -> bool) (v : vresult) (validate : bool) : outcome :=
  if validate then
    match min_size with
    | None => Raises
    | Some n => if sizeGe n then match v with VTrue => Good | VRaise => Raises | _ => Invalid end else Invalid
    end
  else Good.

(** guess.py:95-118: doparse; [make p validate] is the outcome of the class p *)
Fixpoint doparse_loop (make : Z -> bool -> outcome) (validate : bool) (qfallback : bool) (parsers : list Z) (fallback : bool) (fb : option Z) : option Z * option Z :=
  match parsers with
  | [] => (None, fb)
  | p :: parsers =>
      match make p validate with
      | Good => (Some p, fb)
      | Invalid => doparse_loop make validate qfallback parsers false (if fallback && qfallback then Some p else fb)
      | Raises => doparse_loop make validate qfallback parsers false fb
      end
  end.
Definition doparse (make : Z -> bool -> outcome) (use_fallback : bool) (q : query) (fallback : bool) : option (Z * bool) :=
  match doparse_loop make (q_validate q) (match q_fallback q with Some true => true | _ => false end) (q_parsers q) fallback None with
  | (Some p, _) => Some (p, q_validate q)
  | (None, Some p) => if use_fallback then Some (p, false) else None
  | (None, None) => None
  end.
(** guess.py:82-93: parse; [cached]: the class of the live parser remembered by the
    stream. The result is the class of the parser given, and the new cache. *)
Definition parse (make : Z -> bool -> outcome) (use_fallback : bool) (q : query) (cached : option Z) (fallback : bool) : option Z * option Z :=
  match cached with
  | Some p => if mem p (q_parsers q) then (Some p, cached)
              else match doparse make use_fallback q fallback with Some (r, _) => (Some r, Some r) | None => (None, cached) end
  | None => match doparse make use_fallback q fallback with Some (r, _) => (Some r, Some r) | None => (None, None) end
  end.

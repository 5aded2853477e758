(** Model of parser/misc/torrent.py: bencoded documents; and of Python's int(text, base). *)
From Coq Require Import String.
From Verif Require Export Base BitsModel StreamModel DictModel FieldModel Lit.
Open Scope Z_scope.

(** ** Python's int(text, base), for a text of code points below 256 *)
Definition is_space (c : Z) : bool := ((9 <=? c) && (c <=? 13)) || ((28 <=? c) && (c <=? 32)) || (c =? 133) || (c =? 160).
Definition digit_of (c : Z) : option Z :=
  if (48 <=? c) && (c <=? 57) then Some (c - 48)
  else if (97 <=? c) && (c <=? 122) then Some (c - 87)
  else if (65 <=? c) && (c <=? 90) then Some (c - 55)
  else None.
Fixpoint skip_spaces (t : str) : str := match t with c :: t' => if is_space c then skip_spaces t' else t | [] => [] end.
(** The digits; [after] tells that the last character was a digit (an underscore may
    only be found between two digits). *)
Fixpoint int_digits (base : Z) (t : str) (acc : Z) (after : bool) : option Z :=
  match t with
  | [] => if after then Some acc else None
  | c :: t =>
      if c =? 95 then (if after then int_digits base t acc false else None)
      else match digit_of c with
           | Some d => if d <? base then int_digits base t (base * acc + d) true else None
           | None => None
           end
  end.
(** The prefix 0o of base 8 (and one underscore after it) is allowed. *)
Definition int_prefix (base : Z) (t : str) : str :=
  if base =? 8 then
    match t with
    | 48 :: c :: t' => if (c =? 111) || (c =? 79) then match t' with 95 :: t'' => t'' | _ => t' end else t
    | _ => t
    end
  else t.
Definition py_int (base : Z) (t : str) : option Z :=
  let t := rev (skip_spaces (rev (skip_spaces t))) in
  match t with
  | 45 :: t => match int_digits base (int_prefix base t) 0 false with Some v => Some (- v) | None => None end
  | 43 :: t => int_digits base (int_prefix base t) 0 false
  | _ => int_digits base (int_prefix base t) 0 false
  end.

(** ** The fields of a document *)
(** A field set: its absolute address and size in bits, and what it shows.
    [CInt]: the value of an integer ([None]: int() raises, field/field.py:118-129);
    [CText] a string; [CRaw] the raw data of a long string (torrent.py:71-73), [CEmpty]:
    these have no value; [CList], [CDict]: name given to the item (torrent.py:108-117), its key and value. *)
Inductive tree := Node (addr size : Z) (c : content)
with content :=
| CInt (value : option Z)
| CText (text : str)
| CRaw (data : list Z)
| CEmpty
| CList (items : list tree)
| CDict (items : list (str * tree * tree)).
Definition t_addr (t : tree) := let 'Node a _ _ := t in a.
Definition t_size (t : tree) := let 'Node _ s _ := t in s.
Definition t_content (t : tree) := let 'Node _ _ c := t in c.

Section Parser.
Context (read : read_fun) (stream_size : Z).

(** torrent.py:23-45: Integer *)
Definition Integer (addr : Z) : res tree :=
  let start := addr + 8 in
  do len <- searchBytesLength read stream_size [101] false start (Some (start + (21 + 1) * 8));
  match len with
  | None => Err ParserError
  | Some len =>
      if len =? 0 then Err ParserError
      else do text <- readBytes read start len;
           Ok (Node addr ((1 + len + 1) * 8) (CInt (py_int 10 text)))
  end.
(** torrent.py:48-84: TorrentString.  The text of the length is taken as ISO-8859-1:
    other digits than 0-9, possible when it is in UTF-8, are not modelled.  Data that
    is not there is an error here; for the code see C27. *)
Definition TorrentString (addr : Z) : res tree :=
  do len <- searchBytesLength read stream_size [58] false addr (Some (addr + (6 + 1) * 8));
  match len with
  | None => Err ParserError
  | Some n =>
      if n =? 0 then Err ParserError
      else
        do text <- readBytes read addr n;
        match py_int 10 text with
        | None => Err ParserError
        | Some len =>
            if len <? 0 then Err ParserError
            else if len =? 0 then Ok (Node addr ((n + 1) * 8) CEmpty)
            else
              do value <- readBytes read (addr + (n + 1) * 8) len;
              Ok (Node addr ((n + 1 + len) * 8) (if len <? 512 then CText value else CRaw value))
        end
  end.

(** torrent.py:108-117: the name of an item: [str(key).replace(" ", "_")] when the key
    has a value *)
Definition underscore (t : str) : str := map (fun c => if c =? 32 then 95 else c) t.
Definition item_name (key : tree) : str :=
  match t_content key with
  | CInt (Some v) => if v <? 0 then 45 :: dec (- v) else dec v
  | CText t => underscore t
  | _ => lit "item[]"
  end.

(** torrent.py:98-103: the items of a List; [entry] reads one.  The items and the
    address of the end delimiter. *)
Fixpoint list_items (entry : Z -> res tree) (n : nat) (a : Z) : res (list tree * Z) :=
  match n with
  | O => Err OutOfFuel
  | S n =>
      do e <- readBytes read a 1;
      if str_eqb e [101] then Ok ([], a)
      else do t <- entry a; do r <- list_items entry n (a + t_size t); Ok (t :: fst r, snd r)
  end.
(** torrent.py:87-93, 134-137: the items of a Dictionary *)
Fixpoint dict_items (entry : Z -> res tree) (n : nat) (a : Z) : res (list (str * tree * tree) * Z) :=
  match n with
  | O => Err OutOfFuel
  | S n =>
      do e <- readBytes read a 1;
      if str_eqb e [101] then Ok ([], a)
      else
        do key <- entry a;
        do value <- entry (a + t_size key);
        do r <- dict_items entry n (a + t_size key + t_size value);
        Ok ((item_name key, key, value) :: fst r, snd r)
  end.
(** torrent.py:143-158: Entry; the recursion takes one step of fuel per level, a list
    or a dictionary one per item. *)
Fixpoint Entry (fuel : nat) (addr : Z) : res tree :=
  match fuel with
  | O => Err OutOfFuel
  | S fuel =>
      do tag <- readBytes read addr 1;
      match tag with
      | [c] =>
          if c =? 105 then Integer addr
          else if (48 <=? c) && (c <=? 57) then TorrentString addr
          else if c =? 108 then
            do r <- list_items (Entry fuel) (S fuel) (addr + 8);
            Ok (Node addr (snd r + 8 - addr) (CList (fst r)))
          else if c =? 100 then
            do r <- dict_items (Entry fuel) (S fuel) (addr + 8);
            Ok (Node addr (snd r + 8 - addr) (CDict (fst r)))
          else Err ParserError
      | _ => Err ParserError
      end
  end.
End Parser.
(** torrent.py:178-179: the root of a torrent, on a stream of [stream_size] bits *)
Definition torrent_root (read : read_fun) (stream_size : Z) : res tree :=
  Entry read stream_size (S (Z.to_nat (stream_size / 8))) 0.

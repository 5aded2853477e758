(** Model of parser/container/asn1.py. *)
From Coq Require Import String.
From Verif Require Export Base BitsModel StreamModel DictModel FieldModel VarintModel Lit.
Open Scope Z_scope.

(** ** The fields *)
(** An Object: its absolute address and size in bits, its class, form and type, and what it
    contains.  After [CItems] and [COid] comes the exception that ended the fields, if
    any; the bits that follow the last field are then a raw field (C27).
    [CCut]: the content goes beyond the end of the object, which its parent cut (C27);
    an object that is cut after its size has no content (generic_field_set.py:226-256). *)
Inductive node := Node (addr size cls form key : Z) (c : content)
with content :=
| CNone
| CItems (items : list node) (err : option exn)
| CBool (v : Z)
| CInt (v : Z)
| CBits (padding : Z) (value : list Z)
| CBytes (value : list Z)
| COid (first : Z) (items : list Z) (err : option exn)
| CText (charset : str) (value : list Z)
| CRaw (value : list Z)
| CCut
| CErr (e : exn).
Definition n_addr (n : node) := let 'Node a _ _ _ _ _ := n in a.
Definition n_size (n : node) := let 'Node _ s _ _ _ _ := n in s.
Definition n_content (n : node) := let 'Node _ _ _ _ _ c := n in c.

(** asn1.py:103-170: the functions readXXX *)
Inductive handler := HNone | HBool | HInt | HBits | HOctets | HOid | HText (charset : str) | HSeq | HSet.
(** asn1.py:194-236: TYPE_INFO; [None]: the type is not in it *)
Definition type_info (key : Z) : option handler :=
  if (key =? 0) || (key =? 5) || (key =? 7) || (key =? 8) || (key =? 11) || (key =? 13) || (key =? 14) then Some HNone
  else if key =? 1 then Some HBool
  else if (key =? 2) || (key =? 10) then Some HInt
  else if key =? 3 then Some HBits
  else if key =? 4 then Some HOctets
  else if key =? 6 then Some HOid
  else if (key =? 9) || ((18 <=? key) && (key <=? 29)) then Some (HText (lit "ASCII"))
  else if key =? 12 then Some (HText (lit "UTF-8"))
  else if key =? 16 then Some HSeq
  else if key =? 17 then Some HSet
  else if key =? 30 then Some (HText (lit "UTF-16"))
  else None.
(** asn1.py:258-284: the handler chosen by __init__ *)
Definition choose (cls form key : Z) : res handler :=
  if cls =? 0 then
    match type_info key with
    | Some h => Ok h
    | None => if key =? 31 then Err ParserError else Ok HNone
    end
  else if negb (form =? 0) then Ok HSeq
  else Ok (HText (lit "ASCII")).

Section Parser.
Context (read : read_fun).

(** asn1.py:103-105: readSequence up to the address [stop]; [obj] reads an object that
    its parent ends at [stop] *)
Fixpoint items (obj : Z -> Z -> res node) (n : nat) (stop a : Z) : list node * option exn :=
  match n with
  | O => ([], Some OutOfFuel)
  | S n =>
      if stop <=? a then ([], None)
      else match obj stop a with
           | Err e => ([], Some e)
           | Ok t => let r := items obj n stop (a + n_size t) in (t :: fst r, snd r)
           end
  end.
(** asn1.py:144-147: the items of readObjectID *)
Fixpoint oid_items (n : nat) (stop a : Z) : list Z * option exn :=
  match n with
  | O => ([], Some OutOfFuel)
  | S n =>
      if stop <=? a then ([], None)
      else match oid_int read a with
           | Err e => ([], Some e)
           | Ok (v, size) =>
               if stop <? a + size then ([], Some StopIteration)
               else let r := oid_items n stop (a + size) in (v :: fst r, snd r)
           end
  end.
Definition ok_or (r : res content) : content := match r with Ok c => c | Err e => CErr e end.
(** The content, of [size] bytes at the address [a], of an object that ends at [stop] *)
Definition read_content (obj : Z -> Z -> res node) (n : nat) (h : handler) (a size stop : Z) : content :=
  match h with
  | HSeq => let r := items obj n stop a in CItems (fst r) (snd r)
  | HSet => match obj stop a with Ok t => CItems [t] None | Err e => CItems [] (Some e) end
  | HBool => if negb (size =? 1) then CErr ParserError
             else if stop <? a + 8 then CCut
             else ok_or (do v <- readBits read a 8 BIG_ENDIAN; Ok (CBool v))
  | HInt => if (size * 8 <? 8) || (16384 <? size * 8) then CErr OtherError
            else if stop <? a + size * 8 then CCut
            else ok_or (do v <- readInteger read a true (size * 8) BIG_ENDIAN; Ok (CInt v))
  | HBits => if stop <? a + size * 8 then CCut
             else ok_or (do p <- readBits read a 8 BIG_ENDIAN;
                         if 1 <? size then do v <- readBytes read (a + 8) (size - 1); Ok (CBits p v) else Ok (CBits p []))
  | HOctets => if stop <? a + size * 8 then CCut else ok_or (do v <- readBytes read a size; Ok (CBytes v))
  | HOid => if stop <? a + 8 then CCut
            else ok_or (do f <- readBits read a 8 BIG_ENDIAN; let r := oid_items n stop (a + 8) in Ok (COid f (fst r) (snd r)))
  | HText cs => if stop <? a + size * 8 then CCut else ok_or (do v <- readBytes read a size; Ok (CText cs v))
  | HNone => if stop <? a + size * 8 then CCut else ok_or (do v <- readBytes read a size; Ok (CRaw v))
  end.
(** asn1.py:193-286: Object.  Its parent ends at the address [stop] and cuts it there
    (generic_field_set.py:185-202); its size must be before that address. *)
Fixpoint Object (fuel : nat) (stop addr : Z) : res node :=
  match fuel with
  | O => Err OutOfFuel
  | S fuel =>
      do cls <- readBits read addr 2 BIG_ENDIAN;
      do form <- readBits read (addr + 2) 1 BIG_ENDIAN;
      do key <- readBits read (addr + 3) 5 BIG_ENDIAN;
      do h <- choose cls form key;
      do sz <- asn_int read (addr + 8);
      let a := addr + 8 + snd sz in
      if stop <? a then Err MissingField else
      let size := Z.min (8 + snd sz + fst sz * 8) (stop - addr) in
      Ok (Node addr size cls form key
           (if fst sz =? 0 then CNone else if addr + size <=? a then CCut else read_content (Object fuel) (S fuel) h a (fst sz) (addr + size)))
  end.
End Parser.

(** asn1.py:299-310: the root of a file of [stream_size] bits and validate.  A root that is
    larger than the file is not shown (generic_field_set.py:198-202). *)
Definition asn_root (read : read_fun) (stream_size : Z) : res node :=
  do t <- Object read (S (Z.to_nat (stream_size / 8))) stream_size 0;
  do sz <- asn_int read 8;
  if stream_size <? 8 + snd sz + fst sz * 8 then Err ParserError else Ok t.
Definition asn_validate (read : read_fun) (stream_size : Z) : bool :=
  match asn_root read stream_size with Ok t => n_size t =? stream_size | Err _ => false end.

(** asn1.py:137-141, 173-176: the text of an object identifier *)
Definition join_dots (l : list str) : str := match l with [] => [] | t :: l => t ++ List.concat (map (fun u => lit "." ++ u) l) end.
Definition oid_text (first : Z) (items : list Z) : str :=
  join_dots ((dec (first / 40) ++ lit "." ++ dec (first mod 40)) :: map dec items).

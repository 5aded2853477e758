(** Parsers written as generators: what a field set shows of a function createFields that yields plain fields and field sets, and
    uses the values of those it has yielded.  Used by the models of gzip, PNG, ZIP, OGG... (GzipModel.v, ...). *)
From Verif Require Export Base BitsModel StreamModel DictModel FieldModel.

(** What is shown of a field: the number or the bytes it stands for *)
Inductive val := VNum (z : Z) | VBytes (b : list Z).
(** Plain fields: integers of so many bits, unsigned (UInt8..., Bit, Bits, Enum of them) or not; RawBytes, Bytes and SubFile; String; strings
    that end with a byte (CString, UnixLine); strings after their length (PascalString8, 16, 32); numbers with a code of
    their own (XiphInt...): their values and sizes. *)
Inductive fkind :=
| KNum (n : Z) (e : endian)
| KInt (n : Z) (e : endian)
| KBytes (n : Z)
| KText (n : Z)
| KLine (suffix : Z)
| KPascal (n : Z) (little : bool)
| KCode (m : read_fun -> Z -> res (Z * Z)).
(** Fields with their absolute addresses and sizes in bits; field sets with the exception that ended their
    fields, if any: the bits that follow are then a raw field (C27). *)
Inductive fld :=
| F (name : str) (addr size : Z) (v : val)
| G (name : str) (addr size : Z) (l : list fld) (e : option exn).
Definition f_name (f : fld) : str := match f with F n _ _ _ => n | G n _ _ _ _ => n end.
Definition f_addr (f : fld) : Z := match f with F _ a _ _ => a | G _ a _ _ _ => a end.
Definition f_size (f : fld) : Z := match f with F _ _ s _ => s | G _ _ s _ _ => s end.
(** The generator: it ends, or raises, or yields a plain field or a field set (of a size, or as large as its fields), whose value or fields
    it may use afterwards; it may use the address of the end of the field set and the address where it is ([self.current_size], [self.eof]),
    and read the stream. *)
Inductive prog :=
| PRet
| PErr (e : exn)
| PFld (name : str) (k : fkind) (c : val -> prog)
| PSet (name : str) (size : option Z) (body : prog) (c : list fld -> prog)
| PAsk (c : Z -> Z -> prog)
| PDo (m : read_fun -> Z -> Z -> Z -> res val) (c : val -> prog).

Section Run.
Context (read : read_fun) (ssize : Z).
(** field.py:70, byte_field.py:19-28, 57-62, bit_field.py:10-50, integer.py:10-49, string_field.py:100-172, 273-292: the size of a plain field and its value.
    [FieldError] is [ParserError].  Simplified: the value of a string is its bytes, without length and suffix (C30, C60); values are read when the
    field is made. *)
Definition fsize (k : fkind) (a : Z) : res Z :=
  match k with
  | KNum n _ | KInt n _ => if 0 <=? n then Ok n else Err AssertionError
  | KBytes n => if (0 <? n) && (n <=? 2 ^ 64) then Ok (n * 8) else Err ParserError
  | KText n => if (1 <=? n) && (n <=? 0xffff) then Ok (n * 8) else Err ParserError
  | KLine c => do len <- searchBytesLength read ssize [c] false a None; match len with Some len => Ok ((len + 1) * 8) | None => Err ParserError end
  | KPascal n little =>
      if n <? 1 then Err AssertionError else do v <- readBits read a (8 * n) (if little then LITTLE_ENDIAN else BIG_ENDIAN); Ok ((n + v) * 8)
  | KCode m => do r <- m read a; if 0 <=? snd r then Ok (snd r) else Err AssertionError
  end.
Definition some_bytes (a n : Z) : res val := if n =? 0 then Ok (VBytes []) else do b <- readBytes read a n; Ok (VBytes b).
Definition fval (k : fkind) (a size : Z) : res val :=
  match k with
  | KNum n e => do v <- readBits read a n e; Ok (VNum v)
  | KInt n e => do v <- readInteger read a true n e; Ok (VNum v)
  | KBytes n | KText n => do b <- readBytes read a n; Ok (VBytes b)
  | KLine _ => some_bytes a (size / 8 - 1)
  | KPascal n _ => some_bytes (a + 8 * n) (size / 8 - n)
  | KCode m => do r <- m read a; Ok (VNum (fst r))
  end.
(** The fields shown, the exception that ended them, and the address of their end *)
Definition shown : Type := list fld * option exn * Z.
Definition put (f : fld) (r : shown) : shown := (f :: fst (fst r), snd (fst r), snd r).
(** basic_field_set.py:65-69, generic_field_set.py:126-196, 303-351: the check of sizes given to field sets, _addField, _fixFieldSize, _stopFeeding and _fixFeedError, for a field set whose fields must end
    before [stop], the end of it or, when it has no size, of the first field set with a size it is in; the next field is at [a].  [first]:
    it has no field.  A plain field that does not fit is deleted, and no other is read; a field set is cut.  The exception of a field set without
    size is raised again, unless the field set has fields up to [stop].  The names of fields are not numbered (C23); autofix is on (C22). *)
Fixpoint run (p : prog) (first : bool) (stop a : Z) : shown :=
  let none := ([], Some (if first then ParserError else StopIteration), a) in
  match p with
  | PRet => ([], None, a)
  | PErr e => ([], Some e, a)
  | PAsk c => run (c stop a) first stop a
  | PDo m c => match m read ssize stop a with Err e => ([], Some e, a) | Ok v => run (c v) first stop a end
  | PFld name k c =>
      match fsize k a with
      | Err e => ([], Some e, a)
      | Ok s =>
          if stop <? a + s then none
          else match fval k a s with
               | Err e => ([], Some e, a)
               | Ok v => put (F name a s v) (run (c v) false stop (a + s))
               end
      end
  | PSet name (Some s) body c =>
      if s <=? 0 then ([], Some ParserError, a)
      else if (stop <=? a) || (first && (stop <? a + s)) then none
      else
        let s := Z.min s (stop - a) in
        let '(l, e, _) := run body true (a + s) a in
        put (G name a s l e) (run (c l) false stop (a + s))
  | PSet name None body c =>
      let '(l, e, b) := run body true stop a in
      match e with
      | None => if b <=? a then none else put (G name a (b - a) l e) (run (c l) false stop b)
      | Some StopIteration => if stop <=? a then none else put (G name a (stop - a) l e) (run (c l) false stop stop)
      | Some x => match l with
                  | _ :: _ => if negb (stop <=? b) then ([], Some x, a)
                              else if b <=? a then none
                              else put (G name a (b - a) l e) ([], Some StopIteration, b)
                  | [] => ([], Some x, a)
                  end
      end
  end.
End Run.
(** [while not self.eof: ...] *)
Fixpoint loop (body : prog -> prog) (n : nat) : prog :=
  match n with
  | O => PErr OutOfFuel
  | S n => PAsk (fun stop a => if stop <=? a then PRet else body (loop body n))
  end.
(** [for i in range(n): ...] *)
Fixpoint times (body : prog -> prog) (n : nat) (k : prog) : prog :=
  match n with
  | O => k
  | S n => body (times body n k)
  end.
Definition num (v : val) : Z := match v with VNum z => z | VBytes _ => 0 end.
Definition bytes (v : val) : list Z := match v with VBytes b => b | VNum _ => [] end.
(** [field_set["name"].value]: the first field with this name *)
Fixpoint get (name : str) (l : list fld) : option val :=
  match l with
  | [] => None
  | F n _ _ v :: l => if str_eqb n name then Some v else get name l
  | G _ _ _ _ _ :: l => get name l
  end.
(** [yield] of a field whose value is not used, and is *)
Notation "'emit' n k ; p" := (PFld n k (fun _ => p)) (at level 200, n at level 0, k at level 0, p at level 200, right associativity).
Notation "'have' x := n k ; p" := (PFld n k (fun x => p)) (at level 200, x name, n at level 0, k at level 0, p at level 200, right associativity).
(** [if b: ...] *)
Definition when (b : bool) (f : prog -> prog) (p : prog) : prog := if b then f p else p.
Notation LE := LITTLE_ENDIAN.
Notation BE := BIG_ENDIAN.
(** All the values of the fields with this name *)
Definition gets (name : str) (l : list fld) : list val :=
  flat_map (fun f => match f with F n _ _ v => if str_eqb n name then [v] else [] | G _ _ _ _ _ => [] end) l.
(** The value of a field [o] bits further, which must end before the end of the field set when [strict]: what [self["name"].value] is in the
    constructor of a field set, whose first field is refused when it is too large, and which has a size afterwards *)
Definition peek (o : Z) (k : fkind) (strict : bool) : (val -> prog) -> prog :=
  PDo (fun read ssize stop a =>
    do s <- fsize read ssize k (a + o);
    if strict && (stop <? a + o + s) then Err ParserError else fval read k (a + o) s).
Notation "'look' x := o k s ; p" := (peek o k s (fun x => p)) (at level 200, x name, o at level 0, k at level 0, s at level 0, p at level 200, right associativity).
(** [while not self.eof: ...] where each turn depends on what the turns before have yielded *)
Fixpoint loop_from {S : Type} (body : S -> (S -> prog) -> prog) (n : nat) (s : S) : prog :=
  match n with
  | O => PErr OutOfFuel
  | Datatypes.S n => PAsk (fun stop a => if stop <=? a then PRet else body s (loop_from body n))
  end.

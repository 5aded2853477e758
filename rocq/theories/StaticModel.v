(** Model of hachoir/field/static_field_set.py, of the static_size attribute of
    the field classes it uses, and of hachoir/field/basic_field_set.py:36-39.

    Classes are numbered in order of definition; a class only refers to classes
    defined before it.  Class attributes are looked up in the class, then in its
    base.  Simplifications: single inheritance; [is] between class names is
    equality (the names written in the source are interned). *)
From Verif Require Export Base DictModel.

(** Field classes that are not field sets, with their arguments after the
    name. *)
Inductive leaf :=
| LBits (n : Z)            (* RawBits, Bits, PaddingBits, NullBits *)
| LBit
| LBytes (n : Z)           (* RawBytes, Bytes, PaddingBytes, NullBytes, String *)
| LInt (size : Z)          (* integerFactory: UInt8 .. Int64 *)
| LChar
| LFloat (mantissa exponent : Z)  (* floatFactory *)
| LTime (size : Z)         (* timestampFactory: no argument but the name *)
| LGenInt (signed : bool) (size : Z)  (* GenericInteger *)
| LDynamic (size : Z).     (* static_size = None, e.g. CString *)

(** static_size of the class, called with the arguments if it is callable:
    bit_field.py:16 and 56, byte_field.py:19, padding.py:17 and 63,
    string_field.py:402, integer.py:30, character.py:13, float.py:39; the
    timestamps and GenericInteger inherit [args[1]] of RawBits (bit_field.py:16,
    timestamp.py:25, integer.py:10), which is not their size;
    static_field_set.py:29-31 for the last. *)
Definition leaf_static (l : leaf) : res Z :=
  match l with
  | LBits n => Ok n
  | LBit => Ok 1
  | LBytes n => Ok (n * 8)
  | LInt size => Ok size
  | LChar => Ok 8
  | LFloat m e => Ok (1 + m + e)
  | LTime _ => Err IndexError
  | LGenInt s _ => Ok (if s then 1 else 0)
  | LDynamic _ => Err ParserError
  end.
(** The size of the field built by the constructor: bit_field.py:18-22 and
    58-62, byte_field.py:25, integer.py:32-34, character.py:16, float.py:44,
    timestamp.py:27-28, integer.py:19. *)
Definition leaf_size (l : leaf) : Z :=
  match l with
  | LBits n => n
  | LBit => 1
  | LBytes n => n * 8
  | LInt size => size
  | LChar => 8
  | LFloat m e => 1 + m + e
  | LTime size => size
  | LGenInt _ size => size
  | LDynamic size => size
  end.

Inductive item := ILeaf (l : leaf) | ISet (c : nat).
(** A subclass of StaticFieldSet: __name__, its base if it is not
    StaticFieldSet itself, and its own [format]. *)
Record cls := { c_name : str; c_base : option nat; c_format : option (list item) }.
(** What is written in the class at run time: [_class] and [static_size]. *)
Record attrs := { a_class : option str; a_size : option Z }.
Definition cstate := nat -> attrs.
Definition cinit : cstate := fun _ => {| a_class := None; a_size := None |}.
Definition set_attrs (st : cstate) (c : nat) (a : attrs) : cstate := fun d => if Nat.eqb d c then a else st d.

Section Table.
Context (table : list cls).
(** Look up an attribute in a class and its bases. *)
Fixpoint look {A} (own : nat -> option A) (fuel c : nat) : option A :=
  match own c with
  | Some a => Some a
  | None =>
      match fuel, nth_error table c with
      | S fuel, Some k => match c_base k with Some b => look own fuel b | None => None end
      | _, _ => None
      end
  end.
Definition own_format (c : nat) : option (list item) :=
  match nth_error table c with Some k => c_format k | None => None end.
Definition format_of (c : nat) : option (list item) := look own_format c c.
Definition class_of (st : cstate) (c : nat) : option str := look (fun d => a_class (st d)) c c.
(** [Some z]: an int; [None]: the method _computeStaticSize. *)
Definition static_of (st : cstate) (c : nat) : option Z := look (fun d => a_size (st d)) c c.

(** static_field_set.py:27-39 and 48-50: _computeItemSize, _computeStaticSize *)
Fixpoint compute (fuel : nat) (st : cstate) (c : nat) : res Z :=
  match fuel with
  | O => Err OutOfFuel
  | S fuel =>
      match format_of c with
      | None => Err TypeError   (* [for item in None] *)
      | Some items =>
          fold_right (fun i acc =>
            do x <- match i with
                    | ILeaf l => leaf_static l
                    | ISet d => match static_of st d with Some z => Ok z | None => compute fuel st d end
                    end;
            do n <- acc; Ok (x + n)) (Ok 0) items
      end
  end.
(** static_field_set.py:19-24: __new__, then basic_field_set.py:36-39: the
    size of the instance. *)
Definition instance (st : cstate) (c : nat) : cstate * res Z :=
  match format_of c, nth_error table c with
  | Some _, Some k =>
      let fresh := match class_of st c with Some n => negb (str_eqb n (c_name k)) | None => true end in
      let '(st, r) :=
        if fresh then
          let st := set_attrs st c {| a_class := Some (c_name k); a_size := a_size (st c) |} in
          match compute (S c) st c with
          | Ok z => (set_attrs st c {| a_class := Some (c_name k); a_size := Some z |}, Ok tt)
          | Err e => (st, Err e)
          end
        else (st, Ok tt) in
      (st, do _ <- r; match static_of st c with Some z => Ok z | None => Err AssertionError end)
  | _, _ => (st, Err AssertionError)
  end.
Fixpoint instances (st : cstate) (l : list nat) : cstate :=
  match l with [] => st | c :: l => instances (fst (instance st c)) l end.
End Table.

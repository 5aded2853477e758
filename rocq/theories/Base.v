(** Shared vocabulary: Python exceptions as values, and Python list slicing.
    Nothing here models hachoir itself. *)
From Coq Require Export List ZArith Lia Bool.
From Coq Require Export ZifyBool ZifyNat.
Export ListNotations.
Open Scope Z_scope.

(** Exceptions raised by the modelled code.  [OutOfFuel] is not a Python
    exception: it marks the exhaustion of the explicit fuel of a loop, and the
    theorems show that it never occurs. *)
Inductive exn : Set :=
| ReadStreamError | InputStreamError | NullStreamError | OutputStreamError
| NotImplementedError | AssertionError | ValueError | TypeError | KeyError
| IndexError | UniqKeyError | ParserError | MissingField | StopIteration
| AttributeError | UnboundLocalError | OtherError
| OutOfFuel.

Inductive res (A : Type) : Type := Ok (a : A) | Err (e : exn).
Arguments Ok {A} a.
Arguments Err {A} e.

Definition bind {A B} (m : res A) (f : A -> res B) : res B :=
  match m with Ok a => f a | Err e => Err e end.
Notation "'do' x <- m ; k" := (bind m (fun x => k))
  (at level 200, x pattern, m at level 100, k at level 200, right associativity).

Definition assert_ (b : bool) : res unit := if b then Ok tt else Err AssertionError.

(** A list of integers that is a genuine Python [bytes] object. *)
Definition is_byte (b : Z) : Prop := 0 <= b < 256.
Definition is_bytes (l : list Z) : Prop := Forall is_byte l.

(** [len(l)]. *)
Definition zlen {A} (l : list A) : Z := Z.of_nat (length l).

(** [l[a:a+n]] for 0 <= a: the specification vocabulary for slices. *)
Definition sub {A} (l : list A) (a n : Z) : list A :=
  firstn (Z.to_nat n) (skipn (Z.to_nat a) l).

(** Python's [l[a:b]] for arbitrary integers (step 1): negative indices count
    from the end, everything is clamped. *)
Definition py_norm (len i : Z) : Z :=
  if i <? 0 then Z.max 0 (i + len) else Z.min i len.
Definition py_slice {A} (l : list A) (a b : Z) : list A :=
  let a' := py_norm (zlen l) a in
  let b' := py_norm (zlen l) b in
  sub l a' (b' - a').

Definition py_from {A} (l : list A) (a : Z) : list A := py_slice l a (zlen l).
Definition py_upto {A} (l : list A) (b : Z) : list A := py_slice l 0 b.

(** [l[i]] with Python's negative indexing; out of range is IndexError. *)
Definition py_nth {A} (l : list A) (i : Z) : res A :=
  let i' := if i <? 0 then i + zlen l else i in
  if (0 <=? i') && (i' <? zlen l) then
    match nth_error l (Z.to_nat i') with
    | Some x => Ok x
    | None => Err IndexError
    end
  else Err IndexError.

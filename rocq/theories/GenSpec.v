(** Fields one after the other, for the claims about parsers written as generators. *)
From Verif Require Import Base BitsModel BitsSpec GenModel NumSpec.

(** The fields [l] start at [a] and end at [b], without hole or overlap; those of a field set start with
    it and end inside it, and end with it unless something ended them before. *)
Inductive tiled : Z -> list fld -> Z -> Prop :=
| ti_nil a : tiled a [] a
| ti_fld name a s v l b : 0 <= s -> tiled (a + s) l b -> tiled a (F name a s v :: l) b
| ti_set name a s k e l b q : 0 < s -> tiled a k q -> q <= a + s -> tiled (a + s) l b -> tiled a (G name a s k e :: l) b.
(** No loop of a field set, or of a field set in it, was ended by the bound on the number of its turns that the model gives it. *)
Fixpoint settled (f : fld) : Prop :=
  match f with
  | F _ _ _ _ => True
  | G _ _ _ l e => e <> Some OutOfFuel /\ (fix all (l : list fld) : Prop := match l with [] => True | f :: l => settled f /\ all l end) l
  end.
Definition settled_file (r : shown) : Prop := let '(l, e, _) := r in e <> Some OutOfFuel /\ Forall settled l.
(** The bits of a number of [n] bytes, in the order in which the fields of a file with this byte order take them, and a number of some of them *)
Definition bits_of (e : endian) (x : list Z) : list bool := match e with LITTLE_ENDIAN => bits_le x | _ => bits_be x end.
Definition val_of (e : endian) (l : list bool) : Z := match e with LITTLE_ENDIAN => val_le l | _ => val_be l end.

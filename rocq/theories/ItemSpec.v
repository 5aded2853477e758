(** Tables of fields: what a format says a part of a file is made of, in order, with names and values.  They give the bytes of the part, and what must be
    shown of it. *)
From Verif Require Import Base BitsModel BitsSpec NumSpec DictModel GenModel GenSpec.

(** Plain fields with their values: numbers of [n] bytes without and with sign; bytes; texts; texts that end with a byte; texts after their length; numbers with a code of their own *)
Inductive plain :=
| SNum (n : nat) (e : endian) (v : Z)
| SInt (n : nat) (e : endian) (v : Z)
| SBytes (x : list Z)
| SText (x : list Z)
| SLine (s : Z) (x : list Z)
| SPascal (n : nat) (little : bool) (x : list Z)
| SCode (x : list Z) (v : Z).
(** A plain field; bytes split into parts of some bits; a set of fields *)
Inductive item :=
| I (name : str) (s : plain)
| IBits (e : endian) (n : nat) (l : list (str * list bool))
| ISet (name : str) (l : list item).

Definition pascal_end (little : bool) : endian := if little then LITTLE_ENDIAN else BIG_ENDIAN.
Definition plain_bytes (s : plain) : list Z :=
  match s with
  | SNum n e v => uint e n v
  | SInt n e v => uint e n (v mod 2 ^ (8 * Z.of_nat n))
  | SBytes x | SText x | SCode x _ => x
  | SLine s x => x ++ [s]
  | SPascal n little x => uint (pascal_end little) n (zlen x) ++ x
  end.
Definition plain_val (s : plain) : val :=
  match s with SNum _ _ v | SInt _ _ v | SCode _ v => VNum v | SBytes x | SText x | SLine _ x | SPascal _ _ x => VBytes x end.
(** The values a plain field can have, but for codes *)
Definition plain_ok (s : plain) : Prop :=
  match s with
  | SNum n e v => e <> MIDDLE_ENDIAN /\ (1 <= n)%nat /\ 0 <= v < 2 ^ (8 * Z.of_nat n)
  | SInt n e v => e <> MIDDLE_ENDIAN /\ (1 <= n)%nat /\ - 2 ^ (8 * Z.of_nat n - 1) <= v < 2 ^ (8 * Z.of_nat n - 1)
  | SBytes x => x <> [] /\ zlen x <= 2 ^ 64
  | SText x => x <> [] /\ zlen x <= 0xffff
  | SLine s x => ~ In s x
  | SPascal n little x => (1 <= n)%nat /\ zlen x < 2 ^ (8 * Z.of_nat n)
  | SCode _ _ => False
  end.
Definition all_bits (l : list (str * list bool)) : list bool := flat_map snd l.
(** The bytes of items *)
Fixpoint bytes_of (i : item) : list Z :=
  match i with
  | I _ s => plain_bytes s
  | IBits e n l => uint e n (val_of e (all_bits l))
  | ISet _ l => flat_map bytes_of l
  end.
Definition bytes_of_all (l : list item) : list Z := flat_map bytes_of l.
Definition len (i : item) : Z := zlen (bytes_of i).
(** What must be shown of them, for items from byte [p] on *)
Fixpoint bits_at_addr (e : endian) (l : list (str * list bool)) (a : Z) : list fld :=
  match l with [] => [] | (name, b) :: l => F name a (zlen b) (VNum (val_of e b)) :: bits_at_addr e l (a + zlen b) end.
Fixpoint show (i : item) (p : Z) : list fld :=
  match i with
  | I name s => [F name (8 * p) (8 * zlen (plain_bytes s)) (plain_val s)]
  | IBits e n l => bits_at_addr e l (8 * p)
  | ISet name l => [G name (8 * p) (8 * zlen (flat_map bytes_of l))
                      ((fix shows (l : list item) (p : Z) : list fld := match l with [] => [] | i :: l => show i p ++ shows l (p + len i) end) l p) None]
  end.
Fixpoint shows (l : list item) (p : Z) : list fld := match l with [] => [] | i :: l => show i p ++ shows l (p + len i) end.

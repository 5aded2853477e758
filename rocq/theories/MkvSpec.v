(** Matroska files, for the claims about their parser. *)
From Coq Require Import String.
From Verif Require Import Base BitsModel DictModel FieldModel VarintSpec NumSpec TlvModel TlvSpec MkvModel Lit.
Open Scope Z_scope.

(** The identifier written on [n] bytes with the value bits [v]: it is named with its length marker. *)
Definition marked (n : nat) (v : Z) : Z := 2 ^ (7 * Z.of_nat n) + v.
(** The values that the bytes of an element have, according to its type *)
Inductive shows : kind -> list Z -> val -> Prop :=
| sh_empty k : shows k [] NoVal
| sh_unsigned n v : (1 <= n)%nat -> Z.of_nat n <= 2048 -> 0 <= v < 2 ^ (8 * Z.of_nat n) -> shows KUnsigned (uint BIG_ENDIAN n v) (VInt v)
| sh_signed n v : (1 <= n)%nat -> Z.of_nat n <= 2048 -> - 2 ^ (8 * Z.of_nat n - 1) <= v < 2 ^ (8 * Z.of_nat n - 1) ->
    shows KSigned (uint BIG_ENDIAN n (v mod 2 ^ (8 * Z.of_nat n))) (VInt v)
| sh_text b : 1 <= zlen b <= 65535 -> shows KText b (VText b)
| sh_bytes b : 1 <= zlen b -> shows KBytes b (VBytes b)
| sh_float b : zlen b = 4 \/ zlen b = 8 -> shows KFloat b (VFloat b)
| sh_block b : 1 <= zlen b -> shows KBlock b (VBlock b).
(** The header of an element: the identifier on [n] bytes, the size on [m] bytes *)
Definition header (n : nat) (v : Z) (m : nat) (size : Z) : list Z := ebml n v ++ ebml m size.
Definition header_ok (n : nat) (v : Z) (m : nat) (size : Z) : Prop :=
  (1 <= n <= 8)%nat /\ 0 <= v < 2 ^ (7 * Z.of_nat n) /\ (1 <= m <= 8)%nat /\ size < 2 ^ (7 * Z.of_nat m) - 1.
(** An element that has a value, in the table [c] *)
Inductive leaf (c : Z) : el -> list Z -> Prop :=
| leaf_intro n v m b name k x : header_ok n v m (zlen b) -> entry c (marked n v) = (name, Leaf k) -> shows k b x ->
    leaf c (El (marked n v) name (Some (zlen b)) x) (header n v m (zlen b) ++ b).
(** An element that has elements, those of the table [c'] *)
Inductive master (c : Z) : el -> Z -> list Z -> list Z -> list Z -> Prop :=
| master_intro n v m name c' b : header_ok n v m (zlen b) -> entry c (marked n v) = (name, Sub c') ->
    master c (El (marked n v) name (Some (zlen b)) NoVal) c' (header n v m (zlen b)) b [].
Definition any_last (c : Z) (b : list Z) : Prop := True.
Definition elements (c : Z) : list (doc el) -> list Z -> Prop := encs leaf master any_last c.
Definition elements_at (c : Z) : Z -> list (doc el) -> list Z -> list (tree el) -> Prop := laids leaf master any_last c.
Definition element (c : Z) : doc el -> list Z -> Prop := enc leaf master any_last c.
Definition element_at (c : Z) : Z -> doc el -> list Z -> tree el -> Prop := laid leaf master any_last c.
(** An unknown size: all the value bits are set *)
Definition unknown (m : nat) : Z := 2 ^ (7 * Z.of_nat m) - 1.

(** The texts that string literals denote (Python's escapes), and printability. *)
From Verif Require Import Base DictModel.

(** Hexadecimal digits *)
Definition hex_value (c : Z) : option Z :=
  if (48 <=? c) && (c <=? 57) then Some (c - 48)
  else if (97 <=? c) && (c <=? 102) then Some (c - 87)
  else if (65 <=? c) && (c <=? 70) then Some (c - 55) else None.
Inductive hex_number : str -> Z -> Prop :=
| hex_nil : hex_number [] 0
| hex_snoc l v c d : hex_number l v -> hex_value c = Some d -> hex_number (l ++ [c]) (16 * v + d).
Definition oct_digit (c : Z) : Prop := 48 <= c <= 55.

(** [literal t v]: the characters t between the quotes of a literal denote v.
    The octal escapes are those of one digit; a longer run is not covered. *)
Inductive literal : str -> str -> Prop :=
| l_nil : literal [] []
| l_char c t v : c <> 92 -> literal t v -> literal (c :: t) (c :: v)
| l_a t v : literal t v -> literal (92 :: 97 :: t) (7 :: v)
| l_b t v : literal t v -> literal (92 :: 98 :: t) (8 :: v)
| l_t t v : literal t v -> literal (92 :: 116 :: t) (9 :: v)
| l_n t v : literal t v -> literal (92 :: 110 :: t) (10 :: v)
| l_r t v : literal t v -> literal (92 :: 114 :: t) (13 :: v)
| l_quote q t v : q = 34 \/ q = 39 -> literal t v -> literal (92 :: q :: t) (q :: v)
| l_oct d t v : oct_digit d -> (forall c u, t = c :: u -> ~ oct_digit c) -> literal t v -> literal (92 :: d :: t) (d - 48 :: v)
| l_x h c t v : length h = 2%nat -> hex_number h c -> literal t v -> literal (92 :: 120 :: h ++ t) (c :: v)
| l_u h c t v : length h = 4%nat -> hex_number h c -> literal t v -> literal (92 :: 117 :: h ++ t) (c :: v)
| l_U h c t v : length h = 8%nat -> hex_number h c -> literal t v -> literal (92 :: 85 :: h ++ t) (c :: v).

Definition ascii_printable (c : Z) : Prop := 32 <= c < 127.
(** ASCII control characters *)
Definition control (c : Z) : Prop := 0 <= c < 32 \/ c = 127.
(** A character of a Python str *)
Definition is_char (c : Z) : Prop := 0 <= c < 0x110000.

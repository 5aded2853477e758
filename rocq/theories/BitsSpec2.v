(** Specification vocabulary for the conversions of core/bits.py. *)
From Verif Require Import Base BitsModel BitsSpec.

(** [n] is the number of base-256 digits of [v] (none for zero). *)
Definition bytes_needed (v n : Z) : Prop := (v = 0 /\ n = 0) \/ (1 <= n /\ 256 ^ (n - 1) <= v < 256 ^ n).

(** Characters '0' and '1'. *)
Definition bit_char (b : bool) : Z := if b then 49 else 48.
(** The [n] low bits of [v], least significant first. *)
Definition low_bits (n : nat) (v : Z) : list bool := map (fun i => Z.testbit v (Z.of_nat i)) (seq 0 n).

(** A list cut into pieces of 8 (the last may be shorter). *)
Fixpoint groups8 {A} (l : list A) : list (list A) :=
  match l with
  | a :: b :: c :: d :: e :: f :: g :: h :: l' => [a; b; c; d; e; f; g; h] :: groups8 l'
  | [] => []
  | _ => [l]
  end.
(** Text pieces separated by one space. *)
Fixpoint spaced (l : list (list Z)) : list Z :=
  match l with [] => [] | [p] => p | p :: l' => p ++ 32 :: spaced l' end.

(** The value of an upper-case hexadecimal digit; reading back pairs. *)
Definition hex_value (c : Z) : option Z :=
  if (48 <=? c) && (c <=? 57) then Some (c - 48)
  else if (65 <=? c) && (c <=? 70) then Some (c - 55) else None.
Fixpoint unhex (t : list Z) : option (list Z) :=
  match t with
  | [] => Some []
  | h :: l :: t' =>
      match hex_value h, hex_value l, unhex t' with
      | Some a, Some b, Some r => Some (16 * a + b :: r)
      | _, _, _ => None
      end
  | _ => None
  end.

(** Specification vocabulary for bit-level data, independent of the model:
    a byte string as a list of bits, and the integer spelled by a list of bits. *)
From Verif Require Import Base.

Definition b2z (b : bool) : Z := if b then 1 else 0.

(** Bits of a byte string, most significant bit of each byte first. *)
Definition bits_be (data : list Z) : list bool :=
  flat_map (fun b => map (Z.testbit b) [7; 6; 5; 4; 3; 2; 1; 0]) data.
(** Bits of a byte string, least significant bit of each byte first. *)
Definition bits_le (data : list Z) : list bool :=
  flat_map (fun b => map (Z.testbit b) [0; 1; 2; 3; 4; 5; 6; 7]) data.

(** The integer whose binary digits are given, most significant first. *)
Definition val_be (bs : list bool) : Z := fold_left (fun acc b => 2 * acc + b2z b) bs 0.
(** The integer whose binary digits are given, least significant first. *)
Definition val_le (bs : list bool) : Z := fold_right (fun b acc => b2z b + 2 * acc) 0 bs.

(** Exchange the two bytes of every 16-bit word. *)
Fixpoint swap_words {A} (l : list A) : list A :=
  match l with a :: b :: l' => b :: a :: swap_words l' | _ => l end.

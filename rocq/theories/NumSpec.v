(** Whole numbers written in bytes. *)
From Verif Require Import Base BitsModel VarintSpec.

(** A number of [n] bytes, in one of the two byte orders *)
Definition uint (e : endian) (n : nat) (v : Z) : list Z := match e with LITTLE_ENDIAN => le_bytes n v | _ => be_bytes n v end.

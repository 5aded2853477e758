(** What a user expects of bit streams, stated over plain byte strings. *)
From Verif Require Import Base BitsModel BitsSpec.

(** The integer found at bits [addr, addr+n) of a byte string. *)
Definition bits_at (data : list Z) (addr n : Z) (e : endian) : Z :=
  match e with
  | BIG_ENDIAN => val_be (sub (bits_be data) addr n)
  | LITTLE_ENDIAN => val_le (sub (bits_le data) addr n)
  | MIDDLE_ENDIAN => val_be (sub (bits_be (swap_words data)) addr n)
  end.

(** All the bytes (16-bit words in middle endian) touched by bits
    [addr, addr+n) are inside the byte string. *)
Definition bits_available (data : list Z) (addr n : Z) (e : endian) : bool :=
  match e with
  | MIDDLE_ENDIAN => 16 * ((addr + n + 15) / 16) <=? 8 * zlen data
  | _ => addr + n <=? 8 * zlen data
  end.

(** [needle] occurs in [data] at byte offset [i]. *)
Definition occurs_at (needle data : list Z) (i : Z) : Prop :=
  0 <= i /\ i + zlen needle <= zlen data /\ sub data i (zlen needle) = needle.

(** [i] is the first place in [from, upto) where [needle] occurs entirely
    before byte [upto]. *)
Definition first_occurrence (needle data : list Z) (from upto i : Z) : Prop :=
  from <= i /\ i + zlen needle <= upto /\ occurs_at needle data i /\
  forall j, from <= j < i -> ~ occurs_at needle data j.

(** A [read] function that answers every request inside a byte string with the
    right bytes: the contract between InputStream.read and its callers. *)
Definition serves (read : Z -> Z -> res (Z * list Z * bool)) (data : list Z) : Prop :=
  forall a n, 0 <= a -> 1 <= n -> a + n <= 8 * zlen data ->
    read a n = Ok (a mod 8, sub data (a / 8) ((n + a mod 8 + 7) / 8), false).

(** The byte offset where a search over [data] stops. *)
Definition search_limit (data : list Z) (end_address : option Z) : Z :=
  match end_address with None => zlen data | Some e => Z.min (zlen data) (e / 8) end.

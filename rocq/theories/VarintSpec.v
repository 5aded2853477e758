(** The standard encodings of integers. *)
From Verif Require Import Base VarintModel.

(** [n] bytes, most significant first / least significant first *)
Fixpoint be_bytes (n : nat) (v : Z) : list Z := match n with O => [] | S n => be_bytes n (v / 256) ++ [v mod 256] end.
Fixpoint le_bytes (n : nat) (v : Z) : list Z := match n with O => [] | S n => v mod 256 :: le_bytes n (v / 256) end.
(** [n] groups of seven bits, most significant first, all marked with 128 *)
Fixpoint be_groups (n : nat) (v : Z) : list Z := match n with O => [] | S n => be_groups n (v / 128) ++ [128 + v mod 128] end.
(** The same, least significant first *)
Fixpoint le_groups (n : nat) (v : Z) : list Z := match n with O => [] | S n => 128 + v mod 128 :: le_groups n (v / 128) end.
(** Variable length quantity of MIDI and of ASN.1 object identifiers: [n] marked
    groups and a last one without mark *)
Definition vlq (n : nat) (v : Z) : list Z := be_groups n (v / 128) ++ [v mod 128].
(** Git's size encoding: least significant group first *)
Definition git_size (n : nat) (v : Z) : list Z := le_groups n v ++ [v / 128 ^ Z.of_nat n].
(** ASN.1 lengths: a byte below 128, or 128 + n followed by n bytes *)
Definition asn_short (v : Z) : list Z := [v].
Definition asn_long (n : nat) (v : Z) : list Z := (128 + Z.of_nat n) :: be_bytes n v.
(** EBML: [n] bytes, the first set bit of which marks n *)
Definition ebml (n : nat) (v : Z) : list Z := be_bytes n (2 ^ (7 * Z.of_nat n) + v).
(** 7-zip: [n] leading ones in the first byte say how many bytes follow, the other
    bits of the first byte are the most significant ones *)
Definition sevenzip (n : nat) (v : Z) : list Z := (256 - 2 ^ (8 - Z.of_nat n) + v / 256 ^ Z.of_nat n) :: le_bytes n v.
(** Xiph lacing *)
Definition xiph (v : Z) : list Z := repeat 255 (Z.to_nat (v / 255)) ++ [v mod 255].
(** Git's offset encoding of OBJ_OFS_DELTA (gitformat-pack): groups of seven
    bits, most significant first, one being subtracted before each shift *)
Fixpoint git_offset_high (n : nat) (v : Z) : list Z :=
  match n with O => [] | S n => git_offset_high n (v / 128 - 1) ++ [128 + v mod 128] end.
Definition git_offset (n : nat) (v : Z) : list Z := git_offset_high n (v / 128 - 1) ++ [v mod 128].
(** Git's copy instruction: the bytes of offset and size that are not zero, least
    significant first *)
Definition git_copy (offset size : list Z) : list Z :=
  let flags := fold_right (fun b f => (if b =? 0 then 0 else 1) + 2 * f) 0 in
  (128 + 16 * flags size + flags offset) :: filter (fun b => negb (b =? 0)) (offset ++ size).
(** Move to front: the index of each symbol in the list of symbols, most recent first *)
Fixpoint index_of (x : Z) (l : list Z) : nat := match l with [] => O | y :: l => if x =? y then O else S (index_of x l) end.
Fixpoint mtf_encode (seq l : list Z) : list nat :=
  match l with
  | [] => []
  | x :: l => index_of x seq :: mtf_encode (x :: filter (fun y => negb (y =? x)) seq) l
  end.
(** The run lengths of bzip2: numbers written with the digits 1 and 2, least
    significant first (digit minus one is stored) *)
Fixpoint bijective (codes : list Z) : Z := match codes with [] => 0 | c :: l => (c + 1) + 2 * bijective l end.
(** The symbols of a bzip2 block, from the indexes: a run of zeros is written
    with the digits above, any other index is increased by one. *)
Inductive coded : list nat -> list Z -> Prop :=
| coded_nil : coded [] []
| coded_run digits n l codes : Forall (fun c => c = 0 \/ c = 1) digits -> bijective digits = Z.of_nat n -> (0 < n)%nat ->
    hd_error l <> Some O -> coded l codes -> coded (repeat O n ++ l) (digits ++ codes)
| coded_index i l codes : (0 < i)%nat -> coded l codes -> coded (i :: l) (Z.of_nat i + 1 :: codes).
(** The text told by the shown items: the last code of a run gives its length *)
Fixpoint expand (items : list bz_item) : list Z :=
  match items with
  | [] => []
  | Run s n :: rest => match rest with Run _ _ :: _ => expand rest | _ => repeat s (Z.to_nat n) ++ expand rest end
  | Literal s :: rest => s :: expand rest
  | Terminator :: _ => []
  end.

(** Blocks of Matroska files, for the claims about their parser. *)
From Verif Require Import Base BitsModel VarintSpec NumSpec BlockModel.

(** The track on [n] bytes, the time on two, the flags *)
Definition block_head (n : nat) (track time flags : Z) : list Z := ebml n track ++ uint BIG_ENDIAN 2 (time mod 65536) ++ [flags].
Definition head_ok (n : nat) (track time flags : Z) : Prop :=
  (1 <= n <= 8)%nat /\ 0 <= track < 2 ^ (7 * Z.of_nat n) - 1 /\ -32768 <= time < 32768 /\ 0 <= flags < 256.
(** Where frames are, from the byte [p]: address and size in bits *)
Fixpoint frames_at (p : Z) (fs : list (list Z)) : list (Z * Z) :=
  match fs with [] => [] | f :: fs => (8 * p, 8 * zlen f) :: frames_at (p + zlen f) fs end.
Definition not_empty (f : list Z) : Prop := 1 <= zlen f.
(** Xiph lacing of the frames [fs] and [last]: the sizes of all of them but the last *)
Definition xiph_lace (fs : list (list Z)) : list Z := concat (map (fun f => xiph (zlen f)) fs).
(** EBML lacing: the size of the first frame on [n] bytes, then the differences, each on some bytes *)
Inductive deltas : Z -> list (list Z) -> list Z -> Prop :=
| d_nil s : deltas s [] []
| d_cons s n f fs b : let d := zlen f - s in (1 <= n <= 8)%nat -> - (2 ^ (7 * Z.of_nat n - 1) - 1) <= d < 2 ^ (7 * Z.of_nat n - 1) -> deltas (zlen f) fs b ->
    deltas s (f :: fs) (ebml n (d + (2 ^ (7 * Z.of_nat n - 1) - 1)) ++ b).
Inductive ebml_lace : list (list Z) -> list Z -> Prop :=
| el_intro n f fs b : (1 <= n <= 8)%nat -> zlen f < 2 ^ (7 * Z.of_nat n) - 1 -> deltas (zlen f) fs b -> ebml_lace (f :: fs) (ebml n (zlen f) ++ b).
(** What is shown of the flags of a block *)
Definition flag_key (h : holder) (flags : Z) : option Z := match h with InSimpleBlock => Some (flags / 128) | _ => None end.
Definition flag_disc (h : holder) (flags : Z) : option Z := match h with InSimpleBlock => Some (flags mod 2) | _ => None end.
(** What follows the head of a block with the lacing [l] and these frames, and where they start in it *)
Inductive laced : Z -> list (list Z) -> list Z -> Z -> Prop :=
| l_none f : laced 0 [f] f 0
| l_xiph fs last : (List.length fs <= 255)%nat -> laced 1 (fs ++ [last]) ([Z.of_nat (List.length fs)] ++ xiph_lace fs ++ concat fs ++ last) (1 + zlen (xiph_lace fs))
| l_fixed f fs : (List.length fs <= 255)%nat -> Forall (fun g => zlen g = zlen f) fs -> laced 2 (f :: fs) ([Z.of_nat (List.length fs)] ++ f ++ concat fs) 1
| l_ebml fs last h : (List.length fs <= 255)%nat -> ebml_lace fs h -> laced 3 (fs ++ [last]) ([Z.of_nat (List.length fs)] ++ h ++ concat fs ++ last) (1 + zlen h).
(** Frames follow one another from the address [a] on, none is empty, up to [stop] *)
Fixpoint inside (a stop : Z) (l : list (Z * Z)) : Prop :=
  match l with [] => True | (x, n) :: l => a <= x /\ 8 <= n /\ x + n <= stop /\ inside (x + n) stop l end.

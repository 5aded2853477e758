(** What a user expects of the block chains of an OLE2 file. *)
From Verif Require Import Base.

(** A file allocation table gives the successor of a block. [links next b l last]:
    starting at block [b] the table leads through the blocks [l] to the value [last]. *)
Inductive links (next : Z -> option Z) : Z -> list Z -> Z -> Prop :=
| links_nil b : links next b [] b
| links_cons b b' l last : next b = Some b' -> links next b' l last -> links next b (b :: l) last.

(** The values that name no block (MS-CFB 2.1). *)
Definition names_block (b : Z) : Prop := 0 <= b < 0xFFFFFFFC.

(** The table stored in a list of sectors: entry number [b] of all of them. *)
Definition table (fat : list (list Z)) (b : Z) : option Z :=
  if b <? 0 then None else nth_error (concat fat) (Z.to_nat b).

(** The blocks first, first+1, ... of a fragment of [n] blocks. *)
Definition run (first : Z) (n : nat) : list Z := map (fun i => first + Z.of_nat i) (seq 0 n).

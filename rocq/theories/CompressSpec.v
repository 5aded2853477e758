(** What is expected of a decompressor, and of reading through it. *)
From Verif Require Import Base.

(** [total input]: the data that compressed [input] stands for, as far as it can be
    known; more input only adds to it. *)
Definition growing (total : list Z -> list Z) : Prop := forall a b, exists c, total (a ++ b) = total a ++ c.
(** The contract of a decompressor: [R d fed given drained] relates its state to
    what it was fed and to what it gave; [drained]: the last call gave less than
    what was asked for. New data comes only when it is drained. *)
Definition contract {D} (total : list Z -> list Z) (call : D -> Z -> option (list Z) -> res (list Z * D)) (R : D -> list Z -> list Z -> bool -> Prop) : Prop :=
  forall d fed given drained size data, R d fed given drained -> 0 < size -> (data = None \/ drained = true) ->
  let new := match data with None => [] | Some x => x end in
  exists out d' rest, call d size data = Ok (out, d') /\ R d' (fed ++ new) (given ++ out) (zlen out <? size) /\
    given ++ out ++ rest = total (fed ++ new) /\ (zlen out < size -> rest = []).
(** The documented behaviour of zlib's decompression objects *)
Definition zlib_contract {Z0} (total : list Z -> list Z) (zcall : Z0 -> list Z -> Z -> list Z * list Z * Z0) (R : Z0 -> list Z -> list Z -> Prop) : Prop :=
  forall z consumed given input size out tail z', R z consumed given -> 0 < size -> zcall z input size = (out, tail, z') ->
  exists used rest, input = used ++ tail /\ R z' (consumed ++ used) (given ++ out) /\ given ++ out ++ rest = total (consumed ++ used) /\
    (zlen out < size -> rest = [] /\ tail = []).

(** Successive reads of a file *)
Fixpoint slices (data : list Z) (sizes : list Z) : list (list Z) :=
  match sizes with [] => [] | n :: sizes => firstn (Z.to_nat n) data :: slices (skipn (Z.to_nat n) data) sizes end.

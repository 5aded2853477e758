(** Encodings of trees of fields, for the claims about the parsers of TlvModel.v. *)
From Verif Require Import Base BitsModel StreamModel TlvModel.

Section Spec.
Context {I C : Type}.
(** A document: fields with content, and groups of documents. *)
Inductive doc := Raw (info : I) | Grp (info : I) (l : list doc).
(** A format: the encodings [raw c i b] of a field in the context [c]; those of a group,
    [grp c i c' head content tail], whose fields are in the context [c']; and what is asked of the
    encoding of the last field of a group. *)
Context (raw : C -> I -> list Z -> Prop) (grp : C -> I -> C -> list Z -> list Z -> list Z -> Prop) (last : C -> list Z -> Prop).
Inductive enc : C -> doc -> list Z -> Prop :=
| e_raw c i b : raw c i b -> enc c (Raw i) b
| e_grp c i c' l h b t : encs c' l b -> grp c i c' h b t -> enc c (Grp i l) (h ++ b ++ t)
with encs : C -> list doc -> list Z -> Prop :=
| e_nil c : encs c [] []
| e_cons c d l b bs : enc c d b -> (l = [] -> last c b) -> encs c l bs -> encs c (d :: l) (b ++ bs).

(** What must be shown of an encoding at the byte [p]: every field where its encoding
    is, with its size, and all the fields of the groups, in order. *)
Inductive laid : C -> Z -> doc -> list Z -> tree I -> Prop :=
| l_raw c p i b : raw c i b -> laid c p (Raw i) b (Tree (8 * p) (8 * zlen b) i KNone)
| l_grp c p i c' l h b t ts : laids c' (p + zlen h) l b ts -> grp c i c' h b t ->
    laid c p (Grp i l) (h ++ b ++ t) (Tree (8 * p) (8 * zlen (h ++ b ++ t)) i (KSome ts None))
with laids : C -> Z -> list doc -> list Z -> list (tree I) -> Prop :=
| l_nil c p : laids c p [] [] []
| l_cons c p d l b bs t ts : laid c p d b t -> (l = [] -> last c b) -> laids c (p + zlen b) l bs ts -> laids c p (d :: l) (b ++ bs) (t :: ts).
End Spec.
Arguments doc : clear implicits.

(** The fields of every group are within it, one after the other without a hole; when nothing
    went wrong, less than [gap] bits of it are left after the last one.  Nothing is left unread for
    want of steps. *)
Inductive tiles {I} (gap : Z) : tree I -> Prop :=
| t_group a s i l e p q : a <= p -> chain gap p l q -> q <= Z.max p (a + s) -> e <> Some OutOfFuel -> (e = None -> a + s - q <= gap) -> tiles gap (Tree a s i (KSome l e))
| t_leaf a s i : tiles gap (Tree a s i KNone)
with chain {I} (gap : Z) : Z -> list (tree I) -> Z -> Prop :=
| c_nil p : chain gap p [] p
| c_cons p n l q : t_addr n = p -> 0 < t_size n -> tiles gap n -> chain gap (p + t_size n) l q -> chain gap p (n :: l) q.

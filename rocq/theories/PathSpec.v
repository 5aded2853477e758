(** What a user expects of paths. *)
From Verif Require Import Base FieldModel FieldSpec PathModel.

(** A name that can be a part of a path. *)
Definition legal (n : str) : Prop := n <> [] /\ ~ In slash n /\ exists c, In c n /\ c <> dot.
(** In every field set of the tree, names are distinct. *)
Definition distinct_names (root : field) : Prop :=
  forall p n a s, at_pos root p = Some (FSet n a s) -> NoDup (map f_name (fields s)).
(** The tree whose root is the field set [s]. *)
Definition tree (s : fset) : field := FSet [] 0 s.
(** The position of the parent. *)
Definition parent_pos (p : pos) : pos := removelast p.

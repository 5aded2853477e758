(** What a user expects of static field sets. *)
From Verif Require Import Base DictModel StaticModel.

(** A class only refers to classes defined before it. *)
Definition well_formed (table : list cls) : Prop := forall c k, nth_error table c = Some k ->
  (forall b, c_base k = Some b -> (b < c)%nat) /\
  (forall items d, c_format k = Some items -> In (ISet d) items -> (d < c)%nat).
(** The format of a class: its own or the one of its base. *)
Inductive has_format (table : list cls) : nat -> list item -> Prop :=
| hf_own c k items : nth_error table c = Some k -> c_format k = Some items -> has_format table c items
| hf_base c k b items : nth_error table c = Some k -> c_format k = None -> c_base k = Some b ->
    has_format table b items -> has_format table c items.
(** The size of what an instance of the class contains. *)
Inductive has_size (table : list cls) : nat -> Z -> Prop :=
| hs c items z : has_format table c items -> items_size table items z -> has_size table c z
with items_size (table : list cls) : list item -> Z -> Prop :=
| is_nil : items_size table [] 0
| is_leaf l items z : items_size table items z -> items_size table (ILeaf l :: items) (leaf_size l + z)
| is_set d items n z : has_size table d n -> items_size table items z -> items_size table (ISet d :: items) (n + z).
(** No class has a format different from the one it inherits. *)
Definition no_redefinition (table : list cls) : Prop := forall c k b items, nth_error table c = Some k ->
  c_base k = Some b -> has_format table b items -> c_format k = None.
(** Classes whose static_size is meant for StaticFieldSet. *)
Definition proper (l : leaf) : Prop := match l with LTime _ => False | LGenInt _ _ => False | LDynamic _ => False | _ => True end.
Definition proper_leaves (table : list cls) : Prop := forall c k items l, nth_error table c = Some k ->
  c_format k = Some items -> In (ILeaf l) items -> proper l.

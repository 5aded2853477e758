(** What a user expects of field sets. *)
From Verif Require Import Base DictModel FieldModel.

(** [l] (name, address, size) lies end to end from [a] to [e]. *)
Fixpoint tiles (a : Z) (l : list (str * Z * Z)) (e : Z) : Prop :=
  match l with
  | [] => a = e
  | (_, addr, size) :: l' => addr = a /\ 0 <= size /\ tiles (a + size) l' e
  end.
Definition names (l : list (str * Z * Z)) : list str := map (fun x => fst (fst x)) l.

(** The field set reached from [s] by a path of names. *)
Fixpoint set_at (path : list str) (s : fset) : option fset :=
  match path with
  | [] => Some s
  | n :: path =>
      match find_name (fields s) n with
      | Some (FSet _ _ x) => set_at path x
      | _ => None
      end
  end.
(** Parsing of this set is finished. *)
Definition done (s : fset) : Prop := resume s = None.

Definition prefix {A} (l1 l2 : list A) : Prop := exists m, l2 = l1 ++ m.

(** Names given by a parser: ending with "[]", or not looking like an array
    element. *)
Definition array_like (n : str) : Prop := exists key i, 0 <= i /\ n = array_name key i.
Definition name_ok (n : str) : Prop := ends_brackets n = true \/ ~ array_like n.
(** All that a parser can ever yield: proper names, leaf sizes not negative,
    sizes of field sets positive (the constructors check both). *)
Fixpoint gen_ok (g : gen) : Prop :=
  match g with
  | GYield s k => spec_ok s /\ forall v, gen_ok (k v)
  | _ => True
  end
with spec_ok (s : spec) : Prop :=
  match s with
  | SLeaf n z => name_ok n /\ 0 <= z
  | SSet n z g => name_ok n /\ (match z with Some z => 0 < z | None => True end) /\ gen_ok g
  end.

(** The names a list of yielded names should give: "key[]" is numbered per
    key. *)
Definition key_of (n : str) : str := firstn (length n - 2) n.
Definition count_before (key : str) (l : list str) : Z :=
  zlen (filter (fun n => ends_brackets n && str_eqb (key_of n) key) l).
Fixpoint numbered (before l : list str) : list str :=
  match l with
  | [] => []
  | n :: l' => (if ends_brackets n then array_name (key_of n) (count_before (key_of n) before) else n)
               :: numbered (before ++ [n]) l'
  end.

(** An access inside the set reached by a path. *)
Definition inside (path : list str) (a : access) : access := fold_right AIn a path.

(** A parser that yields leaves of given names and sizes. *)
Fixpoint gen_of_list (l : list (str * Z)) : gen :=
  match l with [] => GStop | (n, z) :: l => GYield (SLeaf n z) (fun _ => gen_of_list l) end.
Definition sum_sizes (l : list (str * Z)) : Z := fold_right (fun x n => snd x + n) 0 l.
Definition plain (l : list str) : list str := filter (fun n => negb (ends_brackets n)) l.

(** The fields key[0] .. key[n-1] are the ones there are. *)
Definition array_of (l : list field) (key : str) (n : nat) : Prop :=
  forall i, In (array_name key (Z.of_nat i)) (map f_name l) <-> (i < n)%nat.

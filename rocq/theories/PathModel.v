(** Model of the paths of fields: hachoir/field/field.py (joinPath, path,
    absolute_address, _getField, getField) and
    hachoir/field/generic_field_set.py:215-222.

    A field object of the tree of a root set is given by its position: the
    indexes to follow from the root.  Simplification: fields that are not read
    yet are not searched (const=True; with const=False the lookup only differs
    when a part of the path is not among the fields already read). *)
From Verif Require Export Base FieldModel.

Definition slash : Z := 47.
Definition dot : Z := 46.

(** [key.split("/")] *)
Fixpoint split_on (c : Z) (s : str) : list str :=
  match s with
  | [] => [[]]
  | x :: s =>
      if x =? c then [] :: split_on c s
      else match split_on c s with
           | [] => [[x]]
           | p :: ps => (x :: p) :: ps
           end
  end.
(** ["/".join(l)] *)
Fixpoint join_with (c : Z) (l : list str) : str :=
  match l with
  | [] => []
  | [s] => s
  | s :: l => s ++ c :: join_with c l
  end.

Definition pos := list nat.
Fixpoint at_pos (f : field) (p : pos) : option field :=
  match p with
  | [] => Some f
  | i :: p =>
      match f with
      | FSet _ _ s => match nth_error (fields s) i with Some g => at_pos g p | None => None end
      | FLeaf _ _ _ => None
      end
  end.
(** The names of the fields from below [f] down to position [p]. *)
Fixpoint names_to (f : field) (p : pos) : list str :=
  match p with
  | [] => []
  | i :: p =>
      match f with
      | FSet _ _ s => match nth_error (fields s) i with Some g => f_name g :: names_to g p | None => [] end
      | FLeaf _ _ _ => []
      end
  end.
(** field.py:190-201: path *)
Definition path_of (root : field) (p : pos) : str :=
  match p with
  | [] => [slash]
  | _ => join_with slash (@cons str [] (names_to root p))
  end.
(** field.py:208-216: absolute_address; the address of the root is 0
    (basic_field_set.py:60). *)
Fixpoint absolute_address (f : field) (p : pos) : Z :=
  match p with
  | [] => 0
  | i :: p =>
      match f with
      | FSet _ _ s => match nth_error (fields s) i with Some g => f_addr g + absolute_address g p | None => 0 end
      | FLeaf _ _ _ => 0
      end
  end.
(** field.py:20-24: joinPath *)
Definition join_path (path name : str) : str :=
  if str_eqb path [slash] then slash :: name else join_with slash [path; name].

(** [not name.strip(".")] *)
Definition only_dots (n : str) : bool := forallb (fun c => c =? dot) n.
(** field.py:223-231: Field._getField *)
Definition up (p : pos) (n : str) : option pos :=
  if only_dots n then
    let k := (length n - 1)%nat in
    if (length p <? k)%nat then None else Some (firstn (length p - k) p)
  else None.
Fixpoint find_index (n : str) (l : list field) : option nat :=
  match l with
  | [] => None
  | f :: l => if str_eqb n (f_name f) then Some O else option_map S (find_index n l)
  end.
(** generic_field_set.py:215-222: _getField (and field.py for a leaf). *)
Definition get_part (root : field) (p : pos) (n : str) : option pos :=
  match up p n with
  | Some q => Some q
  | None =>
      match at_pos root p with
      | Some (FSet _ _ s) => option_map (fun i => p ++ [i]) (find_index n (fields s))
      | _ => None
      end
  end.
(** field.py:257-261: the loop of getField. *)
Fixpoint get_parts (root : field) (p : pos) (l : list str) : res pos :=
  match l with
  | [] => Ok p
  | n :: l => match get_part root p n with Some q => get_parts root q l | None => Err MissingField end
  end.
(** field.py:233-263: getField, on the field at position [p]. *)
Definition get_field (root : field) (p : pos) (key : str) : res pos :=
  match key with
  | [] => Err KeyError
  | c :: rest =>
      if c =? slash then
        match rest with
        | [] => Ok []
        | _ => get_parts root [] (split_on slash rest)
        end
      else get_parts root p (split_on slash key)
  end.

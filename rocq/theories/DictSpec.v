(** The obvious ordered map: an association list with unique keys. *)
From Verif Require Import Base DictModel.

(** Position of a key. *)
Fixpoint pos_of {V} (l : list (str * V)) (k : str) : option nat :=
  match l with
  | [] => None
  | (k', _) :: l' => if str_eqb k k' then Some O else option_map S (pos_of l' k)
  end.
Definition has {V} (l : list (str * V)) (k : str) : bool :=
  match pos_of l k with Some _ => true | None => false end.
Definition put {V} (l : list (str * V)) (i : nat) (x : str * V) := firstn i l ++ x :: skipn (S i) l.

(** A position counted from the end when negative. *)
Definition from_end (n i : Z) : Z := if i <? 0 then i + n else i.

Definition alist_step {V} (l : list (str * V)) (op : dict_op V) : list (str * V) * dict_out V :=
  match op with
  | OpAppend k v => if has l k then (l, RErr UniqKeyError) else (l ++ [(k, v)], RNone)
  | OpInsert i k v =>
      let i := from_end (zlen l) i in
      if has l k then (l, RErr UniqKeyError)
      else if (i <? 0) || (zlen l <? i) then (l, RErr IndexError)
      else (firstn (Z.to_nat i) l ++ (k, v) :: skipn (Z.to_nat i) l, RNone)
  | OpReplace o n v =>
      match pos_of l o with
      | None => (l, RErr KeyError)
      | Some i => (put l i (n, v), RNone)
      end
  | OpSet k v =>
      match pos_of l k with
      | None => (l, RErr KeyError)
      | Some i => (put l i (k, v), RNone)
      end
  | OpDel i =>
      let i := from_end (zlen l) i in
      if (i <? 0) || (zlen l <=? i) then (l, RErr IndexError)
      else (firstn (Z.to_nat i) l ++ skipn (S (Z.to_nat i)) l, RNone)
  | OpIndex k => (l, RIndex (option_map Z.of_nat (pos_of l k)))
  | OpGet k => (l, match pos_of l k with
                   | None => RErr KeyError
                   | Some i => match nth_error l i with Some (_, v) => RVal v | None => RErr KeyError end
                   end)
  | OpContains k => (l, RBool (has l k))
  | OpLen => (l, RLen (zlen l))
  | OpItems => (l, RItems l)
  | OpKeys => (l, RKeys (map fst l))
  | OpValues => (l, RVals (map snd l))
  end.
Fixpoint alist_run {V} (l : list (str * V)) (ops : list (dict_op V)) : list (str * V) * list (dict_out V) :=
  match ops with
  | [] => (l, [])
  | op :: ops' => let '(l1, o) := alist_step l op in
                  let '(l2, os) := alist_run l1 ops' in (l2, o :: os)
  end.
(** No call renames a key onto another key already in use. *)
Definition no_clash {V} (l : list (str * V)) (op : dict_op V) : bool :=
  match op with OpReplace o n _ => str_eqb o n || negb (has l n) || negb (has l o) | _ => true end.
Fixpoint no_clash_run {V} (l : list (str * V)) (ops : list (dict_op V)) : bool :=
  match ops with
  | [] => true
  | op :: ops' => no_clash l op && no_clash_run (fst (alist_step l op)) ops'
  end.

(** Model of hachoir/core/dict.py: the ordered dictionary [Dict]. *)
From Verif Require Export Base.

(** Keys are Python strings: lists of code points. *)
Definition str := list Z.
Fixpoint str_eqb (a b : str) : bool :=
  match a, b with
  | [], [] => true
  | x :: a', y :: b' => (x =? y) && str_eqb a' b'
  | _, _ => false
  end.

(** A Python [dict] from strings to integers, in insertion order. *)
Definition pydict := list (str * Z).
(** [d.get(key)] *)
Fixpoint pd_get (d : pydict) (k : str) : option Z :=
  match d with
  | [] => None
  | (k', v) :: d' => if str_eqb k k' then Some v else pd_get d' k
  end.
(** [del d[key]] (key present) *)
Fixpoint pd_del (d : pydict) (k : str) : pydict :=
  match d with
  | [] => []
  | (k', v) :: d' => if str_eqb k k' then d' else (k', v) :: pd_del d' k
  end.
(** [d[key] = value] *)
Fixpoint pd_set (d : pydict) (k : str) (v : Z) : pydict :=
  match d with
  | [] => [(k, v)]
  | (k', v') :: d' => if str_eqb k k' then (k', v) :: d' else (k', v') :: pd_set d' k v
  end.

(** core/dict.py:21-27: the three attributes of Dict. *)
Record dict (V : Type) := { d_index : pydict; d_keys : list str; d_vals : list V }.
Arguments d_index {V}. Arguments d_keys {V}. Arguments d_vals {V}.
Definition dict_empty {V} : dict V := {| d_index := []; d_keys := []; d_vals := [] |}.

(** [l[i] = x] for 0 <= i < len(l) *)
Definition list_set {A} (l : list A) (i : Z) (x : A) : list A :=
  firstn (Z.to_nat i) l ++ x :: skipn (S (Z.to_nat i)) l.
(** [l.insert(i, x)] for 0 <= i <= len(l) *)
Definition list_insert {A} (l : list A) (i : Z) (x : A) : list A :=
  firstn (Z.to_nat i) l ++ x :: skipn (Z.to_nat i) l.
(** [del l[i]] for 0 <= i < len(l) *)
Definition list_del {A} (l : list A) (i : Z) : list A :=
  firstn (Z.to_nat i) l ++ skipn (S (Z.to_nat i)) l.

(** core/dict.py:33-46 *)
Definition dict_index {V} (d : dict V) (k : str) : option Z := pd_get (d_index d) k.
(** core/dict.py:48-57 *)
Definition dict_getitem {V} (d : dict V) (k : str) : res V :=
  match pd_get (d_index d) k with
  | None => Err KeyError
  | Some i => py_nth (d_vals d) i
  end.
(** core/dict.py:59-60 *)
Definition dict_setitem {V} (d : dict V) (k : str) (v : V) : res (dict V) :=
  match pd_get (d_index d) k with
  | None => Err KeyError
  | Some i => Ok {| d_index := d_index d; d_keys := d_keys d; d_vals := list_set (d_vals d) i v |}
  end.
(** core/dict.py:75-76 *)
Definition dict_contains {V} (d : dict V) (k : str) : bool :=
  match pd_get (d_index d) k with Some _ => true | None => false end.
(** core/dict.py:62-70 *)
Definition dict_append {V} (d : dict V) (k : str) (v : V) : res (dict V) :=
  if dict_contains d k then Err UniqKeyError
  else Ok {| d_index := pd_set (d_index d) k (zlen (d_vals d));
             d_keys := d_keys d ++ [k]; d_vals := d_vals d ++ [v] |}.
(** core/dict.py:72-73 *)
Definition dict_len {V} (d : dict V) : Z := zlen (d_vals d).
(** core/dict.py:81-93 *)
Definition dict_items {V} (d : dict V) : list (str * V) := combine (d_keys d) (d_vals d).
(** core/dict.py:107-127 *)
Definition dict_replace {V} (d : dict V) (oldkey newkey : str) (v : V) : res (dict V) :=
  match pd_get (d_index d) oldkey with
  | None => Err KeyError
  | Some i =>
      let vals := list_set (d_vals d) i v in
      if negb (str_eqb oldkey newkey) then
        Ok {| d_index := pd_set (pd_del (d_index d) oldkey) newkey i;
              d_keys := list_set (d_keys d) i newkey; d_vals := vals |}
      else Ok {| d_index := d_index d; d_keys := d_keys d; d_vals := vals |}
  end.
(** core/dict.py:146-150: delete the (first) entry holding [index]. *)
Fixpoint pd_del_value (d : pydict) (index : Z) : pydict :=
  match d with
  | [] => []
  | (k, i) :: d' => if i =? index then d' else (k, i) :: pd_del_value d' index
  end.
(** core/dict.py:129-155 *)
Definition dict_delitem {V} (d : dict V) (index : Z) : res (dict V) :=
  let index := if index <? 0 then index + zlen (d_vals d) else index in
  if negb ((0 <=? index) && (index <? zlen (d_vals d))) then Err IndexError
  else
    Ok {| d_index := map (fun kv => (fst kv, if index <? snd kv then snd kv - 1 else snd kv))
                         (pd_del_value (d_index d) index);
          d_keys := list_del (d_keys d) index;
          d_vals := list_del (d_vals d) index |}.
(** core/dict.py:157-178 *)
Definition dict_insert {V} (d : dict V) (index : Z) (k : str) (v : V) : res (dict V) :=
  if dict_contains d k then Err UniqKeyError
  else
    let index := if index <? 0 then index + zlen (d_vals d) else index in
    if negb ((0 <=? index) && (index <=? zlen (d_vals d))) then Err IndexError
    else
      Ok {| d_index := pd_set (map (fun kv => (fst kv, if index <=? snd kv then snd kv + 1 else snd kv))
                                   (d_index d)) k index;
            d_keys := list_insert (d_keys d) index k;
            d_vals := list_insert (d_vals d) index v |}.

(** The calls a user can make. *)
Inductive dict_op (V : Type) :=
| OpAppend (k : str) (v : V) | OpInsert (i : Z) (k : str) (v : V)
| OpReplace (old new : str) (v : V) | OpSet (k : str) (v : V) | OpDel (i : Z)
| OpIndex (k : str) | OpGet (k : str) | OpContains (k : str) | OpLen | OpItems | OpKeys | OpValues.
Arguments OpAppend {V}. Arguments OpInsert {V}. Arguments OpReplace {V}. Arguments OpSet {V}. Arguments OpDel {V}.
Arguments OpIndex {V}. Arguments OpGet {V}. Arguments OpContains {V}. Arguments OpLen {V}.
Arguments OpItems {V}. Arguments OpKeys {V}. Arguments OpValues {V}.
(** What a call shows to the user. *)
Inductive dict_out (V : Type) :=
| RNone | RErr (e : exn) | RIndex (i : option Z) | RVal (v : V) | RBool (b : bool) | RLen (n : Z)
| RItems (l : list (str * V)) | RKeys (l : list str) | RVals (l : list V).
Arguments RNone {V}. Arguments RErr {V}. Arguments RIndex {V}. Arguments RVal {V}. Arguments RBool {V}.
Arguments RLen {V}. Arguments RItems {V}. Arguments RKeys {V}. Arguments RVals {V}.

(** An exception leaves the object as it was (each method tests before it
    mutates). *)
Definition upd {S V} (s : S) (r : res S) : S * dict_out V :=
  match r with Ok s' => (s', RNone) | Err e => (s, RErr e) end.
Definition dict_step {V} (d : dict V) (op : dict_op V) : dict V * dict_out V :=
  match op with
  | OpAppend k v => upd d (dict_append d k v)
  | OpInsert i k v => upd d (dict_insert d i k v)
  | OpReplace o n v => upd d (dict_replace d o n v)
  | OpSet k v => upd d (dict_setitem d k v)
  | OpDel i => upd d (dict_delitem d i)
  | OpIndex k => (d, RIndex (dict_index d k))
  | OpGet k => (d, match dict_getitem d k with Ok v => RVal v | Err e => RErr e end)
  | OpContains k => (d, RBool (dict_contains d k))
  | OpLen => (d, RLen (dict_len d))
  | OpItems => (d, RItems (dict_items d))
  | OpKeys => (d, RKeys (d_keys d))
  | OpValues => (d, RVals (d_vals d))
  end.
Fixpoint dict_run {V} (d : dict V) (ops : list (dict_op V)) : dict V * list (dict_out V) :=
  match ops with
  | [] => (d, [])
  | op :: ops' => let '(d1, o) := dict_step d op in
                  let '(d2, os) := dict_run d1 ops' in (d2, o :: os)
  end.

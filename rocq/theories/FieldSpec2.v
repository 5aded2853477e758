(** What a user expects of replaceField, writeFieldsIn and FakeArray. *)
From Verif Require Import Base DictModel FieldModel FieldSpec FieldEdit.

(** [y] is the new field [x] once placed: only its address changes, and its
    name if it ends with "[]". *)
Definition renamed (x y : field) : Prop := exists n a, y = set_addr (set_name x n) a /\ (ends_brackets (f_name x) = false -> n = f_name x).

(** [s'] is [s] with [old] replaced by [news'], which fill its place. *)
Definition put (s s' : fset) (old : field) (l1 news' l2 : list field) : Prop :=
  fields s = l1 ++ old :: l2 /\ fields s' = l1 ++ news' ++ l2 /\
  fsize s' = fsize s /\ cur s' = cur s /\ resume s' = resume s /\
  tiles (f_addr old) (layout news') (f_addr old + f_size old) /\
  tiles 0 (layout (fields s')) (cur s') /\ NoDup (map f_name (fields s')).

(** At most one padding field. *)
Definition pads (l : list field) : Prop := l = [] \/ exists f, l = [f] /\ 0 < f_size f.

(** What each question should be answered. *)
Definition item (l : list field) (key : str) (i : nat) : option field := find_name l (array_name key (Z.of_nat i)).
Definition should (l : list field) (key : str) (n : nat) (o : fa_op) (a : fa_ans) : Prop :=
  match o, a with
  | FGet i, FAField r => match item l key i with Some f => r = Ok f | None => r = Err MissingField end
  | FIn i, FABool b => b = (i <? n)%nat
  | FLen, FALen r => r = Ok (Z.of_nat n)
  | FIter, FAAll r => exists fs, r = Ok fs /\ map f_name fs = map (fun i => array_name key (Z.of_nat i)) (seq 0 n) /\ incl fs l
  | FBool, FABool b => b = (0 <? n)%nat
  | _, _ => False
  end.
(** No index out of range is asked before the array was measured or walked. *)
Fixpoint careful (n : nat) (ops : list fa_op) : Prop :=
  match ops with
  | [] => True
  | FGet i :: ops => (i < n)%nat /\ careful n ops
  | FIn i :: ops => (i < n)%nat /\ careful n ops
  | FBool :: ops => careful n ops
  | FLen :: _ => True
  | FIter :: _ => True
  end.


(** Model of the lookup by address and of the replacement of fields
    (hachoir/field/generic_field_set.py:457-544), of
    hachoir/field/helper.py:18-24 (createPaddingField) and of
    hachoir/field/fake_array.py. *)
From Verif Require Export Base DictModel ToolsModel FieldModel.

(** ** Lookup by address *)
(** generic_field_set.py:493-504: getFieldByAddress.  The answer is the field,
    None, or an exception raised by _feedAll. *)
Definition get_by_address (autofix hasp feed : bool) (address : Z) (s : fset) : fset * res (option field) :=
  let '(s, r) := if feed then feed_from autofix (fun _ => false) hasp s else (s, FEnd None) in
  match r with
  | FRaised e => (s, Err e)
  | _ =>
      if address <? cur s then
        (s, do i <- lowerBound (fields s) (fun x => f_addr x + f_size x <=? address);
            do f <- py_nth (fields s) i; Ok (Some f))
      else (s, Ok None)
  end.

(** ** Replacement *)
Definition set_name (f : field) (n : str) : field := match f with FLeaf _ a z => FLeaf n a z | FSet _ a s => FSet n a s end.
Definition set_addr (f : field) (a : Z) : field := match f with FLeaf n _ z => FLeaf n a z | FSet n _ s => FSet n a s end.
Definition total_size (l : list field) : Z := fold_right (fun f n => f_size f + n) 0 l.

(** [if field._name.endswith("[]"): self.setUniqueFieldName(field)] *)
Definition give_name (ct : pydict) (f : field) : field * pydict :=
  if ends_brackets (f_name f) then let '(n, ct) := unique_name ct (f_name f) in (set_name f n, ct) else (f, ct).

(** core/dict.py: Dict.replace and Dict.index by name. *)
Fixpoint replace_at (n : str) (f : field) (l : list field) : list field :=
  match l with
  | [] => []
  | x :: l => if str_eqb n (f_name x) then f :: l else x :: replace_at n f l
  end.
Fixpoint index_of (n : str) (l : list field) : nat :=
  match l with
  | [] => O
  | x :: l => if str_eqb n (f_name x) then O else S (index_of n l)
  end.
Definition insert_at (i : nat) (f : field) (l : list field) : list field := firstn i l ++ f :: skipn i l.

(** generic_field_set.py:478-491: the loop on new_fields[1:].  Returns the
    fields, the counters and whether a name was already used. *)
Fixpoint insert_loop (ct : pydict) (l : list field) (i : nat) (address : Z) (news : list field)
  : list field * pydict * option exn :=
  match news with
  | [] => (l, ct, None)
  | f :: news =>
      let '(f, ct) := give_name ct f in
      let f := set_addr f address in
      if has_name l (f_name f) then (l, ct, Some ParserError)
      else insert_loop ct (insert_at i f l) (S i) (address + f_size f) news
  end.

(** generic_field_set.py:457-491: replaceField *)
Definition replace_field (name : str) (news : list field) (s : fset) : fset * option exn :=
  match find_name (fields s) name with
  | None => (s, Some ParserError)
  | Some old =>
      match news with
      | [] => (s, Some AssertionError)
      | f :: rest =>
          if negb (f_size old =? total_size news) then (s, Some ParserError)
          else
            let '(f, ct) := give_name (counts s) f in
            let f := set_addr f (f_addr old) in
            if negb (str_eqb (f_name f) name) && has_name (fields s) (f_name f) then (with_counts s ct, Some ParserError)
            else
              let l := replace_at name f (fields s) in
              let '(l, ct, e) := insert_loop ct l (S (index_of (f_name f) l)) (f_addr f + f_size f) rest in
              (MkSet l (fsize s) (cur s) ct (resume s), e)
      end
  end.

Definition padding_name : str := [112; 97; 100; 100; 105; 110; 103; 91; 93]. (* "padding[]" *)
(** generic_field_set.py:506-540: writeFieldsIn.  The padding fields are leaves
    (helper.py:18-24). *)
Fixpoint set_addrs (a : Z) (l : list field) : list field :=
  match l with [] => [] | f :: l => set_addr f a :: set_addrs (a + f_size f) l end.
Definition write_fields_in (old : field) (address : Z) (news : list field) (s : fset) : fset * option exn :=
  if f_size old <? total_size news then (s, Some ParserError)
  else
    let size := address - f_addr old in
    if size <? 0 then (s, Some AssertionError)
    else
      let before := if 0 <? size then [FLeaf padding_name (f_addr old) size] else [] in
      let fin := address + total_size news in
      let size' := (f_addr old + f_size old) - fin in
      if size' <? 0 then (s, Some AssertionError)
      else
        let after := if 0 <? size' then [FLeaf padding_name fin size'] else [] in
        replace_field (f_name old) (before ++ set_addrs address news ++ after) s.

(** ** FakeArray *)
(** fake_array.py:17-30.  The field set is finished (its fields are the list
    [l]): looking up a name neither adds fields nor fails for another reason.
    [_cache] is the list of the indexes and fields it holds. *)
Record farray := { fa_cache : list (nat * field); fa_known : bool; fa_max : Z }.
Definition fa_init : farray := {| fa_cache := []; fa_known := false; fa_max := -1 |}.
Definition fa_lookup (c : list (nat * field)) (i : nat) : option field :=
  match find (fun x => Nat.eqb i (fst x)) c with Some (_, f) => Some f | None => None end.
(** fake_array.py:56-70: __getitem__ *)
Definition fa_get (l : list field) (key : str) (i : nat) (a : farray) : farray * res field :=
  match fa_lookup (fa_cache a) i with
  | Some f => (a, Ok f)
  | None =>
      match find_name l (array_name key (Z.of_nat i)) with
      | None => ({| fa_cache := fa_cache a; fa_known := true; fa_max := fa_max a |}, Err MissingField)
      | Some f => ({| fa_cache := (i, f) :: fa_cache a; fa_known := fa_known a; fa_max := Z.max (Z.of_nat i) (fa_max a) |}, Ok f)
      end
  end.
(** fake_array.py:72-80: __iter__ and fake_array.py:42-46: the loop of __len__,
    from [i] until an index is missing; the fields met. *)
Fixpoint fa_from (fuel : nat) (l : list field) (key : str) (i : nat) (a : farray) : farray * res (list field) :=
  match fuel with
  | O => (a, Err OutOfFuel)
  | S fuel =>
      match fa_get l key i a with
      | (a, Err _) => (a, Ok [])
      | (a, Ok f) => let '(a, r) := fa_from fuel l key (S i) a in (a, do fs <- r; Ok (f :: fs))
      end
  end.
(** fake_array.py:32-36: __bool__ *)
Definition fa_bool (l : list field) (key : str) (a : farray) : farray * bool :=
  match fa_cache a with
  | [] => let '(a, r) := fa_get l key 0 a in (a, match r with Ok _ => true | Err _ => false end)
  | _ => (a, true)
  end.
(** fake_array.py:38-47: __len__ *)
Definition fa_len (l : list field) (key : str) (a : farray) : farray * res Z :=
  let total := fa_max a + 1 in
  if fa_known a then (a, Ok total)
  else let '(a, r) := fa_from (S (S (length l))) l key (Z.to_nat total) a in
       (a, do fs <- r; Ok (total + zlen fs)).

Inductive fa_op := FGet (i : nat) | FIn (i : nat) | FLen | FIter | FBool.
Inductive fa_ans := FAField (r : res field) | FABool (b : bool) | FALen (r : res Z) | FAAll (r : res (list field)).
Definition fa_do (l : list field) (key : str) (o : fa_op) (a : farray) : farray * fa_ans :=
  match o with
  | FGet i => let '(a, r) := fa_get l key i a in (a, FAField r)
  | FIn i => let '(a, r) := fa_get l key i a in (a, FABool (match r with Ok _ => true | Err _ => false end))
  | FLen => let '(a, r) := fa_len l key a in (a, FALen r)
  | FIter => let '(a, r) := fa_from (S (S (length l))) l key 0 a in (a, FAAll r)
  | FBool => let '(a, r) := fa_bool l key a in (a, FABool r)
  end.
Fixpoint fa_run (l : list field) (key : str) (ops : list fa_op) (a : farray) : farray * list fa_ans :=
  match ops with
  | [] => (a, [])
  | o :: ops => let '(a, r) := fa_do l key o a in let '(a, rs) := fa_run l key ops a in (a, r :: rs)
  end.

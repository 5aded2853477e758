(** Model of hachoir/editor: the editor of a parsed file. *)
From Coq Require Import String.
From Verif Require Export Base BitsModel StreamModel OutputModel DictModel.
From Verif Require Import Lit.
Open Scope Z_scope.

(** ** The fields that were parsed

    The formats of a string (field/string_field.py:40-110): the ones with a
    suffix (CString, UnixLine, AutoLine), "fixed", and the Pascal strings, whose
    size is stored in [n] bytes. *)
Inductive sformat := FSuffix | FFixed | FPascal (n : Z).
(** editor/typed_field.py:287-302: createEditableField chooses the editable class
    from the class of the parsed field.  [KFake] is any class that is not listed. *)
Inductive kind :=
| KInt (signed : bool)
| KString (f : sformat) (prefix : Z) (suffix : list Z)
| KTime
| KBytes
| KBits
| KChar
| KFake.

(** A parsed field: name, absolute address and size in bits; a field set also has
    an endianness and an ordered list of fields. *)
Inductive inode :=
| ILeaf (name : str) (k : kind) (addr size : Z)
| ISet (name : str) (e : endian) (addr size : Z) (children : list inode).
Definition i_name (i : inode) : str := match i with ILeaf n _ _ _ => n | ISet n _ _ _ _ => n end.
Definition i_addr (i : inode) : Z := match i with ILeaf _ _ a _ => a | ISet _ _ a _ _ => a end.
Definition i_size (i : inode) : Z := match i with ILeaf _ _ _ s => s | ISet _ _ _ s _ => s end.
Definition i_endian (i : inode) : endian := match i with ILeaf _ _ _ _ => BIG_ENDIAN | ISet _ e _ _ _ => e end.
Definition i_children (i : inode) : list inode := match i with ILeaf _ _ _ _ => [] | ISet _ _ _ _ l => l end.

(** field/generic_field_set.py:215-222: [fieldset[name]], a field of the set by its
    name (names holding "/" are paths, which the editor splits itself). *)
Fixpoint find_child (l : list inode) (name : str) : option inode :=
  match l with
  | [] => None
  | c :: l' => if str_eqb (i_name c) name then Some c else find_child l' name
  end.
Definition child (i : inode) (name : str) : option inode := find_child (i_children i) name.
Definition has_child (i : inode) (name : str) : bool :=
  match child i name with Some _ => true | None => false end.

(** ** Editable fields *)

(** The values that can be given to an editable field: int, bytes, str, and a
    date, counted in seconds since the first date of TimestampMac32. *)
Inductive fvalue := VInt (z : Z) | VBytes (b : list Z) | VText (t : list Z) | VTime (seconds : Z).

(** editor/typed_field.py:12-21, 67-77: name, class, size of the original field,
    [_value] and [_is_altered]. *)
Record efield := { ef_name : str; ef_kind : kind; ef_size : Z; ef_value : option fvalue; ef_altered : bool }.

(** editor/fieldset.py:13-19: an editable field, or an editable field set: the
    original field set, the cache of editable fields, the deleted names and the
    inserted fields (a list of fields for each "name after"). *)
Inductive enode :=
| EField (f : efield)
| ESet (i : inode) (fields : list (str * enode)) (deleted : list str) (inserted : list (option str * list enode)).

Definition e_name (n : enode) : str := match n with EField f => ef_name f | ESet i _ _ _ => i_name i end.

(** editor/typed_field.py:287-302 and editor/fieldset.py:325-331: the editable
    version of a parsed field.  EditableFloat is not modelled. *)
Definition fresh (i : inode) : enode :=
  match i with
  | ILeaf n k _ s => EField {| ef_name := n; ef_kind := k; ef_size := s; ef_value := None; ef_altered := false |}
  | ISet _ _ _ _ _ => ESet i [] [] []
  end.
(** editor/fieldset.py:358-359 *)
Definition createEditor (i : inode) : enode := ESet i [] [] [].

(** ** Assigning a value *)

(** editor/typed_field.py:215-224: VALID_VALUE_SIGNED and VALID_VALUE_UNSIGNED. *)
Definition valid_signed (size : Z) : option (Z * Z) :=
  if size =? 8 then Some (- 2 ^ 8, 2 ^ 8 - 1)
  else if size =? 16 then Some (- 2 ^ 15, 2 ^ 15 - 1)
  else if size =? 32 then Some (- 2 ^ 31, 2 ^ 31 - 1)
  else None.
Definition valid_unsigned (size : Z) : option (Z * Z) :=
  if size =? 8 then Some (0, 2 ^ 8 - 1)
  else if size =? 16 then Some (0, 2 ^ 16 - 1)
  else if size =? 32 then Some (0, 2 ^ 32 - 1)
  else None.
(** editor/typed_field.py:129-133: MAX_SIZE of a Pascal string. *)
Definition max_string (f : sformat) : option Z :=
  match f with FPascal n => Some (2 ^ (8 * n) - 1) | _ => None end.

(** [_setValue] of each class: editor/typed_field.py:103-107 (Bits), 115-119
    (Bytes), 163-168 (String), 205-208 (Character), 245-254 (Integer), 276-280
    (TimestampMac32).  A value of another type is a TypeError here; the code
    raises various exceptions, or accepts it and fails later. *)
Definition check_value (k : kind) (size : Z) (v : fvalue) : res unit :=
  match k, v with
  | KInt signed, VInt z =>
      match (if signed then valid_signed size else valid_unsigned size) with
      | None => Err KeyError
      | Some (lo, hi) => if (lo <=? z) && (z <=? hi) then Ok tt else Err ValueError
      end
  | KBits, VInt z => if (0 <=? z) && (z <? Z.shiftl 1 size) then Ok tt else Err ValueError
  | KBytes, VBytes b => match b with [] => Err ValueError | _ => Ok tt end
  | KString f _ _, VBytes b =>
      match max_string f with
      | Some m => if m <? zlen b then Err ValueError else Ok tt
      | None => Ok tt
      end
  | KString f _ _, VText t =>
      match max_string f with
      | Some m => if m <? zlen t then Err ValueError else Err AssertionError
      | None => Err AssertionError
      end
  | KChar, VText t => if zlen t =? 1 then Ok tt else Err TypeError
  | KTime, VTime s => if (0 <=? s) && (s <=? 2 ^ 32 - 1) then Ok tt else Err ValueError
  | KFake, _ => Err AttributeError
  | _, _ => Err TypeError
  end.
(** editor/typed_field.py:45-48: [field.value = value]. *)
Definition set_value (f : efield) (v : fvalue) : res efield :=
  do _ <- check_value (ef_kind f) (ef_size f) v;
  Ok {| ef_name := ef_name f; ef_kind := ef_kind f; ef_size := ef_size f; ef_value := Some v; ef_altered := true |}.

(** ** New fields, to be inserted *)

(** editor/typed_field.py:226-241: EditableInteger(parent, name, signed, size, value). *)
Definition new_integer (name : str) (signed : bool) (size v : Z) : efield :=
  {| ef_name := name; ef_kind := KInt signed; ef_size := size; ef_value := Some (VInt v); ef_altered := true |}.
(** editor/typed_field.py:86-107: EditableBits(parent, name, size, value). *)
Definition new_bits (name : str) (size v : Z) : res efield :=
  do _ <- check_value KBits size (VInt v);
  Ok {| ef_name := name; ef_kind := KBits; ef_size := size; ef_value := Some (VInt v); ef_altered := true |}.
(** editor/typed_field.py:19-21, 113: EditableBytes(parent, name, value): the
    constructor of EditableField, which does not set [_is_altered]. *)
Definition new_bytes (name : str) (v : list Z) : efield :=
  {| ef_name := name; ef_kind := KBytes; ef_size := 8 * zlen v; ef_value := Some (VBytes v); ef_altered := false |}.
(** editor/typed_field.py:135-155: EditableString(parent, name, format, value);
    the suffix is the one of the format and of the charset. *)
Definition new_string (name : str) (f : sformat) (suffix v : list Z) : efield :=
  let prefix := match f with FPascal n => n | _ => 0 end in
  {| ef_name := name; ef_kind := KString f prefix suffix; ef_size := (prefix + zlen v + zlen suffix) * 8;
     ef_value := Some (VBytes v); ef_altered := true |}.

(** ** Size and content *)

(** editor/typed_field.py:50-55, 79-81, 121-122, 170-171 and editor/field.py:33-35. *)
Definition field_size (f : efield) : Z :=
  match ef_kind f, ef_value f with
  | KBytes, Some (VBytes b) => zlen b * 8
  | KString _ prefix suffix, Some (VBytes b) => (prefix + zlen b + zlen suffix) * 8
  | _, _ => ef_size f
  end.

(** [_write] of each class: editor/typed_field.py:109-110, 124-125, 173-185,
    210-211, 256-258, 282-284.  [e] is the endianness of the parent.  The value of
    a string is a bytes object, which has no [encode] method. *)
Definition field_write_value (e : endian) (f : efield) (st : ostream) : res ostream :=
  match ef_kind f, ef_value f with
  | KInt signed, Some (VInt z) => writeInteger st z signed (ef_size f / 8) e
  | KBits, Some (VInt z) => writeBits st (ef_size f) z e
  | KBytes, Some (VBytes b) => writeBytes st b
  | KString FSuffix _ suffix, Some (VBytes b) => do st <- writeBytes st b; writeBytes st suffix
  | KString FFixed _ _, Some (VBytes b) => writeBytes st b
  | KString (FPascal n) _ _, Some (VBytes b) => do st <- writeInteger st (zlen b) false n e; Err AttributeError
  | KChar, Some (VText t) => if negb (bit_pos st =? 0) then Err NotImplementedError else Err TypeError
  | KTime, Some (VTime s) => writeBits st (ef_size f) s e
  | _, _ => Err TypeError
  end.
(** editor/field.py:61-69: copy the field from the input; [p] is the original
    parent.  editor/fieldset.py:197-202: the field must be in it. *)
Definition fake_write (input : read_fun) (p : inode) (f : efield) (st : ostream) : res ostream :=
  match child p (ef_name f) with
  | None => Err AssertionError
  | Some c =>
      if negb (field_size f mod 8 =? 0) || negb (i_addr c mod 8 =? 0)
      then copyBitsFrom st input (i_addr c) (field_size f) (i_endian p)
      else copyBytesFrom st input (i_addr c) (field_size f / 8)
  end.

(** What the rest of the editor needs to know of an editable field: [name], [size],
    [is_altered] and [writeInto]. *)
Record view := { v_name : str; v_size : Z; v_altered : bool; v_write : ostream -> res ostream }.

(** editor/typed_field.py:60-64 *)
Definition field_view (input : read_fun) (p : inode) (f : efield) : view :=
  {| v_name := ef_name f; v_size := field_size f; v_altered := ef_altered f;
     v_write := if ef_altered f then field_write_value (i_endian p) f else fake_write input p f |}.

(** editor/fieldset.py:288-291: the loop of writeInto. *)
Fixpoint write_all (vs : list view) (st : ostream) : res ostream :=
  match vs with
  | [] => Ok st
  | v :: vs' => do st <- v_write v st; write_all vs' st
  end.
Definition sum_sizes (vs : list view) : Z := fold_right (fun v acc => v_size v + acc) 0 vs.

Fixpoint assoc {A} (key : str) (l : list (str * A)) : option A :=
  match l with
  | [] => None
  | (k, v) :: l' => if str_eqb k key then Some v else assoc key l'
  end.
Definition mem (name : str) (l : list str) : bool := existsb (fun n => str_eqb n name) l.
Definition key_eqb (a b : option str) : bool :=
  match a, b with
  | None, None => true
  | Some x, Some y => str_eqb x y
  | _, _ => false
  end.
(** The fields inserted under a key. *)
Fixpoint inserted_at {A} (key : option str) (l : list (option str * list A)) : option (list A) :=
  match l with
  | [] => None
  | (k, v) :: l' => if key_eqb k key then Some v else inserted_at key l'
  end.
Definition opt_list {A} (o : option (list A)) : list A := match o with Some l => l | None => [] end.

(** editor/fieldset.py:51-61: __iter__, for any kind of entries. *)
Definition iterate {A} (i : inode) (deleted : list str) (entry : inode -> A) (inserted : list (option str * list A))
  : list A :=
  flat_map (fun c => opt_list (inserted_at (Some (i_name c)) inserted)
                     ++ (if mem (i_name c) deleted then [] else [entry c])) (i_children i)
  ++ opt_list (inserted_at None inserted).

(** editor/fieldset.py:29-35, 182-187, 272-291: is_altered, size and writeInto of
    a field set, given the views of its cached fields and of its inserted fields. *)
Definition set_altered (deleted : list str) (fvs : list (str * view)) (ivs : list (option str * list view)) : bool :=
  match ivs with
  | _ :: _ => true
  | [] => match deleted with
          | _ :: _ => true
          | [] => existsb (fun p => v_altered (snd p)) fvs
          end
  end.
Definition set_copy (input : read_fun) (i : inode) (st : ostream) : res ostream :=
  if negb (i_size i mod 8 =? 0) then copyBitsFrom st input (i_addr i) (i_size i) (i_endian i)
  else copyBytesFrom st input (i_addr i) (i_size i / 8).
Definition plain_view (input : read_fun) (p : inode) (c : inode) : view :=
  match c with
  | ILeaf n k _ s => field_view input p {| ef_name := n; ef_kind := k; ef_size := s; ef_value := None; ef_altered := false |}
  | ISet n _ _ s _ => {| v_name := n; v_size := s; v_altered := false; v_write := set_copy input c |}
  end.
(** editor/fieldset.py:232-254: [self[name]] of a field that is not deleted: the
    cached editable field, or a new one. *)
Definition child_view (input : read_fun) (i : inode) (fvs : list (str * view)) (c : inode) : view :=
  match assoc (i_name c) fvs with
  | Some v => v
  | None => plain_view input i c
  end.
Definition set_iter (input : read_fun) (i : inode) (deleted : list str) (fvs : list (str * view))
    (ivs : list (option str * list view)) : list view :=
  iterate i deleted (child_view input i fvs) ivs.
Definition set_view (input : read_fun) (i : inode) (deleted : list str) (fvs : list (str * view))
    (ivs : list (option str * list view)) : view :=
  let altered := set_altered deleted fvs ivs in
  {| v_name := i_name i;
     v_size := if altered then sum_sizes (set_iter input i deleted fvs ivs) else i_size i;
     v_altered := altered;
     v_write := if altered then write_all (set_iter input i deleted fvs ivs) else set_copy input i |}.

Fixpoint view_of (input : read_fun) (p : inode) (n : enode) : view :=
  match n with
  | EField f => field_view input p f
  | ESet i fields deleted inserted =>
      set_view input i deleted
        (map (fun kv => (fst kv, view_of input i (snd kv))) fields)
        (map (fun kv => (fst kv, map (view_of input i) (snd kv))) inserted)
  end.

(** The views of the fields of a field set, in the order of [for field in editor]. *)
Definition iter_views (input : read_fun) (n : enode) : list view :=
  match n with
  | EField _ => []
  | ESet i fields deleted inserted =>
      set_iter input i deleted
        (map (fun kv => (fst kv, view_of input i (snd kv))) fields)
        (map (fun kv => (fst kv, map (view_of input i) (snd kv))) inserted)
  end.

(** editor/fieldset.py:272-291, 182-187, 46-49, 204-215 for the root editor. *)
Definition writeInto (input : read_fun) (n : enode) (st : ostream) : res ostream := v_write (view_of input (ISet [] BIG_ENDIAN 0 0 []) n) st.
Definition editor_size (input : read_fun) (n : enode) : Z := v_size (view_of input (ISet [] BIG_ENDIAN 0 0 []) n).
Definition editor_len (n : enode) : Z :=
  match n with
  | EField _ => 0
  | ESet i _ deleted inserted =>
      zlen (i_children i) - zlen deleted + fold_right (fun kv acc => zlen (snd kv) + acc) 0 inserted
  end.
Fixpoint address_loop (vs : list view) (name : str) (addr : Z) : res Z :=
  match vs with
  | [] => Err MissingField
  | v :: vs' => if str_eqb (v_name v) name then Ok addr else address_loop vs' name (addr + v_size v)
  end.
(** [editor[name].address]: editor/field.py:29-31, editor/fieldset.py:162-167, 204-215. *)
Definition editor_address (input : read_fun) (n : enode) (name : str) : res Z := address_loop (iter_views input n) name 0.

(** ** Edits *)

Fixpoint set_assoc {A} (key : str) (v : A) (l : list (str * A)) : list (str * A) :=
  match l with
  | [] => [(key, v)]
  | (k, w) :: l' => if str_eqb k key then (k, v) :: l' else (k, w) :: set_assoc key v l'
  end.
Definition del_assoc {A} (key : str) (l : list (str * A)) : list (str * A) :=
  filter (fun kv => negb (str_eqb (fst kv) key)) l.

(** editor/fieldset.py:232-254: [editor[name]]: the editable field. *)
Definition get_item (n : enode) (name : str) : res enode :=
  match n with
  | EField _ => Err MissingField
  | ESet i fields deleted _ =>
      if mem name deleted then Err MissingField
      else match child i name with
           | None => Err MissingField
           | Some c => Ok (match assoc name fields with Some x => x | None => fresh c end)
           end
  end.
(** editor/fieldset.py:217-223: [editor["a/b/c"]]. *)
Fixpoint get_path (n : enode) (path : list str) : res enode :=
  match path with
  | [] => Ok n
  | p :: path' => do x <- get_item n p; get_path x path'
  end.
(** Call a method of the editable field [editor[path]]: every field set on the way
    keeps the editable field in its cache. *)
Fixpoint edit_at (path : list str) (f : enode -> res enode) (n : enode) : res enode :=
  match path with
  | [] => f n
  | p :: path' =>
      do x <- get_item n p;
      do x <- edit_at path' f x;
      match n with
      | EField _ => Err MissingField
      | ESet i fields deleted inserted => Ok (ESet i (set_assoc p x fields) deleted inserted)
      end
  end.

(** editor/fieldset.py:256-270: [del editor[name]]. *)
Definition del_item (name : str) (n : enode) : res enode :=
  match n with
  | EField _ => Err AttributeError
  | ESet i fields deleted inserted =>
      if mem name deleted then Err MissingField
      else Ok (ESet i (del_assoc name fields) (deleted ++ [name]) inserted)
  end.
(** [editor[path].value = v] *)
Definition assign (v : fvalue) (n : enode) : res enode :=
  match n with
  | EField f => do f <- set_value f v; Ok (EField f)
  | ESet _ _ _ _ => Err OtherError
  end.

(** Replace, or add at the end, the fields of a key. *)
Fixpoint set_inserted {A} (key : option str) (v : list A) (l : list (option str * list A)) : list (option str * list A) :=
  match l with
  | [] => [(key, v)]
  | (k, w) :: l' => if key_eqb k key then (k, v) :: l' else (k, w) :: set_inserted key v l'
  end.
(** editor/fieldset.py:113-127: insert before or after a field that was itself
    inserted; [rotate], [extendleft], [rotate]. *)
Fixpoint index_name (l : list enode) (name : str) (pos : nat) : option nat :=
  match l with
  | [] => None
  | n :: l' => if str_eqb (e_name n) name then Some pos else index_name l' name (S pos)
  end.
Fixpoint insert_inside (key : str) (new : list enode) (next : bool) (l : list (option str * list enode))
  : option (list (option str * list enode)) :=
  match l with
  | [] => None
  | (k, fields) :: l' =>
      match index_name fields key 0 with
      | Some pos => let pos := if next then S pos else pos in
                    Some ((k, firstn pos fields ++ new ++ skipn pos fields) :: l')
      | None => match insert_inside key new next l' with
                | Some l'' => Some ((k, fields) :: l'')
                | None => None
                end
      end
  end.
(** editor/fieldset.py:129-135: the name of the field after [key]; reading past the
    last field raises MissingField, not IndexError (field/generic_field_set.py:224-232). *)
Fixpoint after_name (l : list inode) (key : str) : res str :=
  match l with
  | [] => Err MissingField
  | c :: l' => if str_eqb (i_name c) key
               then match l' with [] => Err MissingField | d :: _ => Ok (i_name d) end
               else after_name l' key
  end.
Fixpoint distinct (l : list str) : bool :=
  match l with
  | [] => true
  | x :: l' => negb (mem x l') && distinct l'
  end.
(** editor/fieldset.py:72-142: _insert.  The renaming of "name[]" (lines 78-81) is
    not modelled.  [next = true] with no key is [insert]. *)
Definition insert (key : option str) (next : bool) (new : list enode) (n : enode) : res enode :=
  match n with
  | EField _ => Err AttributeError
  | ESet i fields deleted inserted =>
      let names := map e_name new in
      if negb (distinct names) then Err UniqKeyError
      else if existsb (fun x => has_child i x && negb (mem x deleted)) names then Err UniqKeyError
      else if existsb (fun kv => existsb (fun m => mem (e_name m) names) (snd kv)) inserted then Err UniqKeyError
      else
        match inserted_at key inserted with
        | Some l => Ok (ESet i fields deleted (set_inserted key (if next then l ++ rev new else new ++ l) inserted))
        | None =>
            match key with
            | None | Some [] => Ok (ESet i fields deleted (set_inserted key new inserted))
            | Some k =>
                match insert_inside k new next inserted with
                | Some l => Ok (ESet i fields deleted l)
                | None =>
                    do k <- (if next then after_name (i_children i) k else Ok k);
                    if has_child i k then Ok (ESet i fields deleted (set_inserted (Some k) new inserted))
                    else Err MissingField
                end
            end
        end
  end.

(** One call of the editor; [path] names the field set (or the field, for an
    assignment), [] being the root editor. *)
Inductive edit :=
| Delete (path : list str) (name : str)
| Assign (path : list str) (v : fvalue)
| Insert (path : list str) (key : option str) (next : bool) (new : list efield).
Definition apply_edit (n : enode) (x : edit) : res enode :=
  match x with
  | Delete path name => edit_at path (del_item name) n
  | Assign path v => edit_at path (assign v) n
  | Insert path key next new => edit_at path (insert key next (map EField new)) n
  end.
Fixpoint apply_edits (n : enode) (l : list edit) : res enode :=
  match l with
  | [] => Ok n
  | x :: l' => do n <- apply_edit n x; apply_edits n l'
  end.

(** What a user expects of the editor: a document is a tree of named fields whose
    leaves hold their content (a list of bits, or a list of bytes); the edits act
    on that tree, and writing the editor writes the leaves one after the other. *)
From Verif Require Import Base BitsModel BitsSpec StreamSpec DictModel OutputModel EditModel.

Inductive doc (A : Type) := Leaf (c : list A) | Node (l : list (str * doc A)).
Arguments Leaf {A}. Arguments Node {A}.

Fixpoint flatten {A} (d : doc A) : list A :=
  match d with
  | Leaf c => c
  | Node l => flat_map (fun kv => flatten (snd kv)) l
  end.

(** Change the field found at a path. *)
Fixpoint doc_at {A} (path : list str) (g : doc A -> doc A) (d : doc A) : doc A :=
  match path with
  | [] => g d
  | p :: path' =>
      match d with
      | Leaf c => Leaf c
      | Node l => Node (map (fun kv => if str_eqb (fst kv) p then (fst kv, doc_at path' g (snd kv)) else kv) l)
      end
  end.
Definition doc_remove {A} (name : str) (d : doc A) : doc A :=
  match d with
  | Leaf c => Leaf c
  | Node l => Node (filter (fun kv => negb (str_eqb (fst kv) name)) l)
  end.
(** Put new fields right before, or right after, the field [key]; without key, at
    the end. *)
Definition doc_place {A} (key : option str) (next : bool) (new : list (str * doc A)) (d : doc A) : doc A :=
  match d with
  | Leaf c => Leaf c
  | Node l =>
      Node match key with
           | None => l ++ new
           | Some k => flat_map (fun kv => if str_eqb (fst kv) k
                                           then (if next then kv :: new else new ++ [kv]) else [kv]) l
           end
  end.

(** The parsed field found at a path, and the field set it belongs to. *)
Fixpoint field_at (i : inode) (path : list str) : option inode :=
  match path with
  | [] => Some i
  | p :: path' => match child i p with Some c => field_at c path' | None => None end
  end.
Fixpoint parent_at (q i : inode) (path : list str) : inode :=
  match path with
  | [] => q
  | p :: path' => match child i p with Some c => parent_at i c path' | None => q end
  end.

(** The document of a parsed file: [orig a n] is the content found at the address
    [a], of [n] bits. *)
Fixpoint idoc {A} (orig : Z -> Z -> list A) (i : inode) : doc A :=
  match i with
  | ILeaf _ _ a s => Leaf (orig a s)
  | ISet _ _ _ _ l => Node (map (fun c => (i_name c, idoc orig c)) l)
  end.

(** The effect of an edit; [enc e k size v] is the content of a field of kind [k]
    whose value is [v], in a field set of endianness [e]. *)
Definition new_entry {A} (enc : endian -> kind -> Z -> fvalue -> list A) (e : endian) (f : efield) : str * doc A :=
  (ef_name f, Leaf match ef_value f with Some v => enc e (ef_kind f) (ef_size f) v | None => [] end).
Definition doc_edit {A} (enc : endian -> kind -> Z -> fvalue -> list A) (q i : inode) (x : edit) (d : doc A) : doc A :=
  match x with
  | Delete path name => doc_at path (doc_remove name) d
  | Assign path v =>
      match field_at i path with
      | Some (ILeaf _ k _ s) => doc_at path (fun _ => Leaf (enc (i_endian (parent_at q i path)) k s v)) d
      | _ => d
      end
  | Insert path key next new =>
      match field_at i path with
      | Some s => doc_at path (doc_place key next (map (new_entry enc (i_endian s)) new)) d
      | None => d
      end
  end.

(** ** Contents as bits, in the bit order of one endianness *)
Definition ebits (e : endian) (data : list Z) : list bool :=
  match e with BIG_ENDIAN => bits_be data | _ => bits_le data end.
(** The bits written to an output stream so far. *)
Definition obits (e : endian) (st : ostream) : list bool :=
  ebits e (out st) ++
  match e with
  | BIG_ENDIAN => sub (bits_be [byte st]) 0 (bit_pos st)
  | _ => sub (bits_le [byte st]) 0 (bit_pos st)
  end.
(** The [n] binary digits of [v]. *)
Definition spell (e : endian) (n v : Z) : list bool :=
  match e with
  | BIG_ENDIAN => map (fun k => Z.testbit v (n - 1 - Z.of_nat k)) (seq 0 (Z.to_nat n))
  | _ => map (fun k => Z.testbit v (Z.of_nat k)) (seq 0 (Z.to_nat n))
  end.
(** The integer stored for a value: the code stores a signed integer as an offset
    from the smallest one, see the theorem [C31_signed_refuted]. *)
Definition stored (signed : bool) (size v : Z) : Z := if signed then v + 2 ^ (size - 1) else v.
Definition enc_bits (e : endian) (k : kind) (size : Z) (v : fvalue) : list bool :=
  match k, v with
  | KInt signed, VInt z => spell e size (stored signed size z)
  | KBits, VInt z => spell e size z
  | KTime, VTime s => spell e size s
  | KBytes, VBytes b => ebits e b
  | KString FSuffix _ suffix, VBytes b => ebits e (b ++ suffix)
  | KString FFixed _ _, VBytes b => ebits e b
  | KString (FPascal n) _ _, VBytes b => spell e (8 * n) (zlen b) ++ ebits e b
  | KChar, VText t => ebits e t
  | _, _ => []
  end.
Definition orig_bits (e : endian) (data : list Z) (a n : Z) : list bool := sub (ebits e data) a n.

(** ** Contents as bytes, for trees whose fields are made of whole bytes *)
(** The [n] bytes of [v]. *)
Fixpoint le_bytes (n : nat) (v : Z) : list Z :=
  match n with O => [] | S n' => v mod 256 :: le_bytes n' (v / 256) end.
Definition bytes_of (e : endian) (n v : Z) : list Z :=
  match e with BIG_ENDIAN => rev (le_bytes (Z.to_nat n) v) | _ => le_bytes (Z.to_nat n) v end.
Definition enc_bytes (e : endian) (k : kind) (size : Z) (v : fvalue) : list Z :=
  match k, v with
  | KInt signed, VInt z => bytes_of e (size / 8) (stored signed size z)
  | KBits, VInt z => bytes_of e (size / 8) z
  | KTime, VTime s => bytes_of e (size / 8) s
  | KBytes, VBytes b => b
  | KString FSuffix _ suffix, VBytes b => b ++ suffix
  | KString FFixed _ _, VBytes b => b
  | KString (FPascal n) _ _, VBytes b => bytes_of e n (zlen b) ++ b
  | KChar, VText t => t
  | _, _ => []
  end.
Definition orig_bytes (data : list Z) (a n : Z) : list Z := sub data (a / 8) (n / 8).

(** ** Well-formed inputs *)
(** A value that fits in a field. *)
Definition fits (k : kind) (size : Z) (v : fvalue) : Prop :=
  match k, v with
  | KInt signed, VInt z =>
      8 <= size /\ size mod 8 = 0 /\
      (if signed then - 2 ^ (size - 1) <= z < 2 ^ (size - 1) else 0 <= z < 2 ^ size)
  | KBits, VInt z => 0 <= size /\ 0 <= z < 2 ^ size
  | KTime, VTime s => size = 32 /\ 0 <= s < 2 ^ 32
  | KBytes, VBytes b => is_bytes b
  | KString f prefix suffix, VBytes b =>
      is_bytes b /\ is_bytes suffix /\
      match f with
      | FSuffix => prefix = 0
      | FFixed => prefix = 0 /\ suffix = []
      | FPascal n => 0 <= n /\ prefix = n /\ suffix = [] /\ zlen b < 2 ^ (8 * n)
      end
  | KChar, VText t => zlen t = 1 /\ size = 8
  | _, _ => False
  end.

(** The values that the code can write, in a field of whole bytes: not a Pascal
    string and not a character, see [C31_pascal_refuted] and [C31_character_refuted]. *)
Definition fits_bytes (k : kind) (size : Z) (v : fvalue) : Prop :=
  fits k size v /\
  match k with
  | KBits => size mod 8 = 0
  | KString (FPascal _) _ _ | KChar => False
  | _ => True
  end.

(** The fields of a list follow each other from address [a] and cover [s] bits. *)
Fixpoint tiles (a s : Z) (l : list inode) : Prop :=
  match l with
  | [] => s = 0
  | c :: l' => i_addr c = a /\ tiles (a + i_size c) (s - i_size c) l'
  end.
(** A parsed field: [range a n] says that the bits [a..a+n) are in the file (and
    byte aligned, for the contents as bytes), [good_endian] restricts the
    endianness of the field sets. *)
Inductive parsed (range : Z -> Z -> Prop) (good_endian : endian -> Prop) : inode -> Prop :=
| parsed_leaf name k a s : range a s -> parsed range good_endian (ILeaf name k a s)
| parsed_set name e a s l :
    range a s -> good_endian e -> NoDup (map i_name l) -> ~ In [] (map i_name l) -> tiles a s l ->
    Forall (parsed range good_endian) l ->
    parsed range good_endian (ISet name e a s l).

(** ** Edits that do what they are asked

    The code accepts more edits than these; the theorems [C31_..._refuted] and
    [C32_..._refuted] show what goes wrong with the others. *)
Definition keys_of {A} (l : list (option str * A)) : list (option str) := map fst l.
Definition inserted_names (l : list (option str * list enode)) : list str :=
  flat_map (fun kv => map e_name (snd kv)) l.
Definition expected (fits : kind -> Z -> fvalue -> Prop) (n : enode) (x : edit) : Prop :=
  match x with
  | Delete path name =>
      (* the name is a field of the parsed file *)
      match get_path n path with Ok (ESet i _ _ _) => has_child i name = true | _ => True end
  | Assign path v =>
      (* the value fits *)
      match get_path n path with Ok (EField f) => fits (ef_kind f) (ef_size f) v | _ => True end
  | Insert path key next new =>
      match get_path n path with
      | Ok (ESet i _ deleted inserted) =>
          (* the new fields have values that fit *)
          Forall (fun f => ef_altered f = true /\ exists v, ef_value f = Some v /\ fits (ef_kind f) (ef_size f) v) new /\
          match key with
          | None => (* at the end: a second call has one field *)
              next = true /\ (inserted_at None inserted = None \/ zlen new <= 1)
          | Some k =>
              (* nothing was inserted before the field [k], and [k] is there *)
              k <> [] /\ inserted_at (Some k) inserted = None /\
              (In k (inserted_names inserted) \/
               has_child i k = true /\ mem k deleted = false /\
               (next = true -> forall k', after_name (i_children i) k = Ok k' -> inserted_at (Some k') inserted = None))
          end
      | _ => True
      end
  end.

(** A history of successful and expected edits. *)
Inductive edited (fits : kind -> Z -> fvalue -> Prop) : enode -> list edit -> enode -> Prop :=
| edited_none n : edited fits n [] n
| edited_one n x n' l n'' : expected fits n x -> apply_edit n x = Ok n' -> edited fits n' l n'' -> edited fits n (x :: l) n''.

(** ** Fields that a history of edits leaves alone *)
Definition mentions (name : str) (x : edit) : bool :=
  match x with
  | Delete [] n => str_eqb n name
  | Insert [] _ _ new => existsb (fun f => str_eqb (ef_name f) name) new
  | Assign [] _ => true
  | Delete (p :: _) _ | Assign (p :: _) _ | Insert (p :: _) _ _ _ => str_eqb p name
  end.
Definition untouched (l : list edit) (name : str) : bool := forallb (fun x => negb (mentions name x)) l.

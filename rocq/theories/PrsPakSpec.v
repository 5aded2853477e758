(** Starfighter archives (.pak), for the claims about their parser. *)
From Coq Require Import String.
From Verif Require Import Base BitsModel BitsSpec NumSpec DictModel FieldModel GenModel GenSpec ItemSpec Lit.
Open Scope Z_scope.

(** A file: its name, what fills its place after a null byte, and its content *)
Record file := File { f_name : list Z; f_fill : list Z; f_data : list Z }.
(** The 56 bytes of the name *)
Definition place (f : file) : list Z := f_name f ++ f_fill f.
Definition named (f : file) : Prop := zlen (place f) = 56 /\ ~ In 0 (f_name f) /\ (f_fill f = [] \/ exists x, f_fill f = 0 :: x).
Definition file_ok (f : file) : Prop := named f /\ f_data f <> [] /\ zlen (f_data f) < 2 ^ 32.
Definition head_items (f : file) : list item := [I (lit "filename") (SText (place f)); I (lit "size") (SNum 4 LE (zlen (f_data f)))].
Definition file_item (f : file) : item := ISet (lit "file[]") (head_items f ++ [I (lit "data") (SBytes (f_data f))]).
Definition pak_items (l : list file) : list item := I (lit "magic") (SText (lit "PACK")) :: map file_item l.
(** The bytes of a file and of an archive, the files may be empty *)
Definition file_bytes (f : file) : list Z := place f ++ uint LE 4 (zlen (f_data f)) ++ f_data f.
Definition pak (l : list file) : list Z := lit "PACK" ++ flat_map file_bytes l.

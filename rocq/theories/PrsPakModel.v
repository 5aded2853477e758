(** Model of parser/archive/prs_pak.py. *)
From Coq Require Import String.
From Verif Require Export Base BitsModel StreamModel DictModel FieldModel ToolsModel GenModel Lit.
Open Scope Z_scope.

(** prs_pak.py:18-21: createFields of FileEntry.  Simplified: strings are shown as their bytes; [file_name] is the value of the name. *)
Definition entry_fields : prog :=
  emit (lit "filename") (KText 56);
  have size := (lit "size") (KNum 32 LE);
  emit (lit "data") (KBytes (num size));
  PRet.
Definition FileEntry (k : prog) : prog := PSet (lit "file[]") None entry_fields (fun _ => k).
(** prs_pak.py:46-51: createFields.  Each entry has a byte at least, so that the loop ends before the fuel. *)
Definition pak_fields (size : Z) : prog := emit (lit "magic") (KText 4); loop FileEntry (S (Z.to_nat size)).
Definition PRSPakFile (read : read_fun) (size : Z) : shown := run read size (pak_fields size) true size 0.
(** field/string_field.py:285-289: truncate="\0" *)
Fixpoint file_name (x : list Z) : list Z := match x with [] => [] | b :: x => if b =? 0 then [] else b :: file_name x end.
(** prs_pak.py:41-44: validate; file[0] is the first entry *)
Definition pak_validate (read : read_fun) (l : list fld) : res bool :=
  do b <- readBytes read 0 4;
  if negb (str_eqb b (lit "PACK")) then Ok false
  else match find (fun f => match f with G n _ _ _ _ => str_eqb n (lit "file[]") | F _ _ _ _ => false end) l with
       | Some (G _ _ _ g _) =>
           match GenModel.get (lit "size") g with
           | None => Err MissingField
           | Some s => if negb (0 <=? num s) then Ok false
                       else match GenModel.get (lit "filename") g with None => Err MissingField | Some x => Ok (0 <? zlen (file_name (bytes x))) end
           end
       | _ => Err MissingField
       end.

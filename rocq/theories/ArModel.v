(** Model of parser/archive/ar.py. *)
From Coq Require Import String.
From Verif Require Export Base BitsModel StreamModel DictModel TorrentModel GenModel Lit.
Open Scope Z_scope.

(** Python's text.split(), for a text of code points below 256 *)
Fixpoint words_from (t cur : str) : list str :=
  match t with
  | [] => match cur with [] => [] | _ => [rev cur] end
  | c :: t => if is_space c then match cur with [] => words_from t [] | _ => rev cur :: words_from t [] end else words_from t (c :: cur)
  end.
Definition words (t : str) : list str := words_from t [].
(** ar.py:11-21: ArchiveFileEntry.  Simplified: the text of the header is read as ISO-8859-1. *)
Definition ArchiveFileEntry (k : prog) : prog :=
  PSet (lit "file[]") None
    (have header := (lit "header") (KLine 10);
     let info := words (bytes header) in
     if zlen info <? 3 then PErr ParserError
     else match py_int 10 (nth 1 (rev info) []) with
          | None => PErr ValueError
          | Some size => when (0 <? size) (fun k => emit (lit "content") (KBytes size); k) PRet
          end) (fun _ => k).
(** ar.py:23-24: its description *)
Definition ar_description (header : str) : res str := match words header with [] => Err IndexError | w :: _ => Ok (lit "File entry (" ++ w ++ lit ")") end.
(** ar.py:48-55: createFields, for a file of [size] bits *)
Definition ar_entry (k : prog) : prog :=
  PDo (fun read ssize stop a => do b <- readBytes read a 1; Ok (VBytes b)) (fun data =>
  if str_eqb (bytes data) [10] then emit (lit "empty_line[]") (KBytes 1); k
  else ArchiveFileEntry k).
Definition ar_fields (size : Z) : prog := emit (lit "id") (KText 8); loop ar_entry (S (Z.to_nat size)).
Definition ArchiveFile (read : read_fun) (size : Z) : shown := run read size (ar_fields size) true size 0.
(** ar.py:43-46: validate *)
Definition ar_validate (read : read_fun) : res bool := do b <- readBytes read 0 8; Ok (str_eqb b (lit "!<arch>" ++ [10])).

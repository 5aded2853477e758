(** Model of parser/audio/aiff.py. *)
From Coq Require Import String.
From Verif Require Export Base BitsModel StreamModel DictModel FieldModel ToolsModel GenModel Lit.
From Verif Require RasterModel Id3Model.
Open Scope Z_scope.

(** field/float.py:81-88: createFields of Float80.  Simplified: the bits of the exponent and of the mantissa are shown as a number, not as a part of the value *)
Definition Float80_fields : prog :=
  emit (lit "negative") (KNum 1 BE);
  emit (lit "exponent") (KNum 15 BE);
  emit (lit "one") (KNum 1 BE);
  emit (lit "mantissa") (KNum 63 BE); PRet.
(** aiff.py:28-32: Comment.  Simplified: timestamps are shown as their seconds, strings as their bytes. *)
Definition Comment_fields : prog :=
  emit (lit "timestamp") (KNum 32 BE);
  emit (lit "text") (KPascal 4 false); PRet.
(** aiff.py:35-66: the functions that parse chunks of [size] bytes *)
Definition parseText (size : Z) (k : prog) : prog := emit (lit "text") (KText size); k.
Definition parseID3 (size : Z) (k : prog) : prog := PSet (lit "id3v2") (Some (size * 8)) Id3Model.ID3v2_fields (fun _ => k).
Definition parseComment (k : prog) : prog :=
  have n := (lit "nb_comment") (KNum 16 BE);
  times (fun k => PSet (lit "comment[]") None Comment_fields (fun _ => k)) (Z.to_nat (num n)) k.
Definition parseCommon (k : prog) : prog :=
  emit (lit "nb_channel") (KNum 16 BE);
  emit (lit "nb_sample") (KNum 32 BE);
  emit (lit "sample_size") (KNum 16 BE);
  PSet (lit "sample_rate") (Some 80) Float80_fields (fun _ =>
  emit (lit "codec") (KText 4); k).
Definition parseVersion (k : prog) : prog := emit (lit "timestamp") (KNum 32 BE); k.
Definition parseSound (k : prog) : prog :=
  emit (lit "offset") (KNum 32 BE);
  emit (lit "block_size") (KNum 32 BE);
  PAsk (fun stop a => let size := (stop - a) / 8 in when (negb (size =? 0)) (fun k => emit (lit "data") (KBytes size); k) k).
(** aiff.py:70-78: TAG_INFO *)
Definition TAG_INFO (tag : str) (size : Z) : option (str * (prog -> prog)) :=
  if str_eqb tag (lit "COMM") then Some (lit "common", parseCommon)
  else if str_eqb tag (lit "COMT") then Some (lit "comment", parseComment)
  else if str_eqb tag (lit "NAME") then Some (lit "name", parseText size)
  else if str_eqb tag (lit "AUTH") then Some (lit "author", parseText size)
  else if str_eqb tag (lit "FVER") then Some (lit "version", parseVersion)
  else if str_eqb tag (lit "SSND") then Some (lit "sound", parseSound)
  else if str_eqb tag (lit "ID3 ") then Some (lit "id3", parseID3 size)
  else None.
(** aiff.py:89-99: Chunk.createFields.  Simplified: the bytes of NullBytes are shown whatever they are. *)
Definition Chunk_fields (size : Z) (parse : option (prog -> prog)) : prog :=
  emit (lit "type") (KText 4);
  emit (lit "size") (KNum 32 BE);
  if size =? 0 then PRet
  else match parse with
       | Some parse => parse (when (negb (size mod 2 =? 0)) (fun k => emit (lit "padding") (KBytes 1); k) PRet)
       | None => emit (lit "data") (KBytes size); PRet
       end.
(** aiff.py:80-87: Chunk.__init__; a chunk has the name of its tag, numbered when there are others with this name (C23). *)
Definition Chunk (k : prog) : prog :=
  look tag := 0 (KText 4) true;
  look size := 32 (KNum 32 BE) false;
  let '(name, parse) := match TAG_INFO (bytes tag) (num size) with Some (name, parse) => (name, Some parse) | None => (lit "chunk[]", None) end in
  PSet name (Some ((8 + alignValue (num size) 2) * 8)) (Chunk_fields (num size) parse) (fun _ => k).
(** aiff.py:121-126: createFields of AiffFile, for a file of [size] bits *)
Definition aiff_fields (size : Z) : prog :=
  emit (lit "signature") (KText 4);
  emit (lit "filesize") (KNum 32 BE);
  emit (lit "type") (KText 4);
  loop Chunk (S (Z.to_nat size)).
Definition AiffFile (read : read_fun) (size : Z) : shown := run read size (aiff_fields size) true size 0.
(** aiff.py:114-119: validate; 134-135: createContentSize *)
Definition aiff_validate (read : read_fun) : res bool :=
  do b <- readBytes read 0 4;
  if negb (str_eqb b (lit "FORM")) then Ok false
  else do t <- readBytes read (8 * 8) 4; Ok (str_eqb t (lit "AIFF") || str_eqb t (lit "AIFC")).
Definition aiff_content_size (l : list fld) : res Z := do s <- RasterModel.value "filesize" l; Ok (s * 8).

(** Model of parser/archive/gzip_parser.py. *)
From Coq Require Import String.
From Verif Require Export Base BitsModel StreamModel DictModel GenModel Lit.
Open Scope Z_scope.

(** gzip_parser.py:65-118: createFields, for a file of known size.  The field "mtime" is shown as a number of seconds (C43).
    Simplified: Deflate(SubFile(...)) (113) is a field with bytes; what they decompress to is that of zlib (C47, C51). *)
Definition gzip_fields : prog :=
  emit (lit "signature") (KBytes 2);
  emit (lit "compression") (KNum 8 LE);
  emit (lit "is_text") (KNum 1 LE);
  have crc := (lit "has_crc16") (KNum 1 LE);
  have extra := (lit "has_extra") (KNum 1 LE);
  have filename := (lit "has_filename") (KNum 1 LE);
  have comment := (lit "has_comment") (KNum 1 LE);
  emit (lit "reserved[]") (KNum 3 LE);
  emit (lit "mtime") (KNum 32 LE);
  emit (lit "reserved[]") (KNum 1 LE);
  emit (lit "slowest") (KNum 1 LE);
  emit (lit "fastest") (KNum 1 LE);
  emit (lit "reserved[]") (KNum 5 LE);
  emit (lit "os") (KNum 8 LE);
  when (num extra =? 1) (fun p => have n := (lit "extra_length") (KNum 16 LE); emit (lit "extra") (KBytes (num n)); p)
  (when (num filename =? 1) (fun p => emit (lit "filename") (KLine 0); p)
  (when (num comment =? 1) (fun p => emit (lit "comment") (KLine 0); p)
  (when (num crc =? 1) (fun p => emit (lit "hdr_crc16") (KNum 16 LE); p)
  (PAsk (fun stop a =>
     let size := (stop - a) / 8 - 8 in
     when (0 <? size) (fun p => emit (lit "file") (KBytes size); p)
     (emit (lit "crc32") (KNum 32 LE);
      emit (lit "size") (KNum 32 LE);
      PRet)))))).
(** The fields of a file of [size] bits *)
Definition GzipParser (read : read_fun) (size : Z) : shown := run read size gzip_fields true size 0.
(** gzip_parser.py:51-63: validate.  A field that is missing raises. *)
Definition gzip_validate (read : read_fun) (size : Z) : res bool :=
  let l := fst (fst (GzipParser read size)) in
  match get (lit "signature") l, get (lit "compression") l, gets (lit "reserved[]") l with
  | Some s, Some c, r1 :: r2 :: r3 :: _ => Ok (str_eqb (bytes s) [0x1F; 0x8B] && (num c =? 8) && (num r1 =? 0) && (num r2 =? 0) && (num r3 =? 0))
  | _, _, _ => Err MissingField
  end.

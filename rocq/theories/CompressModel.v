(** Model of CompressedStream (field/sub_file.py:35-63) and of the decompressors
    given to it (parser/common/deflate.py, parser/image/png.py,
    parser/archive/bzip2_parser.py). *)
From Verif Require Export Base.

(** The stream of the compressed data: its size in bits and its read method. A
    decompressor is called with a wanted size and, maybe, new data. *)
Section Stream.
Context {D : Type} (ssize : Z) (sread : Z -> Z -> res (Z * list Z * bool)) (call : D -> Z -> option (list Z) -> res (list Z * D)).

(** sub_file.py:38-41 *)
Record cstream := { c_offset : Z; c_buffer : list Z; c_dec : D }.
Definition cs_init (d : D) : cstream := {| c_offset := 0; c_buffer := []; c_dec := d |}.
(** sub_file.py:62-63: what read does at the end; [d]: the last data *)
Definition cs_end (offset size : Z) (d acc : list Z) (dec : D) : res (list Z * cstream) :=
  Ok (acc, {| c_offset := offset; c_buffer := skipn (Z.to_nat (size + zlen d)) d; c_dec := dec |}).
(** sub_file.py:51-61: the loop of read. The size of the stream is taken not to
    change meanwhile. *)
Fixpoint cs_loop (fuel : nat) (offset size : Z) (d acc : list Z) (dec : D) : res (list Z * cstream) :=
  if size <=? 0 then cs_end offset size d acc dec
  else match fuel with
  | O => Err OutOfFuel
  | S fuel =>
      let n := if ssize =? 0 then 4096 else Z.min (ssize - offset) 4096 in
      if n =? 0 then cs_end offset size d acc dec
      else
        do r <- sread offset n;
        let d := snd (fst r) in
        let offset := offset + 8 * zlen d in
        do c <- call dec size (Some d);
        let (d, dec) := c in
        cs_loop fuel offset (size - zlen d) d (acc ++ firstn (Z.to_nat size) d) dec
  end.
(** sub_file.py:43-63: read, for a size that is not negative *)
Definition cs_read (fuel : nat) (st : cstream) (size : Z) : res (list Z * cstream) :=
  let d := c_buffer st in
  let acc := firstn (Z.to_nat size) d in
  let size := size - zlen d in
  if size <=? 0 then cs_end (c_offset st) size d acc (c_dec st)
  else
    do c <- call (c_dec st) size None;
    let (d, dec) := c in
    cs_loop fuel (c_offset st) (size - zlen d) d (acc ++ firstn (Z.to_nat size) d) dec.
Fixpoint cs_reads (fuel : nat) (st : cstream) (sizes : list Z) : res (list (list Z)) :=
  match sizes with
  | [] => Ok []
  | n :: sizes => do r <- cs_read fuel st n; do rest <- cs_reads fuel (snd r) sizes; Ok (fst r :: rest)
  end.
End Stream.
Arguments cstream : clear implicits.

(** ** The decompressors *)
(** A zlib decompression object: [zcall z input max] gives the output, the input
    that was not consumed (unconsumed_tail) and the new object. *)
Section Zlib.
Context {Z0 : Type} (zcall : Z0 -> list Z -> Z -> list Z * list Z * Z0).
Definition zobj := (Z0 * list Z)%type.
(** parser/common/deflate.py:15-18 *)
Definition deflate_call (z : zobj) (size : Z) (data : option (list Z)) : res (list Z * zobj) :=
  let data := match data with None => [] | Some d => d end in
  let '(out, tail, z') := zcall (fst z) (snd z ++ data) size in Ok (out, (z', tail)).
(** parser/image/png.py:35-38 *)
Definition gunzip_call (z : zobj) (size : Z) (data : option (list Z)) : res (list Z * zobj) :=
  let data := match data with None => snd z | Some d => d end in
  let '(out, tail, z') := zcall (fst z) data size in Ok (out, (z', tail)).
End Zlib.
(** parser/archive/bzip2_parser.py:25-29: the default data is the text '', which
    BZ2Decompressor.decompress refuses. [bcall]: decompress of bytes; EOFError is
    given as [None]. *)
Definition bunzip_call {B : Type} (bcall : B -> list Z -> option (list Z * B)) (b : B) (size : Z) (data : option (list Z)) : res (list Z * B) :=
  match data with
  | None => Err TypeError
  | Some d => match bcall b d with Some r => Ok r | None => Ok ([], b) end
  end.

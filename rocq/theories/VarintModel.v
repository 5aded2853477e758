(** Model of the variable length integers of the parsers: midi.py, asn1.py, mkv.py,
    ogg.py, sevenzip.py, git_pack.py, and of bzip2's numbers and move-to-front.
    Each field is a function from the stream and its absolute address to the value
    and the size in bits the field reports. Loops that read until a byte without
    mark take fuel; the proofs show how much is enough. *)
From Verif Require Export Base BitsModel StreamModel.

Section Fields.
Context (read : read_fun).

(** midi.py:24-39: Integer; the loop body, [size] is self._size *)
Fixpoint midi_loop (fuel : nat) (e : endian) (addr value size : Z) : res (Z * Z) :=
  match fuel with
  | O => Err OutOfFuel
  | S fuel =>
      do bits <- readBits read addr 8 e;
      let value := Z.shiftl value 7 + Z.land bits 127 in
      if Z.land bits 128 =? 0 then Ok (value, size)
      else if 32 <? size + 8 then Err ParserError
      else midi_loop fuel e (addr + 8) value (size + 8)
  end.
Definition midi_int (e : endian) (addr : Z) : res (Z * Z) := midi_loop 4 e addr 0 8.

(** asn1.py:63-77: ASNInteger *)
Definition asn_int (addr : Z) : res (Z * Z) :=
  do value <- readBits read addr 8 BIG_ENDIAN;
  if 128 <=? value then
    let nbits := Z.land value 127 * 8 in
    if nbits =? 0 then Err ParserError
    else if 64 <? nbits then Err ParserError
    else do value <- readBits read (addr + 8) nbits BIG_ENDIAN; Ok (value, 8 + nbits)
  else Ok (value, 8).
(** asn1.py:82-100: OID_Integer *)
Fixpoint oid_loop (fuel : nat) (addr size value byte : Z) : res (Z * Z) :=
  match fuel with
  | O => Err OutOfFuel
  | S fuel =>
      if 128 <=? byte then
        if 64 <? size + 8 then Err ParserError
        else do byte <- readBits read (addr + 8) 8 BIG_ENDIAN;
             oid_loop fuel (addr + 8) (size + 8) (Z.shiftl value 7 + Z.land byte 127) byte
      else Ok (value, size)
  end.
Definition oid_int (addr : Z) : res (Z * Z) :=
  do byte <- readBits read addr 8 BIG_ENDIAN; oid_loop 9 addr 8 (Z.land byte 127) byte.

(** mkv.py:26-34: RawInt; the number of shifts that bring the first byte to
    128 or more *)
Fixpoint rawint_loop (fuel : nat) (i size : Z) : res Z :=
  match fuel with
  | O => Err OutOfFuel
  | S fuel => if i <? 128 then rawint_loop fuel (Z.shiftl i 1) (size + 8) else Ok size
  end.
Definition rawint_size (addr : Z) : res Z :=
  do i <- readInteger read addr false 8 BIG_ENDIAN;
  if i =? 0 then Err ParserError else rawint_loop 8 i 8.
(** mkv.py:45-50: Unsigned.createValue *)
Definition ebml_unsigned (addr : Z) : res (option Z * Z) :=
  do size <- rawint_size addr;
  let header := Z.shiftl 1 (size / 8 * 7) in
  do raw <- readInteger read addr false size BIG_ENDIAN;
  let value := raw - header in
  Ok (if value + 1 =? header then None else Some value, size).
(** mkv.py:55-60: Signed.createValue *)
Definition ebml_signed (addr : Z) : res (option Z * Z) :=
  do size <- rawint_size addr;
  let header := Z.shiftl 1 (size / 8 * 7 - 1) in
  do raw <- readInteger read addr false size BIG_ENDIAN;
  let value := raw - 3 * header + 1 in
  Ok (if value =? header then None else Some value, size).

(** ogg.py:28-39: XiphInt *)
Fixpoint xiph_loop (fuel : nat) (max_size : option Z) (addr value size : Z) : res (Z * Z) :=
  match fuel with
  | O => Err OutOfFuel
  | S fuel =>
      if match max_size with None => true | Some m => size <? m end then
        do byte <- readBits read addr 8 LITTLE_ENDIAN;
        if negb (byte =? 255) then Ok (value + byte, size + 8)
        else xiph_loop fuel max_size (addr + 8) (value + byte) (size + 8)
      else Ok (value, size)
  end.
Definition xiph_int (fuel : nat) (max_size : option Z) (addr : Z) : res (Z * Z) := xiph_loop fuel max_size addr 0 0.

(** sevenzip.py:38-53: SZUInt64; the rest of the loop for the indexes [l] *)
Fixpoint sz_loop (l : list Z) (firstByte addr mask value size : Z) : res (Z * Z) :=
  match l with
  | [] => Ok (value, size)
  | i :: l =>
      let addr := addr + 8 in
      if Z.land firstByte mask =? 0 then Ok (value + Z.shiftl (Z.land firstByte (mask - 1)) (8 * i), size)
      else
        do b <- readBits read addr 8 LITTLE_ENDIAN;
        sz_loop l firstByte addr (Z.shiftr mask 1) (Z.lor value (Z.shiftl b (8 * i))) (size + 8)
  end.
Definition sz_int (addr : Z) : res (Z * Z) :=
  do firstByte <- readBits read addr 8 LITTLE_ENDIAN;
  sz_loop [0; 1; 2; 3; 4; 5; 6; 7] firstByte addr 128 0 8.

(** git_pack.py:115-131: VarLengthInt; and the loop of 149-164: TypeAndSize.
    Bit and Bits fields read one and seven bits. *)
Fixpoint git_loop (fuel : nat) (addr value bits : Z) : res (Z * Z) :=
  match fuel with
  | O => Err OutOfFuel
  | S fuel =>
      do msb <- readBits read addr 1 BIG_ENDIAN;
      do v <- readBits read (addr + 1) 7 BIG_ENDIAN;
      let value := Z.lor value (Z.shiftl v bits) in
      if msb =? 0 then Ok (value, addr + 8) else git_loop fuel (addr + 8) value (bits + 7)
  end.
Definition git_int (fuel : nat) (addr : Z) : res (Z * Z) :=
  do r <- git_loop fuel addr 0 0; Ok (fst r, snd r - addr).
Definition git_type_size (fuel : nat) (addr : Z) : res (Z * Z * Z) :=
  do msb <- readBits read addr 1 BIG_ENDIAN;
  do typ <- readBits read (addr + 1) 3 BIG_ENDIAN;
  do size <- readBits read (addr + 4) 4 BIG_ENDIAN;
  if msb =? 0 then Ok (typ, size, 8)
  else do r <- git_loop fuel (addr + 8) size 4; Ok (typ, fst r, snd r - addr).
(** git_pack.py:69-103: a COPY DeltaInstruction, as (offset, size, bits read).
    [take set shift] reads one byte if its flag is set. *)
Fixpoint delta_bytes (flags : list (Z * Z)) (addr value : Z) : res (Z * Z) :=
  match flags with
  | [] => Ok (value, addr)
  | (set, shift) :: l =>
      if set =? 0 then delta_bytes l addr value
      else do b <- readBits read addr 8 BIG_ENDIAN; delta_bytes l (addr + 8) (Z.lor value (Z.shiftl b shift))
  end.
Definition delta_copy (addr : Z) : res (Z * Z * Z) :=
  do size1 <- readBits read (addr + 1) 1 BIG_ENDIAN;
  do size2 <- readBits read (addr + 2) 1 BIG_ENDIAN;
  do size3 <- readBits read (addr + 3) 1 BIG_ENDIAN;
  do offset1 <- readBits read (addr + 4) 1 BIG_ENDIAN;
  do offset2 <- readBits read (addr + 5) 1 BIG_ENDIAN;
  do offset3 <- readBits read (addr + 6) 1 BIG_ENDIAN;
  do offset4 <- readBits read (addr + 7) 1 BIG_ENDIAN;
  do o <- delta_bytes [(offset1, 24); (offset2, 16); (offset3, 8); (offset4, 0)] (addr + 8) 0;
  do s <- delta_bytes [(size1, 16); (size2, 8); (size3, 0)] (snd o) 0;
  Ok (fst o, fst s, snd s - addr).

(** bzip2_parser.py:36-54: ZeroTerminatedNumber *)
Fixpoint unary_loop (fuel : nat) (e : endian) (addr value size : Z) : res (Z * Z) :=
  match fuel with
  | O => Err OutOfFuel
  | S fuel =>
      do bit <- readBits read addr 1 e;
      if bit =? 0 then Ok (value, size + 1) else unary_loop fuel e (addr + 1) (value + 1) (size + 1)
  end.
Definition unary_int (fuel : nat) (e : endian) (addr : Z) : res (Z * Z) := unary_loop fuel e addr 0 0.
End Fields.

(** bzip2_parser.py:60-61: move_to_front, the new content of seq *)
Definition move_to_front {A} (seq : list A) (index : nat) : list A :=
  firstn 1 (skipn index seq) ++ firstn index seq ++ skipn (S index) seq.
(** bzip2_parser.py:112-116 (selectors) and 175-177 (literals): the values seen
    at the front after each move; an index beyond the end leaves the first
    element, or raises IndexError if there is none. *)
Fixpoint mtf_decode {A} (seq : list A) (l : list nat) : res (list A) :=
  match l with
  | [] => Ok []
  | i :: l =>
      let seq := move_to_front seq i in
      match seq with
      | [] => Err IndexError
      | x :: _ => do rest <- mtf_decode seq l; Ok (x :: rest)
      end
  end.
(** bzip2_parser.py:151-181: what Bzip2Block shows for the Huffman codes of a
    block, given as the list of their symbols (realvalue). [Run s n] is an RLE
    code for symbol s with accumulated run n. The choice of trees is not
    modelled here. *)
Inductive bz_item := Run (s : Z) (total : Z) | Literal (s : Z) | Terminator.
Fixpoint bz_items (symbols_used : list Z) (codes : list Z) (rle_run rle_power : Z) : res (list bz_item) :=
  match codes with
  | [] => Err ReadStreamError
  | c :: codes =>
      if (c =? 0) || (c =? 1) then
        let rle_power := if rle_run =? 0 then 1 else rle_power in
        let rle_run := rle_run + (c + 1) * rle_power in
        let rle_power := Z.shiftl rle_power 1 in
        match symbols_used with
        | [] => Err IndexError
        | s :: _ => do rest <- bz_items symbols_used codes rle_run rle_power; Ok (Run s rle_run :: rest)
        end
      else if c =? zlen symbols_used + 1 then Ok [Terminator]
      else
        let symbols_used := move_to_front symbols_used (Z.to_nat (c - 1)) in
        match symbols_used with
        | [] => Err IndexError
        | s :: _ => do rest <- bz_items symbols_used codes 0 rle_power; Ok (Literal s :: rest)
        end
  end.

(** Model of the DEFLATE decoder of hachoir/parser/archive/zlib.py.

    The stream is the list of its bits, least significant bit of each byte
    first ([bits_le]); Bits(n) in little endian is the integer of the next n
    bits (C01).  Names, descriptions and the field objects are not modelled.  A
    read beyond the end of the stream raises ReadStreamError. *)
From Verif Require Export Base BitsSpec HuffModel ToolsModel.

(** [l * n] for bytearrays *)
Fixpoint times {A} (l : list A) (n : nat) : list A := match n with O => [] | S n => l ++ times l n end.
(** zlib.py:18-24: extend_data, for offset >= 1 *)
Definition extend_data (data : list Z) (length offset : Z) : list Z :=
  if offset <=? length then
    let new_data := times (py_from data (- offset)) (Z.to_nat (alignValue length offset / offset)) in
    data ++ py_upto new_data length
  else data ++ py_slice data (- offset) (- offset + length).

(** zlib.py:75-104: LENGTH_SYMBOLS, from symbol 257 on: (min, max, extrabits) *)
Definition LENGTH_SYMBOLS : list (Z * Z * Z) :=
  [ (3, 3, 0); (4, 4, 0); (5, 5, 0); (6, 6, 0); (7, 7, 0); (8, 8, 0); (9, 9, 0); (10, 10, 0);
    (11, 12, 1); (13, 14, 1); (15, 16, 1); (17, 18, 1); (19, 22, 2); (23, 26, 2); (27, 30, 2); (31, 34, 2);
    (35, 42, 3); (43, 50, 3); (51, 58, 3); (59, 66, 3); (67, 82, 4); (83, 98, 4); (99, 114, 4); (115, 130, 4);
    (131, 162, 5); (163, 194, 5); (195, 226, 5); (227, 257, 5); (258, 258, 0) ].
(** zlib.py:105-135: DISTANCE_SYMBOLS, from symbol 0 on *)
Definition DISTANCE_SYMBOLS : list (Z * Z * Z) :=
  [ (1, 1, 0); (2, 2, 0); (3, 3, 0); (4, 4, 0); (5, 6, 1); (7, 8, 1); (9, 12, 2); (13, 16, 2);
    (17, 24, 3); (25, 32, 3); (33, 48, 4); (49, 64, 4); (65, 96, 5); (97, 128, 5); (129, 192, 6); (193, 256, 6);
    (257, 384, 7); (385, 512, 7); (513, 768, 8); (769, 1024, 8); (1025, 1536, 9); (1537, 2048, 9);
    (2049, 3072, 10); (3073, 4096, 10); (4097, 6144, 11); (6145, 8192, 11); (8193, 12288, 12); (12289, 16384, 12);
    (16385, 24576, 13); (24577, 32768, 13) ].
Definition symbol_info (table : list (Z * Z * Z)) (first s : Z) : res (Z * Z * Z) :=
  if s <? first then Err KeyError
  else match nth_error table (Z.to_nat (s - first)) with Some i => Ok i | None => Err KeyError end.
(** zlib.py:138-139 *)
Definition CODE_LENGTH_ORDER : list Z := [16; 17; 18; 0; 8; 7; 9; 6; 10; 5; 11; 4; 12; 3; 13; 2; 14; 1; 15].

(** The value of [Bits(self, name, n)] and the remaining bits. *)
Definition read_le (n : Z) (bits : list bool) : res (Z * list bool) :=
  if zlen bits <? n then Err ReadStreamError
  else Ok (val_le (firstn (Z.to_nat n) bits), skipn (Z.to_nat n) bits).

(** range(a, b) *)
Definition zrange (a b : Z) : list Z := map (fun k => a + Z.of_nat k) (seq 0 (Z.to_nat (b - a))).
(** zlib.py:165-177: the trees of the fixed codes *)
Definition fixed_length_tree : htree :=
  map (fun i => ((8, i + 48), i)) (zrange 0 144) ++ map (fun i => ((9, i + 256), i)) (zrange 144 256) ++
  map (fun i => ((7, i - 256), i)) (zrange 256 280) ++ map (fun i => ((8, i - 88), i)) (zrange 280 288).
Definition fixed_distance_tree : htree := map (fun i => ((5, i), i)) (zrange 0 32).

(** zlib.py:183-189: the code lengths of the code length alphabet *)
Fixpoint read_clens (order : list Z) (acc : list Z) (bits : list bool) : res (list Z * list bool) :=
  match order with
  | [] => Ok (acc, bits)
  | i :: order =>
      do vb <- read_le 3 bits;
      let '(v, bits) := vb in read_clens order (upd acc (Z.to_nat i) v) bits
  end.
(** zlib.py:196-224: the loop that reads [numcodes] code lengths; [prev] is
    prev_value, unbound before the first literal length. *)
Fixpoint read_lengths (fuel : nat) (t : htree) (numcodes : Z) (prev : option Z) (lengths : list Z) (bits : list bool)
  : res (list Z * option Z * list bool) :=
  if zlen lengths <? numcodes then
    match fuel with
    | O => Err OutOfFuel
    | S fuel =>
        do h <- huffman_code t bits;
        let '(value, _, bits) := h in
        if value <? 16 then read_lengths fuel t numcodes (Some value) (lengths ++ [value]) bits
        else
          do rep <- (if value =? 16 then match prev with Some p => Ok (p, 3, 2) | None => Err UnboundLocalError end
                     else if value =? 17 then Ok (0, 3, 3) else if value =? 18 then Ok (0, 11, 7) else Err KeyError);
          let '(repvalue, low, extra) := rep in
          do xb <- read_le extra bits;
          let '(x, bits) := xb in
          read_lengths fuel t numcodes prev (lengths ++ repeat repvalue (Z.to_nat (x + low))) bits
    end
  else Ok (lengths, prev, bits).
(** [min + extra bits] of a length or distance symbol: zlib.py:244-257, 261-273 *)
Definition read_extra (info : Z * Z * Z) (bits : list bool) : res (Z * list bool) :=
  let '(low, _, extra) := info in
  if extra =? 0 then Ok (low, bits)
  else do xb <- read_le extra bits; let '(x, bits) := xb in Ok (x + low, bits).
(** zlib.py:229-274: the loop on the symbols of a block *)
Fixpoint read_symbols (fuel : nat) (tl td : htree) (out : list Z) (bits : list bool) : res (list Z * list bool) :=
  match fuel with
  | O => Err OutOfFuel
  | S fuel =>
      do h <- huffman_code tl bits;
      let '(value, _, bits) := h in
      if value <? 256 then read_symbols fuel tl td (out ++ [value]) bits
      else if value =? 256 then Ok (out, bits)
      else
        do info <- symbol_info LENGTH_SYMBOLS 257 value;
        do lb <- read_extra info bits;
        let '(len, bits) := lb in
        do h <- huffman_code td bits;
        let '(value, _, bits) := h in
        do info <- symbol_info DISTANCE_SYMBOLS 0 value;
        do db <- read_extra info bits;
        let '(dist, bits) := db in
        read_symbols fuel tl td (extend_data out len dist) bits
  end.
(** zlib.py:143-270: DeflateBlock.createFields, for a block that starts at bit
    [pos] of the stream; gives [final], uncomp_data and the remaining bits. *)
Definition read_block (total : Z) (out : list Z) (bits : list bool) : res (bool * list Z * list bool) :=
  do fb <- read_le 1 bits;
  let '(f, bits) := fb in
  let final := negb (f =? 0) in
  do tb <- read_le 2 bits;
  let '(kind, bits) := tb in
  if kind =? 0 then
    do pb <- read_le (paddingSize (total - zlen bits) 8) bits;
    let '(_, bits) := pb in
    do lb <- read_le 16 bits;
    let '(len, bits) := lb in
    do nb <- read_le 16 bits;
    let '(nlen, bits) := nb in
    if negb (len =? 65535 - nlen) then Err ParserError   (* ~nlen & 0xFFFF *)
    else
      do db <- read_le (len * 8) bits;
      let '(_, bits) := db in Ok (final, out, bits)
  else if kind =? 1 then
    do r <- read_symbols (S (length bits)) fixed_length_tree fixed_distance_tree out bits;
    let '(out, bits) := r in Ok (final, out, bits)
  else if kind =? 2 then
    do hl <- read_le 5 bits; let '(nl, bits) := hl in
    do hd <- read_le 5 bits; let '(nd, bits) := hd in
    do hc <- read_le 4 bits; let '(nc, bits) := hc in
    do cl <- read_clens (firstn (Z.to_nat (nc + 4)) CODE_LENGTH_ORDER) (repeat 0 19) bits;
    let '(clens, bits) := cl in
    do tc <- build_tree clens;
    do ll <- read_lengths (S (length bits)) tc (nl + 257) None [] bits;
    let '(llens, prev, bits) := ll in
    do dl <- read_lengths (S (length bits)) tc (nd + 1) prev [] bits;
    let '(dlens, _, bits) := dl in
    do tl <- build_tree llens;
    do td <- build_tree dlens;
    do r <- read_symbols (S (length bits)) tl td out bits;
    let '(out, bits) := r in Ok (final, out, bits)
  else Err ParserError.
(** zlib.py:276-289: DeflateData.createFields; gives uncompressed_data and the
    bits after the padding to a byte boundary. *)
Fixpoint read_blocks (fuel : nat) (total : Z) (out : list Z) (bits : list bool) : res (list Z * list bool) :=
  match fuel with
  | O => Err OutOfFuel
  | S fuel =>
      do r <- read_block total out bits;
      let '(final, out, bits) := r in
      if (final : bool) then
        do pb <- read_le (paddingSize (total - zlen bits) 8) bits;
        let '(_, bits) := pb in Ok (out, bits)
      else read_blocks fuel total out bits
  end.
Definition inflate (data : list Z) : res (list Z * list bool) :=
  let bits := bits_le data in read_blocks (S (length bits)) (zlen bits) [] bits.

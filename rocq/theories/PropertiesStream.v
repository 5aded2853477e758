(** Property theorems C01-C08 and C10: reading and writing streams. *)
From Verif Require Import Base BaseProofs BitsModel BitsSpec BitsSpec2 BitsProofs BitsProofs2
  StreamModel StreamSpec StreamProofs StreamProofs2 OutputModel OutputProofs OutputProofs2.

Definition demo : list Z := [0x12; 0xF4; 0x56; 0x79; 0x00; 0xFF].
Example demo_bytes : is_bytes demo.
Proof. unfold demo, is_bytes. repeat (constructor; [unfold is_byte; lia|]). constructor. Qed.

(** ** C01 *)
Theorem C01_readBits_exact : forall data addr n e,
  is_bytes data -> 0 <= addr -> 1 <= n ->
  readBits (string_read data) addr n e =
  if bits_available data addr n e then Ok (bits_at data addr n e) else Err ReadStreamError.
Proof. exact readBits_string_spec. Qed.
Print Assumptions C01_readBits_exact.
Example C01_ex : readBits (string_read demo) 4 12 BIG_ENDIAN = Ok 0x2F4
  /\ readBits (string_read demo) 4 12 LITTLE_ENDIAN = Ok 0xF41
  /\ readBits (string_read demo) 4 12 MIDDLE_ENDIAN = Ok 0x412
  /\ readBits (string_read demo) 40 9 BIG_ENDIAN = Err ReadStreamError.
Proof. vm_compute. auto. Qed.

(** The same for a seekable file, and for any stream that serves [data]. *)
Theorem C01_readBits_any_stream : forall read data addr n e,
  serves read data -> is_bytes data -> 0 <= addr -> 1 <= n ->
  bits_available data addr n e = true ->
  readBits read addr n e = Ok (bits_at data addr n e).
Proof. exact readBits_serves. Qed.
Print Assumptions C01_readBits_any_stream.
Theorem C01_file_serves : forall data, serves (file_read data) data.
Proof. exact file_serves. Qed.
Print Assumptions C01_file_serves.
Theorem C01_file_past_end : forall data a n,
  0 <= a -> 1 <= n -> 8 * zlen data < a + n -> file_read data a n = Err ReadStreamError.
Proof. exact file_read_past. Qed.
Print Assumptions C01_file_past_end.
Example C01_any_ex : serves (file_read demo) demo /\ bits_available demo 4 12 MIDDLE_ENDIAN = true.
Proof. split; [apply file_serves|reflexivity]. Qed.

Theorem C01_readBits_zero : forall data addr e,
  is_bytes data -> 0 <= addr -> bits_available data addr 0 e = true ->
  readBits (string_read data) addr 0 e = Ok 0.
Proof. exact readBits_string_zero. Qed.
Print Assumptions C01_readBits_zero.
Example C01_zero_ex : bits_available demo 13 0 BIG_ENDIAN = true. Proof. reflexivity. Qed.

(** Full statement "raises ReadStreamError exactly when the addressed bytes are
    not all inside" is false for negative addresses: they index from the end. *)
Theorem C01_negative_address_refuted : exists data addr n e v,
  is_bytes data /\ addr < 0 /\ 1 <= n /\ readBits (string_read data) addr n e = Ok v.
Proof. exists demo, (-16), 8, BIG_ENDIAN, 0. repeat split; try lia; exact demo_bytes. Qed.
Print Assumptions C01_negative_address_refuted.

(** ** C02 *)
Theorem C02_adjacent_reads_join : forall data addr n m e v1 v2,
  is_bytes data -> 0 <= addr -> 1 <= n -> 1 <= m ->
  readBits (string_read data) addr n e = Ok v1 ->
  readBits (string_read data) (addr + n) m e = Ok v2 ->
  readBits (string_read data) addr (n + m) e =
  Ok (match e with LITTLE_ENDIAN => v1 + 2 ^ n * v2 | _ => v1 * 2 ^ m + v2 end).
Proof. exact readBits_compose. Qed.
Print Assumptions C02_adjacent_reads_join.
Theorem C02_adjacent_reads_split : forall data addr n m e v,
  is_bytes data -> 0 <= addr -> 1 <= n -> 1 <= m ->
  readBits (string_read data) addr (n + m) e = Ok v ->
  exists v1 v2,
    readBits (string_read data) addr n e = Ok v1 /\
    readBits (string_read data) (addr + n) m e = Ok v2 /\
    0 <= v1 < 2 ^ n /\ 0 <= v2 < 2 ^ m /\
    v = match e with LITTLE_ENDIAN => v1 + 2 ^ n * v2 | _ => v1 * 2 ^ m + v2 end.
Proof. exact readBits_decompose. Qed.
Print Assumptions C02_adjacent_reads_split.
Example C02_ex : readBits (string_read demo) 3 7 LITTLE_ENDIAN = Ok 2
  /\ readBits (string_read demo) 10 9 LITTLE_ENDIAN = Ok 445
  /\ readBits (string_read demo) 3 16 LITTLE_ENDIAN = Ok (2 + 2 ^ 7 * 445).
Proof. vm_compute. auto. Qed.

(** ** C03 *)
Theorem C03_readInteger_twos_complement : forall data addr (signed : bool) n e,
  is_bytes data -> 0 <= addr -> 1 <= n ->
  bits_available data addr n e = true ->
  exists v, readInteger (string_read data) addr signed n e = Ok v /\
    (if signed then - 2 ^ (n - 1) <= v < 2 ^ (n - 1) else 0 <= v < 2 ^ n) /\
    v mod 2 ^ n = bits_at data addr n e.
Proof. exact readInteger_string_spec. Qed.
Print Assumptions C03_readInteger_twos_complement.
Theorem C03_readInteger_past_end : forall data addr signed n e,
  is_bytes data -> 0 <= addr -> 1 <= n -> bits_available data addr n e = false ->
  readInteger (string_read data) addr signed n e = Err ReadStreamError.
Proof. exact readInteger_string_err. Qed.
Print Assumptions C03_readInteger_past_end.
Example C03_ex : readInteger (string_read demo) 8 true 8 BIG_ENDIAN = Ok (-12)
  /\ bits_available demo 8 8 BIG_ENDIAN = true /\ bits_available demo 45 8 BIG_ENDIAN = false.
Proof. vm_compute. auto. Qed.

(** ** C04 *)
Theorem C04_writeBits_then_readBits : forall e ws,
  e <> MIDDLE_ENDIAN -> Forall valid_write ws ->
  exists st, writeBits_all ostream_init ws e = Ok st /\
    is_bytes (flushed st) /\
    0 <= bit_pos st < 8 /\ 8 * zlen (out st) + bit_pos st = total_bits ws /\
    forall pre c v post, ws = pre ++ (c, v) :: post -> 1 <= c ->
      readBits (string_read (flushed st)) (total_bits pre) c e = Ok v.
Proof. exact writeBits_readBits. Qed.
Print Assumptions C04_writeBits_then_readBits.
(** The complete bytes alone already hold every value that fits in them. *)
Theorem C04_complete_bytes : forall data more addr n e v,
  is_bytes data -> is_bytes more -> e <> MIDDLE_ENDIAN -> 0 <= addr -> 1 <= n -> addr + n <= 8 * zlen data ->
  readBits (string_read (data ++ more)) addr n e = Ok v -> readBits (string_read data) addr n e = Ok v.
Proof. exact readBits_prefix. Qed.
Print Assumptions C04_complete_bytes.
Definition demo_writes : list (Z * Z) := [(3, 5); (13, 4097); (1, 0); (0, 0); (20, 1048575)].
Example C04_ex : Forall valid_write demo_writes
  /\ (exists st, writeBits_all ostream_init demo_writes LITTLE_ENDIAN = Ok st /\ zlen (out st) = 4).
Proof.
  split.
  - unfold demo_writes. repeat (constructor; [unfold valid_write; cbn; lia|]). constructor.
  - eexists. split; vm_compute; reflexivity.
Qed.
(** writeBit (one bit at a time) does not have the property: two different bit
    sequences produce the same byte. *)
Fixpoint writeBit_all (st : ostream) (bs : list bool) (e : endian) : res ostream :=
  match bs with [] => Ok st | b :: bs' => do st <- writeBit st b e; writeBit_all st bs' e end.
Theorem C04_writeBit_refuted : exists bs1 bs2 st,
  bs1 <> bs2 /\ length bs1 = 8%nat /\ length bs2 = 8%nat /\
  writeBit_all ostream_init bs1 BIG_ENDIAN = Ok st /\ writeBit_all ostream_init bs2 BIG_ENDIAN = Ok st /\
  zlen (out st) = 1.
Proof.
  exists [true; false; false; false; false; false; false; false],
         [false; false; false; false; false; false; false; true].
  eexists. split; [discriminate|]. split; [reflexivity|]. split; [reflexivity|].
  split; [vm_compute; reflexivity|]. split; reflexivity.
Qed.
Print Assumptions C04_writeBit_refuted.

(** ** C05 *)
(** Full property: every representable value, signed or not.  Proved for
    unsigned values; false for every signed value (below). *)
Theorem C05_writeInteger_unsigned_partial : forall st v size e post,
  is_bytes (out st) -> is_bytes post -> bit_pos st = 0 -> e <> MIDDLE_ENDIAN -> 1 <= size -> 0 <= v < 2 ^ (8 * size) ->
  exists st', writeInteger st v false size e = Ok st' /\
    (exists raw, out st' = out st ++ raw /\ zlen raw = size) /\ bit_pos st' = 0 /\
    readInteger (string_read (out st' ++ post)) (8 * zlen (out st)) false (8 * size) e = Ok v.
Proof. exact writeInteger_unsigned_roundtrip. Qed.
Print Assumptions C05_writeInteger_unsigned_partial.
Theorem C05_writeInteger_signed_refuted : forall st v size e post,
  is_bytes (out st) -> is_bytes post -> bit_pos st = 0 -> e <> MIDDLE_ENDIAN -> 1 <= size ->
  - 2 ^ (8 * size - 1) <= v < 2 ^ (8 * size - 1) ->
  exists st', writeInteger st v true size e = Ok st' /\
    (exists raw, out st' = out st ++ raw /\ zlen raw = size) /\
    readInteger (string_read (out st' ++ post)) (8 * zlen (out st)) true (8 * size) e =
    Ok (if 0 <=? v then v - 2 ^ (8 * size - 1) else v + 2 ^ (8 * size - 1)).
Proof. exact writeInteger_signed_wrong. Qed.
Print Assumptions C05_writeInteger_signed_refuted.
Theorem C05_writeInteger_unaligned : forall st v (signed : bool) size e,
  bit_pos st <> 0 -> e <> MIDDLE_ENDIAN -> 1 <= size ->
  (if signed then - 2 ^ (8 * size - 1) <= v < 2 ^ (8 * size - 1) else 0 <= v < 2 ^ (8 * size)) ->
  writeInteger st v signed size e = Err NotImplementedError.
Proof. exact writeInteger_unaligned. Qed.
Print Assumptions C05_writeInteger_unaligned.
Example C05_ex : exists st, writeInteger {| out := demo; bit_pos := 0; byte := 0 |} 1000 false 3 LITTLE_ENDIAN = Ok st
  /\ out st = demo ++ [232; 3; 0].
Proof. eexists. vm_compute. auto. Qed.
Example C05_signed_ex : (do st <- writeInteger ostream_init (-1) true 1 BIG_ENDIAN;
  readInteger (string_read (out st)) 0 true 8 BIG_ENDIAN) = Ok 127.
Proof. reflexivity. Qed.

(** ** C06 *)
Theorem C06_copyBytesFrom : forall st input data a n,
  serves input data -> bit_pos st = 0 -> 0 <= a -> 0 <= n -> a + n <= zlen data ->
  copyBytesFrom st input (8 * a) n = Ok {| out := out st ++ sub data a n; bit_pos := 0; byte := byte st |}.
Proof. exact copyBytesFrom_exact. Qed.
Print Assumptions C06_copyBytesFrom.
Theorem C06_copyBytesFrom_short_input : forall st data a n,
  bit_pos st = 0 -> 0 <= a -> 1 <= n -> zlen data < a + n ->
  copyBytesFrom st (string_read data) (8 * a) n = Err ReadStreamError.
Proof. exact copyBytesFrom_short. Qed.
Print Assumptions C06_copyBytesFrom_short_input.
(** [extends e st st' n v]: st' holds the bits of st followed by the n bits of
    v; C06_extends_reads says it in terms of readBits. *)
Theorem C06_copyBitsFrom : forall st input data a n e,
  serves input data -> is_bytes data -> e <> MIDDLE_ENDIAN -> wf_out e st ->
  0 <= a -> 1 <= n -> a + n <= 8 * zlen data ->
  (n <= max_bit_length \/ (a mod 8 = 0 /\ n mod 8 = 0 /\ bit_pos st = 0)) ->
  exists st', copyBitsFrom st input a n e = Ok st' /\ extends e st st' n (bits_at data a n e).
Proof. exact copyBitsFrom_exact. Qed.
Print Assumptions C06_copyBitsFrom.
Theorem C06_extends_reads : forall e st st' c v,
  e <> MIDDLE_ENDIAN -> wf_out e st -> 0 <= v < 2 ^ c -> 0 <= c -> extends e st st' c v ->
  (1 <= c -> readBits (string_read (flushed st')) (total st) c e = Ok v) /\
  (forall a m, 0 <= a -> 1 <= m -> a + m <= total st ->
     readBits (string_read (flushed st')) a m e = readBits (string_read (flushed st)) a m e).
Proof. exact extends_reads. Qed.
Print Assumptions C06_extends_reads.
Example C06_ex : (do st <- writeBits ostream_init 3 5 BIG_ENDIAN;
   copyBitsFrom st (string_read demo) 5 20 BIG_ENDIAN)
  = Ok {| out := [0xAB; 0xD1]; bit_pos := 7; byte := 0x58 |}
  /\ copyBytesFrom ostream_init (string_read demo) 8 3 = Ok {| out := [0xF4; 0x56; 0x79]; bit_pos := 0; byte := 0 |}.
Proof. vm_compute. auto. Qed.
(** Longer unaligned copies are refused (AssertionError), so "appends exactly
    the addressed bits" fails for them. *)
Theorem C06_long_unaligned_refuted : exists st data a n e,
  is_bytes data /\ wf_out e st /\ 0 <= a /\ a + n <= 8 * zlen data /\
  copyBitsFrom st (string_read data) a n e = Err AssertionError.
Proof.
  exists ostream_init, (repeat 0 40), 1, 300, BIG_ENDIAN.
  repeat split; try (vm_compute; congruence); try reflexivity.
  - apply is_bytes_zeros.
  - constructor.
Qed.
Print Assumptions C06_long_unaligned_refuted.

(** ** C07 *)
Theorem C07_searchBytes_first : forall read data needle s end_address,
  serves read data -> data <> [] -> needle <> [] -> 0 <= s ->
  (exists i, searchBytes read (8 * zlen data) needle (8 * s) end_address = Ok (Some (8 * i)) /\
             first_occurrence needle data s (search_limit data end_address) i)
  \/ (searchBytes read (8 * zlen data) needle (8 * s) end_address = Ok None /\
      forall i, ~ first_occurrence needle data s (search_limit data end_address) i).
Proof. exact searchBytes_correct. Qed.
Print Assumptions C07_searchBytes_first.
Theorem C07_searchBytes_unaligned : forall read size needle start e,
  start mod 8 <> 0 -> searchBytes read size needle start e = Err InputStreamError.
Proof. exact searchBytes_unaligned. Qed.
Print Assumptions C07_searchBytes_unaligned.
Theorem C07_searchBytesLength : forall read data needle (include : bool) s end_address,
  serves read data -> data <> [] -> needle <> [] -> 0 <= s ->
  (exists i, searchBytesLength read (8 * zlen data) needle include (8 * s) end_address =
               Ok (Some (i - s + if include then zlen needle else 0)) /\
             first_occurrence needle data s (search_limit data end_address) i)
  \/ (searchBytesLength read (8 * zlen data) needle include (8 * s) end_address = Ok None /\
      forall i, ~ first_occurrence needle data s (search_limit data end_address) i).
Proof. exact searchBytesLength_correct. Qed.
Print Assumptions C07_searchBytesLength.
(** A needle straddling the 4096-byte chunk boundary. *)
Example C07_ex : searchBytes (string_read (repeat 0 4095 ++ [1; 2; 3])) (8 * 4098) [1; 2; 3] 8 None = Ok (Some 32760).
Proof. vm_compute. reflexivity. Qed.

(** ** C08 *)
Theorem C08_substream_window : forall read data o n,
  serves read data -> 0 <= o -> 0 <= n -> o + n <= zlen data ->
  serves (substream_read read (8 * o)) (sub data o n).
Proof. exact substream_serves. Qed.
Print Assumptions C08_substream_window.
Theorem C08_substream_bits : forall read data off a n e,
  serves read data -> is_bytes data -> e <> MIDDLE_ENDIAN ->
  0 <= off -> 0 <= a -> 1 <= n -> off + a + n <= 8 * zlen data ->
  readBits (substream_read read off) a n e = Ok (bits_at data (off + a) n e).
Proof. exact substream_bits. Qed.
Print Assumptions C08_substream_bits.
Theorem C08_past_parent : forall data off a n,
  0 <= off + a -> 1 <= n -> 8 * zlen data < off + a + n ->
  substream_read (string_read data) off a n = Err ReadStreamError.
Proof. exact substream_past_parent. Qed.
Print Assumptions C08_past_parent.
Example C08_ex : readBits (substream_read (string_read demo) 12) 4 8 BIG_ENDIAN = Ok 0x56.
Proof. reflexivity. Qed.
(** "Reads that leave the window fail" is false: only the parent's end is
    checked. *)
Theorem C08_confinement_refuted : exists data off size a n v,
  is_bytes data /\ substream_size (8 * zlen data) off (Some size) = Ok size /\
  0 <= a /\ size < a + n /\ off + size <= 8 * zlen data /\
  readBits (substream_read (string_read data) off) a n BIG_ENDIAN = Ok v.
Proof.
  exists demo, 8, 8, 8, 8, 0x56. repeat split; try (vm_compute; congruence); try reflexivity. exact demo_bytes.
Qed.
Print Assumptions C08_confinement_refuted.

(** ** C10 *)
Theorem C10_concat_serves : forall r0 d0 r1 d1,
  serves r0 d0 -> serves r1 d1 ->
  serves (concat_read r0 (8 * zlen d0) r1) (d0 ++ d1).
Proof. exact concat_serves. Qed.
Print Assumptions C10_concat_serves.
Theorem C10_concat_readBits : forall d0 d1 a n e,
  d1 <> [] -> 0 <= a -> 1 <= n ->
  readBits (concat_read (string_read d0) (8 * zlen d0) (string_read d1)) a n e
  = readBits (string_read (d0 ++ d1)) a n e.
Proof. exact concat_string_readBits. Qed.
Print Assumptions C10_concat_readBits.
Theorem C10_concat_readBytes : forall d0 d1 a n,
  d1 <> [] -> 0 <= a -> 1 <= n ->
  readBytes (concat_read (string_read d0) (8 * zlen d0) (string_read d1)) a n
  = readBytes (string_read (d0 ++ d1)) a n.
Proof. exact concat_string_readBytes. Qed.
Print Assumptions C10_concat_readBytes.
Example C10_ex : readBits (concat_read (string_read [1; 2]) 16 (string_read demo)) 12 11 BIG_ENDIAN = Ok 265.
Proof. reflexivity. Qed.

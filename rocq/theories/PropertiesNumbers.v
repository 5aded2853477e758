(** C41, C49, C55: variable length integers, move to front and the symbols of
    bzip2 blocks, git deltas. *)
From Coq Require Import Permutation.
From Verif Require Import Base BaseProofs BitsModel StreamModel StreamSpec StreamProofs VarintModel VarintSpec VarintProofs VarintProofs2 VarintProofs3.
Ltac Zify.zify_post_hook ::= Z.div_mod_to_equations.

(** ** C41 *)
(** [occurs_at bytes data k]: the bytes are found in [data] at byte offset [k]. *)
Theorem C41_midi : forall read data, serves read data -> is_bytes data -> forall e n v k,
  e <> MIDDLE_ENDIAN -> (n <= 3)%nat -> 0 <= v < 128 ^ (Z.of_nat n + 1) -> occurs_at (vlq n v) data k ->
  midi_int read e (8 * k) = Ok (v, 8 * (Z.of_nat n + 1)).
Proof. exact midi_ok. Qed.
Print Assumptions C41_midi.
(** On any data: an encoding as above, or four marked bytes and ParserError, or
    the end of the data. *)
Theorem C41_midi_any : forall data, is_bytes data -> forall e k, e <> MIDDLE_ENDIAN -> 0 <= k <= zlen data ->
  (exists n v, (n <= 3)%nat /\ 0 <= v < 128 ^ (Z.of_nat n + 1) /\ occurs_at (vlq n v) data k /\
     midi_int (string_read data) e (8 * k) = Ok (v, 8 * (Z.of_nat n + 1))) \/
  (exists l, occurs_at l data k /\ Forall (fun b => 128 <= b < 256) l /\ zlen l = 4 /\ midi_int (string_read data) e (8 * k) = Err ParserError) \/
  (exists l, occurs_at l data k /\ Forall (fun b => 128 <= b < 256) l /\ zlen l < 4 /\ k + zlen l = zlen data /\ midi_int (string_read data) e (8 * k) = Err ReadStreamError).
Proof. exact midi_any. Qed.
Print Assumptions C41_midi_any.
Theorem C41_asn_length : forall read data, serves read data -> is_bytes data -> forall k,
  (forall v, 0 <= v < 128 -> occurs_at (asn_short v) data k -> asn_int read (8 * k) = Ok (v, 8)) /\
  (forall n v, (1 <= n <= 8)%nat -> 0 <= v < 256 ^ Z.of_nat n -> occurs_at (asn_long n v) data k -> asn_int read (8 * k) = Ok (v, 8 * (Z.of_nat n + 1))) /\
  (forall b, occurs_at [b] data k -> b = 128 \/ 136 < b -> asn_int read (8 * k) = Err ParserError).
Proof.
  intros read data S D k. split; [|split].
  - intros v. exact (asn_short_ok read data S D v k).
  - intros n v. exact (asn_long_ok read data S D n v k).
  - intros b. exact (asn_bad read data S D b k).
Qed.
Print Assumptions C41_asn_length.
Theorem C41_oid : forall read data, serves read data -> is_bytes data -> forall n v k,
  (n <= 7)%nat -> 0 <= v < 128 ^ (Z.of_nat n + 1) -> occurs_at (vlq n v) data k ->
  oid_int read (8 * k) = Ok (v, 8 * (Z.of_nat n + 1)).
Proof. exact oid_ok. Qed.
Print Assumptions C41_oid.
Theorem C41_oid_any : forall data, is_bytes data -> forall k, 0 <= k <= zlen data ->
  (exists n v, (n <= 7)%nat /\ 0 <= v < 128 ^ (Z.of_nat n + 1) /\ occurs_at (vlq n v) data k /\
     oid_int (string_read data) (8 * k) = Ok (v, 8 * (Z.of_nat n + 1))) \/
  (exists l, occurs_at l data k /\ Forall (fun b => 128 <= b < 256) l /\ zlen l = 8 /\ oid_int (string_read data) (8 * k) = Err ParserError) \/
  (exists l, occurs_at l data k /\ Forall (fun b => 128 <= b < 256) l /\ zlen l < 8 /\ k + zlen l = zlen data /\ oid_int (string_read data) (8 * k) = Err ReadStreamError).
Proof. exact oid_any. Qed.
Print Assumptions C41_oid_any.
(** EBML: the number with all bits set is reserved and has no value. *)
Theorem C41_ebml : forall read data, serves read data -> is_bytes data -> forall n v k,
  (1 <= n <= 8)%nat -> 0 <= v < 2 ^ (7 * Z.of_nat n) -> occurs_at (ebml n v) data k ->
  ebml_unsigned read (8 * k) = Ok (if v =? 2 ^ (7 * Z.of_nat n) - 1 then None else Some v, 8 * Z.of_nat n).
Proof. exact ebml_unsigned_ok. Qed.
Print Assumptions C41_ebml.
Theorem C41_ebml_signed : forall read data, serves read data -> is_bytes data -> forall n v k,
  (1 <= n <= 8)%nat -> - (2 ^ (7 * Z.of_nat n - 1) - 1) <= v <= 2 ^ (7 * Z.of_nat n - 1) ->
  occurs_at (ebml n (v + (2 ^ (7 * Z.of_nat n - 1) - 1))) data k ->
  ebml_signed read (8 * k) = Ok (if v =? 2 ^ (7 * Z.of_nat n - 1) then None else Some v, 8 * Z.of_nat n).
Proof. exact ebml_signed_ok. Qed.
Print Assumptions C41_ebml_signed.
Theorem C41_ebml_zero : forall read data, serves read data -> is_bytes data -> forall k, occurs_at [0] data k ->
  ebml_unsigned read (8 * k) = Err ParserError /\ ebml_signed read (8 * k) = Err ParserError.
Proof. exact ebml_zero. Qed.
Print Assumptions C41_ebml_zero.
Theorem C41_sevenzip : forall read data, serves read data -> is_bytes data -> forall n v k,
  (n <= 8)%nat -> 0 <= v < 2 ^ (8 * Z.of_nat n + Z.max 0 (7 - Z.of_nat n)) -> occurs_at (sevenzip n v) data k ->
  sz_int read (8 * k) = Ok (v, 8 * (Z.of_nat n + 1)).
Proof. exact sz_ok. Qed.
Print Assumptions C41_sevenzip.
Theorem C41_xiph : forall read data, serves read data -> is_bytes data -> forall max v fuel k,
  0 <= v -> occurs_at (xiph v) data k -> v / 255 < Z.of_nat fuel -> match max with None => True | Some m => 8 * (v / 255) < m end ->
  xiph_int read fuel max (8 * k) = Ok (v, 8 * (v / 255 + 1)).
Proof. exact xiph_ok. Qed.
Print Assumptions C41_xiph.
Theorem C41_git_size : forall read data, serves read data -> is_bytes data -> forall n v fuel k,
  occurs_at (git_size n v) data k -> 0 <= v < 128 ^ (Z.of_nat n + 1) -> (n < fuel)%nat ->
  git_int read fuel (8 * k) = Ok (v, 8 * (Z.of_nat n + 1)).
Proof. exact git_ok. Qed.
Print Assumptions C41_git_size.
(** Type and size of a packed object: three bits of type, four bits of size, then
    the other bits of the size. *)
Theorem C41_git_object : forall read data, serves read data -> is_bytes data -> forall t v fuel k, 0 <= t < 8 ->
  (0 <= v < 16 -> occurs_at [16 * t + v] data k -> git_type_size read fuel (8 * k) = Ok (t, v, 8)) /\
  (forall n, 0 <= v < 16 * 128 ^ (Z.of_nat n + 1) -> occurs_at (128 + 16 * t + v mod 16 :: git_size n (v / 16)) data k -> (n < fuel)%nat ->
     git_type_size read fuel (8 * k) = Ok (t, v, 8 * (Z.of_nat n + 2))).
Proof.
  intros read data S D t v fuel k T. split.
  - intros V H. exact (git_type_short read data S D t v fuel k H T V).
  - intros n V H L. exact (git_type_long read data S D t n v fuel k H T V L).
Qed.
Print Assumptions C41_git_object.
(** bzip2's unary numbers, at any bit address *)
Theorem C41_unary : forall read data, serves read data -> is_bytes data -> forall e n fuel a,
  e <> MIDDLE_ENDIAN -> 0 <= a -> a + Z.of_nat n + 1 <= 8 * zlen data ->
  (forall i, 0 <= i < Z.of_nat n -> bits_at data (a + i) 1 e = 1) -> bits_at data (a + Z.of_nat n) 1 e = 0 -> (n < fuel)%nat ->
  unary_int read fuel e a = Ok (Z.of_nat n, Z.of_nat n + 1).
Proof. intros. exact (unary_ok read data H H0 e n fuel a 0 0 H1 H2 H3 H4 H5 H6). Qed.
Print Assumptions C41_unary.
(** The readers without a limit stop at the end of the data at the latest, with
    ReadStreamError. *)
Theorem C41_ends : forall data, is_bytes data -> forall a fuel, 0 <= a -> 8 * zlen data < Z.of_nat fuel ->
  ((exists r, git_int (string_read data) fuel a = Ok r) \/ git_int (string_read data) fuel a = Err ReadStreamError) /\
  (forall m, (exists r, xiph_int (string_read data) fuel m a = Ok r) \/ xiph_int (string_read data) fuel m a = Err ReadStreamError) /\
  (forall e, e <> MIDDLE_ENDIAN -> (exists r, unary_int (string_read data) fuel e a = Ok r) \/ unary_int (string_read data) fuel e a = Err ReadStreamError).
Proof.
  intros data D a fuel A F. pose proof (zlen_nonneg data). split; [|split].
  - unfold git_int. destruct (git_ends data D fuel a 0 0 A) as [[r E]|E]; [lia|lia| |]; rewrite E; [left; eexists; reflexivity|right; reflexivity].
  - intros m. apply (xiph_ends data D); lia.
  - intros e N. apply (unary_ends data D); auto; lia.
Qed.
Print Assumptions C41_ends.

Example C41_midi_ex : midi_int (string_read [0; 255; 255; 255; 127; 9]) BIG_ENDIAN 8 = Ok (268435455, 32) /\ vlq 3 268435455 = [255; 255; 255; 127]
  /\ vlq 1 200 = [129; 72] /\ midi_int (string_read [129; 72]) BIG_ENDIAN 0 = Ok (200, 16).
Proof. vm_compute. auto. Qed.
Example C41_long_ex : midi_int (string_read [128; 128; 128; 128; 1]) BIG_ENDIAN 0 = Err ParserError /\ oid_int (string_read [129]) 0 = Err ReadStreamError.
Proof. vm_compute. auto. Qed.
Example C41_asn_ex : asn_long 2 300 = [130; 1; 44] /\ asn_int (string_read [130; 1; 44]) 0 = Ok (300, 24).
Proof. vm_compute. auto. Qed.
Example C41_oid_ex : vlq 1 840 = [134; 72] /\ oid_int (string_read [42; 134; 72]) 8 = Ok (840, 16).
Proof. vm_compute. auto. Qed.
Example C41_ebml_ex : ebml 2 500 = [65; 244] /\ ebml_unsigned (string_read [65; 244]) 0 = Ok (Some 500, 16) /\ ebml_unsigned (string_read [255]) 0 = Ok (None, 8)
  /\ ebml_signed (string_read (ebml 1 (-5 + 63))) 0 = Ok (Some (-5), 8).
Proof. vm_compute. auto. Qed.
Example C41_sevenzip_ex : sevenzip 1 1000 = [131; 232] /\ sz_int (string_read [131; 232]) 0 = Ok (1000, 16) /\
  sz_int (string_read (sevenzip 8 18446744073709551615)) 0 = Ok (18446744073709551615, 72).
Proof. vm_compute. auto. Qed.
Example C41_xiph_ex : xiph 1000 = [255; 255; 255; 235] /\ xiph_int (string_read [255; 255; 255; 235]) 9 None 0 = Ok (1000, 32).
Proof. vm_compute. auto. Qed.
Example C41_git_ex : git_size 1 300 = [172; 2] /\ git_int (string_read [172; 2]) 9 0 = Ok (300, 16) /\
  git_type_size (string_read [156; 2]) 9 0 = Ok (1, 44, 16).
Proof. vm_compute. auto. Qed.
Example C41_unary_ex : unary_int (string_read [247]) 9 BIG_ENDIAN 1 = Ok (3, 4).
Proof. vm_compute. auto. Qed.

(** ** C49 *)
Theorem C49_move : forall (A : Type) (a b : list A) x, move_to_front (a ++ x :: b) (length a) = x :: a ++ b.
Proof. exact @move_split. Qed.
Print Assumptions C49_move.
(** The table keeps its elements, whatever the index. *)
Theorem C49_table : forall (A : Type) (l : list A) i, Permutation (move_to_front l i) l.
Proof. exact @move_perm. Qed.
Print Assumptions C49_table.
Theorem C49_round_trip : forall l seq, NoDup seq -> (forall x, In x l -> In x seq) -> mtf_decode seq (mtf_encode seq l) = Ok l.
Proof. exact mtf_round. Qed.
Print Assumptions C49_round_trip.
(** Every list of indexes inside the table is the encoding of what it decodes to. *)
Theorem C49_onto : forall is seq, NoDup seq -> Forall (fun i => (i < length seq)%nat) is ->
  exists l, mtf_decode seq is = Ok l /\ mtf_encode seq l = is /\ forall x, In x l -> In x seq.
Proof. exact mtf_onto. Qed.
Print Assumptions C49_onto.
(** The codes of a bzip2 block: whatever the text, what is shown for its encoding
    (move to front, runs, end of block) tells the text. *)
Theorem C49_block : forall seq text codes power, NoDup seq -> seq <> [] -> (forall x, In x text -> In x seq) ->
  coded (mtf_encode seq text) codes ->
  exists items, bz_items seq (codes ++ [zlen seq + 1]) 0 power = Ok items /\ expand items = text.
Proof. intros seq text codes power D N I C. exact (bz_ok seq text codes 0 power D N I C eq_refl). Qed.
Print Assumptions C49_block.
(** Every text has such an encoding, and run lengths one notation. *)
Theorem C49_coded : (forall is, exists codes, coded is codes) /\
  (forall a b, Forall (fun c => c = 0 \/ c = 1) a -> Forall (fun c => c = 0 \/ c = 1) b -> bijective a = bijective b -> a = b).
Proof. split; [exact coded_total|exact bijective_inj]. Qed.
Print Assumptions C49_coded.

Example C49_ex : mtf_encode [97; 98; 99] [98; 98; 99; 97; 97; 97] = [1; 0; 2; 2; 0; 0]%nat /\
  mtf_decode [97; 98; 99] [1; 0; 2; 2; 0; 0]%nat = Ok [98; 98; 99; 97; 97; 97].
Proof. vm_compute. auto. Qed.
Example C49_block_ex : coded [1; 0; 2; 2; 0; 0]%nat [2; 0; 3; 3; 1] /\
  bz_items [97; 98; 99] ([2; 0; 3; 3; 1] ++ [4]) 0 7 = Ok [Literal 98; Run 98 1; Literal 99; Literal 97; Run 97 2; Terminator] /\
  expand [Literal 98; Run 98 1; Literal 99; Literal 97; Run 97 2; Terminator] = [98; 98; 99; 97; 97; 97].
Proof.
  split; [|vm_compute; auto]. apply (coded_index 1); [lia|]. apply (coded_run [0] 1 [2; 2; 0; 0]%nat); [constructor; [auto|constructor]|reflexivity|lia|discriminate|].
  apply (coded_index 2); [lia|]. apply (coded_index 2); [lia|]. apply (coded_run [1] 2 [] []); [constructor; [auto|constructor]|reflexivity|lia|discriminate|constructor].
Qed.

(** ** C55 *)
(** An OBJ_OFS_DELTA offset is read with the encoding of sizes: the offset 128 is
    shown as 0. *)
Theorem C55_offset_refuted : ~ forall read data, serves read data -> is_bytes data -> forall n v fuel k, 0 <= v -> (n < fuel)%nat ->
  occurs_at (git_offset n v) data k -> git_int read fuel (8 * k) = Ok (v, 8 * (Z.of_nat n + 1)).
Proof.
  intros H. specialize (H (string_read [128; 0]) [128; 0] (string_serves _) ltac:(repeat constructor; unfold is_byte; lia) 1%nat 128 5%nat 0 ltac:(lia) ltac:(lia)).
  vm_compute in H. specialize (H ltac:(repeat split; discriminate)). discriminate.
Qed.
Print Assumptions C55_offset_refuted.
(** Offsets below 128 are right. *)
Theorem C55_offset_partial : forall read data, serves read data -> is_bytes data -> forall v fuel k, 0 <= v < 128 -> (0 < fuel)%nat ->
  occurs_at (git_offset 0 v) data k -> git_int read fuel (8 * k) = Ok (v, 8).
Proof.
  intros read data S D v fuel k V F H. apply (git_ok read data S D 0 v fuel k); [|exact V|exact F].
  unfold git_offset, git_size in *. cbn [git_offset_high le_groups app Z.of_nat] in *. rewrite Z.pow_0_r, Z.div_1_r. replace (v mod 128) with v in H by lia. exact H.
Qed.
Print Assumptions C55_offset_partial.
(** A copy instruction with several bytes of offset shows them in the wrong order. *)
Theorem C55_copy_refuted : ~ forall read data, serves read data -> is_bytes data -> forall o1 o2 o3 o4 s1 s2 s3 k,
  is_bytes [o1; o2; o3; o4; s1; s2; s3] -> occurs_at (git_copy [o1; o2; o3; o4] [s1; s2; s3]) data k ->
  exists bits size, delta_copy read (8 * k) = Ok (o1 + 256 * o2 + 65536 * o3 + 16777216 * o4, size, bits).
Proof.
  intros H. destruct (H (string_read [147; 52; 18; 5]) [147; 52; 18; 5] (string_serves _) ltac:(repeat constructor; unfold is_byte; lia) 52 18 0 0 5 0 0 0) as (bits & size & E).
  - repeat constructor; unfold is_byte; lia.
  - vm_compute. repeat split; discriminate.
  - vm_compute in E. discriminate.
Qed.
Print Assumptions C55_copy_refuted.
(** No size byte means 65536 bytes; 0 is shown. *)
Theorem C55_size_refuted : ~ forall read data, serves read data -> is_bytes data -> forall o k, is_byte o -> o <> 0 ->
  occurs_at (git_copy [o; 0; 0; 0] [0; 0; 0]) data k -> exists bits, delta_copy read (8 * k) = Ok (o, 65536, bits).
Proof.
  intros H. destruct (H (string_read [129; 7]) [129; 7] (string_serves _) ltac:(repeat constructor; unfold is_byte; lia) 7 0) as (bits & E).
  - unfold is_byte; lia.
  - lia.
  - vm_compute. repeat split; discriminate.
  - vm_compute in E. discriminate.
Qed.
Print Assumptions C55_size_refuted.
(** With one byte of offset and one of size other than zero, both are right. *)
Theorem C55_copy_partial : forall read data, serves read data -> is_bytes data -> forall i j b c k,
  (i < 4)%nat -> (j < 3)%nat -> 0 < b -> 0 < c ->
  occurs_at (git_copy (repeat 0 i ++ [b] ++ repeat 0 (4 - 1 - i)) (repeat 0 j ++ [c] ++ repeat 0 (3 - 1 - j))) data k ->
  delta_copy read (8 * k) = Ok (b * 256 ^ Z.of_nat i, c * 256 ^ Z.of_nat j, 24).
Proof. exact delta_one. Qed.
Print Assumptions C55_copy_partial.
Example C55_ex : git_copy [0; 7; 0; 0] [9; 0; 0] = [146; 7; 9] /\ delta_copy (string_read [146; 7; 9]) 0 = Ok (1792, 9, 24).
Proof. vm_compute. auto. Qed.

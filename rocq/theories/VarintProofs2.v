(** Proofs about variable length integers, continued: EBML, Xiph, 7-zip, git and
    bzip2 numbers, and what the readers do on any data. *)
From Verif Require Import Base BaseProofs BitsModel BitsSpec BitsProofs StreamModel StreamSpec StreamProofs VarintModel VarintSpec VarintProofs.
Ltac Zify.zify_post_hook ::= Z.div_mod_to_equations.

(** ** Bytes of a number *)
Lemma be_bytes_head m v : be_bytes (S m) v = (v / 256 ^ Z.of_nat m) mod 256 :: be_bytes m v.
Proof.
  revert v; induction m as [|m IH]; intros v; [cbn; rewrite Z.div_1_r; reflexivity|].
  change (be_bytes (S (S m)) v) with (be_bytes (S m) (v / 256) ++ [v mod 256]). rewrite IH.
  rewrite pow_S, <- Z.div_div by lia. reflexivity.
Qed.
Lemma le_bytes_len n v : zlen (le_bytes n v) = Z.of_nat n.
Proof. revert v; induction n as [|n IH]; intros v; [reflexivity|]. cbn [le_bytes]. rewrite zlen_cons, IH. lia. Qed.
Lemma le_groups_len n v : zlen (le_groups n v) = Z.of_nat n.
Proof. revert v; induction n as [|n IH]; intros v; [reflexivity|]. cbn [le_groups]. rewrite zlen_cons, IH. lia. Qed.

(** Disjoint bits: [lor] adds. *)
Lemma lor_shiftl a b n : 0 <= a < 2 ^ n -> 0 <= n -> Z.lor a (Z.shiftl b n) = a + b * 2 ^ n.
Proof.
  intros A N. rewrite <- Z.shiftl_mul_pow2 by lia.
  assert (E : Z.land a (Z.shiftl b n) = 0).
  { apply Z.bits_inj'; intros i I; rewrite Z.land_spec, Z.bits_0.
    destruct (Z.lt_ge_cases i n); [rewrite Z.shiftl_spec_low by lia; apply Bool.andb_false_r|].
    replace (Z.testbit a i) with false; [reflexivity|]; symmetry.
    destruct (Z.eq_dec a 0) as [->|NZ]; [apply Z.bits_0|]; apply Z.bits_above_log2; [lia|].
    apply Z.lt_le_trans with n; [|lia]; apply Z.log2_lt_pow2; lia. }
  rewrite Z.add_nocarry_lxor by exact E. rewrite Z.lxor_lor by exact E. reflexivity.
Qed.

(** ** bits of one byte *)
Lemma byte_1 b : is_byte b -> val_be (sub (bits_be [b]) 0 1) = b / 128.
Proof. apply (byte_eq (fun b => val_be (sub (bits_be [b]) 0 1)) (fun b => b / 128)). vm_compute. reflexivity. Qed.
Lemma byte_7 b : is_byte b -> val_be (sub (bits_be [b]) 1 7) = b mod 128.
Proof. apply (byte_eq (fun b => val_be (sub (bits_be [b]) 1 7)) (fun b => b mod 128)). vm_compute. reflexivity. Qed.
Lemma byte_3 b : is_byte b -> val_be (sub (bits_be [b]) 1 3) = b / 16 mod 8.
Proof. apply (byte_eq (fun b => val_be (sub (bits_be [b]) 1 3)) (fun b => b / 16 mod 8)). vm_compute. reflexivity. Qed.
Lemma byte_4 b : is_byte b -> val_be (sub (bits_be [b]) 4 4) = b mod 16.
Proof. apply (byte_eq (fun b => val_be (sub (bits_be [b]) 4 4)) (fun b => b mod 16)). vm_compute. reflexivity. Qed.


Lemma rawint_loop_ok m fuel i size : 2 ^ (7 - Z.of_nat m) <= i < 2 ^ (8 - Z.of_nat m) -> (m < fuel)%nat -> (m <= 7)%nat ->
  rawint_loop fuel i size = Ok (size + 8 * Z.of_nat m).
Proof.
  revert fuel i size. induction m as [|m IH]; intros fuel i size I L M.
  - destruct fuel as [|fuel]; [lia|]. cbn [rawint_loop]. cbn in I. replace (i <? 128) with false by lia. f_equal. lia.
  - destruct fuel as [|fuel]; [lia|]. cbn [rawint_loop].
    replace (8 - Z.of_nat (S m)) with (7 - Z.of_nat m) in I by lia.
    replace (7 - Z.of_nat m) with (1 + (6 - Z.of_nat m)) in I at 1 by lia. replace (7 - Z.of_nat (S m)) with (6 - Z.of_nat m) in I by lia.
    rewrite Z.pow_add_r in I by lia. change (2 ^ 1) with 2 in I.
    assert (P : 2 ^ (6 - Z.of_nat m) <= 2 ^ 6) by (apply Z.pow_le_mono_r; lia). change (2 ^ 6) with 64 in P.
    replace (i <? 128) with true by lia. rewrite Z.shiftl_mul_pow2 by lia. change (2 ^ 1) with 2.
    rewrite (IH fuel); [f_equal; lia| |lia|lia].
    replace (7 - Z.of_nat m) with (1 + (6 - Z.of_nat m)) by lia. replace (8 - Z.of_nat m) with (1 + (1 + (6 - Z.of_nat m))) by lia.
    rewrite !Z.pow_add_r by lia. change (2 ^ 1) with 2. lia.
Qed.
Lemma ebml_first n v : (1 <= n <= 8)%nat -> 0 <= v < 2 ^ (7 * Z.of_nat n) ->
  exists i r, ebml n v = i :: r /\ 2 ^ (8 - Z.of_nat n) <= i < 2 ^ (9 - Z.of_nat n).
Proof.
  intros N V. destruct n as [|m]; [lia|]. unfold ebml. rewrite be_bytes_head. eexists; eexists; split; [reflexivity|].
  assert (P : 256 ^ Z.of_nat m = 2 ^ (8 * Z.of_nat m)) by (change 256 with (2 ^ 8); rewrite <- Z.pow_mul_r by lia; reflexivity).
  rewrite P. replace (7 * Z.of_nat (S m)) with (8 * Z.of_nat m + (7 - Z.of_nat m)) in * by lia. rewrite Z.pow_add_r in * by lia.
  replace (9 - Z.of_nat (S m)) with (1 + (7 - Z.of_nat m)) by lia. replace (8 - Z.of_nat (S m)) with (7 - Z.of_nat m) by lia.
  rewrite (Z.pow_add_r 2 1) by lia. assert (Q : 2 ^ (7 - Z.of_nat m) <= 2 ^ 7) by (apply Z.pow_le_mono_r; lia). change (2 ^ 7) with 128 in Q.
  set (p := 2 ^ (8 * Z.of_nat m)) in *. assert (0 < p) by (apply Z.pow_pos_nonneg; lia). clearbody p.
  set (q := 2 ^ (7 - Z.of_nat m)) in *. clearbody q. change (2 ^ 1) with 2.
  assert (A : q <= (p * q + v) / p) by (apply Z.div_le_lower_bound; lia).
  assert (B : (p * q + v) / p < 2 * q) by (apply Z.div_lt_upper_bound; lia).
  rewrite Z.mod_small by lia. lia.
Qed.
Lemma ebml_total n v : (1 <= n <= 8)%nat -> 0 <= v < 2 ^ (7 * Z.of_nat n) -> from_bytes_big (ebml n v) = 2 ^ (7 * Z.of_nat n) + v.
Proof. 
  intros N V. unfold ebml. apply be_bytes_value. split; [lia|]. change 256 with (2 ^ 8). rewrite <- Z.pow_mul_r by lia.
  replace (8 * Z.of_nat n) with (Z.of_nat n + 7 * Z.of_nat n) by lia. rewrite Z.pow_add_r by lia.
  assert (2 ^ 1 <= 2 ^ Z.of_nat n) by (apply Z.pow_le_mono_r; lia). nia.
Qed.
Fixpoint upto8 (fuel : nat) (i : Z) : list Z := match fuel with O => [] | S fuel => i :: upto8 fuel (i + 1) end.
(** The marks of the first byte, for the nine lengths *)
Definition sz_marks (n : Z) (hi : Z) : bool :=
  let first := 256 - 2 ^ (8 - n) + hi in
  forallb (fun j => negb (Z.land first (2 ^ (7 - j)) =? 0)) (upto8 (Z.to_nat n) 0) &&
  ((n =? 8) || ((Z.land first (2 ^ (7 - n)) =? 0) && (Z.land first (2 ^ (7 - n) - 1) =? hi))).
Lemma sz_marks_ok n hi : 0 <= n <= 8 -> 0 <= hi -> (hi < 2 ^ (7 - n) \/ n = 8 /\ hi = 0) -> sz_marks n hi = true.
Proof.
  intros N A B.
  assert (C : forallb (fun n => forallb (fun hi => negb ((hi <? 2 ^ (7 - n)) || (n =? 8) && (hi =? 0)) || sz_marks n hi) (map Z.of_nat (seq 0 128))) [0;1;2;3;4;5;6;7;8] = true) by (vm_compute; reflexivity).
  rewrite forallb_forall in C. specialize (C n). cbv beta in C. 
  assert (In n [0;1;2;3;4;5;6;7;8]) as I by (cbn; lia). specialize (C I). rewrite forallb_forall in C.
  assert (H : hi < 128).
  { destruct B as [B|B]; [|lia]. assert (Q : 2 ^ (7 - n) <= 2 ^ 7) by (apply Z.pow_le_mono_r; lia). change (2 ^ 7) with 128 in Q. lia. }
  specialize (C hi). cbv beta in C. destruct (sz_marks n hi); [reflexivity|]. rewrite Bool.orb_false_r in C.
  rewrite <- C by (apply in_map_iff; exists (Z.to_nat hi); split; [lia|apply in_seq; lia]).
  destruct B as [B|[-> ->]]; [replace (hi <? 2 ^ (7 - n)) with true by lia; reflexivity|reflexivity].
Qed.
Lemma upto8_in m i j : i <= j < i + Z.of_nat m -> In j (upto8 m i).
Proof. revert i; induction m as [|m IH]; intros i J; [lia|]. cbn [upto8]. destruct (Z.eq_dec i j) as [->|N]; [left; reflexivity|right; apply IH; lia]. Qed.

Section Numbers.
Context (read : read_fun) (data : list Z) (HS : serves read data) (HD : is_bytes data).
Let rbyte := read_byte read data HS HD.

Lemma oid_loop_long l fuel k acc c size :
  occurs_at l data (k + 1) -> Forall (fun b => 128 <= b < 256) l -> 128 <= c -> size + 8 * zlen l = 64 -> (length l < fuel)%nat ->
  oid_loop read fuel (8 * k) size acc c = Err ParserError.
Proof using All.
  revert fuel k acc c size. induction l as [|x l IH]; intros fuel k acc c size H F C S L.
  - destruct fuel as [|fuel]; [cbn in L; lia|]. cbn [oid_loop]. replace (128 <=? c) with true by lia. change (zlen []) with 0 in *.
    replace (64 <? size + 8) with true by lia. reflexivity.
  - inversion F as [|? ? X F']; subst. destruct fuel as [|fuel]; [cbn in L; lia|]. cbn [oid_loop]. replace (128 <=? c) with true by lia.
    rewrite zlen_cons in *. pose proof (zlen_nonneg l).
    replace (64 <? size + 8) with false by lia. replace (8 * k + 8) with (8 * (k + 1)) by lia.
    apply occurs_cons in H. destruct H as [H1 H2].
    rewrite (rbyte x) by (auto; discriminate). cbn [bind].
    apply IH; auto; try lia. cbn in L; lia.
Qed.
Lemma oid_long l k : occurs_at l data k -> zlen l = 8 -> Forall (fun b => 128 <= b < 256) l -> oid_int read (8 * k) = Err ParserError.
Proof using All.
  intros H L F. destruct l as [|c l]; [cbn in L; lia|]. apply occurs_cons in H. destruct H as [H1 H2]. inversion F; subst.
  unfold oid_int. rewrite (rbyte _ _ BIG_ENDIAN H1) by discriminate. cbn [bind]. rewrite zlen_cons in L.
  apply (oid_loop_long l); auto; try lia. unfold zlen in L. lia.
Qed.

(** *** EBML *)
Lemma rawint_ok n v k : (1 <= n <= 8)%nat -> 0 <= v < 2 ^ (7 * Z.of_nat n) -> occurs_at (ebml n v) data k ->
  rawint_size read (8 * k) = Ok (8 * Z.of_nat n) /\ readInteger read (8 * k) false (8 * Z.of_nat n) BIG_ENDIAN = Ok (2 ^ (7 * Z.of_nat n) + v).
Proof using All.
  intros N V H. split.
  - destruct (ebml_first n v N V) as (i & r & E & I). rewrite E in H. apply occurs_cons in H. destruct H as [H _].
    unfold rawint_size, readInteger. rewrite (rbyte _ _ BIG_ENDIAN H) by discriminate. cbn [bind].
    assert (0 < 2 ^ (8 - Z.of_nat n)) by (apply Z.pow_pos_nonneg; lia). replace (i =? 0) with false by lia.
    rewrite (rawint_loop_ok (n - 1)) by (replace (7 - Z.of_nat (n - 1)) with (8 - Z.of_nat n) by lia; replace (8 - Z.of_nat (n - 1)) with (9 - Z.of_nat n) by lia; lia).
    f_equal. lia.
  - unfold readInteger. assert (L : zlen (ebml n v) = Z.of_nat n) by apply be_bytes_len.
    pose proof (read_big read data HS HD _ _ H) as R. rewrite L in R. rewrite R by (intros E; rewrite E in L; cbn in L; lia).
    cbn [bind]. rewrite ebml_total by assumption. reflexivity.
Qed.
Lemma ebml_unsigned_ok n v k : (1 <= n <= 8)%nat -> 0 <= v < 2 ^ (7 * Z.of_nat n) -> occurs_at (ebml n v) data k ->
  ebml_unsigned read (8 * k) = Ok (if v =? 2 ^ (7 * Z.of_nat n) - 1 then None else Some v, 8 * Z.of_nat n).
Proof using All.
  intros N V H. destruct (rawint_ok n v k N V H) as [A B]. unfold ebml_unsigned. rewrite A. cbn [bind]. rewrite B. cbn [bind].
  replace (8 * Z.of_nat n / 8 * 7) with (7 * Z.of_nat n) by lia. rewrite Z.shiftl_mul_pow2, Z.mul_1_l by lia.
  set (p := 2 ^ (7 * Z.of_nat n)). replace (p + v - p) with v by lia. replace (v + 1 =? p) with (v =? p - 1) by lia. reflexivity.
Qed.
Lemma ebml_signed_ok n v k : (1 <= n <= 8)%nat -> - (2 ^ (7 * Z.of_nat n - 1) - 1) <= v <= 2 ^ (7 * Z.of_nat n - 1) ->
  occurs_at (ebml n (v + (2 ^ (7 * Z.of_nat n - 1) - 1))) data k ->
  ebml_signed read (8 * k) = Ok (if v =? 2 ^ (7 * Z.of_nat n - 1) then None else Some v, 8 * Z.of_nat n).
Proof using All.
  intros N V H.
  assert (P : 2 ^ (7 * Z.of_nat n) = 2 * 2 ^ (7 * Z.of_nat n - 1)) by (rewrite <- Z.pow_succ_r by lia; f_equal; lia).
  destruct (fun V => rawint_ok n _ k N V H) as [A B]; [lia|]. unfold ebml_signed. rewrite A. cbn [bind]. rewrite B. cbn [bind].
  replace (8 * Z.of_nat n / 8 * 7 - 1) with (7 * Z.of_nat n - 1) by lia. rewrite Z.shiftl_mul_pow2, Z.mul_1_l by lia.
  rewrite P. set (p := 2 ^ (7 * Z.of_nat n - 1)). replace (2 * p + (v + (p - 1)) - 3 * p + 1) with v by lia. reflexivity.
Qed.
Lemma ebml_zero k : occurs_at [0] data k -> ebml_unsigned read (8 * k) = Err ParserError /\ ebml_signed read (8 * k) = Err ParserError.
Proof using All.
  intros H. unfold ebml_unsigned, ebml_signed, rawint_size, readInteger. rewrite (rbyte _ _ BIG_ENDIAN H) by discriminate. split; reflexivity.
Qed.

(** *** Xiph *)
Lemma xiph_loop_ok max q r fuel k acc size :
  occurs_at (repeat 255 q ++ [r]) data k -> 0 <= r < 255 -> (q < fuel)%nat ->
  match max with None => True | Some m => size + 8 * Z.of_nat q < m end ->
  xiph_loop read fuel max (8 * k) acc size = Ok (acc + 255 * Z.of_nat q + r, size + 8 * (Z.of_nat q + 1)).
Proof using All.
  revert fuel k acc size. induction q as [|q IH]; intros fuel k acc size H R L M.
  - destruct fuel as [|fuel]; [lia|]. cbn [xiph_loop repeat app] in *.
    replace (match max with None => true | Some m => size <? m end) with true by (destruct max; lia).
    rewrite (rbyte _ _ LITTLE_ENDIAN H) by discriminate. cbn [bind]. replace (r =? 255) with false by lia. cbn [negb]. do 2 f_equal; lia.
  - destruct fuel as [|fuel]; [lia|]. cbn [repeat app] in H. apply occurs_cons in H. destruct H as [H1 H2]. cbn [xiph_loop].
    replace (match max with None => true | Some m => size <? m end) with true by (destruct max; lia).
    rewrite (rbyte _ _ LITTLE_ENDIAN H1) by discriminate. cbn [bind]. cbn [Z.eqb Pos.eqb negb].
    replace (8 * k + 8) with (8 * (k + 1)) by lia. rewrite IH; auto; try lia; [|destruct max; lia]. do 2 f_equal; lia.
Qed.
Lemma xiph_ok max v fuel k : 0 <= v -> occurs_at (xiph v) data k -> v / 255 < Z.of_nat fuel ->
  match max with None => True | Some m => 8 * (v / 255) < m end ->
  xiph_int read fuel max (8 * k) = Ok (v, 8 * (v / 255 + 1)).
Proof using All.
  intros V H L M. unfold xiph_int, xiph in *. rewrite (xiph_loop_ok max _ _ _ _ _ _ H).
  - do 2 f_equal; lia.
  - lia.
  - lia.
  - destruct max; lia.
Qed.
(** The limit cuts the sum. *)
Lemma xiph_cut j q fuel k acc size m : occurs_at (repeat 255 q) data k -> (j <= q)%nat -> (j < fuel)%nat -> m = size + 8 * Z.of_nat j ->
  xiph_loop read fuel (Some m) (8 * k) acc size = Ok (acc + 255 * Z.of_nat j, m).
Proof using All.
  revert q fuel k acc size. induction j as [|j IH]; intros q fuel k acc size H J L ->.
  - destruct fuel as [|fuel]; [lia|]. cbn [xiph_loop]. replace (size <? size + 8 * Z.of_nat 0) with false by lia. do 2 f_equal; lia.
  - destruct fuel as [|fuel]; [lia|]. destruct q as [|q]; [lia|]. cbn [repeat] in H. apply occurs_cons in H. destruct H as [H1 H2].
    cbn [xiph_loop]. replace (size <? size + 8 * Z.of_nat (S j)) with true by lia. rewrite (rbyte _ _ LITTLE_ENDIAN H1) by discriminate.
    cbn [bind Z.eqb Pos.eqb negb]. replace (8 * k + 8) with (8 * (k + 1)) by lia. rewrite (IH q); auto; try lia. do 2 f_equal; lia.
Qed.

(** *** 7-zip *)
Lemma sz_loop_le m i w first k value size rest :
  (forall j, 0 <= j < Z.of_nat m -> Z.land first (2 ^ (7 - i - j)) <> 0) -> occurs_at (le_bytes m w) data (k + 1) ->
  0 <= value < 2 ^ (8 * i) -> 0 <= i -> i + Z.of_nat m <= 8 ->
  sz_loop read (upto8 m i ++ rest) first (8 * k) (2 ^ (7 - i)) value size =
  sz_loop read rest first (8 * (k + Z.of_nat m)) (if (8 <=? i + Z.of_nat m) then if (m =? 0)%nat then 2 ^ (7 - i) else 0 else 2 ^ (7 - i - Z.of_nat m)) (value + w mod 256 ^ Z.of_nat m * 2 ^ (8 * i)) (size + 8 * Z.of_nat m).
Proof using All.
  revert i w k value size. induction m as [|m IH]; intros i w k value size F H V I M.
  - cbn [upto8 app Nat.eqb]. change (256 ^ Z.of_nat 0) with 1. rewrite Z.mod_1_r. change (Z.of_nat 0) with 0.
    replace (8 * (k + 0)) with (8 * k) by lia. replace (value + 0 * 2 ^ (8 * i)) with value by lia. replace (size + 8 * 0) with size by lia.
    replace (7 - i - 0) with (7 - i) by lia. destruct (8 <=? i + 0); reflexivity.
  - cbn [upto8 app sz_loop le_bytes] in *. apply occurs_cons in H. destruct H as [H1 H2].
    pose proof (F 0 ltac:(lia)) as F0. replace (7 - i - 0) with (7 - i) in F0 by lia.
    destruct (Z.land first (2 ^ (7 - i)) =? 0) eqn:E; [lia|]. replace (8 * k + 8) with (8 * (k + 1)) by lia.
    rewrite (rbyte _ _ LITTLE_ENDIAN H1) by discriminate. cbn [bind].
    rewrite lor_shiftl by lia.
    assert (Pm : forall s v a, sz_loop read (upto8 m (i + 1) ++ rest) first a (Z.shiftr (2 ^ (7 - i)) 1) v s = sz_loop read (upto8 m (i + 1) ++ rest) first a (if i =? 7 then 0 else 2 ^ (7 - (i + 1))) v s).
    { intros. f_equal. rewrite Z.shiftr_div_pow2 by lia. change (2 ^ 1) with 2. destruct (i =? 7) eqn:E7; [replace i with 7 by lia; reflexivity|].
      replace (7 - i) with (1 + (7 - (i + 1))) by lia. rewrite Z.pow_add_r by lia. change (2 ^ 1) with 2. rewrite Z.mul_comm. apply Z.div_mul. lia. }
    rewrite Pm. clear Pm.
    assert (W : w mod 256 ^ Z.of_nat (S m) = w mod 256 + 256 * ((w / 256) mod 256 ^ Z.of_nat m)).
    { rewrite pow_S. apply Z.rem_mul_r; lia. }
    destruct (i =? 7) eqn:E7.
    + assert (m = O) by lia. subst m. replace i with 7 in * by lia. cbn [upto8 app Nat.eqb]. change (8 <=? 7 + Z.of_nat 1) with true. cbv iota.
      rewrite W. change (256 ^ Z.of_nat 0) with 1. rewrite Z.mod_1_r. f_equal; lia.
    + rewrite (IH (i + 1) (w / 256)).
      * replace (8 <=? i + 1 + Z.of_nat m) with (8 <=? i + Z.of_nat (S m)) by lia. cbn [Nat.eqb].
        replace (k + 1 + Z.of_nat m) with (k + Z.of_nat (S m)) by lia. replace (size + 8 + 8 * Z.of_nat m) with (size + 8 * Z.of_nat (S m)) by lia.
        rewrite W. f_equal.
        -- destruct (8 <=? i + Z.of_nat (S m)) eqn:E8; [destruct m; [lia|reflexivity]|]. f_equal. lia.
        -- assert (PP : 2 ^ (8 * (i + 1)) = 256 * 2 ^ (8 * i)) by (clear -I; change 256 with (2 ^ 8); rewrite <- Z.pow_add_r by lia; f_equal; lia). rewrite PP. generalize (w mod 256) ((w / 256) mod 256 ^ Z.of_nat m) (2 ^ (8 * i)). intros. lia.
      * intros j J. replace (7 - (i + 1) - j) with (7 - i - (1 + j)) by lia. apply F. lia.
      * exact H2.
      * assert (PP : 2 ^ (8 * (i + 1)) = 256 * 2 ^ (8 * i)) by (clear -I; change 256 with (2 ^ 8); rewrite <- Z.pow_add_r by lia; f_equal; lia). rewrite PP. clear -V. set (p := 2 ^ (8 * i)) in *. clearbody p. nia.
      * lia.
      * lia.
Qed.
Lemma sz_ok n v k : (n <= 8)%nat -> 0 <= v < 2 ^ (8 * Z.of_nat n + Z.max 0 (7 - Z.of_nat n)) -> occurs_at (sevenzip n v) data k ->
  sz_int read (8 * k) = Ok (v, 8 * (Z.of_nat n + 1)).
Proof using All.
  intros N V H. unfold sevenzip in H. apply occurs_cons in H. destruct H as [H1 H2].
  unfold sz_int. rewrite (rbyte _ _ LITTLE_ENDIAN H1) by discriminate. cbn [bind].
  assert (P : 256 ^ Z.of_nat n = 2 ^ (8 * Z.of_nat n)) by (change 256 with (2 ^ 8); rewrite <- Z.pow_mul_r by lia; reflexivity).
  set (hi := v / 256 ^ Z.of_nat n) in *.
  assert (P0 : 0 < 256 ^ Z.of_nat n) by (apply Z.pow_pos_nonneg; lia).
  assert (HI : 0 <= hi) by (apply Z.div_pos; lia).
  assert (HB : hi < 2 ^ (7 - Z.of_nat n) \/ Z.of_nat n = 8 /\ hi = 0).
  { rewrite Z.pow_add_r in V by lia. rewrite <- P in V. destruct (Z.eq_dec (Z.of_nat n) 8) as [E|E].
    - right. split; [exact E|]. apply Z.div_small. rewrite E in *. cbn in V. cbn. lia.
    - left. replace (Z.max 0 (7 - Z.of_nat n)) with (7 - Z.of_nat n) in V by lia. apply Z.div_lt_upper_bound; lia. }
  pose proof (sz_marks_ok (Z.of_nat n) hi ltac:(lia) HI HB) as K. unfold sz_marks in K. rewrite Bool.andb_true_iff, forallb_forall in K. destruct K as [K1 K2].
  rewrite Nat2Z.id in K1. set (first := 256 - 2 ^ (8 - Z.of_nat n) + hi) in *.
  replace [0; 1; 2; 3; 4; 5; 6; 7] with (upto8 n 0 ++ upto8 (8 - n) (Z.of_nat n)) by (do 9 (destruct n as [|n]; [reflexivity|]); lia).
  change 128 with (2 ^ (7 - 0)).
  rewrite (sz_loop_le n 0 v) by first [exact H2 | lia | intros j J Q; specialize (K1 j (upto8_in n 0 j ltac:(lia))); replace (7 - 0 - j) with (7 - j) in Q by lia; rewrite Q in K1; discriminate].
  rewrite Z.mul_0_r, Z.pow_0_r, Z.mul_1_r, !Z.add_0_l.
  destruct (Z.eq_dec (Z.of_nat n) 8) as [E|E].
  - replace n with 8%nat in * by lia. cbn [Nat.sub upto8 sz_loop]. f_equal. f_equal. apply Z.mod_small. rewrite P. change (8 * Z.of_nat 8 + Z.max 0 (7 - Z.of_nat 8)) with (8 * Z.of_nat 8) in V. exact V.
  - replace (8 <=? Z.of_nat n) with false by lia. replace (7 - 0 - Z.of_nat n) with (7 - Z.of_nat n) by lia.
    replace (8 - n)%nat with (S (7 - n)) by lia. cbn [upto8 sz_loop].
    replace (Z.of_nat n =? 8) with false in K2 by lia. cbn [orb] in K2. rewrite Bool.andb_true_iff in K2. destruct K2 as [K2 K3]. rewrite K2.
    apply Z.eqb_eq in K3. rewrite K3, Z.shiftl_mul_pow2 by lia. rewrite <- P. do 2 f_equal; [|lia].
    unfold hi. assert (0 < 256 ^ Z.of_nat n) by (apply Z.pow_pos_nonneg; lia). pose proof (Z.div_mod v (256 ^ Z.of_nat n)). lia.
Qed.

(** *** git *)
Lemma git_loop_ok n v fuel k acc bits :
  occurs_at (git_size n v) data k -> 0 <= v < 128 ^ (Z.of_nat n + 1) -> 0 <= acc < 2 ^ bits -> 0 <= bits -> (n < fuel)%nat ->
  git_loop read fuel (8 * k) acc bits = Ok (acc + v * 2 ^ bits, 8 * (k + Z.of_nat n + 1)).
Proof using All.
  unfold git_size. revert v fuel k acc bits. induction n as [|n IH]; intros v fuel k acc bits H V A B L.
  - destruct fuel as [|fuel]; [lia|]. cbn [le_groups app git_loop Z.of_nat] in *. rewrite Z.pow_0_r, Z.div_1_r in H. change (128 ^ (0 + 1)) with 128 in V.
    rewrite <- (Z.add_0_r (8 * k)) at 1. rewrite (read_bits _ _ HS HD _ _ 0 1 H) by lia. cbn [bind].
    rewrite (read_bits _ _ HS HD _ _ 1 7 H) by lia. cbn [bind]. rewrite byte_1, byte_7 by (unfold is_byte; lia).
    replace (v / 128 =? 0) with true by lia. rewrite lor_shiftl by lia. do 2 f_equal; [|lia]. do 2 f_equal. lia.
  - destruct fuel as [|fuel]; [lia|]. cbn [le_groups app] in H. apply occurs_cons in H. destruct H as [H1 H2]. cbn [git_loop].
    rewrite <- (Z.add_0_r (8 * k)) at 1. rewrite (read_bits _ _ HS HD _ _ 0 1 H1) by lia. cbn [bind].
    rewrite (read_bits _ _ HS HD _ _ 1 7 H1) by lia. cbn [bind]. rewrite byte_1, byte_7 by (unfold is_byte; lia).
    replace ((128 + v mod 128) / 128 =? 0) with false by lia. rewrite lor_shiftl by lia.
    replace (8 * k + 8) with (8 * (k + 1)) by lia.
    replace (v / 128 ^ Z.of_nat (S n)) with (v / 128 / 128 ^ Z.of_nat n) in H2 by (rewrite pow_S, Z.div_div by lia; reflexivity).
    replace (Z.of_nat (S n) + 1) with (1 + (Z.of_nat n + 1)) in V by lia. rewrite Z.pow_add_r in V by lia. change (128 ^ 1) with 128 in V.
    rewrite (IH (v / 128)); [|exact H2|set (p := 128 ^ (Z.of_nat n + 1)) in *; clearbody p; lia| |lia|lia].
    + rewrite Z.pow_add_r by lia. change (2 ^ 7) with 128. set (p := 2 ^ bits). do 2 f_equal; [|lia].
      replace ((128 + v mod 128) mod 128) with (v mod 128) by lia. pose proof (Z.div_mod v 128). nia.
    + rewrite Z.pow_add_r by lia. change (2 ^ 7) with 128. set (p := 2 ^ bits) in *. clearbody p. nia.
Qed.
Lemma git_ok n v fuel k : occurs_at (git_size n v) data k -> 0 <= v < 128 ^ (Z.of_nat n + 1) -> (n < fuel)%nat ->
  git_int read fuel (8 * k) = Ok (v, 8 * (Z.of_nat n + 1)).
Proof using All.
  intros H V L. unfold git_int. rewrite (git_loop_ok n v) by (auto; cbn; lia). cbn [bind fst snd]. do 2 f_equal; lia.
Qed.
(** type and size of a packed object *)
Lemma git_type_short t v fuel k : occurs_at [16 * t + v] data k -> 0 <= t < 8 -> 0 <= v < 16 -> git_type_size read fuel (8 * k) = Ok (t, v, 8).
Proof using All.
  intros H T V. unfold git_type_size. rewrite <- (Z.add_0_r (8 * k)) at 1. rewrite (read_bits _ _ HS HD _ _ 0 1 H) by lia. cbn [bind].
  rewrite (read_bits _ _ HS HD _ _ 1 3 H) by lia. cbn [bind]. rewrite (read_bits _ _ HS HD _ _ 4 4 H) by lia. cbn [bind].
  rewrite byte_1, byte_3, byte_4 by (unfold is_byte; lia). replace ((16 * t + v) / 128 =? 0) with true by lia.
  replace ((16 * t + v) / 16 mod 8) with t by lia. replace ((16 * t + v) mod 16) with v by lia. reflexivity.
Qed.
Lemma git_type_long t n v fuel k : occurs_at (128 + 16 * t + v mod 16 :: git_size n (v / 16)) data k -> 0 <= t < 8 ->
  0 <= v < 16 * 128 ^ (Z.of_nat n + 1) -> (n < fuel)%nat -> git_type_size read fuel (8 * k) = Ok (t, v, 8 * (Z.of_nat n + 2)).
Proof using All.
  intros H T V L. apply occurs_cons in H. destruct H as [H H2].
  unfold git_type_size. rewrite <- (Z.add_0_r (8 * k)) at 1. rewrite (read_bits _ _ HS HD _ _ 0 1 H) by lia. cbn [bind].
  rewrite (read_bits _ _ HS HD _ _ 1 3 H) by lia. cbn [bind]. rewrite (read_bits _ _ HS HD _ _ 4 4 H) by lia. cbn [bind].
  rewrite byte_1, byte_3, byte_4 by (unfold is_byte; lia). replace ((128 + 16 * t + v mod 16) / 128 =? 0) with false by lia.
  replace (8 * k + 8) with (8 * (k + 1)) by lia. rewrite (git_loop_ok n (v / 16)); auto; try lia.
  - cbn [bind fst snd]. change (2 ^ 4) with 16. do 2 f_equal; [f_equal|]; lia.
Qed.

(** *** bzip2 *)
Lemma unary_ok e n fuel a acc size : e <> MIDDLE_ENDIAN -> 0 <= a -> a + Z.of_nat n + 1 <= 8 * zlen data ->
  (forall i, 0 <= i < Z.of_nat n -> bits_at data (a + i) 1 e = 1) -> bits_at data (a + Z.of_nat n) 1 e = 0 -> (n < fuel)%nat ->
  unary_loop read fuel e a acc size = Ok (acc + Z.of_nat n, size + Z.of_nat n + 1).
Proof using All.
  intros N. revert fuel a acc size. induction n as [|n IH]; intros fuel a acc size A B O Z0 L.
  - destruct fuel as [|fuel]; [lia|]. cbn [unary_loop]. replace (a + Z.of_nat 0) with a in Z0 by lia.
    rewrite (readBits_serves _ data) by (auto; try lia; unfold bits_available; destruct e; congruence || lia). cbn [bind]. rewrite Z0. cbn [Z.eqb]. do 2 f_equal; lia.
  - destruct fuel as [|fuel]; [lia|]. cbn [unary_loop]. 
    rewrite (readBits_serves _ data) by (auto; try lia; unfold bits_available; destruct e; congruence || lia). cbn [bind].
    pose proof (O 0 ltac:(lia)) as O0. rewrite Z.add_0_r in O0. rewrite O0. cbn [Z.eqb].
    rewrite IH; try lia.
    + do 2 f_equal; lia.
    + intros i I. replace (a + 1 + i) with (a + (1 + i)) by lia. apply O. lia.
    + replace (a + 1 + Z.of_nat n) with (a + Z.of_nat (S n)) by lia. exact Z0.
Qed.
End Numbers.

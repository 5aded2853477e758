From Verif Require Import Base BaseProofs BitsModel BitsSpec BitsSpec2 BitsProofs BitsProofs2 StreamModel StreamSpec StreamProofs StreamProofs2 OutputModel OutputProofs.
Ltac Zify.zify_post_hook ::= Z.div_mod_to_equations.

Lemma pow_half n : 1 <= n -> 2 ^ n = 2 * 2 ^ (n - 1).
Proof. intros. replace n with (1 + (n - 1)) at 1 by lia. rewrite pow_split by lia. reflexivity. Qed.

(** ** Reading back the bits already written *)
Lemma written_bound e st : e <> MIDDLE_ENDIAN -> wf_out e st -> 0 <= written e st < 2 ^ total st.
Proof.
  intros He (Ho & Hb & Hby). pose proof (zlen_nonneg (out st)) as Hl.
  unfold written, total. rewrite pow_split by lia. pose proof (pow_pos (bit_pos st) ltac:(lia)) as Hp.
  assert (H256 : 256 ^ zlen (out st) = 2 ^ (8 * zlen (out st))) by (rewrite Z.pow_mul_r by lia; reflexivity).
  destruct e; [| |congruence].
  - pose proof (from_bytes_big_bound (out st) Ho) as B. rewrite H256 in B.
    destruct Hby as [Hby1 Hby2]. pose proof (pow_pos (8 - bit_pos st) ltac:(lia)) as Hp'.
    assert (H8 : 2 ^ bit_pos st * 2 ^ (8 - bit_pos st) = 256).
    { rewrite <- pow_split by lia. replace (bit_pos st + (8 - bit_pos st)) with 8 by lia. reflexivity. }
    assert (Hq : 0 <= byte st / 2 ^ (8 - bit_pos st) < 2 ^ bit_pos st).
    { split; [apply Z.div_pos; lia|apply Z.div_lt_upper_bound; lia]. }
    set (q := byte st / 2 ^ (8 - bit_pos st)) in *. clearbody q. nia.
  - pose proof (from_bytes_little_bound (out st) Ho) as B. rewrite H256 in B. nia.
Qed.
Lemma flushed_covers e st a m : wf_out e st -> a + m <= total st -> a + m <= 8 * zlen (flushed st).
Proof. intros Hw H. pose proof (flushed_len st ltac:(apply Hw)). lia. Qed.
Lemma read_written_big st a m : wf_out BIG_ENDIAN st -> 0 <= a -> 0 <= m -> a + m <= total st ->
  bits_at (flushed st) a m BIG_ENDIAN = (written BIG_ENDIAN st / 2 ^ (total st - a - m)) mod 2 ^ m.
Proof.
  intros Hw Ha Hm H. pose proof (flushed_covers _ st a m Hw H).
  rewrite bits_at_arith_big by (auto; apply (wf_flushed_bytes BIG_ENDIAN); assumption).
  rewrite flushed_value_big by assumption.
  pose proof (flushed_len st ltac:(apply Hw)) as Hf.
  set (pad := 8 * zlen (flushed st) - total st). assert (0 <= pad) by (unfold pad; lia).
  replace (8 * zlen (flushed st) - a - m) with ((total st - a - m) + pad) by (unfold pad; lia).
  rewrite pow_split by lia. pose proof (pow_pos pad ltac:(lia)). pose proof (pow_pos (total st - a - m) ltac:(lia)).
  rewrite Z.div_mul_cancel_r by lia. reflexivity.
Qed.
Lemma read_written_little st a m : wf_out LITTLE_ENDIAN st -> 0 <= a -> 0 <= m -> a + m <= total st ->
  bits_at (flushed st) a m LITTLE_ENDIAN = (written LITTLE_ENDIAN st / 2 ^ a) mod 2 ^ m.
Proof.
  intros Hw Ha Hm H. pose proof (flushed_covers _ st a m Hw H).
  rewrite bits_at_arith_little by (auto; apply (wf_flushed_bytes LITTLE_ENDIAN); assumption).
  rewrite flushed_value_little by assumption. reflexivity.
Qed.
Lemma readBits_flushed e st a m : e <> MIDDLE_ENDIAN -> wf_out e st -> 0 <= a -> 1 <= m -> a + m <= total st ->
  readBits (string_read (flushed st)) a m e = Ok (bits_at (flushed st) a m e).
Proof.
  intros He Hw Ha Hm H. pose proof (flushed_covers e st a m Hw H).
  rewrite readBits_string_spec by (auto; apply (wf_flushed_bytes e); assumption).
  replace (bits_available (flushed st) a m e) with true by (unfold bits_available; destruct e; [lia|lia|congruence]).
  reflexivity.
Qed.

(** [st'] extends [st] by the [c] bits of value [v]. *)
Definition extends (e : endian) (st st' : ostream) (c v : Z) : Prop :=
  wf_out e st' /\ total st' = total st + c /\ written e st' = append_bits e (total st) (written e st) c v.

Lemma extends_reads e st st' c v :
  e <> MIDDLE_ENDIAN -> wf_out e st -> 0 <= v < 2 ^ c -> 0 <= c -> extends e st st' c v ->
  (1 <= c -> readBits (string_read (flushed st')) (total st) c e = Ok v) /\
  (forall a m, 0 <= a -> 1 <= m -> a + m <= total st ->
     readBits (string_read (flushed st')) a m e = readBits (string_read (flushed st)) a m e).
Proof.
  intros He Hw Hv Hc (Hw' & Ht & Hwr).
  assert (HT : 0 <= total st) by (unfold total; pose proof (zlen_nonneg (out st)); destruct Hw as (_ & ? & _); lia).
  pose proof (written_bound e st He Hw) as HB.
  split.
  - intros Hc1. rewrite readBits_flushed by (auto; lia). f_equal. destruct e; [| |congruence].
    + rewrite read_written_big by (auto; lia). rewrite Hwr. unfold append_bits.
      replace (total st' - total st - c) with 0 by lia. change (2 ^ 0) with 1. rewrite Z.div_1_r.
      rewrite Z.add_comm, Z.mod_add by lia. apply Z.mod_small; lia.
    + rewrite read_written_little by (auto; lia). rewrite Hwr. unfold append_bits.
      rewrite Z.add_comm, (Z.mul_comm (2 ^ _)), Z.div_add_l by lia. rewrite (Z.div_small (written _ _)) by lia.
      rewrite Z.add_0_r. apply Z.mod_small; lia.
  - intros a m Ha Hm Hl. rewrite !readBits_flushed by (auto; lia). f_equal. destruct e; [| |congruence].
    + rewrite !read_written_big by (auto; lia). rewrite Hwr. unfold append_bits.
      replace (total st' - a - m) with (c + (total st - a - m)) by lia. rewrite pow_split by lia.
      pose proof (pow_pos c Hc). pose proof (pow_pos (total st - a - m) ltac:(lia)).
      rewrite <- Z.div_div by lia. rewrite Z.div_add_l by lia. rewrite (Z.div_small v) by lia. rewrite Z.add_0_r. reflexivity.
    + rewrite !read_written_little by (auto; lia). rewrite Hwr. unfold append_bits.
      assert (Hp : 2 ^ total st = 2 ^ m * 2 ^ (total st - a - m) * 2 ^ a).
      { rewrite <- !pow_split by lia. f_equal. lia. }
      rewrite Hp. pose proof (pow_pos a Ha). pose proof (pow_pos m ltac:(lia)).
      replace (2 ^ m * 2 ^ (total st - a - m) * 2 ^ a * v) with ((2 ^ (total st - a - m) * v * 2 ^ m) * 2 ^ a) by ring.
      rewrite Z.div_add by lia. rewrite Z.mod_add by lia. reflexivity.
Qed.

(** ** Byte writes *)
Definition str_value (e : endian) (d : list Z) : Z :=
  match e with BIG_ENDIAN => from_bytes_big d | _ => from_bytes_little d end.
Lemma str_value_bound e d : is_bytes d -> 0 <= str_value e d < 2 ^ (8 * zlen d).
Proof.
  intros H. rewrite Z.pow_mul_r by (try lia; apply zlen_nonneg). change (2 ^ 8) with 256.
  destruct e; [apply from_bytes_big_bound|apply from_bytes_little_bound|apply from_bytes_little_bound]; assumption.
Qed.
Lemma writeBytes_extends e st data :
  e <> MIDDLE_ENDIAN -> wf_out e st -> bit_pos st = 0 -> is_bytes data ->
  exists st', writeBytes st data = Ok st' /\ out st' = out st ++ data /\ bit_pos st' = 0 /\ byte st' = byte st /\
    extends e st st' (8 * zlen data) (str_value e data).
Proof.
  intros He (Ho & Hb & Hby) H0 Hd. unfold writeBytes. rewrite H0. cbn [Z.eqb negb].
  eexists; split; [reflexivity|]. cbn [out bit_pos byte]. repeat split; auto; cbn [out bit_pos byte]; try lia.
  - apply is_bytes_app; auto.
  - rewrite H0 in Hby. destruct e; assumption.
  - unfold total; cbn [out bit_pos]. rewrite zlen_app. lia.
  - unfold written, append_bits, str_value, total. cbn [out bit_pos byte]. rewrite H0 in *.
    pose proof (zlen_nonneg data). pose proof (zlen_nonneg (out st)).
    destruct e; [| |congruence].
    + change (8 - 0) with 8 in *. change (2 ^ 8) with 256 in *. change (2 ^ 0) with 1.
      assert (byte st = 0) as -> by lia. change (0 / 256) with 0. rewrite from_bytes_big_app.
      rewrite Z.pow_mul_r by lia. change (2 ^ 8) with 256. ring.
    + change (2 ^ 0) with 1 in *. assert (byte st = 0) as -> by lia. rewrite from_bytes_little_app.
      rewrite Z.add_0_r. rewrite (Z.pow_mul_r 2 8 (zlen (out st))) by lia. change (2 ^ 8) with 256.
      ring.
Qed.

Lemma extends_bytes_value e d n : is_bytes d -> 0 <= n -> e <> MIDDLE_ENDIAN ->
  bits_at d 0 (8 * zlen d) e = str_value e d.
Proof.
  intros Hd Hn He. unfold bits_at, str_value. destruct e; [| |congruence].
  - rewrite <- zlen_bits_be, sub_all. symmetry. apply from_bytes_big_val; assumption.
  - rewrite <- zlen_bits_le, sub_all. symmetry. apply from_bytes_little_val; assumption.
Qed.

(** Bits of a byte-aligned window. *)
Lemma bits_at_bytes data a n e : is_bytes data -> 0 <= a -> 0 <= n -> a + n <= zlen data -> e <> MIDDLE_ENDIAN ->
  bits_at data (8 * a) (8 * n) e = str_value e (sub data a n).
Proof.
  intros Hd Ha Hn H He. unfold bits_at, str_value. destruct e; [| |congruence].
  - rewrite <- bits_be_sub by lia. symmetry. apply from_bytes_big_val. apply is_bytes_sub; assumption.
  - rewrite <- bits_le_sub by lia. symmetry. apply from_bytes_little_val. apply is_bytes_sub; assumption.
Qed.

(** ** writeInteger *)
Lemma str2long_value e d v : e <> MIDDLE_ENDIAN -> str2long d e = Ok v -> str_value e d = v.
Proof. intros He. destruct e; [| |congruence]; cbn; congruence. Qed.

Lemma writeInteger_raw st v (signed : bool) size e :
  bit_pos st = 0 -> e <> MIDDLE_ENDIAN -> 1 <= size ->
  (if signed then - 2 ^ (8 * size - 1) <= v < 2 ^ (8 * size - 1) else 0 <= v < 2 ^ (8 * size)) ->
  exists raw, writeInteger st v signed size e = Ok {| out := out st ++ raw; bit_pos := 0; byte := byte st |} /\
    is_bytes raw /\ zlen raw = size /\
    str_value e raw = (if signed then v + 2 ^ (8 * size - 1) else v).
Proof.
  intros H0 He Hs Hv. unfold writeInteger.
  set (w := if signed then v + 2 ^ (8 * size - 1) else v).
  assert (Hw : 0 <= w < 2 ^ (8 * size)).
  { unfold w. destruct signed; [|assumption].
    pose proof (pow_half (8 * size) ltac:(lia)). lia. }
  replace (if signed then do m <- py_shl1 (size * 8 - 1); Ok (v + m) else Ok v) with (@Ok Z w).
  2: { unfold w. destruct signed; [|reflexivity]. rewrite py_shl1_ok by lia. cbn [bind].
       rewrite Z.shiftl_1_l. do 3 f_equal. lia. }
  cbn [bind].
  destruct (long2raw_spec w e (Some size)) as (d & n & H1 & H2 & H3 & H4 & H5); [lia|assumption|].
  rewrite H1. cbn [bind]. unfold writeBytes. rewrite H0. cbn [Z.eqb negb].
  exists d. split; [reflexivity|]. split; [assumption|]. split.
  - apply bytes_needed_le with (m := size) in H4; [lia|lia|]. rewrite Z.pow_mul_r in Hw by lia. change (2 ^ 8) with 256 in Hw. lia.
  - apply (str2long_value e); assumption.
Qed.

(** Reading an aligned integer out of the middle of a byte string. *)
Lemma readBits_middle pre raw post e :
  is_bytes pre -> is_bytes raw -> is_bytes post -> e <> MIDDLE_ENDIAN -> raw <> [] ->
  readBits (string_read (pre ++ raw ++ post)) (8 * zlen pre) (8 * zlen raw) e = Ok (str_value e raw).
Proof.
  intros Hp Hr Hq He Hne.
  assert (1 <= zlen raw) by (destruct raw; [congruence|rewrite zlen_cons; pose proof (zlen_nonneg raw); lia]).
  pose proof (zlen_nonneg pre). pose proof (zlen_nonneg post).
  assert (Hall : is_bytes (pre ++ raw ++ post)) by (repeat (apply is_bytes_app; split; auto)).
  rewrite readBits_string_spec by (auto; lia).
  replace (bits_available _ _ _ e) with true by (unfold bits_available; rewrite !zlen_app; destruct e; [lia|lia|congruence]).
  rewrite bits_at_bytes by (auto; rewrite ?zlen_app; lia).
  rewrite sub_app_r by lia. rewrite Z.sub_diag, sub_app_l, sub_all by lia. reflexivity.
Qed.

Theorem writeInteger_unsigned_roundtrip st v size e post :
  is_bytes (out st) -> is_bytes post -> bit_pos st = 0 -> e <> MIDDLE_ENDIAN -> 1 <= size -> 0 <= v < 2 ^ (8 * size) ->
  exists st', writeInteger st v false size e = Ok st' /\
    (exists raw, out st' = out st ++ raw /\ zlen raw = size) /\ bit_pos st' = 0 /\
    readInteger (string_read (out st' ++ post)) (8 * zlen (out st)) false (8 * size) e = Ok v.
Proof.
  intros Ho Hp H0 He Hs Hv.
  destruct (writeInteger_raw st v false size e H0 He Hs Hv) as (raw & H1 & H2 & H3 & H4).
  eexists; split; [exact H1|]. cbn [out bit_pos]. split; [eauto|]. split; [reflexivity|].
  unfold readInteger. rewrite <- app_assoc, <- H3. rewrite readBits_middle by (auto; intros ->; rewrite zlen_nil in H3; lia).
  cbn [bind]. rewrite H4. reflexivity.
Qed.
(** Signed integers are written in offset binary: what is read back always
    differs from what was written, by half the range. *)
Theorem writeInteger_signed_wrong st v size e post :
  is_bytes (out st) -> is_bytes post -> bit_pos st = 0 -> e <> MIDDLE_ENDIAN -> 1 <= size ->
  - 2 ^ (8 * size - 1) <= v < 2 ^ (8 * size - 1) ->
  exists st', writeInteger st v true size e = Ok st' /\
    (exists raw, out st' = out st ++ raw /\ zlen raw = size) /\
    readInteger (string_read (out st' ++ post)) (8 * zlen (out st)) true (8 * size) e =
    Ok (if 0 <=? v then v - 2 ^ (8 * size - 1) else v + 2 ^ (8 * size - 1)).
Proof.
  intros Ho Hp H0 He Hs Hv.
  destruct (writeInteger_raw st v true size e H0 He Hs Hv) as (raw & H1 & H2 & H3 & H4).
  eexists; split; [exact H1|]. cbn [out bit_pos]. split; [eauto|].
  unfold readInteger. rewrite <- app_assoc, <- H3. rewrite readBits_middle by (auto; intros ->; rewrite zlen_nil in H3; lia).
  cbn [bind]. rewrite H4, H3. rewrite py_shl1_ok by lia. cbn [bind]. rewrite Z.shiftl_1_l.
  destruct (0 <=? v) eqn:E.
  - replace (2 ^ (8 * size - 1) <=? v + 2 ^ (8 * size - 1)) with true by lia.
    rewrite py_shl1_ok by lia. cbn [bind]. rewrite Z.shiftl_1_l. f_equal.
    pose proof (pow_half (8 * size) ltac:(lia)). lia.
  - replace (2 ^ (8 * size - 1) <=? v + 2 ^ (8 * size - 1)) with false by lia. reflexivity.
Qed.
Lemma writeInteger_unaligned st v (signed : bool) size e :
  bit_pos st <> 0 -> e <> MIDDLE_ENDIAN -> 1 <= size ->
  (if signed then - 2 ^ (8 * size - 1) <= v < 2 ^ (8 * size - 1) else 0 <= v < 2 ^ (8 * size)) ->
  writeInteger st v signed size e = Err NotImplementedError.
Proof.
  intros H0 He Hs Hv. unfold writeInteger.
  set (w := if signed then v + 2 ^ (8 * size - 1) else v).
  assert (Hw : 0 <= w) by (unfold w; destruct signed; lia).
  replace (if signed then do m <- py_shl1 (size * 8 - 1); Ok (v + m) else Ok v) with (@Ok Z w).
  2: { unfold w. destruct signed; [|reflexivity]. rewrite py_shl1_ok by lia. cbn [bind].
       rewrite Z.shiftl_1_l. do 3 f_equal. lia. }
  cbn [bind]. destruct (long2raw_spec w e (Some size)) as (d & n & H1 & _); [lia|assumption|].
  rewrite H1. cbn [bind]. unfold writeBytes. replace (bit_pos st =? 0) with false by lia. reflexivity.
Qed.

(** ** copyBytesFrom *)
Lemma copyBytes_loop_ok input data : serves input data ->
  forall fuel st a n buf, bit_pos st = 0 -> 0 <= a -> 0 <= n -> a + n <= zlen data -> 1 <= buf ->
  (Z.to_nat n < fuel)%nat ->
  copyBytes_loop fuel st input (8 * a) n buf =
  Ok {| out := out st ++ sub data a n; bit_pos := 0; byte := byte st |}.
Proof.
  intros Hs. induction fuel as [|f IH]; intros st a n buf H0 Ha Hn Hl Hb Hf; [lia|].
  cbn [copyBytes_loop]. destruct (0 <? n) eqn:E.
  - set (b := if n <? buf then n else buf). assert (Hbb : 1 <= b <= n) by (unfold b; destruct (n <? buf) eqn:?; lia).
    rewrite (readBytes_serves input data) by (auto; lia). cbn [bind].
    unfold writeBytes. rewrite H0. cbn [Z.eqb negb bind].
    replace (8 * a + b * 8) with (8 * (a + b)) by lia.
    rewrite IH by (cbn [bit_pos]; lia). cbn [out byte]. rewrite <- app_assoc, <- sub_app_split by lia.
    do 4 f_equal. lia.
  - assert (n = 0) by lia. subst n. rewrite sub_0, app_nil_r. destruct st; cbn in *; subst; reflexivity.
Qed.
Lemma copyBytes_loop_short data :
  forall fuel st a n buf, bit_pos st = 0 -> 0 <= a -> 1 <= n -> zlen data < a + n -> 1 <= buf ->
  (Z.to_nat n < fuel)%nat ->
  copyBytes_loop fuel st (string_read data) (8 * a) n buf = Err ReadStreamError.
Proof.
  induction fuel as [|f IH]; intros st a n buf H0 Ha Hn Hl Hb Hf; [lia|].
  cbn [copyBytes_loop]. replace (0 <? n) with true by lia.
  set (b := if n <? buf then n else buf). assert (Hbb : 1 <= b <= n) by (unfold b; destruct (n <? buf) eqn:?; lia).
  rewrite readBytes_string by lia. replace (b =? 0) with false by lia. cbn [orb].
  destruct (a + b <=? zlen data) eqn:E; [|reflexivity]. cbn [bind].
  unfold writeBytes. rewrite H0. cbn [Z.eqb negb bind].
  replace (8 * a + b * 8) with (8 * (a + b)) by lia. apply IH; cbn [bit_pos]; lia.
Qed.
Theorem copyBytesFrom_exact st input data a n :
  serves input data -> bit_pos st = 0 -> 0 <= a -> 0 <= n -> a + n <= zlen data ->
  copyBytesFrom st input (8 * a) n = Ok {| out := out st ++ sub data a n; bit_pos := 0; byte := byte st |}.
Proof.
  intros. unfold copyBytesFrom. replace ((8 * a) mod 8 =? 0) with true by lia. cbn [negb].
  apply copyBytes_loop_ok; auto; cbn; lia.
Qed.
Theorem copyBytesFrom_short st data a n :
  bit_pos st = 0 -> 0 <= a -> 1 <= n -> zlen data < a + n ->
  copyBytesFrom st (string_read data) (8 * a) n = Err ReadStreamError.
Proof.
  intros. unfold copyBytesFrom. replace ((8 * a) mod 8 =? 0) with true by lia. cbn [negb].
  apply copyBytes_loop_short; auto; cbn; lia.
Qed.

(** ** copyBitsFrom *)
Theorem copyBitsFrom_exact st input data a n e :
  serves input data -> is_bytes data -> e <> MIDDLE_ENDIAN -> wf_out e st ->
  0 <= a -> 1 <= n -> a + n <= 8 * zlen data ->
  (n <= max_bit_length \/ (a mod 8 = 0 /\ n mod 8 = 0 /\ bit_pos st = 0)) ->
  exists st', copyBitsFrom st input a n e = Ok st' /\ extends e st st' n (bits_at data a n e).
Proof.
  intros Hs Hd He Hw Ha Hn Hl Hcase. unfold copyBitsFrom.
  assert (Hb : 0 <= bit_pos st < 8) by apply Hw.
  destruct ((n mod 8 =? 0) && (a mod 8 =? 0) && (bit_pos st mod 8 =? 0)) eqn:E.
  - assert (H0 : bit_pos st = 0) by lia.
    pose proof (copyBytesFrom_exact st input data (a / 8) (n / 8) Hs H0 ltac:(lia) ltac:(lia) ltac:(lia)) as Hc.
    replace (8 * (a / 8)) with a in Hc by lia. rewrite Hc. clear Hc.
    destruct (writeBytes_extends e st (sub data (a / 8) (n / 8)) He Hw H0 ltac:(apply is_bytes_sub; assumption))
      as (st' & H1 & H2 & H3 & H4 & H5).
    unfold writeBytes in H1. rewrite H0 in H1. cbn [Z.eqb negb] in H1. injection H1 as H1.
    eexists; split; [reflexivity|]. rewrite H1.
    rewrite zlen_sub_exact in H5 by lia. rewrite <- bits_at_bytes in H5 by (auto; lia).
    replace (8 * (n / 8)) with n in H5 by lia. replace (8 * (a / 8)) with a in H5 by lia. exact H5.
  - assert (n <= max_bit_length) by lia. replace (n <=? max_bit_length) with true by lia. cbn [assert_ bind].
    assert (Hav : bits_available data a n e = true) by (unfold bits_available; destruct e; [lia|lia|congruence]).
    rewrite (readBits_serves input data) by (auto; lia). cbn [bind].
    destruct (writeBits_spec st n (bits_at data a n e) e He Hw ltac:(lia)) as (st' & H1 & H2 & H3 & H4).
    { apply bits_at_bound; auto; lia. }
    exists st'. split; [assumption|]. repeat split; try assumption; apply H2.
Qed.

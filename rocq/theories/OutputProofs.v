From Verif Require Import Base BaseProofs BitsModel BitsSpec BitsProofs BitsProofs2 StreamModel StreamSpec StreamProofs OutputModel.
Ltac Zify.zify_post_hook ::= Z.div_mod_to_equations.

(** The pending byte is well formed and holds [bit_pos] bits. *)
Definition wf_out (e : endian) (st : ostream) : Prop :=
  is_bytes (out st) /\ 0 <= bit_pos st < 8 /\
  match e with
  | BIG_ENDIAN => 0 <= byte st < 256 /\ byte st mod 2 ^ (8 - bit_pos st) = 0
  | _ => 0 <= byte st < 2 ^ bit_pos st
  end.
Definition total (st : ostream) : Z := 8 * zlen (out st) + bit_pos st.
(** All bits written so far, as one integer. *)
Definition written (e : endian) (st : ostream) : Z :=
  match e with
  | BIG_ENDIAN => from_bytes_big (out st) * 2 ^ bit_pos st + byte st / 2 ^ (8 - bit_pos st)
  | _ => from_bytes_little (out st) + 2 ^ (8 * zlen (out st)) * byte st
  end.
Definition append_bits (e : endian) (t w count value : Z) : Z :=
  match e with BIG_ENDIAN => w * 2 ^ count + value | _ => w + 2 ^ t * value end.

Lemma land_ones' v n : 0 <= n -> Z.land v (Z.shiftl 1 n - 1) = v mod 2 ^ n.
Proof. intros. rewrite <- Z.land_ones by lia. unfold Z.ones. rewrite Z.sub_1_r. reflexivity. Qed.
Lemma pow_split a b : 0 <= a -> 0 <= b -> 2 ^ (a + b) = 2 ^ a * 2 ^ b.
Proof. intros. apply Z.pow_add_r; lia. Qed.
Lemma pow_pos a : 0 <= a -> 0 < 2 ^ a.
Proof. intros. apply Z.pow_pos_nonneg; lia. Qed.
Lemma write_byte_ok o b : is_byte b -> write_byte o b = Ok (o ++ [b]).
Proof. unfold is_byte, write_byte. intros. replace ((0 <=? b) && (b <? 256)) with true by lia. reflexivity. Qed.
Lemma is_bytes_snoc o b : is_bytes o -> is_byte b -> is_bytes (o ++ [b]).
Proof. intros. apply is_bytes_app. split; [assumption|]. constructor; [assumption|constructor]. Qed.
Lemma zlen_snoc {A} (o : list A) b : zlen (o ++ [b]) = zlen o + 1.
Proof. rewrite zlen_app. reflexivity. Qed.
Lemma big_snoc o b : from_bytes_big (o ++ [b]) = from_bytes_big o * 256 + b.
Proof. rewrite from_bytes_big_app. reflexivity. Qed.
Lemma little_snoc o b : from_bytes_little (o ++ [b]) = from_bytes_little o + 2 ^ (8 * zlen o) * b.
Proof. rewrite from_bytes_little_app. rewrite Z.pow_mul_r by (try lia; apply zlen_nonneg).
  change (2 ^ 8) with 256. change (from_bytes_little [b]) with (b + 256 * 0). f_equal. f_equal. lia. Qed.

Lemma writeBits_loop_big : forall fuel o count value,
  is_bytes o -> 0 <= count -> 0 <= value < 2 ^ count -> (Z.to_nat count < fuel)%nat ->
  exists o' count' value',
    writeBits_loop fuel o count value BIG_ENDIAN = Ok (o', count', value') /\
    is_bytes o' /\ 0 <= count' < 8 /\ 0 <= value' < 2 ^ count' /\
    8 * zlen o' + count' = 8 * zlen o + count /\
    from_bytes_big o' * 2 ^ count' + value' = from_bytes_big o * 2 ^ count + value.
Proof.
  induction fuel as [|f IH]; intros o count value Ho Hc Hv Hf; [lia|].
  cbn [writeBits_loop]. destruct (8 <=? count) eqn:E.
  - pose proof (pow_pos (count - 8) ltac:(lia)) as Hp.
    assert (Hpow : 2 ^ count = 2 ^ (count - 8) * 256).
    { replace count with ((count - 8) + 8) at 1 by lia. rewrite pow_split by lia. reflexivity. }
    rewrite Z.shiftr_div_pow2, land_ones' by lia.
    assert (Hdm : value = 2 ^ (count - 8) * (value / 2 ^ (count - 8)) + value mod 2 ^ (count - 8)) by (apply Z.div_mod; lia).
    pose proof (Z.mod_pos_bound value (2 ^ (count - 8)) ltac:(lia)) as Hm.
    assert (Hb : is_byte (value / 2 ^ (count - 8))).
    { unfold is_byte. split; [apply Z.div_pos; lia|]. apply Z.div_lt_upper_bound; lia. }
    rewrite write_byte_ok by assumption. cbn [bind].
    destruct (IH (o ++ [value / 2 ^ (count - 8)]) (count - 8) (value mod 2 ^ (count - 8)))
      as (o' & c' & v' & H1 & H2 & H3 & H4 & H5 & H6); try lia.
    { apply is_bytes_snoc; assumption. }
    exists o', c', v'. rewrite zlen_snoc in H5. rewrite big_snoc in H6.
    repeat split; auto; try lia.
  - exists o, count, value. repeat split; auto; lia.
Qed.
Lemma writeBits_loop_little : forall fuel o count value e,
  e <> BIG_ENDIAN ->
  is_bytes o -> 0 <= count -> 0 <= value < 2 ^ count -> (Z.to_nat count < fuel)%nat ->
  exists o' count' value',
    writeBits_loop fuel o count value e = Ok (o', count', value') /\
    is_bytes o' /\ 0 <= count' < 8 /\ 0 <= value' < 2 ^ count' /\
    8 * zlen o' + count' = 8 * zlen o + count /\
    from_bytes_little o' + 2 ^ (8 * zlen o') * value' = from_bytes_little o + 2 ^ (8 * zlen o) * value.
Proof.
  induction fuel as [|f IH]; intros o count value e He Ho Hc Hv Hf; [lia|].
  cbn [writeBits_loop]. destruct (8 <=? count) eqn:E.
  - assert (Hpow : 2 ^ count = 2 ^ (count - 8) * 256).
    { replace count with ((count - 8) + 8) at 1 by lia. rewrite pow_split by lia. reflexivity. }
    assert (Hb : is_byte (value mod 256)) by (unfold is_byte; lia).
    replace (match e with BIG_ENDIAN => (Z.shiftr value (count - 8), Z.land value (Z.shiftl 1 (count - 8) - 1))
                     | _ => (Z.land value 255, Z.shiftr value 8) end)
      with (value mod 256, value / 256) by (rewrite land_255, shiftr8; destruct e; congruence).
    rewrite write_byte_ok by assumption. cbn [bind].
    destruct (IH (o ++ [value mod 256]) (count - 8) (value / 256) e)
      as (o' & c' & v' & H1 & H2 & H3 & H4 & H5 & H6); try lia; try assumption.
    { apply is_bytes_snoc; assumption. }
    exists o', c', v'. rewrite zlen_snoc in *. rewrite little_snoc in H6.
    repeat split; auto; try lia.
    rewrite H6. pose proof (zlen_nonneg o).
    replace (8 * (zlen o + 1)) with (8 * zlen o + 8) by lia. rewrite pow_split by lia.
    change (2 ^ 8) with 256. rewrite (Z.div_mod value 256) at 3 by lia. ring.
  - exists o, count, value. repeat split; auto; lia.
Qed.

(** writeBits on a byte boundary. *)
Lemma writeBits_aligned_spec o count value e :
  e <> MIDDLE_ENDIAN -> is_bytes o -> 0 <= count -> 0 <= value < 2 ^ count ->
  exists st, writeBits_aligned o count value e = Ok st /\ wf_out e st /\
    total st = 8 * zlen o + count /\
    written e st = append_bits e (8 * zlen o) (match e with BIG_ENDIAN => from_bytes_big o | _ => from_bytes_little o end) count value.
Proof.
  intros He Ho Hc Hv. unfold writeBits_aligned.
  destruct e; [| |congruence].
  - destruct (writeBits_loop_big (S (Z.to_nat count)) o count value) as (o' & c' & v' & H1 & H2 & H3 & H4 & H5 & H6); try lia; try assumption.
    rewrite H1. cbn [bind]. replace ((0 <=? c') && (c' <? 8)) with true by lia. cbn [assert_ bind].
    destruct (0 <? c') eqn:E.
    + replace ((0 <=? v') && (v' <? 2 ^ c')) with true by lia. cbn [assert_ bind].
      eexists; split; [reflexivity|]. unfold wf_out, total, written, append_bits; cbn [out bit_pos byte].
      rewrite Z.shiftl_mul_pow2 by lia.
      pose proof (pow_pos (8 - c') ltac:(lia)).
      assert (2 ^ c' * 2 ^ (8 - c') = 256) by (rewrite <- pow_split by lia; replace (c' + (8 - c')) with 8 by lia; reflexivity).
      repeat split; auto; try lia; try nia; try (apply Z.mod_mul; lia); try (rewrite Z.div_mul by lia; lia).
    + assert (c' = 0) by lia. subst c'. change (2 ^ 0) with 1 in *. replace (v' =? 0) with true by lia. cbn [assert_ bind].
      eexists; split; [reflexivity|]. unfold wf_out, total, written, append_bits; cbn [out bit_pos byte].
      change (2 ^ 0) with 1. change (2 ^ (8 - 0)) with 256. repeat split; auto; try lia; try (rewrite Z.div_0_l by lia; lia).
  - destruct (writeBits_loop_little (S (Z.to_nat count)) o count value LITTLE_ENDIAN) as (o' & c' & v' & H1 & H2 & H3 & H4 & H5 & H6); try lia; try assumption; try congruence.
    rewrite H1. cbn [bind]. replace ((0 <=? c') && (c' <? 8)) with true by lia. cbn [assert_ bind].
    destruct (0 <? c') eqn:E.
    + replace ((0 <=? v') && (v' <? 2 ^ c')) with true by lia. cbn [assert_ bind].
      eexists; split; [reflexivity|]. unfold wf_out, total, written, append_bits; cbn [out bit_pos byte].
      repeat split; auto; try lia.
    + assert (c' = 0) by lia. subst c'. change (2 ^ 0) with 1 in *. assert (v' = 0) by lia. subst v'. cbn [Z.eqb assert_ bind].
      eexists; split; [reflexivity|]. unfold wf_out, total, written, append_bits; cbn [out bit_pos byte].
      repeat split; auto; try lia.
Qed.

Lemma writeBits_spec st count value e :
  e <> MIDDLE_ENDIAN -> wf_out e st -> 0 <= count -> 0 <= value < 2 ^ count ->
  exists st', writeBits st count value e = Ok st' /\ wf_out e st' /\
    total st' = total st + count /\
    written e st' = append_bits e (total st) (written e st) count value.
Proof.
  intros He (Ho & Hbp & Hby) Hc Hv. unfold writeBits.
  replace (not_middle e) with true by (destruct e; [reflexivity|reflexivity|congruence]).
  replace ((0 <=? count) && (0 <=? value) && (value <? 2 ^ count)) with true by lia. cbn [assert_ bind].
  destruct (bit_pos st =? 0) eqn:E0; cbn [negb].
  { destruct (writeBits_aligned_spec (out st) count value e) as (st' & H1 & H2 & H3 & H4); try assumption.
    exists st'. split; [assumption|]. split; [assumption|]. assert (Hb0 : bit_pos st = 0) by lia.
    unfold total in *. split; [lia|]. rewrite H4. unfold written, append_bits. rewrite Hb0 in *.
    destruct e; [| |congruence].
    - change (8 - 0) with 8 in *. change (2 ^ 8) with 256 in *. change (2 ^ 0) with 1.
      assert (byte st = 0) as -> by lia. change (0 / 256) with 0. f_equal. f_equal. lia.
    - change (2 ^ 0) with 1 in *. assert (byte st = 0) as -> by lia. rewrite Z.add_0_r. lia. }
  set (bp := bit_pos st) in *. set (n := 8 - bp).
  assert (Hn : 1 <= n <= 7) by (unfold n; lia).
  assert (H256 : 2 ^ bp * 2 ^ n = 256).
  { rewrite <- pow_split by lia. replace (bp + n) with 8 by (unfold n; lia). reflexivity. }
  pose proof (pow_pos bp ltac:(lia)) as Hpb. pose proof (pow_pos n ltac:(lia)) as Hpn.
  fold n in Hby. pose proof (zlen_nonneg (out st)) as Hlen.
  destruct (n <=? count) eqn:En.
  - destruct e; [| |congruence].
    + (* big endian *)
      rewrite Z.shiftr_div_pow2, land_ones' by lia.
      pose proof (pow_pos (count - n) ltac:(lia)) as Hpc.
      assert (Hpow : 2 ^ count = 2 ^ (count - n) * 2 ^ n).
      { rewrite <- pow_split by lia. f_equal. lia. }
      destruct Hby as [Hby1 Hby2].
      assert (Hdv : byte st = byte st / 2 ^ n * 2 ^ n).
      { rewrite (Z.div_mod (byte st) (2 ^ n)) at 1 by lia. lia. }
      assert (Hq : 0 <= value / 2 ^ (count - n) < 2 ^ n).
      { split; [apply Z.div_pos; lia|apply Z.div_lt_upper_bound; lia]. }
      rewrite Hdv, lor_add_disjoint by lia.
      set (k := byte st / 2 ^ n) in *.
      assert (Hk : 0 <= k < 2 ^ bp).
      { unfold k. split; [apply Z.div_pos; lia|apply Z.div_lt_upper_bound; lia]. }
      set (b := k * 2 ^ n + value / 2 ^ (count - n)).
      assert (Hb : is_byte b) by (unfold is_byte, b; nia).
      rewrite write_byte_ok by assumption. cbn [bind].
      pose proof (Z.mod_pos_bound value (2 ^ (count - n)) ltac:(lia)) as Hm.
      destruct (writeBits_aligned_spec (out st ++ [b]) (count - n) (value mod 2 ^ (count - n)) BIG_ENDIAN)
        as (st' & H1 & H2 & H3 & H4); try lia; try congruence.
      { apply is_bytes_snoc; assumption. }
      exists st'. split; [assumption|]. split; [assumption|].
      rewrite zlen_snoc in *. split; [unfold total in *; fold bp; lia|].
      rewrite H4. unfold append_bits, written. rewrite big_snoc. fold bp. fold n. fold k.
      unfold b. rewrite Hpow. rewrite (Z.div_mod value (2 ^ (count - n))) at 3 by lia.
      rewrite <- H256. ring.
    + (* little endian *)
      rewrite land_ones', Z.shiftl_mul_pow2, Z.shiftr_div_pow2 by lia.
      pose proof (Z.mod_pos_bound value (2 ^ n) ltac:(lia)) as Hm.
      rewrite Z.lor_comm, lor_add_disjoint by lia.
      set (b := value mod 2 ^ n * 2 ^ bp + byte st).
      assert (Hb : is_byte b) by (unfold is_byte, b; nia).
      rewrite write_byte_ok by assumption. cbn [bind].
      assert (Hpow : 2 ^ count = 2 ^ (count - n) * 2 ^ n).
      { rewrite <- pow_split by lia. f_equal. lia. }
      destruct (writeBits_aligned_spec (out st ++ [b]) (count - n) (value / 2 ^ n) LITTLE_ENDIAN)
        as (st' & H1 & H2 & H3 & H4); try lia; try congruence.
      { apply is_bytes_snoc; assumption. }
      { split; [apply Z.div_pos; lia|apply Z.div_lt_upper_bound; lia]. }
      exists st'. split; [assumption|]. split; [assumption|].
      rewrite zlen_snoc in *. split; [unfold total in *; fold bp; lia|].
      rewrite H4. unfold append_bits, written, total. rewrite little_snoc. fold bp.
      replace (8 * (zlen (out st) + 1)) with (8 * zlen (out st) + 8) by lia.
      rewrite !pow_split by lia. change (2 ^ 8) with 256. rewrite <- H256. unfold b.
      rewrite (Z.div_mod value (2 ^ n)) at 3 by lia. ring.
  - (* everything fits in the pending byte *)
    destruct e; [| |congruence].
    + destruct Hby as [Hby1 Hby2].
      replace (8 - bp - count) with (n - count) by (unfold n; lia).
      rewrite Z.shiftl_mul_pow2 by lia.
      assert (Hdv : byte st = byte st / 2 ^ n * 2 ^ n).
      { rewrite (Z.div_mod (byte st) (2 ^ n)) at 1 by lia. lia. }
      assert (Hpow : 2 ^ n = 2 ^ count * 2 ^ (n - count)).
      { rewrite <- pow_split by lia. f_equal. lia. }
      pose proof (pow_pos (n - count) ltac:(lia)) as Hpc. pose proof (pow_pos count ltac:(lia)) as Hpc'.
      set (k := byte st / 2 ^ n) in *.
      assert (Hk : 0 <= k < 2 ^ bp).
      { unfold k. split; [apply Z.div_pos; lia|apply Z.div_lt_upper_bound; lia]. }
      rewrite Hdv. rewrite lor_add_disjoint by nia.
      eexists; split; [reflexivity|]. unfold wf_out, total, written, append_bits; cbn [out bit_pos byte].
      fold bp. replace (8 - (bp + count)) with (n - count) by (unfold n; lia).
      replace (k * 2 ^ n + value * 2 ^ (n - count)) with ((k * 2 ^ count + value) * 2 ^ (n - count)) by (rewrite Hpow; ring).
      assert (Hlt : 0 <= (k * 2 ^ count + value) * 2 ^ (n - count) < 256).
      { split; [nia|]. apply Z.lt_le_trans with (((k + 1) * 2 ^ count) * 2 ^ (n - count)); nia. }
      repeat split; auto; try lia; try (apply Z.mod_mul; lia);
        try (rewrite Z.div_mul by lia; rewrite pow_split by lia; fold n k; ring).
    + rewrite Z.shiftl_mul_pow2 by lia. rewrite Z.lor_comm, lor_add_disjoint by lia.
      eexists; split; [reflexivity|]. unfold wf_out, total, written, append_bits; cbn [out bit_pos byte].
      fold bp. rewrite !pow_split by lia. repeat split; auto; try lia; try nia; try ring.
Qed.

Definition total_bits (ws : list (Z * Z)) : Z := fold_right (fun w acc => fst w + acc) 0 ws.
Definition valid_write (w : Z * Z) : Prop := 0 <= fst w /\ 0 <= snd w < 2 ^ fst w.

Lemma total_bits_nonneg ws : Forall valid_write ws -> 0 <= total_bits ws.
Proof. induction 1 as [|[c v] ws [Hc Hv] H IH]; cbn [total_bits fold_right fst snd] in *; [lia|]. unfold total_bits in IH. lia. Qed.
Lemma total_bits_app a b : total_bits (a ++ b) = total_bits a + total_bits b.
Proof. unfold total_bits. induction a; cbn [fold_right app]; lia. Qed.

(** The single integer spelled by a list of writes. *)
Fixpoint all_bits (e : endian) (t w : Z) (ws : list (Z * Z)) : Z :=
  match ws with
  | [] => w
  | (c, v) :: ws' => all_bits e (t + c) (append_bits e t w c v) ws'
  end.
Lemma writeBits_all_spec e ws : forall st,
  e <> MIDDLE_ENDIAN -> wf_out e st -> Forall valid_write ws ->
  exists st', writeBits_all st ws e = Ok st' /\ wf_out e st' /\
    total st' = total st + total_bits ws /\
    written e st' = all_bits e (total st) (written e st) ws.
Proof.
  induction ws as [|[c v] ws IH]; intros st He Hw Hv.
  - exists st. cbn. repeat split; auto; try apply Hw; lia.
  - inversion Hv as [|? ? [Hc Hvv] Hrest]; subst. cbn [fst snd] in *. cbn [writeBits_all all_bits].
    destruct (writeBits_spec st c v e He Hw Hc Hvv) as (st1 & H1 & H2 & H3 & H4). rewrite H1. cbn [bind].
    destruct (IH st1 He H2 Hrest) as (st' & H5 & H6 & H7 & H8).
    exists st'. repeat split; try assumption; try apply H6.
    + rewrite H7, H3. unfold total_bits. cbn [fold_right fst]. lia.
    + rewrite H8, H3, H4. reflexivity.
Qed.

(** Big-endian: everything written later only fills lower positions. *)
Lemma all_bits_big ws : forall t w, Forall valid_write ws ->
  exists r, 0 <= r < 2 ^ total_bits ws /\ all_bits BIG_ENDIAN t w ws = w * 2 ^ total_bits ws + r.
Proof.
  induction ws as [|[c v] ws IH]; intros t w Hv.
  - exists 0. cbn. lia.
  - inversion Hv as [|? ? [Hc Hvv] Hrest]; subst. cbn [fst snd] in *. cbn [all_bits].
    pose proof (total_bits_nonneg ws Hrest). pose proof (pow_pos (total_bits ws) ltac:(lia)).
    destruct (IH (t + c) (append_bits BIG_ENDIAN t w c v) Hrest) as (r & Hr & Heq).
    change (total_bits ((c, v) :: ws)) with (c + total_bits ws). rewrite pow_split by lia.
    exists (v * 2 ^ total_bits ws + r). split; [nia|]. rewrite Heq. unfold append_bits. ring.
Qed.
Lemma all_bits_little ws : forall t w, 0 <= t -> Forall valid_write ws ->
  exists r, 0 <= r /\ all_bits LITTLE_ENDIAN t w ws = w + 2 ^ t * r.
Proof.
  induction ws as [|[c v] ws IH]; intros t w Ht Hv.
  - exists 0. cbn [all_bits]. lia.
  - inversion Hv as [|? ? [Hc Hvv] Hrest]; subst. cbn [fst snd] in *. cbn [all_bits].
    destruct (IH (t + c) (append_bits LITTLE_ENDIAN t w c v) ltac:(lia) Hrest) as (r & Hr & Heq).
    exists (v + 2 ^ c * r). pose proof (pow_pos c Hc). split; [nia|]. rewrite Heq. unfold append_bits.
    rewrite pow_split by lia. ring.
Qed.
Lemma all_bits_app e a b : forall t w, all_bits e t w (a ++ b) = all_bits e (t + total_bits a) (all_bits e t w a) b.
Proof.
  induction a as [|[c v] a IH]; intros t w; cbn [all_bits app].
  - unfold total_bits; cbn. rewrite Z.add_0_r. reflexivity.
  - rewrite IH. change (total_bits ((c, v) :: a)) with (c + total_bits a). f_equal. lia.
Qed.
Lemma all_bits_little_bound ws : forall t w, 0 <= t -> 0 <= w < 2 ^ t -> Forall valid_write ws ->
  0 <= all_bits LITTLE_ENDIAN t w ws < 2 ^ (t + total_bits ws).
Proof.
  induction ws as [|[c v] ws IH]; intros t w Ht Hw Hv; cbn [all_bits].
  - change (total_bits []) with 0. rewrite Z.add_0_r. assumption.
  - inversion Hv as [|? ? [Hc Hvv] Hrest]; subst. cbn [fst snd] in *.
    change (total_bits ((c, v) :: ws)) with (c + total_bits ws). rewrite Z.add_assoc.
    apply IH; auto; [lia|]. unfold append_bits. rewrite pow_split by lia. pose proof (pow_pos t Ht). nia.
Qed.

(** Value of a slice of a byte string as arithmetic. *)
Lemma bits_at_arith_big data addr n : is_bytes data -> 0 <= addr -> 0 <= n -> addr + n <= 8 * zlen data ->
  bits_at data addr n BIG_ENDIAN = (from_bytes_big data / 2 ^ (8 * zlen data - addr - n)) mod 2 ^ n.
Proof.
  intros Hd Ha Hn H. unfold bits_at. rewrite val_be_sub by (rewrite ?zlen_bits_be; lia).
  rewrite zlen_bits_be, land_ones', Z.shiftr_div_pow2, from_bytes_big_val by (auto; lia). reflexivity.
Qed.
Lemma bits_at_arith_little data addr n : is_bytes data -> 0 <= addr -> 0 <= n -> addr + n <= 8 * zlen data ->
  bits_at data addr n LITTLE_ENDIAN = (from_bytes_little data / 2 ^ addr) mod 2 ^ n.
Proof.
  intros Hd Ha Hn H. unfold bits_at. rewrite val_le_sub by (rewrite ?zlen_bits_le; lia).
  rewrite land_ones', Z.shiftr_div_pow2, from_bytes_little_val by (auto; lia). reflexivity.
Qed.

(** What the stream's bytes, completed by the pending byte, contain. *)
Definition flushed (st : ostream) : list Z :=
  if bit_pos st =? 0 then out st else out st ++ [byte st].

Lemma wf_flushed_bytes e st : wf_out e st -> is_bytes (flushed st).
Proof.
  intros (Ho & Hb & Hby). unfold flushed. destruct (bit_pos st =? 0) eqn:E; [assumption|].
  apply is_bytes_snoc; [assumption|]. unfold is_byte. destruct e.
  - lia.
  - assert (2 ^ bit_pos st <= 2 ^ 7) by (apply Z.pow_le_mono_r; lia). change (2 ^ 7) with 128 in *. lia.
  - assert (2 ^ bit_pos st <= 2 ^ 7) by (apply Z.pow_le_mono_r; lia). change (2 ^ 7) with 128 in *. lia.
Qed.
Lemma flushed_len st : 0 <= bit_pos st < 8 -> 8 * zlen (flushed st) = 8 * ((total st + 7) / 8).
Proof.
  intros H. unfold flushed, total. destruct (bit_pos st =? 0) eqn:E; rewrite ?zlen_snoc; lia.
Qed.
Lemma flushed_value_big st : wf_out BIG_ENDIAN st ->
  from_bytes_big (flushed st) = written BIG_ENDIAN st * 2 ^ (8 * zlen (flushed st) - total st).
Proof.
  intros (Ho & Hb & Hby1 & Hby2). unfold flushed, written, total. destruct (bit_pos st =? 0) eqn:E.
  - assert (Hz : bit_pos st = 0) by lia. rewrite Hz in *. change (8 - 0) with 8 in *. change (2 ^ 8) with 256 in *.
    assert (byte st = 0) as -> by lia. change (0 / 256) with 0. change (2 ^ 0) with 1.
    replace (8 * zlen (out st) - (8 * zlen (out st) + 0)) with 0 by lia. change (2 ^ 0) with 1. lia.
  - rewrite zlen_snoc, big_snoc. replace (8 * (zlen (out st) + 1) - (8 * zlen (out st) + bit_pos st)) with (8 - bit_pos st) by lia.
    assert (H256 : 2 ^ bit_pos st * 2 ^ (8 - bit_pos st) = 256).
    { rewrite <- pow_split by lia. replace (bit_pos st + (8 - bit_pos st)) with 8 by lia. reflexivity. }
    pose proof (pow_pos (8 - bit_pos st) ltac:(lia)).
    rewrite (Z.div_mod (byte st) (2 ^ (8 - bit_pos st))) at 1 by lia. rewrite Hby2. rewrite <- H256. ring.
Qed.
Lemma flushed_value_little st : wf_out LITTLE_ENDIAN st ->
  from_bytes_little (flushed st) = written LITTLE_ENDIAN st.
Proof.
  intros (Ho & Hb & Hby). unfold flushed, written. destruct (bit_pos st =? 0) eqn:E.
  - assert (Hz : bit_pos st = 0) by lia. rewrite Hz in *. change (2 ^ 0) with 1 in *.
    assert (byte st = 0) as -> by lia. lia.
  - apply little_snoc.
Qed.

Lemma written_init e : e <> MIDDLE_ENDIAN -> wf_out e ostream_init /\ written e ostream_init = 0 /\ total ostream_init = 0.
Proof. intros He. destruct e; [| |congruence]; unfold wf_out; cbn; repeat split; try constructor; lia. Qed.

Lemma div_mod_big a q v r c rest : 0 <= c -> 0 <= rest -> 0 <= v < 2 ^ c -> 0 <= r < 2 ^ rest ->
  a = (q * 2 ^ c + v) * 2 ^ rest + r -> (a / 2 ^ rest) mod 2 ^ c = v.
Proof.
  intros Hc Hr Hv Hrr ->. pose proof (pow_pos c Hc). pose proof (pow_pos rest Hr).
  rewrite Z.div_add_l by lia. rewrite (Z.div_small r) by lia. rewrite Z.add_0_r, Z.add_comm, Z.mod_add by lia.
  apply Z.mod_small; lia.
Qed.

(** The round trip. *)
Theorem writeBits_readBits e ws :
  e <> MIDDLE_ENDIAN -> Forall valid_write ws ->
  exists st, writeBits_all ostream_init ws e = Ok st /\
    is_bytes (flushed st) /\
    0 <= bit_pos st < 8 /\ 8 * zlen (out st) + bit_pos st = total_bits ws /\
    forall pre c v post, ws = pre ++ (c, v) :: post -> 1 <= c ->
      readBits (string_read (flushed st)) (total_bits pre) c e = Ok v.
Proof.
  intros He Hv. destruct (written_init e He) as (Hw0 & Hwr0 & Ht0).
  destruct (writeBits_all_spec e ws ostream_init He Hw0 Hv) as (st & H1 & H2 & H3 & H4).
  exists st. split; [assumption|]. split; [apply (wf_flushed_bytes e); assumption|].
  assert (Hb : 0 <= bit_pos st < 8) by apply H2.
  rewrite Ht0, Z.add_0_l in H3. split; [exact Hb|]. split; [exact H3|].
  intros pre c v post -> Hc.
  apply Forall_app in Hv. destruct Hv as [Hpre Hcons]. inversion Hcons as [|? ? [Hc0 Hvv] Hpost]; subst. cbn [fst snd] in *.
  pose proof (total_bits_nonneg pre Hpre). pose proof (total_bits_nonneg post Hpost).
  rewrite total_bits_app in H3. change (total_bits ((c, v) :: post)) with (c + total_bits post) in H3.
  pose proof (flushed_len st Hb) as Hfl. pose proof (wf_flushed_bytes e st H2) as Hfb.
  rewrite Hwr0, Ht0 in H4. rewrite all_bits_app in H4. cbn [all_bits] in H4.
  rewrite readBits_string_spec by (auto; lia).
  replace (bits_available (flushed st) (total_bits pre) c e) with true by (unfold bits_available; destruct e; [lia|lia|congruence]).
  f_equal. destruct e; [| |congruence].
  - rewrite bits_at_arith_big by (auto; lia). rewrite flushed_value_big by assumption. rewrite H4.
    destruct (all_bits_big post (0 + total_bits pre + c) (append_bits BIG_ENDIAN (0 + total_bits pre) (all_bits BIG_ENDIAN 0 0 pre) c v) Hpost) as (r & Hr & ->).
    unfold append_bits. set (q := all_bits BIG_ENDIAN 0 0 pre).
    set (pad := 8 * zlen (flushed st) - total st). assert (Hpad : 0 <= pad) by (unfold pad; lia).
    replace (8 * zlen (flushed st) - total_bits pre - c) with (total_bits post + pad) by (unfold pad; lia).
    apply (div_mod_big _ q v (r * 2 ^ pad)); try lia.
    + rewrite pow_split by lia. pose proof (pow_pos pad Hpad). nia.
    + rewrite pow_split by lia. ring.
  - rewrite bits_at_arith_little by (auto; lia). rewrite flushed_value_little by assumption. rewrite H4.
    destruct (all_bits_little post (0 + total_bits pre + c) (append_bits LITTLE_ENDIAN (0 + total_bits pre) (all_bits LITTLE_ENDIAN 0 0 pre) c v) ltac:(lia) Hpost) as (r & Hr & ->).
    unfold append_bits. set (q := all_bits LITTLE_ENDIAN 0 0 pre).
    assert (Hq : 0 <= q < 2 ^ (0 + total_bits pre)).
    { unfold q. apply all_bits_little_bound; auto; cbn; lia. }
    rewrite !Z.add_0_l in *. rewrite pow_split by lia.
    pose proof (pow_pos (total_bits pre) ltac:(lia)). pose proof (pow_pos c ltac:(lia)).
    replace (q + 2 ^ total_bits pre * v + 2 ^ total_bits pre * 2 ^ c * r)
      with ((v + 2 ^ c * r) * 2 ^ total_bits pre + q) by ring.
    rewrite Z.div_add_l by lia. rewrite (Z.div_small q) by lia. rewrite Z.add_0_r.
    rewrite (Z.mul_comm (2 ^ c)), Z.mod_add by lia. apply Z.mod_small; lia.
Qed.

(** Once the bits of a write are all in complete bytes they are in [out]. *)
Lemma readBits_prefix data more addr n e v :
  is_bytes data -> is_bytes more -> e <> MIDDLE_ENDIAN -> 0 <= addr -> 1 <= n -> addr + n <= 8 * zlen data ->
  readBits (string_read (data ++ more)) addr n e = Ok v -> readBits (string_read data) addr n e = Ok v.
Proof.
  intros Hd Hm He Ha Hn Hl H. rewrite readBits_string_spec in * by (auto; try apply is_bytes_app; auto; lia).
  pose proof (zlen_nonneg more).
  replace (bits_available data addr n e) with true by (unfold bits_available; destruct e; [lia|lia|congruence]).
  replace (bits_available (data ++ more) addr n e) with true in H
    by (unfold bits_available; rewrite zlen_app; destruct e; [lia|lia|congruence]).
  rewrite <- H. f_equal. unfold bits_at. destruct e; [| |congruence].
  - rewrite bits_be_app, sub_app_l by (rewrite ?zlen_bits_be; lia). reflexivity.
  - rewrite bits_le_app, sub_app_l by (rewrite ?zlen_bits_le; lia). reflexivity.
Qed.

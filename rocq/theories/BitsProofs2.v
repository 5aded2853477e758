From Verif Require Import Base BaseProofs BitsModel BitsSpec BitsSpec2 BitsProofs.
Ltac Zify.zify_post_hook ::= Z.div_mod_to_equations.

Lemma shiftr8 x : Z.shiftr x 8 = x / 256.
Proof. rewrite Z.shiftr_div_pow2 by lia. reflexivity. Qed.

(** ** long2raw *)
Lemma from_bytes_little_app a b :
  from_bytes_little (a ++ b) = from_bytes_little a + 256 ^ zlen a * from_bytes_little b.
Proof.
  induction a as [|x a IH]; cbn [app].
  - change (from_bytes_little []) with 0. change (256 ^ zlen (@nil Z)) with 1. lia.
  - change (from_bytes_little (x :: a ++ b)) with (x + 256 * from_bytes_little (a ++ b)).
    change (from_bytes_little (x :: a)) with (x + 256 * from_bytes_little a).
    rewrite IH, zlen_cons, Z.pow_add_r by (try lia; apply zlen_nonneg).
    rewrite <- Z.mul_assoc. change (256 ^ 1) with 256.
    set (q := 256 ^ zlen a * from_bytes_little b). lia.
Qed.
Lemma from_bytes_little_zeros n : from_bytes_little (repeat 0 n) = 0.
Proof. induction n as [|n IH]; [reflexivity|]. cbn [repeat].
  change (from_bytes_little (0 :: repeat 0 n)) with (0 + 256 * from_bytes_little (repeat 0 n)). lia. Qed.
Lemma from_bytes_little_inj a b :
  is_bytes a -> is_bytes b -> length a = length b ->
  from_bytes_little a = from_bytes_little b -> a = b.
Proof.
  revert b; induction a as [|x a IH]; intros [|y b] Ha Hb Hl H; try discriminate; [reflexivity|].
  inversion Ha as [|? ? Hx Ha']; inversion Hb as [|? ? Hy Hb']; subst.
  change (x + 256 * from_bytes_little a = y + 256 * from_bytes_little b) in H.
  unfold is_byte in *. assert (x = y) by lia. subst y. f_equal.
  apply IH; auto. lia.
Qed.
Lemma from_bytes_little_bound d : is_bytes d -> 0 <= from_bytes_little d < 256 ^ zlen d.
Proof.
  intros H. rewrite from_bytes_little_rev. rewrite <- (zlen_rev d). apply from_bytes_big_bound.
  unfold is_bytes in *. apply Forall_rev. assumption.
Qed.

Lemma long2raw_digits_spec f v :
  0 <= v < 2 ^ Z.of_nat f ->
  exists d, long2raw_digits (S f) v = Ok d /\ is_bytes d /\ from_bytes_little d = v /\ bytes_needed v (zlen d).
Proof.
  revert v; induction f as [|f IH]; intros v Hv.
  - assert (v = 0) by (cbn in Hv; lia). subst v. exists []. repeat split; try constructor; auto.
  - cbn [long2raw_digits]. destruct (v =? 0) eqn:E.
    + assert (v = 0) by lia. subst v. exists []. repeat split; try constructor; auto.
    + rewrite shiftr8. destruct (IH (v / 256)) as (d & Hd & Hb & Hval & Hn).
      { rewrite Nat2Z.inj_succ, Z.pow_succ_r in Hv by lia. lia. }
      cbn [long2raw_digits] in Hd. rewrite Hd. cbn [bind]. eexists; split; [reflexivity|].
      split; [constructor; [unfold is_byte; lia|assumption]|].
      split.
      * change (v mod 256 + 256 * from_bytes_little d = v). lia.
      * right. rewrite zlen_cons. pose proof (zlen_nonneg d). split; [lia|].
        replace (1 + zlen d - 1) with (zlen d) by lia.
        destruct Hn as [[H0 H1]|[H0 H1]].
        -- rewrite H1. cbn [Z.add Z.pow Z.pow_pos Pos.iter Z.mul]. lia.
        -- rewrite Z.pow_add_r by lia. change (256 ^ 1) with 256.
           replace (zlen d) with (1 + (zlen d - 1)) at 1 by lia. rewrite Z.pow_add_r by lia.
           change (256 ^ 1) with 256. lia.
Qed.

Lemma is_bytes_zeros n : is_bytes (repeat 0 n).
Proof. unfold is_bytes. induction n; cbn; constructor; auto. unfold is_byte; lia. Qed.

Lemma long2raw_spec v e size :
  0 <= v -> e <> MIDDLE_ENDIAN ->
  exists d n, long2raw v e size = Ok d /\ is_bytes d /\ str2long d e = Ok v /\
    bytes_needed v n /\ zlen d = Z.max n (match size with Some s => s | None => 0 end).
Proof.
  intros Hv He. unfold long2raw.
  assert (H1 : forall h, (negb h && (0 <? v)) || (0 <=? v) = true) by (intros; rewrite orb_comm; replace (0 <=? v) with true by lia; reflexivity).
  rewrite H1. cbn [assert_ bind].
  replace (match e with MIDDLE_ENDIAN => false | _ => true end) with true by (destruct e; congruence).
  cbn [assert_ bind].
  destruct (long2raw_digits_spec (Z.to_nat (Z.log2 v + 1)) v) as (d & Hd & Hb & Hval & Hn).
  { pose proof (Z.log2_nonneg v). rewrite Z2Nat.id by lia.
    destruct (Z.eq_dec v 0) as [->|]; [cbn; lia|]. pose proof (Z.log2_spec v ltac:(lia)). rewrite Z.add_1_r. lia. }
  rewrite Hd. cbn [bind].
  set (text := match size with Some s => _ | None => d end).
  assert (Ht : is_bytes text /\ from_bytes_little text = v /\
               zlen text = Z.max (zlen d) (match size with Some s => s | None => 0 end)).
  { pose proof (zlen_nonneg d). unfold text. destruct size as [s|]; [|repeat split; auto; lia].
    destruct (s =? 0) eqn:E; cbn [negb]; [repeat split; auto; lia|].
    repeat split.
    - apply is_bytes_app. split; [assumption|apply is_bytes_zeros].
    - rewrite from_bytes_little_app, from_bytes_little_zeros. lia.
    - rewrite zlen_app, zlen_repeat. lia. }
  destruct Ht as (Ht1 & Ht2 & Ht3).
  eexists; exists (zlen d). split; [reflexivity|].
  destruct e; [| |congruence].
  - repeat split.
    + apply Forall_rev; assumption.
    + cbn [str2long]. rewrite <- from_bytes_little_rev, Ht2. reflexivity.
    + assumption.
    + rewrite zlen_rev. assumption.
  - repeat split; auto. cbn [str2long]. rewrite Ht2. reflexivity.
Qed.

Lemma bytes_needed_le v n m : bytes_needed v n -> 0 <= m -> v < 256 ^ m -> n <= m.
Proof.
  intros [[Hv0 ->]|[Hn [Hl Hu]]] Hm H; [assumption|].
  destruct (Z_le_gt_dec n m) as [|Hgt]; [assumption|exfalso].
  assert (256 ^ m <= 256 ^ (n - 1)) by (apply Z.pow_le_mono_r; lia). lia.
Qed.

Lemma str2long_inj a b e v :
  is_bytes a -> is_bytes b -> length a = length b -> e <> MIDDLE_ENDIAN ->
  str2long a e = Ok v -> str2long b e = Ok v -> a = b.
Proof.
  intros Ha Hb Hl He H1 H2. destruct e; [| |congruence]; cbn [str2long] in *.
  - injection H1 as H1. injection H2 as H2.
    rewrite <- (rev_involutive a), <- (rev_involutive b). f_equal.
    apply from_bytes_little_inj.
    + apply Forall_rev; assumption. + apply Forall_rev; assumption. + rewrite !rev_length; assumption.
    + rewrite !from_bytes_little_rev, !rev_involutive. lia.
  - injection H1 as H1. injection H2 as H2. apply from_bytes_little_inj; auto. lia.
Qed.

Lemma raw_roundtrip d e :
  is_bytes d -> e <> MIDDLE_ENDIAN ->
  exists v, str2long d e = Ok v /\ 0 <= v < 256 ^ zlen d /\ long2raw v e (Some (zlen d)) = Ok d.
Proof.
  intros Hd He.
  assert (Hv : exists v, str2long d e = Ok v /\ 0 <= v < 256 ^ zlen d).
  { destruct e; [| |congruence]; cbn [str2long]; eexists; (split; [reflexivity|]).
    - apply from_bytes_big_bound; assumption.
    - apply from_bytes_little_bound; assumption. }
  destruct Hv as (v & Hv & Hb). exists v. split; [assumption|]. split; [assumption|].
  destruct (long2raw_spec v e (Some (zlen d))) as (d' & n & H1 & H2 & H3 & H4 & H5); [lia|assumption|].
  rewrite H1. f_equal. apply (str2long_inj d' d e v); auto.
  apply bytes_needed_le with (m := zlen d) in H4; [|apply zlen_nonneg|lia].
  unfold zlen in *. lia.
Qed.

Lemma long2raw_middle v size : 0 <= v -> long2raw v MIDDLE_ENDIAN size = Err AssertionError.
Proof.
  intros Hv. unfold long2raw.
  rewrite orb_comm. replace (0 <=? v) with true by lia. reflexivity.
Qed.
Lemma long2raw_negative v e size : v < 0 -> long2raw v e size = Err AssertionError.
Proof.
  intros Hv. unfold long2raw. replace (0 <=? v) with false by lia. replace (0 <? v) with false by lia.
  rewrite andb_false_r. reflexivity.
Qed.

(** ** countBits *)
Lemma log2_shiftr_le v b : 0 <= b -> 2 ^ b <= v -> Z.log2 (Z.shiftr v b) = Z.log2 v - b /\ 0 <= Z.shiftr v b /\ b <= Z.log2 v.
Proof.
  intros Hb Hv. assert (0 < 2 ^ b) by (apply Z.pow_pos_nonneg; lia).
  assert (b <= Z.log2 v) by (apply Z.log2_le_pow2; lia).
  rewrite Z.log2_shiftr by lia. repeat split; try lia. apply Z.shiftr_nonneg. lia.
Qed.
Lemma shiftl_1 b : 0 <= b -> Z.shiftl 1 b = 2 ^ b.
Proof. intros. apply Z.shiftl_1_l. Qed.

Lemma countBits_up_spec fuel : forall count k value,
  0 <= value -> (Z.to_nat (Z.log2 value) < fuel)%nat -> 0 <= k ->
  exists count' k' value',
    countBits_up fuel count (2 ^ k) value = Ok (count', 2 ^ k', value') /\
    0 <= value' < 2 ^ (2 ^ k') /\ 0 <= k' <= k + Z.log2 value /\
    count' + Z.log2 value' = count + Z.log2 value.
Proof.
  induction fuel as [|f IH]; intros count k value Hv Hf Hk; [lia|].
  assert (Hp : 0 < 2 ^ k) by (apply Z.pow_pos_nonneg; lia).
  cbn [countBits_up]. rewrite shiftl_1 by lia.
  destruct (2 ^ 2 ^ k <=? value) eqn:E.
  - destruct (log2_shiftr_le value (2 ^ k)) as (H1 & H2 & H3); [lia|lia|].
    destruct (IH (count + 2 ^ k) (k + 1) (Z.shiftr value (2 ^ k))) as (c' & k' & v' & Heq & Hb & Hk' & Hc); try lia.
    replace (Z.shiftl (2 ^ k) 1) with (2 ^ (k + 1)).
    2: { rewrite Z.shiftl_mul_pow2 by lia. rewrite Z.pow_add_r by lia. reflexivity. }
    exists c', k', v'. repeat split; auto; lia.
  - pose proof (Z.log2_nonneg value).
    exists count, k, value. repeat split; auto; lia.
Qed.
Lemma countBits_inner_spec fuel count b value :
  1 <= b -> 0 <= value < 2 ^ (2 * b) ->
  exists count' value', countBits_inner (S (S fuel)) count b value = Ok (count', value') /\
    0 <= value' < 2 ^ b /\ count' + Z.log2 value' = count + Z.log2 value.
Proof.
  intros Hb Hv. cbn [countBits_inner]. rewrite shiftl_1 by lia.
  assert (Hp : 0 < 2 ^ b) by (apply Z.pow_pos_nonneg; lia).
  replace (2 * b) with (b + b) in Hv by lia. rewrite Z.pow_add_r in Hv by lia.
  destruct (2 ^ b <=? value) eqn:E.
  - destruct (log2_shiftr_le value b) as (H1 & H2 & H3); [lia|lia|].
    assert (Hlt : Z.shiftr value b < 2 ^ b).
    { rewrite Z.shiftr_div_pow2 by lia. apply Z.div_lt_upper_bound; lia. }
    replace (2 ^ b <=? Z.shiftr value b) with false by lia.
    eexists _, _. split; [reflexivity|]. lia.
  - eexists _, _. split; [reflexivity|]. lia.
Qed.
Lemma countBits_down_spec k : forall fuel count value,
  0 <= value < 2 ^ (2 ^ Z.of_nat k) -> (k + 2 < fuel)%nat ->
  countBits_down fuel count (2 ^ Z.of_nat k) value = Ok (count + Z.log2 value).
Proof.
  induction k as [|k IH]; intros fuel count value Hv Hf; (destruct fuel as [|f]; [lia|]); cbn [countBits_down].
  - cbn in Hv. replace (2 <=? value) with false by lia.
    assert (H : value = 0 \/ value = 1) by lia. destruct H as [-> | ->]; cbn [Z.log2]; f_equal; lia.
  - destruct (2 <=? value) eqn:E.
    + rewrite Nat2Z.inj_succ, Z.pow_succ_r in * by lia.
      set (b := 2 ^ Z.of_nat k) in *. assert (1 <= b) by (unfold b; pose proof (Z.pow_pos_nonneg 2 (Z.of_nat k)); lia).
      replace (2 * b =? 1) with false by lia. cbn [negb].
      replace (Z.shiftr (2 * b) 1) with b by (rewrite Z.shiftr_div_pow2 by lia; change (2 ^ 1) with 2; lia).
      destruct f as [|[|f]]; [lia|lia|].
      destruct (countBits_inner_spec f count b value) as (c' & v' & Heq & Hb' & Hc); [lia|lia|].
      rewrite Heq. unfold b in *. rewrite IH; [f_equal; lia|lia|lia].
    + assert (H : value = 0 \/ value = 1) by lia. destruct H as [-> | ->]; cbn [Z.log2]; f_equal; lia.
Qed.
Lemma countBits_log2 v : 0 <= v -> countBits v = Ok (Z.log2 v + 1).
Proof.
  intros Hv. unfold countBits. replace (0 <=? v) with true by lia. cbn [assert_ bind].
  pose proof (Z.log2_nonneg v).
  destruct (countBits_up_spec (S (S (Z.to_nat (Z.log2 v + 1)))) 1 0 v) as (c' & k' & v' & Heq & Hb & Hk & Hc); try lia.
  change (2 ^ 0) with 1 in Heq. rewrite Heq. cbn [bind].
  replace k' with (Z.of_nat (Z.to_nat k')) in * by lia.
  rewrite countBits_down_spec; [f_equal; lia|lia|lia].
Qed.
Lemma countBits_spec v :
  0 <= v -> exists b, countBits v = Ok b /\ 1 <= b /\ v < 2 ^ b /\
                      forall b', 1 <= b' -> v < 2 ^ b' -> b <= b'.
Proof.
  intros Hv. exists (Z.log2 v + 1). split; [apply countBits_log2; assumption|].
  pose proof (Z.log2_nonneg v).
  destruct (Z.eq_dec v 0) as [->|Hn]; [cbn; repeat split; auto; lia|].
  pose proof (Z.log2_spec v ltac:(lia)) as [H1 H2].
  split; [lia|]. split; [rewrite Z.add_1_r; assumption|].
  intros b' Hb' Hlt. destruct (Z_le_gt_dec (Z.log2 v + 1) b'); [assumption|exfalso].
  assert (2 ^ b' <= 2 ^ Z.log2 v) by (apply Z.pow_le_mono_r; lia). lia.
Qed.

(** ** byte2bin, str2bin *)
Lemma land_mask_bit n i : 0 <= i -> (Z.land n (Z.shiftl 1 i) =? Z.shiftl 1 i) = Z.testbit n i.
Proof.
  intros Hi.
  assert (H : forall k, 0 <= k -> Z.testbit (Z.shiftl 1 i) k = (k =? i)).
  { intros k Hk. rewrite Z.shiftl_1_l. rewrite Z.pow2_bits_eqb by lia. lia. }
  destruct (Z.testbit n i) eqn:E.
  - apply Z.eqb_eq. apply Z.bits_inj'. intros k Hk. rewrite Z.land_spec, H by lia.
    destruct (k =? i) eqn:Ek; [assert (k = i) by lia; subst; rewrite E; reflexivity|apply andb_false_r].
  - apply Z.eqb_neq. intros Hx. apply (f_equal (fun z => Z.testbit z i)) in Hx.
    rewrite Z.land_spec, H, E, Z.eqb_refl in Hx by lia. discriminate.
Qed.
Lemma byte2bin_spec n classic :
  byte2bin n classic =
  map (fun i => bit_char (Z.testbit n i)) (if classic then [7; 6; 5; 4; 3; 2; 1; 0] else [0; 1; 2; 3; 4; 5; 6; 7]).
Proof.
  unfold byte2bin. cbn [map]. destruct classic; cbn [map];
  rewrite !land_mask_bit by lia; reflexivity.
Qed.
Lemma byte2bin_bits n :
  byte2bin n true = map bit_char (bits_be [n]) /\ byte2bin n false = map bit_char (bits_le [n]).
Proof. rewrite !byte2bin_spec. split; reflexivity. Qed.

Lemma str2bin_acc value classic : forall text, text <> [] ->
  fold_left (fun text c => (match text with [] => [] | _ => text ++ [space] end) ++ byte2bin c classic) value text
  = text ++ concat (map (fun c => 32 :: byte2bin c classic) value).
Proof.
  induction value as [|c v IH]; intros text Ht; cbn [fold_left map concat].
  - rewrite app_nil_r. reflexivity.
  - destruct text as [|t ts] eqn:E; [congruence|]. rewrite <- E in *.
    replace (match text with [] => [] | _ => text ++ [space] end) with (text ++ [space]) by (rewrite E; reflexivity).
    rewrite IH.
    + rewrite <- !app_assoc. reflexivity.
    + rewrite E. discriminate.
Qed.
Lemma spaced_cons p l : spaced (p :: l) = p ++ concat (map (fun q => 32 :: q) l).
Proof.
  revert p; induction l as [|q l IH]; intros p.
  - cbn. rewrite app_nil_r. reflexivity.
  - change (spaced (p :: q :: l)) with (p ++ 32 :: spaced (q :: l)). rewrite IH. reflexivity.
Qed.
Lemma str2bin_spec value classic :
  str2bin value classic = spaced (map (fun c => byte2bin c classic) value).
Proof.
  unfold str2bin. destruct value as [|c v]; [reflexivity|].
  cbn [fold_left map]. rewrite str2bin_acc by discriminate.
  rewrite spaced_cons, map_map. reflexivity.
Qed.

(** ** long2bin / bin2long *)
Lemma long2bin_text_spec n v : long2bin_text n v = map bit_char (low_bits n v).
Proof.
  unfold low_bits. revert v; induction n as [|n IH]; intros v; [reflexivity|].
  cbn [long2bin_text seq map]. rewrite IH. f_equal.
  - change 1 with (Z.shiftl 1 0) at 1 2. rewrite land_mask_bit by lia. reflexivity.
  - rewrite <- seq_shift, !map_map. apply map_ext. intros i.
    rewrite Z.shiftr_spec by lia. do 2 f_equal. lia.
Qed.
Lemma groups8_firstn {A} (l : list A) : l <> [] -> groups8 l = firstn 8 l :: groups8 (skipn 8 l).
Proof. destruct l as [|a [|b [|c [|d [|e [|f [|g [|h l]]]]]]]]; congruence || reflexivity. Qed.
Lemma long2bin_groups_acc fuel : forall text result classic,
  (length text < fuel)%nat -> result <> [] ->
  long2bin_groups fuel text result classic =
  Ok (result ++ concat (map (fun g => 32 :: (if classic then rev g else g)) (groups8 text))).
Proof.
  induction fuel as [|f IH]; intros text result classic Hf Hr; [lia|].
  cbn [long2bin_groups]. destruct text as [|c t] eqn:E.
  - cbn. rewrite app_nil_r. reflexivity.
  - rewrite <- E in *. assert (Hne : text <> []) by (rewrite E; discriminate).
    rewrite IH.
    + rewrite (groups8_firstn text Hne). cbn [map concat]. destruct result; [congruence|].
      rewrite <- !app_assoc. reflexivity.
    + rewrite skipn_length. destruct text; [congruence|]. cbn [length] in *. lia.
    + destruct result; [congruence|]. discriminate.
Qed.
Lemma long2bin_groups_spec text classic :
  long2bin_groups (S (length text)) text [] classic =
  Ok (spaced (map (fun g => if classic then rev g else g) (groups8 text))).
Proof.
  destruct text as [|c t] eqn:E; [reflexivity|]. rewrite <- E.
  assert (Hne : text <> []) by (rewrite E; discriminate).
  cbn [long2bin_groups]. rewrite E at 1.
  assert (Hc : firstn 8 text <> []) by (rewrite E; discriminate).
  rewrite long2bin_groups_acc.
  - rewrite (groups8_firstn text Hne). cbn [map app]. rewrite spaced_cons, map_map. reflexivity.
  - rewrite skipn_length. destruct text; [congruence|]. cbn [length] in *. lia.
  - cbn [app]. destruct classic; [|assumption]. intros H. apply Hc.
    apply (f_equal (@rev Z)) in H. rewrite rev_involutive in H. assumption.
Qed.
Lemma long2bin_spec size v e classic :
  0 <= size -> 0 <= v -> e <> MIDDLE_ENDIAN ->
  long2bin size v e classic =
  Ok (spaced (map (fun g => if classic then rev g else g)
        (groups8 (map bit_char (match e with LITTLE_ENDIAN => rev (low_bits (Z.to_nat size) v)
                                           | _ => low_bits (Z.to_nat size) v end))))).
Proof.
  intros Hs Hv He. unfold long2bin.
  replace (match e with MIDDLE_ENDIAN => false | _ => true end) with true by (destruct e; congruence).
  replace (0 <=? v) with true by lia. cbn [assert_ bind].
  rewrite long2bin_groups_spec, long2bin_text_spec.
  destruct e; rewrite <- ?map_rev; reflexivity.
Qed.

Definition is_bit (c : Z) : bool := (c =? chr0) || (c =? chr1).
Lemma concat_groups8_nat {A} n : forall l : list A, (length l <= n)%nat -> concat (groups8 l) = l.
Proof.
  induction n as [|n IH]; intros l Hl.
  - destruct l; [reflexivity|cbn in Hl; lia].
  - destruct l as [|a l']; [reflexivity|].
    rewrite groups8_firstn by discriminate. cbn [concat]. rewrite IH.
    + apply firstn_skipn.
    + rewrite skipn_length. cbn [length] in *. lia.
Qed.
Lemma concat_groups8 {A} (l : list A) : concat (groups8 l) = l.
Proof. apply (concat_groups8_nat (length l)); lia. Qed.
Lemma filter_bits_spaced l : Forall (fun g => forallb is_bit g = true) l -> filter is_bit (spaced l) = concat l.
Proof.
  assert (Hall : forall g, forallb is_bit g = true -> filter is_bit g = g).
  { induction g as [|c g IH]; intros H; [reflexivity|]. cbn [forallb filter] in *.
    apply andb_prop in H. destruct H as [H1 H2]. rewrite H1, IH by assumption. reflexivity. }
  intros H. destruct l as [|p l]; [reflexivity|]. inversion H as [|? ? Hp Hl]; subst.
  rewrite spaced_cons, filter_app, Hall by assumption. cbn [concat]. f_equal. clear p H Hp.
  induction l as [|q l IH]; [reflexivity|]. inversion Hl as [|? ? Hq Hl']; subst.
  cbn [map concat]. rewrite filter_app. cbn [filter]. change (is_bit 32) with false. cbn [app].
  rewrite Hall, IH by assumption. reflexivity.
Qed.
Lemma groups8_bits bs : Forall (fun g => forallb is_bit g = true) (groups8 (map bit_char bs)).
Proof.
  assert (H : forallb is_bit (concat (groups8 (map bit_char bs))) = true).
  { rewrite concat_groups8. induction bs as [|b bs IH]; [reflexivity|]. cbn [map forallb]. rewrite IH. destruct b; reflexivity. }
  induction (groups8 (map bit_char bs)) as [|g l IH]; constructor; cbn [concat] in H; rewrite forallb_app in H;
    apply andb_prop in H; destruct H; auto.
Qed.
Lemma fold_bits_val bs acc :
  fold_left (fun value bit => value * 2 + bit) (map (fun c => c - chr0) (map bit_char bs)) acc
  = fold_left (fun acc b => 2 * acc + b2z b) bs acc.
Proof.
  revert acc; induction bs as [|b bs IH]; intros acc; [reflexivity|].
  cbn [map fold_left]. rewrite IH. f_equal. unfold bit_char, chr0, b2z. destruct b; lia.
Qed.
Lemma low_bits_length n v : length (low_bits n v) = n.
Proof. unfold low_bits. rewrite map_length, seq_length. reflexivity. Qed.
Lemma low_bits_S n v : low_bits (S n) v = Z.testbit v 0 :: low_bits n (v / 2).
Proof.
  unfold low_bits. cbn [seq map]. f_equal. rewrite <- seq_shift, map_map. apply map_ext. intros i.
  rewrite Nat2Z.inj_succ. rewrite <- Z.div2_div. rewrite Z.div2_spec, Z.shiftr_spec by lia. reflexivity.
Qed.
Lemma val_le_low_bits n v : 0 <= v -> val_le (low_bits n v) = v mod 2 ^ Z.of_nat n.
Proof.
  revert v; induction n as [|n IH]; intros v Hv; [rewrite Z.mod_1_r; reflexivity|].
  rewrite low_bits_S, val_le_cons, IH by lia.
  rewrite Nat2Z.inj_succ, Z.pow_succ_r by lia.
  rewrite Z.bit0_odd. pose proof (Z.pow_pos_nonneg 2 (Z.of_nat n) ltac:(lia) ltac:(lia)).
  rewrite Z.rem_mul_r by lia. unfold b2z. rewrite Zmod_odd. destruct (Z.odd v); reflexivity.
Qed.
Lemma val_be_rev bs : val_be (rev bs) = val_le bs.
Proof.
  induction bs as [|b bs IH]; [reflexivity|]. cbn [rev]. rewrite val_be_app, IH, val_le_cons.
  change (2 ^ zlen [b]) with 2. change (val_be [b]) with (0 + b2z b). lia.
Qed.

Lemma bin2long_long2bin size v :
  1 <= size -> 0 <= v ->
  (do t <- long2bin size v BIG_ENDIAN false; bin2long t LITTLE_ENDIAN) = Ok (v mod 2 ^ size) /\
  (do t <- long2bin size v LITTLE_ENDIAN false; bin2long t BIG_ENDIAN) = Ok (v mod 2 ^ size).
Proof.
  intros Hs Hv. rewrite !long2bin_spec by (try congruence; lia). cbn [bind].
  rewrite !map_id. unfold bin2long. cbn [assert_ bind].
  change (fun c : Z => (c =? chr0) || (c =? chr1)) with is_bit.
  rewrite !filter_bits_spaced by apply groups8_bits. rewrite !concat_groups8.
  rewrite !zlen_rev, !zlen_map, zlen_rev. unfold zlen. rewrite low_bits_length.
  replace (0 <? Z.of_nat (Z.to_nat size)) with true by lia. cbn [assert_ bind].
  rewrite <- !map_rev, !fold_bits_val.
  change (fold_left (fun acc b => 2 * acc + b2z b) (rev (low_bits (Z.to_nat size) v)) 0)
    with (val_be (rev (low_bits (Z.to_nat size) v))).
  rewrite val_be_rev, val_le_low_bits by lia. rewrite Z2Nat.id by lia. auto.
Qed.

(** ** str2hex *)
Lemma hex_value_digit d : 0 <= d < 16 -> hex_value (hex_digit d) = Some d.
Proof.
  intros H. unfold hex_digit, hex_value. destruct (d <? 10) eqn:E.
  - replace ((48 <=? 48 + d) && (48 + d <=? 57)) with true by lia. f_equal; lia.
  - replace ((48 <=? 55 + d) && (55 + d <=? 57)) with false by lia.
    replace ((65 <=? 55 + d) && (55 + d <=? 70)) with true by lia. f_equal; lia.
Qed.
Lemma join_nil_glue l : join [] l = concat l.
Proof.
  induction l as [|p l IH]; [reflexivity|]. cbn [join concat]. destruct l; [cbn; rewrite app_nil_r; reflexivity|].
  rewrite IH. reflexivity.
Qed.
Lemma str2hex_unhex v : is_bytes v -> unhex (str2hex v []) = Some v.
Proof.
  intros H. unfold str2hex. rewrite join_nil_glue. induction H as [|b v Hb Hv IH]; [reflexivity|].
  unfold is_byte in Hb. cbn [map concat hex2 app unhex]. rewrite !hex_value_digit by lia. rewrite IH.
  f_equal. f_equal. lia.
Qed.
Lemma str2hex_inj v w : is_bytes v -> is_bytes w -> str2hex v [] = str2hex w [] -> v = w.
Proof.
  intros Hv Hw H. apply (f_equal unhex) in H. rewrite !str2hex_unhex in H by assumption. congruence.
Qed.

(** ** swap16, swap32, strswapmid *)
Lemma lor_add_disjoint a b n : 0 <= n -> 0 <= b < 2 ^ n -> Z.lor (a * 2 ^ n) b = a * 2 ^ n + b.
Proof.
  intros Hn Hb.
  assert (Hl : Z.land (a * 2 ^ n) b = 0).
  { apply Z.bits_inj'. intros k Hk. rewrite Z.land_spec, Z.bits_0.
    destruct (Z_lt_ge_dec k n) as [Hlt|Hge].
    - rewrite Z.mul_pow2_bits_low by lia. reflexivity.
    - destruct (Z.eq_dec b 0) as [->|]; [rewrite Z.bits_0; apply andb_false_r|].
      rewrite (Z.bits_above_log2 b); [apply andb_false_r|lia|].
      apply Z.log2_lt_pow2; [lia|]. apply Z.lt_le_trans with (2 ^ n); [lia|]. apply Z.pow_le_mono_r; lia. }
  rewrite Z.add_nocarry_lxor by assumption. symmetry. apply Z.lxor_lor. assumption.
Qed.
Lemma land_255 v : Z.land v 255 = v mod 256.
Proof. apply (Z.land_ones v 8). lia. Qed.
Lemma land_mask v k : 0 <= k -> Z.land v (Z.shiftl 255 k) = (v / 2 ^ k) mod 256 * 2 ^ k.
Proof.
  intros Hk. rewrite <- land_255, <- Z.shiftl_mul_pow2, Z.shiftl_land by lia.
  apply Z.bits_inj'. intros i Hi. rewrite !Z.land_spec, !Z.shiftl_spec by lia.
  destruct (Z_lt_ge_dec i k).
  - rewrite (Z.testbit_neg_r 255) by lia. rewrite !andb_false_r. reflexivity.
  - rewrite <- Z.shiftr_div_pow2, Z.shiftr_spec by lia. do 2 f_equal. lia.
Qed.
Lemma swap16_spec a b : is_byte a -> is_byte b -> swap16 (a * 256 + b) = b * 256 + a.
Proof.
  unfold is_byte, swap16. intros Ha Hb. rewrite land_255, shiftr8, Z.shiftl_mul_pow2 by lia.
  rewrite lor_add_disjoint by (change (2 ^ 8) with 256; lia). change (2 ^ 8) with 256. lia.
Qed.
Lemma swap32_spec a b c d : is_byte a -> is_byte b -> is_byte c -> is_byte d ->
  swap32 (((a * 256 + b) * 256 + c) * 256 + d) = ((d * 256 + c) * 256 + b) * 256 + a.
Proof.
  unfold is_byte. intros Ha Hb Hc Hd.
  set (v := ((a * 256 + b) * 256 + c) * 256 + d). unfold swap32.
  rewrite land_255.
  change 0x0000FF00 with (Z.shiftl 255 8). change 0x00FF0000 with (Z.shiftl 255 16).
  change 0xFF000000 with (Z.shiftl 255 24).
  rewrite !land_mask by lia. rewrite !Z.shiftl_mul_pow2, !Z.shiftr_div_pow2 by lia.
  change (2 ^ 8) with 256. change (2 ^ 16) with 65536. change (2 ^ 24) with 16777216.
  replace (v mod 256) with d by (unfold v; lia).
  replace ((v / 256) mod 256) with c by (unfold v; lia).
  replace ((v / 65536) mod 256) with b by (unfold v; lia).
  replace ((v / 16777216) mod 256) with a by (unfold v; lia).
  replace (c * 256 * 256) with (c * 2 ^ 16) by lia.
  replace (d * 16777216) with (d * 2 ^ 24) by lia.
  rewrite (lor_add_disjoint d (c * 2 ^ 16) 24) by lia.
  replace (d * 2 ^ 24 + c * 2 ^ 16) with ((d * 256 + c) * 2 ^ 16) by lia.
  replace (b * 65536 / 256) with (b * 256) by lia.
  rewrite (lor_add_disjoint _ (b * 256) 16) by lia.
  replace ((d * 256 + c) * 2 ^ 16 + b * 256) with (((d * 256 + c) * 256 + b) * 2 ^ 8) by lia.
  replace (a * 16777216 / 16777216) with a by lia.
  rewrite lor_add_disjoint by lia. lia.
Qed.
Lemma swap16_involutive v : 0 <= v < 2 ^ 16 -> 0 <= swap16 v < 2 ^ 16 /\ swap16 (swap16 v) = v.
Proof.
  intros H. change (2 ^ 16) with 65536 in *. replace v with (v / 256 * 256 + v mod 256) by lia.
  rewrite swap16_spec by (unfold is_byte; lia). rewrite swap16_spec by (unfold is_byte; lia). lia.
Qed.
Lemma swap32_involutive v : 0 <= v < 2 ^ 32 -> 0 <= swap32 v < 2 ^ 32 /\ swap32 (swap32 v) = v.
Proof.
  intros H. change (2 ^ 32) with 4294967296 in *.
  set (a := v / 16777216). set (b := (v / 65536) mod 256). set (c := (v / 256) mod 256). set (d := v mod 256).
  assert (Hv : v = ((a * 256 + b) * 256 + c) * 256 + d) by (unfold a, b, c, d; lia).
  assert (is_byte a /\ is_byte b /\ is_byte c /\ is_byte d) as (Ha & Hb & Hc & Hd) by (unfold is_byte, a, b, c, d; lia).
  clearbody a b c d. subst v.
  rewrite swap32_spec by assumption. rewrite swap32_spec by assumption. unfold is_byte in *. lia.
Qed.
Lemma strswapmid_involutive d :
  zlen d mod 2 = 0 -> exists d', strswapmid d = Ok d' /\ d' = swap_words d /\ zlen d' = zlen d /\ strswapmid d' = Ok d.
Proof.
  intros H. exists (swap_words d). rewrite strswapmid_ok by assumption.
  repeat split; [apply swap_words_len|]. rewrite strswapmid_ok by (rewrite swap_words_len; assumption).
  rewrite swap_words_involutive. reflexivity.
Qed.

From Verif Require Import Base BaseProofs BitsModel BitsSpec BitsProofs StreamModel StreamSpec.
Ltac Zify.zify_post_hook ::= Z.div_mod_to_equations.

Lemma shiftr3 x : Z.shiftr x 3 = x / 8.
Proof. rewrite Z.shiftr_div_pow2 by lia. reflexivity. Qed.

(** ** StringInputStream.read *)
Lemma string_read_ok data a n :
  0 <= a -> 0 <= n -> a + n <= 8 * zlen data ->
  string_read data a n =
  Ok (a mod 8, sub data (a / 8) ((n + a mod 8 + 7) / 8), false).
Proof.
  intros Ha Hn H. unfold string_read. rewrite shiftr3.
  rewrite py_slice_nonneg by lia.
  replace (a / 8 + (n + a mod 8 + 7) / 8 - a / 8) with ((n + a mod 8 + 7) / 8) by lia.
  rewrite zlen_sub_exact by lia.
  rewrite Z.eqb_refl. reflexivity.
Qed.
Lemma string_read_err data a n :
  0 <= a -> 1 <= n -> 8 * zlen data < a + n -> string_read data a n = Err ReadStreamError.
Proof.
  intros Ha Hn H. unfold string_read. rewrite shiftr3.
  rewrite py_slice_nonneg by lia.
  rewrite zlen_sub by lia.
  match goal with |- (if negb (?x =? ?y) then _ else _) = _ => replace (x =? y) with false by lia end.
  reflexivity.
Qed.

Lemma py_shr_ok v n : 0 <= n -> py_shr v n = Ok (Z.shiftr v n).
Proof. intros H. unfold py_shr. replace (n <? 0) with false by lia. reflexivity. Qed.
Lemma py_shl1_ok n : 0 <= n -> py_shl1 n = Ok (Z.shiftl 1 n).
Proof. intros H. unfold py_shl1. replace (n <? 0) with false by lia. reflexivity. Qed.

Lemma readBits_value_big sh d n :
  is_bytes d -> 0 <= sh -> 0 <= n -> sh + n <= 8 * zlen d ->
  readBits_value sh d false n BIG_ENDIAN = Ok (val_be (sub (bits_be d) sh n)).
Proof.
  intros Hd Hs Hn H. unfold readBits_value. cbn [str2long bind].
  rewrite py_shr_ok by lia. cbn [bind]. rewrite py_shl1_ok by lia. cbn [bind].
  rewrite from_bytes_big_val by assumption. f_equal.
  rewrite val_be_sub by (rewrite ?zlen_bits_be; lia).
  rewrite zlen_bits_be. do 2 f_equal. lia.
Qed.
Lemma readBits_value_little sh d n :
  is_bytes d -> 0 <= sh -> 0 <= n -> sh + n <= 8 * zlen d ->
  readBits_value sh d false n LITTLE_ENDIAN = Ok (val_le (sub (bits_le d) sh n)).
Proof.
  intros Hd Hs Hn H. unfold readBits_value. cbn [str2long bind].
  rewrite py_shr_ok by lia. cbn [bind]. rewrite py_shl1_ok by lia. cbn [bind].
  rewrite from_bytes_little_val by assumption. f_equal.
  rewrite val_le_sub by (rewrite ?zlen_bits_le; lia). reflexivity.
Qed.
Lemma readBits_value_middle sh d n :
  is_bytes d -> 0 <= sh -> 0 <= n -> sh + n <= 8 * zlen d -> zlen d mod 2 = 0 ->
  readBits_value sh d false n MIDDLE_ENDIAN = Ok (val_be (sub (bits_be (swap_words d)) sh n)).
Proof.
  intros Hd Hs Hn H H2. unfold readBits_value. cbn [str2long bind].
  rewrite strswapmid_ok by assumption. cbn [bind].
  rewrite py_shr_ok by lia. cbn [bind]. rewrite py_shl1_ok by lia. cbn [bind].
  rewrite from_bytes_big_val by (apply swap_words_bytes; assumption). f_equal.
  rewrite val_be_sub by (rewrite ?zlen_bits_be, ?swap_words_len; lia).
  rewrite zlen_bits_be, swap_words_len. do 2 f_equal. lia.
Qed.

Lemma alignValue_16 v : 0 <= v -> alignValue v 16 = 16 * ((v + 15) / 16).
Proof. intros H. unfold alignValue. destruct (v mod 16 =? 0) eqn:E; cbn [negb]; lia. Qed.

Lemma string_serves data : serves (string_read data) data.
Proof. intros a n Ha Hn H. apply string_read_ok; lia. Qed.

(** ** readBits over any stream serving [data] *)
Lemma readBits_serves read data addr n e :
  serves read data -> is_bytes data -> 0 <= addr -> 1 <= n ->
  bits_available data addr n e = true ->
  readBits read addr n e = Ok (bits_at data addr n e).
Proof.
  intros Hr Hd Ha Hn. unfold bits_available, bits_at.
  destruct e; cbn [readBits]; intros E.
  - rewrite Hr by lia. cbn [bind].
    rewrite readBits_value_big.
    2: apply is_bytes_sub; assumption. 2-3: lia.
    2: rewrite zlen_sub_exact by lia; lia.
    rewrite bits_be_sub by lia. rewrite sub_sub by lia. do 3 f_equal. lia.
  - rewrite Hr by lia. cbn [bind].
    rewrite readBits_value_little.
    2: apply is_bytes_sub; assumption. 2-3: lia.
    2: rewrite zlen_sub_exact by lia; lia.
    rewrite bits_le_sub by lia. rewrite sub_sub by lia. do 3 f_equal. lia.
  - rewrite alignValue_16 by lia. rewrite Hr by lia. cbn [bind].
    replace ((16 * ((addr mod 16 + n + 15) / 16) + (addr / 16 * 16) mod 8 + 7) / 8)
      with (2 * ((addr mod 16 + n + 15) / 16)) by lia.
    replace (addr / 16 * 16 / 8) with (2 * (addr / 16)) by lia.
    assert (Hlen : zlen (sub data (2 * (addr / 16)) (2 * ((addr mod 16 + n + 15) / 16)))
                   = 2 * ((addr mod 16 + n + 15) / 16)) by (apply zlen_sub_exact; lia).
    rewrite readBits_value_middle.
    2: apply is_bytes_sub; assumption. 2-3: lia. 2-3: rewrite Hlen; lia.
    rewrite swap_words_sub by lia.
    rewrite bits_be_sub by lia. rewrite sub_sub by lia. do 3 f_equal. lia.
Qed.

Theorem readBits_string_spec data addr n e :
  is_bytes data -> 0 <= addr -> 1 <= n ->
  readBits (string_read data) addr n e =
  if bits_available data addr n e then Ok (bits_at data addr n e) else Err ReadStreamError.
Proof.
  intros Hd Ha Hn. destruct (bits_available data addr n e) eqn:E.
  - apply readBits_serves; auto using string_serves.
  - unfold bits_available in E. destruct e; cbn [readBits].
    + rewrite string_read_err by lia. reflexivity.
    + rewrite string_read_err by lia. reflexivity.
    + rewrite alignValue_16 by lia. rewrite string_read_err by lia. reflexivity.
Qed.

(** Values are in range. *)
Lemma bits_at_bound data addr n e :
  0 <= addr -> 0 <= n -> bits_available data addr n e = true -> 0 <= bits_at data addr n e < 2 ^ n.
Proof.
  intros Ha Hn H. unfold bits_available, bits_at in *.
  destruct e.
  - pose proof (val_be_bound (sub (bits_be data) addr n)) as B.
    rewrite zlen_sub_exact in B by (rewrite ?zlen_bits_be; lia). exact B.
  - pose proof (val_le_bound (sub (bits_le data) addr n)) as B.
    rewrite zlen_sub_exact in B by (rewrite ?zlen_bits_le; lia). exact B.
  - pose proof (val_be_bound (sub (bits_be (swap_words data)) addr n)) as B.
    rewrite zlen_sub_exact in B by (rewrite ?zlen_bits_be, ?swap_words_len; lia). exact B.
Qed.

(** ** Composition of adjacent reads *)
Lemma bits_at_split_be data addr n m :
  0 <= addr -> 0 <= n -> 0 <= m -> addr + n + m <= 8 * zlen data ->
  bits_at data addr (n + m) BIG_ENDIAN =
  bits_at data addr n BIG_ENDIAN * 2 ^ m + bits_at data (addr + n) m BIG_ENDIAN.
Proof.
  intros. unfold bits_at. rewrite sub_app_split by lia. rewrite val_be_app.
  rewrite (zlen_sub_exact (bits_be data)) by (rewrite ?zlen_bits_be; lia). reflexivity.
Qed.
Lemma bits_at_split_le data addr n m :
  0 <= addr -> 0 <= n -> 0 <= m -> addr + n + m <= 8 * zlen data ->
  bits_at data addr (n + m) LITTLE_ENDIAN =
  bits_at data addr n LITTLE_ENDIAN + 2 ^ n * bits_at data (addr + n) m LITTLE_ENDIAN.
Proof.
  intros. unfold bits_at. rewrite sub_app_split by lia. rewrite val_le_app.
  rewrite (zlen_sub_exact (bits_le data)) by (rewrite ?zlen_bits_le; lia). reflexivity.
Qed.
Lemma bits_at_split_mid data addr n m :
  0 <= addr -> 0 <= n -> 0 <= m -> addr + n + m <= 8 * zlen data ->
  bits_at data addr (n + m) MIDDLE_ENDIAN =
  bits_at data addr n MIDDLE_ENDIAN * 2 ^ m + bits_at data (addr + n) m MIDDLE_ENDIAN.
Proof.
  intros. unfold bits_at. rewrite sub_app_split by lia. rewrite val_be_app.
  rewrite (zlen_sub_exact (bits_be (swap_words data))) by (rewrite ?zlen_bits_be, ?swap_words_len; lia). reflexivity.
Qed.

(** Composition, directly about [readBits]. *)
Lemma readBits_compose data addr n m e v1 v2 :
  is_bytes data -> 0 <= addr -> 1 <= n -> 1 <= m ->
  readBits (string_read data) addr n e = Ok v1 ->
  readBits (string_read data) (addr + n) m e = Ok v2 ->
  readBits (string_read data) addr (n + m) e =
  Ok (match e with LITTLE_ENDIAN => v1 + 2 ^ n * v2 | _ => v1 * 2 ^ m + v2 end).
Proof.
  intros Hd Ha Hn Hm H1 H2.
  rewrite readBits_string_spec in * by (try assumption; lia).
  destruct (bits_available data addr n e) eqn:E1; [|discriminate].
  destruct (bits_available data (addr + n) m e) eqn:E2; [|discriminate].
  injection H1 as <-. injection H2 as <-.
  unfold bits_available in *.
  destruct e.
  - replace (addr + (n + m) <=? 8 * zlen data) with true by lia. rewrite bits_at_split_be by lia. reflexivity.
  - replace (addr + (n + m) <=? 8 * zlen data) with true by lia. rewrite bits_at_split_le by lia. reflexivity.
  - replace (16 * ((addr + (n + m) + 15) / 16) <=? 8 * zlen data) with true by lia.
    rewrite bits_at_split_mid by lia. reflexivity.
Qed.

(** ** readInteger *)
Lemma readInteger_string_spec data addr signed n e :
  is_bytes data -> 0 <= addr -> 1 <= n ->
  bits_available data addr n e = true ->
  exists v, readInteger (string_read data) addr signed n e = Ok v /\
    (if signed then - 2 ^ (n - 1) <= v < 2 ^ (n - 1) else 0 <= v < 2 ^ n) /\
    v mod 2 ^ n = bits_at data addr n e.
Proof.
  intros Hd Ha Hn Hav. pose proof (bits_at_bound data addr n e Ha ltac:(lia) Hav) as B.
  unfold readInteger. rewrite readBits_string_spec, Hav by assumption. cbn [bind].
  assert (Hp : 2 ^ n = 2 * 2 ^ (n - 1)).
  { replace n with (1 + (n - 1)) at 1 by lia. rewrite Z.pow_add_r by lia. lia. }
  assert (0 < 2 ^ (n - 1)) by (apply Z.pow_pos_nonneg; lia).
  destruct signed.
  - rewrite py_shl1_ok by lia. cbn [bind]. rewrite Z.shiftl_1_l.
    destruct (2 ^ (n - 1) <=? bits_at data addr n e) eqn:E.
    + rewrite py_shl1_ok by lia. cbn [bind]. rewrite Z.shiftl_1_l.
      eexists; split; [reflexivity|]. split; [lia|].
      replace (bits_at data addr n e - 2 ^ n) with (bits_at data addr n e + (-1) * 2 ^ n) by lia.
      rewrite Z.mod_add by lia. apply Z.mod_small; lia.
    + eexists; split; [reflexivity|]. split; [lia|]. apply Z.mod_small; lia.
  - eexists; split; [reflexivity|]. split; [lia|]. apply Z.mod_small; lia.
Qed.
Lemma readInteger_string_err data addr signed n e :
  is_bytes data -> 0 <= addr -> 1 <= n -> bits_available data addr n e = false ->
  readInteger (string_read data) addr signed n e = Err ReadStreamError.
Proof. intros. unfold readInteger. rewrite readBits_string_spec by assumption. rewrite H2. reflexivity. Qed.

(** ** readBytes *)
Lemma readBytes_string data addr n :
  0 <= addr -> 0 <= n ->
  readBytes (string_read data) (8 * addr) n =
  if (n =? 0) || (addr + n <=? zlen data) then Ok (sub data addr n) else Err ReadStreamError.
Proof.
  intros Ha Hn. unfold readBytes.
  destruct (Z.eq_dec n 0) as [->|Hn0].
  - cbn [Z.eqb orb]. rewrite sub_0. unfold string_read. rewrite shiftr3.
    replace (8 * 0 + (8 * addr) mod 8 + 7) with 7 by lia. change (7 / 8) with 0.
    rewrite py_slice_nonneg by lia. rewrite sub_neg by lia.
    change (zlen (@nil Z) =? 0) with true. cbn [negb bind].
    replace ((8 * addr) mod 8 =? 0) with true by lia. reflexivity.
  - replace (n =? 0) with false by lia. cbn [orb].
    destruct (addr + n <=? zlen data) eqn:E.
    + rewrite string_read_ok by lia. cbn [bind]. replace ((8 * addr) mod 8 =? 0) with true by lia.
      cbn [negb]. do 2 f_equal; lia.
    + rewrite string_read_err by lia. reflexivity.
Qed.
Lemma readBytes_string_unaligned data addr n :
  0 <= addr -> addr mod 8 <> 0 -> 0 <= n -> addr + 8 * n <= 8 * zlen data ->
  readBytes (string_read data) addr n = Err InputStreamError.
Proof.
  intros. unfold readBytes. rewrite string_read_ok by lia. cbn [bind].
  replace (addr mod 8 =? 0) with false by lia. reflexivity.
Qed.

Lemma readBytes_serves read data addr n :
  serves read data -> 0 <= addr -> 1 <= n -> addr + n <= zlen data ->
  readBytes read (8 * addr) n = Ok (sub data addr n).
Proof.
  intros Hr Ha Hn H. unfold readBytes. rewrite Hr by lia. cbn [bind].
  replace ((8 * addr) mod 8 =? 0) with true by lia. cbn [negb]. do 2 f_equal; lia.
Qed.

(** ** bytes.find *)
Lemma is_prefix_spec needle l :
  is_prefix needle l = true <-> firstn (length needle) l = needle.
Proof.
  revert l; induction needle as [|x n IH]; intros [|y l]; cbn [is_prefix firstn length].
  - tauto. - tauto. - split; discriminate.
  - rewrite andb_true_iff, IH, Z.eqb_eq. split.
    + intros [-> ->]. reflexivity.
    + intros H. injection H as -> H. rewrite H. auto.
Qed.
Lemma occurs_at_nat needle l (k : nat) :
  occurs_at needle l (Z.of_nat k) <->
  (k <= length l)%nat /\ is_prefix needle (skipn k l) = true.
Proof.
  unfold occurs_at. rewrite is_prefix_spec. unfold sub, zlen. rewrite !Nat2Z.id. split.
  - intros (H0 & H1 & H2). split; [lia|assumption].
  - intros [H0 H1]. repeat split; try lia; try assumption.
    assert (Hl := f_equal (@length Z) H1). rewrite firstn_length, skipn_length in Hl. lia.
Qed.
Lemma find_from_spec needle l i :
  (exists k, (k <= length l)%nat /\ find_from needle l i = i + Z.of_nat k /\
     is_prefix needle (skipn k l) = true /\
     forall j, (j < k)%nat -> is_prefix needle (skipn j l) = false)
  \/ (find_from needle l i = -1 /\
      forall j, (j <= length l)%nat -> is_prefix needle (skipn j l) = false).
Proof.
  revert i; induction l as [|x l IH]; intros i; cbn [find_from].
  - destruct (is_prefix needle []) eqn:E.
    + left. exists 0%nat. repeat split; cbn; auto; lia.
    + right. split; [reflexivity|]. intros j Hj. cbn in Hj. replace j with 0%nat by lia. exact E.
  - destruct (is_prefix needle (x :: l)) eqn:E.
    + left. exists 0%nat. repeat split; cbn [length skipn]; auto; lia.
    + destruct (IH (i + 1)) as [(k & Hk & Hf & Hp & Hm)|[Hf Hm]].
      * left. exists (S k). cbn [length skipn]. repeat split; auto; try lia.
        intros [|j] Hj; cbn [skipn]; [exact E|apply Hm; lia].
      * right. split; [exact Hf|]. intros [|j] Hj; cbn [skipn]; [exact E|apply Hm; cbn in Hj; lia].
Qed.
Lemma bytes_find_spec needle l :
  (0 <= bytes_find needle l /\ occurs_at needle l (bytes_find needle l) /\
     forall j, 0 <= j < bytes_find needle l -> ~ occurs_at needle l j)
  \/ (bytes_find needle l < 0 /\ forall j, ~ occurs_at needle l j).
Proof.
  unfold bytes_find. destruct (find_from_spec needle l 0) as [(k & Hk & Hf & Hp & Hm)|[Hf Hm]].
  - left. rewrite Hf. rewrite Z.add_0_l. split; [lia|]. split; [apply occurs_at_nat; auto|].
    intros j Hj Ho. replace j with (Z.of_nat (Z.to_nat j)) in Ho by lia.
    apply occurs_at_nat in Ho. rewrite Hm in Ho by lia. destruct Ho; discriminate.
  - right. rewrite Hf. split; [lia|]. intros j Ho. assert (0 <= j) by (destruct Ho; lia).
    replace j with (Z.of_nat (Z.to_nat j)) in Ho by lia.
    apply occurs_at_nat in Ho. rewrite Hm in Ho by tauto. destruct Ho; discriminate.
Qed.

Lemma occurs_at_sub needle data b n j :
  0 <= b -> 0 <= n -> b + n <= zlen data ->
  (occurs_at needle (sub data b n) j <->
   0 <= j /\ j + zlen needle <= n /\ occurs_at needle data (b + j)).
Proof.
  intros Hb Hn H. unfold occurs_at. rewrite zlen_sub_exact by lia.
  pose proof (zlen_nonneg needle).
  split.
  - intros (H1 & H2 & H3). rewrite sub_sub in H3 by lia. repeat split; auto; lia.
  - intros (H1 & H2 & (_ & _ & H3)). rewrite sub_sub by lia. auto.
Qed.

(** ** searchBytes *)
(** The next buffer keeps the last [len-1] bytes already seen. *)
Lemma searchBytes_loop_spec read data needle s L :
  serves read data -> needle <> [] -> 0 <= s -> L <= zlen data ->
  forall fuel p e size buffer,
    s <= p <= L \/ p = s -> e / 8 = L ->
    (Z.to_nat (L - p) < fuel)%nat ->
    3 * zlen needle <= size ->
    (exists b, s <= b <= p /\ buffer = sub data b (p - b) /\
               (b = p /\ p = s \/ zlen needle - 1 <= p - b)) ->
    (forall j, s <= j -> j + zlen needle <= p -> ~ occurs_at needle data j) ->
    (exists i, searchBytes_loop fuel read needle (8 * p) (Some e) size buffer = Ok (Some (8 * i)) /\
               first_occurrence needle data s L i)
    \/ (searchBytes_loop fuel read needle (8 * p) (Some e) size buffer = Ok None /\
        forall j, s <= j -> j + zlen needle <= L -> ~ occurs_at needle data j).
Proof.
  intros Hr Hne Hs HL fuel.
  assert (Hlen : 1 <= zlen needle).
  { destruct needle; [congruence|]. rewrite zlen_cons. pose proof (zlen_nonneg needle). lia. }
  induction fuel as [|f IH]; intros p e size buffer Hp He Hf Hsz Hbuf Hno; [lia|].
  cbn [searchBytes_loop]. rewrite shiftr3.
  replace ((e - 8 * p) / 8) with (L - p) by lia.
  (* one productive step of [sz] bytes *)
  assert (Hstep : forall sz, 1 <= sz -> p + sz <= L ->
            (sz = L - p \/ 3 * zlen needle <= sz) ->
    let r := (do data0 <- readBytes read (8 * p) sz;
      let buffer0 := py_from buffer (zlen buffer - zlen needle + 1) ++ data0 in
      let found := bytes_find needle buffer0 in
      if 0 <=? found then Ok (Some (8 * p + 8 * sz + (found - zlen buffer0) * 8))
      else searchBytes_loop f read needle (8 * p + 8 * sz) (Some e) sz buffer0) in
    (exists i, r = Ok (Some (8 * i)) /\ first_occurrence needle data s L i)
    \/ (r = Ok None /\ forall j, s <= j -> j + zlen needle <= L -> ~ occurs_at needle data j)).
  { intros sz Hsz1 Hsz2 Hszc r. subst r.
    rewrite (readBytes_serves read data) by (auto; lia). cbn [bind].
    destruct Hbuf as (b & Hb & -> & Hcase).
    set (b' := if p =? b then p else p - zlen needle + 1).
    assert (Hb' : s <= b' <= p /\ (b' = p /\ p = s \/ b' = p - zlen needle + 1)) by (unfold b'; destruct (p =? b) eqn:E; lia).
    assert (Hbuf' : py_from (sub data b (p - b)) (zlen (sub data b (p - b)) - zlen needle + 1) ++ sub data p sz
                    = sub data b' (p + sz - b')).
    { rewrite zlen_sub_exact by lia.
      replace (p + sz - b') with ((p - b') + sz) by lia.
      rewrite sub_app_split by lia. replace (b' + (p - b')) with p by lia. f_equal.
      unfold b'. destruct (p =? b) eqn:E.
      - assert (p = b) by lia. subst b. rewrite !sub_neg by lia.
        unfold py_from, py_slice. unfold sub. rewrite skipn_nil. apply firstn_nil.
      - rewrite py_from_nonneg by lia.
        replace (p - b) with ((p - b - zlen needle + 1) + (zlen needle - 1)) at 2 by lia.
        rewrite sub_app_split by lia.
        rewrite skipn_app.
        assert (Hl1 : length (sub data b (p - b - zlen needle + 1)) = Z.to_nat (p - b - zlen needle + 1)).
        { pose proof (zlen_sub_exact data b (p - b - zlen needle + 1)) as Hx. unfold zlen in Hx at 3 4. unfold zlen in *. lia. }
        rewrite skipn_all2 by lia. rewrite Hl1, Nat.sub_diag. cbn [skipn app].
        f_equal; lia. }
    rewrite Hbuf'. rewrite zlen_sub_exact by lia.
    destruct (bytes_find_spec needle (sub data b' (p + sz - b'))) as [(Hf0 & Hocc & Hmin)|[Hf0 Hmin]].
    - left. set (k := bytes_find needle (sub data b' (p + sz - b'))) in *.
      replace (0 <=? k) with true by lia.
      apply occurs_at_sub in Hocc; try lia. destruct Hocc as (Hk1 & Hk2 & Hocc).
      exists (b' + k). split; [f_equal; f_equal; lia|].
      unfold first_occurrence. repeat split; try lia; try apply Hocc.
      intros j Hj Ho. destruct (Z_lt_ge_dec j b') as [Hlt|Hge].
      + apply (Hno j); try lia. assumption.
      + apply (Hmin (j - b')); [lia|]. apply occurs_at_sub; try lia.
        replace (b' + (j - b')) with j by lia. repeat split; try lia; try apply Ho.
    - replace (0 <=? bytes_find needle (sub data b' (p + sz - b'))) with false by lia.
      replace (8 * p + 8 * sz) with (8 * (p + sz)) by lia.
      assert (Hno' : forall j, s <= j -> j + zlen needle <= p + sz -> ~ occurs_at needle data j).
      { intros j Hj1 Hj2 Ho. destruct (Z_lt_ge_dec j b') as [Hlt|Hge].
        - apply (Hno j); try lia. assumption.
        - apply (Hmin (j - b')). apply occurs_at_sub; try lia.
          replace (b' + (j - b')) with j by lia. repeat split; try lia; try apply Ho. }
      destruct Hszc as [Hend|Hbig].
      + (* last chunk *)
        subst sz. replace (p + (L - p)) with L in * by lia.
        destruct f as [|f']; [lia|]. cbn [searchBytes_loop]. rewrite shiftr3.
        replace ((e - 8 * L) / 8) with 0 by lia.
        replace (0 <? L - p) with true by lia. cbn [Z.leb Z.compare].
        right. split; [reflexivity|]. exact Hno'.
      + apply IH; try lia; try assumption.
        exists b'. split; [lia|]. split; [reflexivity|lia]. }
  destruct (L - p <? size) eqn:E.
  - destruct (L - p <=? 0) eqn:E0.
    + right. split; [reflexivity|]. intros j Hj1 Hj2. apply Hno; lia.
    + apply Hstep; lia.
  - apply Hstep; lia.
Qed.

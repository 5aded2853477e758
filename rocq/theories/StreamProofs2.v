From Verif Require Import Base BaseProofs BitsModel BitsSpec BitsProofs StreamModel StreamSpec StreamProofs.
Ltac Zify.zify_post_hook ::= Z.div_mod_to_equations.

(** ** Zero-bit reads *)
Lemma readBits_string_zero data addr e :
  is_bytes data -> 0 <= addr -> bits_available data addr 0 e = true ->
  readBits (string_read data) addr 0 e = Ok 0.
Proof.
  intros Hd Ha. unfold bits_available. destruct e; intros E; cbn [readBits].
  - rewrite string_read_ok by lia. cbn [bind]. rewrite readBits_value_big.
    + rewrite sub_0. reflexivity.
    + apply is_bytes_sub; assumption.
    + lia.
    + lia.
    + rewrite zlen_sub_exact by lia. lia.
  - rewrite string_read_ok by lia. cbn [bind]. rewrite readBits_value_little.
    + rewrite sub_0. reflexivity.
    + apply is_bytes_sub; assumption.
    + lia.
    + lia.
    + rewrite zlen_sub_exact by lia. lia.
  - rewrite alignValue_16 by lia. rewrite string_read_ok by lia. cbn [bind].
    rewrite readBits_value_middle.
    + rewrite sub_0. reflexivity.
    + apply is_bytes_sub; assumption.
    + lia.
    + lia.
    + rewrite zlen_sub_exact by lia. lia.
    + rewrite zlen_sub_exact by lia. lia.
Qed.

(** ** Seekable files *)
Lemma file_serves data : serves (file_read data) data.
Proof.
  intros a n Ha Hn H. unfold file_read. rewrite shiftr3.
  replace (n =? 0) with false by lia. replace (0 <? n) with true by lia. cbn [assert_ bind].
  rewrite zlen_sub_exact by lia. rewrite Z.eqb_refl. reflexivity.
Qed.
Lemma file_read_past data a n :
  0 <= a -> 1 <= n -> 8 * zlen data < a + n -> file_read data a n = Err ReadStreamError.
Proof.
  intros Ha Hn H. unfold file_read. rewrite shiftr3.
  replace (n =? 0) with false by lia. replace (0 <? n) with true by lia. cbn [assert_ bind].
  rewrite zlen_sub by lia.
  match goal with |- (if negb (?x =? ?y) then _ else _) = _ => replace (x =? y) with false by lia end.
  reflexivity.
Qed.

(** ** searchBytes *)

Lemma searchBytes_correct read data needle s end_address :
  serves read data -> data <> [] -> needle <> [] -> 0 <= s ->
  (exists i, searchBytes read (8 * zlen data) needle (8 * s) end_address = Ok (Some (8 * i)) /\
             first_occurrence needle data s (search_limit data end_address) i)
  \/ (searchBytes read (8 * zlen data) needle (8 * s) end_address = Ok None /\
      forall i, ~ first_occurrence needle data s (search_limit data end_address) i).
Proof.
  intros Hr Hd Hn Hs.
  assert (Hdl : 1 <= zlen data).
  { destruct data; [congruence|]. rewrite zlen_cons. pose proof (zlen_nonneg data). lia. }
  unfold searchBytes. replace ((8 * s) mod 8 =? 0) with true by lia. cbn [negb].
  replace (8 * zlen data =? 0) with false by lia. cbn [negb andb].
  set (e' := if match end_address with None => true | Some e => 8 * zlen data <? e end
             then Some (8 * zlen data) else end_address).
  assert (He : exists e, e' = Some e /\ e / 8 = search_limit data end_address).
  { unfold e', search_limit. destruct end_address as [e|].
    - destruct (8 * zlen data <? e) eqn:E; eexists; split; try reflexivity; lia.
    - eexists; split; [reflexivity|lia]. }
  destruct He as (e & -> & He).
  assert (HL : search_limit data end_address <= zlen data)
    by (unfold search_limit; destruct end_address; lia).
  set (L := search_limit data end_address) in *.
  destruct (searchBytes_loop_spec read data needle s L Hr Hn Hs HL
              (S (S (Z.to_nat (Z.shiftr (e - 8 * s) 3)))) s e (Z.max (3 * zlen needle) 4096) [])
    as [H|[H1 H2]].
  - right; reflexivity.
  - exact He.
  - rewrite shiftr3. lia.
  - lia.
  - exists s. rewrite Z.sub_diag, sub_0. split; [lia|]. split; [reflexivity|]. lia.
  - intros j H1 H2 (H3 & H4 & H5).
    assert (1 <= zlen needle) by (destruct needle; [congruence|rewrite zlen_cons; pose proof (zlen_nonneg needle); lia]).
    lia.
  - left. exact H.
  - right. split; [exact H1|]. intros i (F1 & F2 & F3 & F4). apply (H2 i); auto.
Qed.

Lemma searchBytes_unaligned read size needle start e :
  start mod 8 <> 0 -> searchBytes read size needle start e = Err InputStreamError.
Proof. intros H. unfold searchBytes. replace (start mod 8 =? 0) with false by lia. reflexivity. Qed.

Lemma searchBytesLength_correct read data needle include s end_address :
  serves read data -> data <> [] -> needle <> [] -> 0 <= s ->
  (exists i, searchBytesLength read (8 * zlen data) needle include (8 * s) end_address =
               Ok (Some (i - s + if include then zlen needle else 0)) /\
             first_occurrence needle data s (search_limit data end_address) i)
  \/ (searchBytesLength read (8 * zlen data) needle include (8 * s) end_address = Ok None /\
      forall i, ~ first_occurrence needle data s (search_limit data end_address) i).
Proof.
  intros Hr Hd Hn Hs. unfold searchBytesLength.
  destruct (searchBytes_correct read data needle s end_address Hr Hd Hn Hs) as [(i & -> & Hi)|[-> Hi]]; cbn [bind].
  - left. exists i. split; [|exact Hi]. destruct include; do 2 f_equal; lia.
  - right. auto.
Qed.

(** ** Sub-streams *)
Lemma substream_serves read data o n :
  serves read data -> 0 <= o -> 0 <= n -> o + n <= zlen data ->
  serves (substream_read read (8 * o)) (sub data o n).
Proof.
  intros Hr Ho Hn H a m Ha Hm Hb. unfold substream_read.
  rewrite zlen_sub_exact in Hb by lia.
  rewrite Hr by lia. rewrite sub_sub by lia.
  replace ((8 * o + a) mod 8) with (a mod 8) by lia.
  replace ((8 * o + a) / 8) with (o + a / 8) by lia. reflexivity.
Qed.
(** Windows of arbitrary bit offset. *)
Lemma substream_bits read data off a n e :
  serves read data -> is_bytes data -> e <> MIDDLE_ENDIAN ->
  0 <= off -> 0 <= a -> 1 <= n -> off + a + n <= 8 * zlen data ->
  readBits (substream_read read off) a n e = Ok (bits_at data (off + a) n e).
Proof.
  intros Hr Hd He Hoff Ha Hn H.
  replace (readBits (substream_read read off) a n e) with (readBits read (off + a) n e)
    by (destruct e; [reflexivity|reflexivity|congruence]).
  apply readBits_serves; auto; try lia. unfold bits_available. destruct e; try congruence; lia.
Qed.
Lemma substream_past_parent data off a n :
  0 <= off + a -> 1 <= n -> 8 * zlen data < off + a + n ->
  substream_read (string_read data) off a n = Err ReadStreamError.
Proof. intros. unfold substream_read. apply string_read_err; lia. Qed.

(** ** Concatenation *)
Lemma concat_serves r0 d0 r1 d1 :
  serves r0 d0 -> serves r1 d1 ->
  serves (concat_read r0 (8 * zlen d0) r1) (d0 ++ d1).
Proof.
  intros H0 H1 a n Ha Hn Hb. rewrite zlen_app in Hb.
  pose proof (zlen_nonneg d0) as Hp0. unfold concat_read.
  destruct (0 <? 8 * zlen d0 - a) eqn:E.
  - destruct (Z_le_gt_dec n (8 * zlen d0 - a)) as [Hle|Hgt].
    + rewrite Z.min_l by lia. rewrite H0 by lia. cbn [bind negb assert_].
      replace (n - n =? 0) with true by lia. cbn [negb].
      rewrite sub_app_l by lia. reflexivity.
    + rewrite Z.min_r by lia. rewrite H0 by lia. cbn [bind negb assert_].
      replace (n - (8 * zlen d0 - a) =? 0) with false by lia. cbn [negb].
      rewrite H1 by lia. cbn [bind]. change (0 mod 8) with 0. cbn [Z.eqb assert_ bind].
      rewrite sub_app_mid by lia.
      replace ((8 * zlen d0 - a + a mod 8 + 7) / 8) with (zlen d0 - a / 8) by lia.
      replace ((n - (8 * zlen d0 - a) + 0 + 7) / 8) with (a / 8 + (n + a mod 8 + 7) / 8 - zlen d0) by lia.
      reflexivity.
  - cbn [bind]. replace (n =? 0) with false by lia. cbn [negb].
    rewrite H1 by lia. cbn [bind]. rewrite sub_app_r by lia. cbn [app].
    replace ((- (8 * zlen d0 - a)) mod 8) with (a mod 8) by lia.
    replace (- (8 * zlen d0 - a) / 8) with (a / 8 - zlen d0) by lia. reflexivity.
Qed.
Lemma concat_past d0 d1 a n :
  d1 <> [] -> 0 <= a -> 1 <= n -> 8 * zlen (d0 ++ d1) < a + n ->
  concat_read (string_read d0) (8 * zlen d0) (string_read d1) a n = Err ReadStreamError.
Proof.
  intros Hd Ha Hn Hb. rewrite zlen_app in Hb.
  assert (1 <= zlen d1) by (destruct d1; [congruence|rewrite zlen_cons; pose proof (zlen_nonneg d1); lia]).
  pose proof (zlen_nonneg d0) as Hp0. unfold concat_read.
  destruct (0 <? 8 * zlen d0 - a) eqn:E.
  - rewrite Z.min_r by lia. rewrite string_read_ok by lia. cbn [bind negb assert_].
    replace (n - (8 * zlen d0 - a) =? 0) with false by lia. cbn [negb].
    rewrite string_read_err by lia. reflexivity.
  - cbn [bind]. replace (n =? 0) with false by lia. cbn [negb].
    rewrite string_read_err by lia. reflexivity.
Qed.

(** ** sizeGe on a complete in-memory stream *)
Lemma sizeGe_string data size const :
  data <> [] -> 0 <= size ->
  sizeGe (string_read data) (8 * zlen data) (Some (8 * zlen data)) size const =
  Ok (size <=? 8 * zlen data).
Proof.
  intros Hd Hs. unfold sizeGe.
  assert (1 <= zlen data) by (destruct data; [congruence|rewrite zlen_cons; pose proof (zlen_nonneg data); lia]).
  destruct (size <=? 8 * zlen data) eqn:E; [reflexivity|].
  replace ((0 <? 8 * zlen data) && (8 * zlen data <? size)) with true by lia. reflexivity.
Qed.

Lemma readBits_decompose data addr n m e v :
  is_bytes data -> 0 <= addr -> 1 <= n -> 1 <= m ->
  readBits (string_read data) addr (n + m) e = Ok v ->
  exists v1 v2,
    readBits (string_read data) addr n e = Ok v1 /\
    readBits (string_read data) (addr + n) m e = Ok v2 /\
    0 <= v1 < 2 ^ n /\ 0 <= v2 < 2 ^ m /\
    v = match e with LITTLE_ENDIAN => v1 + 2 ^ n * v2 | _ => v1 * 2 ^ m + v2 end.
Proof.
  intros Hd Ha Hn Hm H. rewrite readBits_string_spec in H by (auto; lia).
  destruct (bits_available data addr (n + m) e) eqn:E; [|discriminate].
  assert (E1 : bits_available data addr n e = true) by (unfold bits_available in *; destruct e; lia).
  assert (E2 : bits_available data (addr + n) m e = true) by (unfold bits_available in *; destruct e; lia).
  exists (bits_at data addr n e), (bits_at data (addr + n) m e).
  rewrite !readBits_string_spec, E1, E2 by (auto; lia). repeat split; auto; try (apply bits_at_bound; auto; lia).
  injection H as <-. unfold bits_available in E.
  destruct e; [apply bits_at_split_be|apply bits_at_split_le|apply bits_at_split_mid]; lia.
Qed.
Lemma concat_string d0 d1 a n :
  d1 <> [] -> 0 <= a -> 1 <= n ->
  concat_read (string_read d0) (8 * zlen d0) (string_read d1) a n = string_read (d0 ++ d1) a n.
Proof.
  intros Hd Ha Hn. destruct (Z_le_gt_dec (a + n) (8 * zlen (d0 ++ d1))) as [H|H].
  - rewrite (concat_serves _ _ _ _ (string_serves d0) (string_serves d1)) by lia.
    symmetry. apply string_serves; lia.
  - rewrite concat_past by (auto; lia). symmetry. apply string_read_err; lia.
Qed.
Lemma concat_string_readBits d0 d1 a n e :
  d1 <> [] -> 0 <= a -> 1 <= n ->
  readBits (concat_read (string_read d0) (8 * zlen d0) (string_read d1)) a n e
  = readBits (string_read (d0 ++ d1)) a n e.
Proof.
  intros Hd Ha Hn. destruct e; cbn [readBits]; rewrite ?concat_string; auto; try lia.
  rewrite alignValue_16 by lia. lia.
Qed.
Lemma concat_string_readBytes d0 d1 a n :
  d1 <> [] -> 0 <= a -> 1 <= n ->
  readBytes (concat_read (string_read d0) (8 * zlen d0) (string_read d1)) a n
  = readBytes (string_read (d0 ++ d1)) a n.
Proof. intros Hd Ha Hn. unfold readBytes. rewrite concat_string by (auto; lia). reflexivity. Qed.

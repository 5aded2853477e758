From Coq Require Import String.
From Verif Require Import Base BaseProofs BitsModel BitsSpec BitsSpec2 BitsProofs BitsProofs2 StreamModel StreamSpec StreamProofs DictModel DictProofs FieldModel FieldNames HumanModel Lit ValueModel ValueSpec.
Open Scope Z_scope.
Ltac Zify.zify_post_hook ::= Z.div_mod_to_equations.

(** ** Reading some bits of some bytes *)
Section Read.
Context (read : read_fun) (data : list Z) (Hr : serves read data) (Hd : is_bytes data).
Lemma land_mask_mod v n : 0 <= n -> Z.land v (Z.shiftl 1 n - 1) = v mod 2 ^ n.
Proof using. clear. intros H. rewrite Z.shiftl_mul_pow2, Z.mul_1_l by lia. rewrite <- Z.land_ones by lia. rewrite Z.ones_equiv. reflexivity. Qed.
Lemma local_le p m k n : 0 <= p -> p + m <= zlen data -> 0 <= k -> 1 <= n -> k + n <= 8 * m ->
  readBits read (8 * p + k) n LITTLE_ENDIAN = Ok ((from_bytes_little (sub data p m) / 2 ^ k) mod 2 ^ n).
Proof using All.
  intros Hp Hm Hk Hn H. rewrite (readBits_serves read data) by (auto; try lia; unfold bits_available; lia). f_equal. unfold bits_at.
  replace (sub (bits_le data) (8 * p + k) n) with (sub (bits_le (sub data p m)) k n) by (rewrite bits_le_sub by lia; apply sub_sub; lia).
  rewrite val_le_sub; [|lia..|rewrite zlen_bits_le, zlen_sub_exact by lia; lia].
  rewrite land_mask_mod by lia. rewrite Z.shiftr_div_pow2 by lia. rewrite from_bytes_little_val by (apply is_bytes_sub; assumption). reflexivity.
Qed.
Lemma local_be p m k n : 0 <= p -> p + m <= zlen data -> 0 <= k -> 1 <= n -> k + n <= 8 * m ->
  readBits read (8 * p + k) n BIG_ENDIAN = Ok ((from_bytes_big (sub data p m) / 2 ^ (8 * m - k - n)) mod 2 ^ n).
Proof using All.
  intros Hp Hm Hk Hn H. rewrite (readBits_serves read data) by (auto; try lia; unfold bits_available; lia). f_equal. unfold bits_at.
  replace (sub (bits_be data) (8 * p + k) n) with (sub (bits_be (sub data p m)) k n) by (rewrite bits_be_sub by lia; apply sub_sub; lia).
  assert (L : zlen (bits_be (sub data p m)) = 8 * m) by (rewrite zlen_bits_be, zlen_sub_exact by lia; lia).
  rewrite val_be_sub by lia. rewrite L, land_mask_mod by lia. rewrite Z.shiftr_div_pow2 by lia. rewrite from_bytes_big_val by (apply is_bytes_sub; assumption). reflexivity.
Qed.
Lemma whole_le p m : 0 <= p -> 1 <= m -> p + m <= zlen data -> readBits read (8 * p) (8 * m) LITTLE_ENDIAN = Ok (from_bytes_little (sub data p m)).
Proof using All.
  intros Hp Hm H. rewrite <- (Z.add_0_r (8 * p)). rewrite (local_le p m 0 (8 * m)) by lia. rewrite Z.pow_0_r, Z.div_1_r. f_equal.
  apply Z.mod_small. pose proof (from_bytes_little_bound (sub data p m) ltac:(apply is_bytes_sub; assumption)) as B.
  rewrite zlen_sub_exact in B by lia. replace (256 ^ m) with (2 ^ (8 * m)) in B by (rewrite (Z.pow_mul_r 2 8 m) by lia; reflexivity). exact B.
Qed.
Lemma whole_be p m : 0 <= p -> 1 <= m -> p + m <= zlen data -> readBits read (8 * p) (8 * m) BIG_ENDIAN = Ok (from_bytes_big (sub data p m)).
Proof using All.
  intros Hp Hm H. rewrite <- (Z.add_0_r (8 * p)). rewrite (local_be p m 0 (8 * m)) by lia. replace (8 * m - 0 - 8 * m) with 0 by lia. rewrite Z.pow_0_r, Z.div_1_r. f_equal.
  apply Z.mod_small. pose proof (from_bytes_big_bound (sub data p m) ltac:(apply is_bytes_sub; assumption)) as B.
  rewrite zlen_sub_exact in B by lia. replace (256 ^ m) with (2 ^ (8 * m)) in B by (rewrite (Z.pow_mul_r 2 8 m) by lia; reflexivity). exact B.
Qed.
End Read.

(** ** Padding *)
Lemma pattern_loop_ok pattern : pattern <> [] -> forall fuel content index, (List.length content < fuel)%nat ->
  exists w, pattern_loop fuel pattern content index = Ok w /\
    match w with
    | None => repeats pattern content
    | Some i => exists n rest, content = List.concat (List.repeat pattern n) ++ rest /\ i = index + Z.of_nat n * zlen pattern /\ rest <> [] /\ firstn (List.length pattern) rest <> pattern
    end.
Proof.
  intros Hp. induction fuel as [|fuel IH]; intros content index Hl; [lia|]. cbn [pattern_loop].
  destruct content as [|c content]; [exists None; split; [reflexivity|]; exists 0%nat; reflexivity|].
  set (full := c :: content) in *.
  assert (FS := firstn_skipn (List.length pattern) full).
  destruct (str_eqb (firstn (List.length pattern) full) pattern) eqn:E; cbn [negb].
  - apply str_eqb_eq in E. destruct (IH (skipn (List.length pattern) full) (index + zlen pattern)) as (w & H1 & H2).
    { rewrite skipn_length. destruct pattern; [congruence|]. cbn [List.length] in *. unfold full in *. cbn [List.length] in *. lia. }
    exists w. split; [exact H1|]. rewrite E in FS. destruct w as [i|].
    + destruct H2 as (n & rest & E1 & E2 & E3 & E4). exists (S n), rest. cbn [List.repeat List.concat]. rewrite <- app_assoc, <- E1. repeat split; [symmetry; exact FS|lia|assumption..].
    + destruct H2 as (n & E1). exists (S n). cbn [List.repeat List.concat]. rewrite <- E1. symmetry. exact FS.
  - exists (Some index). split; [reflexivity|]. exists 0%nat, full. repeat split; [lia|discriminate|]. intros X. apply str_eqb_eq in X. congruence.
Qed.
Lemma repeats_not pattern n rest : pattern <> [] -> rest <> [] -> firstn (List.length pattern) rest <> pattern -> ~ repeats pattern (List.concat (List.repeat pattern n) ++ rest).
Proof.
  intros Hp Hr Hf. induction n as [|n IH]; intros (m & E).
  - cbn [List.repeat List.concat app] in E. destruct m as [|m]; [cbn in E; exact (Hr E)|]. cbn [List.repeat List.concat] in E. subst rest. apply Hf. rewrite firstn_app, Nat.sub_diag, firstn_O, app_nil_r. apply firstn_all.
  - destruct m as [|m].
    + cbn [List.repeat List.concat] in E. destruct pattern; [congruence|discriminate].
    + cbn [List.repeat List.concat] in E. rewrite <- app_assoc in E. apply app_inv_head in E. apply IH. exists m. exact E.
Qed.

(** ** Dates *)
Lemma py_datetime_ok y m d h mi s us : 1 <= y <= 9999 -> date_ok y m d -> time_ok h mi s -> 0 <= us < 1000000 -> py_datetime y m d h mi s us = Ok (moment y m d h mi s us).
Proof.
  intros Hy (Hm & Hd) (Hh & Hmi & Hs) Hu. unfold py_datetime, moment.
  replace ((1 <=? y) && (y <=? 9999) && (1 <=? m) && (m <=? 12) && (1 <=? d) && (d <=? month_days y m) &&
     (0 <=? h) && (h <? 24) && (0 <=? mi) && (mi <? 60) && (0 <=? s) && (s <? 60) && (0 <=? us) && (us <? 1000000)) with true by lia. reflexivity.
Qed.
Lemma py_datetime_inv y m d h mi s us t : py_datetime y m d h mi s us = Ok t -> (1 <= y <= 9999 /\ date_ok y m d /\ time_ok h mi s /\ 0 <= us < 1000000) /\ t = moment y m d h mi s us.
Proof.
  unfold py_datetime. destruct (_ && _) eqn:E; [|discriminate]. intros X. injection X as <-. unfold date_ok, time_ok, moment. split; [lia|reflexivity].
Qed.
Lemma py_datetime_err y m d h mi s us e : py_datetime y m d h mi s us = Err e -> e = ValueError /\ ~ (1 <= y <= 9999 /\ date_ok y m d /\ time_ok h mi s /\ 0 <= us < 1000000).
Proof.
  unfold py_datetime. destruct (_ && _) eqn:E; [discriminate|]. intros X. injection X as <-. unfold date_ok, time_ok. split; [reflexivity|lia].
Qed.
Lemma month_days_bound y m : 28 <= month_days y m <= 31.
Proof. unfold month_days. destruct (m =? 2); [destruct (is_leap y); lia|]. destruct (_ || _); lia. Qed.
Section Dates.
Context (read : read_fun) (data : list Z) (p : Z) (Hr : serves read data) (Hd : is_bytes data) (Hp : 0 <= p).
Lemma fields_le m sizes : forall k, 0 <= k -> Forall (fun n => 1 <= n) sizes -> k + fold_right Z.add 0 sizes <= 8 * m -> p + m <= zlen data ->
  read_fields read LITTLE_ENDIAN (8 * p + k) sizes =
  Ok ((fix go k sizes := match sizes with [] => [] | n :: sizes => (from_bytes_little (sub data p m) / 2 ^ k) mod 2 ^ n :: go (k + n) sizes end) k sizes).
Proof using All.
  induction sizes as [|n sizes IH]; intros k Hk Hs Hm Hl; [reflexivity|]. cbn [read_fields fold_right] in *.
  assert (N := Forall_inv Hs). assert (T := Forall_inv_tail Hs). cbn beta in N.
  assert (0 <= fold_right Z.add 0 sizes) by (clear - T; induction T; cbn [fold_right]; lia).
  rewrite (local_le read data Hr Hd p m k n) by lia. cbn [bind]. rewrite <- Z.add_assoc, IH by (auto; lia). reflexivity.
Qed.
Lemma time_date_ok y mo d h mi s : 1980 <= y <= 2107 -> date_ok y mo d -> time_ok h mi s -> s mod 2 = 0 ->
  p + 4 <= zlen data -> sub data p 4 = word_le (dos_time h mi s) ++ word_le (dos_date y mo d) ->
  TimeDateMSDOS32 read LITTLE_ENDIAN (8 * p) = Ok (moment y mo d h mi s 0).
Proof using All.
  intros Hy (Hm & Hday) (Hh & Hmi & Hs) Hev Hl E. unfold TimeDateMSDOS32. pose proof (month_days_bound y mo) as MB.
  rewrite <- (Z.add_0_r (8 * p)), (fields_le 4) by (first [lia|repeat constructor; lia|cbn [fold_right]; lia]). rewrite E. cbn [bind].
  set (V := from_bytes_little _).
  assert (EV : V = s / 2 + 32 * mi + 2048 * h + 65536 * d + 2097152 * mo + 33554432 * (y - 1980)) by (unfold V, word_le, dos_time, dos_date; cbn [app]; unfold from_bytes_little; cbn [fold_right fold_left]; clear - Hy Hm Hday Hh Hmi Hs; lia).
  clearbody V.
  change (2 ^ (0 + 5 + 6 + 5 + 5 + 4)) with 33554432. change (2 ^ (0 + 5 + 6 + 5 + 5)) with 2097152. change (2 ^ (0 + 5 + 6 + 5)) with 65536. change (2 ^ (0 + 5 + 6)) with 2048. change (2 ^ (0 + 5)) with 32. change (2 ^ 0) with 1.
  change (2 ^ 5) with 32. change (2 ^ 6) with 64. change (2 ^ 4) with 16. change (2 ^ 7) with 128.
  replace (V / 1 mod 32) with (s / 2) by (clear - EV Hy Hm Hday Hh Hmi Hs; lia).
  replace (V / 32 mod 64) with mi by (clear - EV Hy Hm Hday Hh Hmi Hs; lia).
  replace (V / 2048 mod 32) with h by (clear - EV Hy Hm Hday Hh Hmi Hs; lia).
  replace (V / 65536 mod 32) with d by (clear - EV Hy Hm Hday Hh Hmi Hs MB; lia).
  replace (V / 2097152 mod 16) with mo by (clear - EV Hy Hm Hday Hh Hmi Hs MB; lia).
  replace (V / 33554432 mod 128) with (y - 1980) by (clear - EV Hy Hm Hday Hh Hmi Hs MB; lia).
  unfold dos_datetime. replace (mo =? 0) with false by lia. replace (d =? 0) with false by lia. replace (1980 + (y - 1980)) with y by lia.
  replace (2 * (s / 2)) with s by lia. apply py_datetime_ok; unfold date_ok, time_ok; lia.
Qed.
Lemma date_time_ok y mo d h mi s : 1980 <= y <= 2107 -> date_ok y mo d -> time_ok h mi s -> s mod 2 = 0 ->
  p + 4 <= zlen data -> sub data p 4 = word_le (dos_date y mo d) ++ word_le (dos_time h mi s) ->
  DateTimeMSDOS32 read LITTLE_ENDIAN (8 * p) = Ok (moment y mo d h mi s 0).
Proof using All.
  intros Hy (Hm & Hday) (Hh & Hmi & Hs) Hev Hl E. unfold DateTimeMSDOS32. pose proof (month_days_bound y mo) as MB.
  rewrite <- (Z.add_0_r (8 * p)), (fields_le 4) by (first [lia|repeat constructor; lia|cbn [fold_right]; lia]). rewrite E. cbn [bind].
  set (V := from_bytes_little _).
  assert (EV : V = d + 32 * mo + 512 * (y - 1980) + 65536 * (s / 2) + 2097152 * mi + 134217728 * h) by (unfold V, word_le, dos_time, dos_date; cbn [app]; unfold from_bytes_little; cbn [fold_right fold_left]; clear - Hy Hm Hday Hh Hmi Hs MB; lia).
  clearbody V.
  change (2 ^ (0 + 5 + 4 + 7 + 5 + 6)) with 134217728. change (2 ^ (0 + 5 + 4 + 7 + 5)) with 2097152. change (2 ^ (0 + 5 + 4 + 7)) with 65536. change (2 ^ (0 + 5 + 4)) with 512. change (2 ^ (0 + 5)) with 32. change (2 ^ 0) with 1.
  change (2 ^ 5) with 32. change (2 ^ 6) with 64. change (2 ^ 4) with 16. change (2 ^ 7) with 128.
  replace (V / 1 mod 32) with d by (clear - EV Hy Hm Hday Hh Hmi Hs MB; lia).
  replace (V / 32 mod 16) with mo by (clear - EV Hy Hm Hday Hh Hmi Hs MB; lia).
  replace (V / 512 mod 128) with (y - 1980) by (clear - EV Hy Hm Hday Hh Hmi Hs MB; lia).
  replace (V / 65536 mod 32) with (s / 2) by (clear - EV Hy Hm Hday Hh Hmi Hs MB; lia).
  replace (V / 2097152 mod 64) with mi by (clear - EV Hy Hm Hday Hh Hmi Hs MB; lia).
  replace (V / 134217728 mod 32) with h by (clear - EV Hy Hm Hday Hh Hmi Hs MB; lia).
  unfold dos_datetime. replace (mo =? 0) with false by lia. replace (d =? 0) with false by lia. replace (1980 + (y - 1980)) with y by lia.
  replace (2 * (s / 2)) with s by lia. apply py_datetime_ok; unfold date_ok, time_ok; lia.
Qed.
Lemma describe_ok y mo d t : 1980 <= y <= 2107 -> date_ok y mo d -> (match t with Some (h, mi, s, us) => time_ok h mi s /\ 0 <= us < 1000000 | None => True end) ->
  describe_date (y - 1980) mo d t = At (match t with Some (h, mi, s, us) => moment y mo d h mi s us | None => moment y mo d 0 0 0 0 end).
Proof using.
  clear. intros Hy Hd Ht. unfold describe_date.
  destruct (match t with Some t0 => t0 | None => (0, 0, 0, 0) end) as [[[h mi] s] us] eqn:E.
  assert (T : time_ok h mi s /\ 0 <= us < 1000000).
  { destruct t as [[[[? ?] ?] ?]|]; injection E as <- <- <- <-; [assumption|unfold time_ok; lia]. }
  replace (forallb (Z.eqb 0) [y - 1980; mo; d; h; mi; s; us]) with false.
  2: { destruct Hd as [Hm _]. cbn [forallb]. replace (0 =? mo) with false by lia. rewrite andb_false_r. reflexivity. }
  replace (y - 1980 + 1980) with y by lia. rewrite py_datetime_ok by (first [lia|apply Hd|apply T]). cbn [at_or_invalid].
  destruct t as [[[[? ?] ?] ?]|]; injection E as <- <- <- <-; reflexivity.
Qed.
Lemma fat_create_ok y mo d h mi s c : 1980 <= y <= 2107 -> date_ok y mo d -> time_ok h mi s -> 0 <= c < 100 ->
  p + 5 <= zlen data -> sub data p 5 = [100 * (s mod 2) + c] ++ word_le (dos_time h mi s) ++ word_le (dos_date y mo d) ->
  fat_create read (8 * p) = Ok (At (moment y mo d h mi s (10000 * c))).
Proof using All.
  intros Hy (Hm & Hday) (Hh & Hmi & Hs) Hc Hl E. unfold fat_create. pose proof (month_days_bound y mo) as MB.
  rewrite <- (Z.add_0_r (8 * p)), (fields_le 5) by (first [lia|repeat constructor; lia|cbn [fold_right]; lia]). rewrite E. cbn [bind].
  set (V := from_bytes_little _).
  assert (EV : V = 100 * (s mod 2) + c + 256 * (s / 2 + 32 * mi + 2048 * h + 65536 * d + 2097152 * mo + 33554432 * (y - 1980))) by (unfold V, word_le, dos_time, dos_date; cbn [app]; unfold from_bytes_little; cbn [fold_right fold_left]; clear - Hy Hm Hday Hh Hmi Hs MB; lia).
  clearbody V.
  change (2 ^ (0 + 8 + 5 + 6 + 5 + 5 + 4)) with (256 * 33554432). change (2 ^ (0 + 8 + 5 + 6 + 5 + 5)) with (256 * 2097152). change (2 ^ (0 + 8 + 5 + 6 + 5)) with (256 * 65536). change (2 ^ (0 + 8 + 5 + 6)) with (256 * 2048). change (2 ^ (0 + 8 + 5)) with (256 * 32). change (2 ^ (0 + 8)) with 256. change (2 ^ 0) with 1.
  change (2 ^ 8) with 256. change (2 ^ 5) with 32. change (2 ^ 6) with 64. change (2 ^ 4) with 16. change (2 ^ 7) with 128.
  set (W := s / 2 + 32 * mi + 2048 * h + 65536 * d + 2097152 * mo + 33554432 * (y - 1980)) in *.
  assert (V1 : V / 1 mod 256 = 100 * (s mod 2) + c) by (clear - EV Hs Hc; lia). rewrite V1.
  assert (V2 : V / 256 = W) by (clear - EV Hs Hc; lia). rewrite <- !Z.div_div by lia. rewrite V2.
  assert (EW : W = s / 2 + 32 * mi + 2048 * h + 65536 * d + 2097152 * mo + 33554432 * (y - 1980)) by reflexivity. clearbody W. clear V EV E V1 V2.
  replace (W mod 32) with (s / 2) by (clear - EW Hy Hm Hday Hh Hmi Hs; lia).
  replace (W / 32 mod 64) with mi by (clear - EW Hy Hm Hday Hh Hmi Hs; lia).
  replace (W / 2048 mod 32) with h by (clear - EW Hy Hm Hday Hh Hmi Hs; lia).
  replace (W / 65536 mod 32) with d by (clear - EW Hy Hm Hday Hh Hmi Hs MB; lia).
  replace (W / 2097152 mod 16) with mo by (clear - EW Hy Hm Hday Hh Hmi Hs MB; lia).
  replace (W / 33554432 mod 128) with (y - 1980) by (clear - EW Hy Hm Hday Hh Hmi Hs MB; lia).
  replace ((200 * (s / 2) + (100 * (s mod 2) + c)) / 100) with s by (clear - Hc Hs; lia).
  replace ((200 * (s / 2) + (100 * (s mod 2) + c)) mod 100 * 10000) with (10000 * c) by (clear - Hc Hs; lia).
  rewrite describe_ok; [reflexivity|lia|split; assumption|]. unfold time_ok. lia.
Qed.
Lemma fat_access_ok y mo d : 1980 <= y <= 2107 -> date_ok y mo d -> p + 2 <= zlen data -> sub data p 2 = word_le (dos_date y mo d) ->
  fat_access read (8 * p) = Ok (At (moment y mo d 0 0 0 0)).
Proof using All.
  intros Hy (Hm & Hday) Hl E. unfold fat_access. pose proof (month_days_bound y mo) as MB.
  rewrite <- (Z.add_0_r (8 * p)), (fields_le 2) by (first [lia|repeat constructor; lia|cbn [fold_right]; lia]). rewrite E. cbn [bind].
  set (V := from_bytes_little _).
  assert (EV : V = d + 32 * mo + 512 * (y - 1980)) by (unfold V, word_le, dos_time, dos_date; cbn [app]; unfold from_bytes_little; cbn [fold_right fold_left]; clear - Hy Hm Hday MB; lia).
  clearbody V. change (2 ^ (0 + 5 + 4)) with 512. change (2 ^ (0 + 5)) with 32. change (2 ^ 0) with 1. change (2 ^ 5) with 32. change (2 ^ 4) with 16. change (2 ^ 7) with 128.
  replace (V / 1 mod 32) with d by (clear - EV Hy Hm Hday MB; lia).
  replace (V / 32 mod 16) with mo by (clear - EV Hy Hm Hday MB; lia).
  replace (V / 512 mod 128) with (y - 1980) by (clear - EV Hy Hm Hday MB; lia).
  rewrite describe_ok; [reflexivity|lia|split; assumption|exact I].
Qed.
Lemma fat_modify_ok y mo d h mi s : 1980 <= y <= 2107 -> date_ok y mo d -> time_ok h mi s -> s mod 2 = 0 ->
  p + 4 <= zlen data -> sub data p 4 = word_le (dos_time h mi s) ++ word_le (dos_date y mo d) ->
  fat_modify read (8 * p) = Ok (At (moment y mo d h mi s 0)).
Proof using All.
  intros Hy (Hm & Hday) (Hh & Hmi & Hs) Hev Hl E. unfold fat_modify. pose proof (month_days_bound y mo) as MB.
  rewrite <- (Z.add_0_r (8 * p)), (fields_le 4) by (first [lia|repeat constructor; lia|cbn [fold_right]; lia]). rewrite E. cbn [bind].
  set (V := from_bytes_little _).
  assert (EV : V = s / 2 + 32 * mi + 2048 * h + 65536 * d + 2097152 * mo + 33554432 * (y - 1980)) by (unfold V, word_le, dos_time, dos_date; cbn [app]; unfold from_bytes_little; cbn [fold_right fold_left]; clear - Hy Hm Hday Hh Hmi Hs; lia).
  clearbody V.
  change (2 ^ (0 + 5 + 6 + 5 + 5 + 4)) with 33554432. change (2 ^ (0 + 5 + 6 + 5 + 5)) with 2097152. change (2 ^ (0 + 5 + 6 + 5)) with 65536. change (2 ^ (0 + 5 + 6)) with 2048. change (2 ^ (0 + 5)) with 32. change (2 ^ 0) with 1.
  change (2 ^ 5) with 32. change (2 ^ 6) with 64. change (2 ^ 4) with 16. change (2 ^ 7) with 128.
  replace (V / 1 mod 32) with (s / 2) by (clear - EV Hy Hm Hday Hh Hmi Hs; lia).
  replace (V / 32 mod 64) with mi by (clear - EV Hy Hm Hday Hh Hmi Hs; lia).
  replace (V / 2048 mod 32) with h by (clear - EV Hy Hm Hday Hh Hmi Hs; lia).
  replace (V / 65536 mod 32) with d by (clear - EV Hy Hm Hday Hh Hmi Hs MB; lia).
  replace (V / 2097152 mod 16) with mo by (clear - EV Hy Hm Hday Hh Hmi Hs MB; lia).
  replace (V / 33554432 mod 128) with (y - 1980) by (clear - EV Hy Hm Hday Hh Hmi Hs MB; lia).
  replace (200 * (s / 2) / 100) with s by (clear - Hev; lia). replace (200 * (s / 2) mod 100 * 10000) with 0 by (clear; lia).
  rewrite describe_ok; [reflexivity|lia|split; assumption|]. unfold time_ok. lia.
Qed.
End Dates.

(** ** Hexadecimal *)
Lemma hex_lower_nth d : 0 <= d < 16 -> hex_lower d = nth (Z.to_nat d) lower 0.
Proof.
  intros H. assert (F : forallb (fun d => hex_lower d =? nth (Z.to_nat d) lower 0) (map Z.of_nat (seq 0 16)) = true) by (vm_compute; reflexivity).
  rewrite forallb_forall in F. apply Z.eqb_eq, F, in_map_iff. exists (Z.to_nat d). split; [lia|apply in_seq; lia].
Qed.
Lemma hex_upper_nth d : 0 <= d < 16 -> hex_digit d = nth (Z.to_nat d) upper 0.
Proof.
  intros H. assert (F : forallb (fun d => hex_digit d =? nth (Z.to_nat d) upper 0) (map Z.of_nat (seq 0 16)) = true) by (vm_compute; reflexivity).
  rewrite forallb_forall in F. apply Z.eqb_eq, F, in_map_iff. exists (Z.to_nat d). split; [lia|apply in_seq; lia].
Qed.
Lemma hexn_bytes digit alphabet (Hdig : forall d, 0 <= d < 16 -> digit d = nth (Z.to_nat d) alphabet 0) l : is_bytes l -> hexn digit (2 * List.length l) (from_bytes_big l) = hex_text alphabet l.
Proof.
  induction l as [|b l IH] using rev_ind; intros H; [reflexivity|].
  apply Forall_app in H. destruct H as [H1 H2]. apply Forall_inv in H2. unfold is_byte in H2.
  rewrite app_length. cbn [List.length]. replace (2 * (List.length l + 1))%nat with (S (S (2 * List.length l))) by lia.
  rewrite from_bytes_big_app. unfold from_bytes_big at 2. cbn [fold_left]. change (zlen [b]) with 1. rewrite Z.pow_1_r.
  cbn [hexn]. unfold hex_text. rewrite flat_map_app. cbn [flat_map app]. fold (hex_text alphabet l). rewrite <- IH by assumption.
  rewrite <- app_assoc. cbn [app].
  set (v := from_bytes_big l). replace (v * 256 + (0 * 256 + b)) with (v * 256 + b) by lia.
  replace ((v * 256 + b) / 16 / 16) with v by (clear - H2; lia).
  replace ((v * 256 + b) / 16 mod 16) with (b / 16) by (clear - H2; lia).
  replace ((v * 256 + b) mod 16) with (b mod 16) by (clear - H2; lia).
  rewrite !Hdig by lia. reflexivity.
Qed.
Lemma str2hex_text l : is_bytes l -> str2hex l [] = hex_text upper l.
Proof.
  intros H. unfold str2hex. rewrite join_nil_glue. induction H as [|b l Hb H IH]; [reflexivity|]. unfold is_byte in Hb.
  cbn [map List.concat]. rewrite IH. unfold hex_text. cbn [flat_map app]. unfold hex2. cbn [app]. rewrite !hex_upper_nth by lia. reflexivity.
Qed.
Lemma hex_text_rev_le digit alphabet (Hdig : forall d, 0 <= d < 16 -> digit d = nth (Z.to_nat d) alphabet 0) l : is_bytes l -> hexn digit (2 * List.length l) (from_bytes_little l) = hex_text alphabet (rev l).
Proof. intros H. rewrite from_bytes_little_rev, <- (rev_length l). apply hexn_bytes; [assumption|]. apply Forall_rev. assumption. Qed.

Lemma ipv6_parts_ok : forall ws, Forall (fun w => is_byte (fst w) /\ is_byte (snd w)) ws ->
  ipv6_parts (List.length ws) (from_bytes_big (flat_map (fun w => [fst w; snd w]) ws)) = rev (map (fun w => hex_text lower [fst w; snd w]) ws).
Proof.
  intros ws. induction ws as [|[x y] ws IH] using rev_ind; intros H; [reflexivity|].
  apply Forall_app in H. destruct H as [H1 H2]. apply Forall_inv in H2. cbn [fst snd] in H2. destruct H2 as [Hx Hy].
  rewrite app_length, map_app, rev_app_distr, flat_map_app. cbn [List.length flat_map map rev app fst snd]. rewrite Nat.add_1_r. cbn [ipv6_parts].
  rewrite from_bytes_big_app. unfold from_bytes_big at 2 4. cbn [fold_left]. change (zlen [x; y]) with 2. change (256 ^ 2) with 65536.
  set (v := from_bytes_big (flat_map _ ws)) in *. unfold is_byte in *.
  rewrite Z.shiftr_div_pow2 by lia. change (2 ^ 16) with 65536. change 0xffff with (Z.ones 16). rewrite Z.land_ones by lia. change (2 ^ 16) with 65536.
  replace ((v * 65536 + ((0 * 256 + x) * 256 + y)) / 65536) with v by (clear - Hx Hy; lia).
  replace ((v * 65536 + ((0 * 256 + x) * 256 + y)) mod 65536) with (256 * x + y) by (clear - Hx Hy; lia).
  rewrite <- IH by assumption. f_equal.
  replace (256 * x + y) with (from_bytes_big [x; y]) by (unfold from_bytes_big; cbn [fold_left]; clear; lia).
  apply (hexn_bytes hex_lower lower hex_lower_nth [x; y]). repeat constructor; unfold is_byte; lia.
Qed.

(** ** Run lists *)
Lemma le_value_ok l : le_value l = from_bytes_little l.
Proof. induction l as [|b l IH]; [reflexivity|]. unfold from_bytes_little in *. cbn [le_value fold_right]. rewrite IH. reflexivity. Qed.
Lemma signed_ok o v : is_bytes o -> 1 <= zlen o -> le_signed o v ->
  (let offset := from_bytes_little o in let offlen := zlen o * 8 in
   if negb (Z.land offset (Z.shiftl 1 (offlen - 1)) =? 0) then offset - Z.shiftl 1 offlen else offset) = v.
Proof.
  intros Ho Hl (B & E). cbv zeta. rewrite le_value_ok in E. set (n := 8 * zlen o) in *. replace (zlen o * 8) with n by lia.
  rewrite (Z.shiftl_mul_pow2 1 n), (Z.shiftl_mul_pow2 1 (n - 1)), !Z.mul_1_l by lia. set (u := from_bytes_little o) in *.
  assert (P : 2 ^ n = 2 * 2 ^ (n - 1)) by (rewrite <- (Z.pow_succ_r 2 (n - 1)) by lia; f_equal; lia).
  assert (P1 : 0 < 2 ^ (n - 1)) by (apply Z.pow_pos_nonneg; lia).
  assert (U : u = if v <? 0 then v + 2 ^ n else v).
  { rewrite E. destruct (v <? 0) eqn:V; [|apply Z.mod_small; lia]. rewrite <- (Z.mod_add v 1 (2 ^ n)) by lia. rewrite Z.mul_1_l. apply Z.mod_small. lia. }
  assert (T : Z.land u (2 ^ (n - 1)) =? 0 = negb (Z.testbit u (n - 1))).
  { destruct (Z.testbit u (n - 1)) eqn:T; cbn [negb].
    - apply Z.eqb_neq. intros X. assert (Z.testbit (Z.land u (2 ^ (n - 1))) (n - 1) = true) as Y by (rewrite Z.land_spec, T, Z.pow2_bits_true by lia; reflexivity). rewrite X, Z.bits_0 in Y. discriminate.
    - apply Z.eqb_eq. apply Z.bits_inj'. intros k Hk. rewrite Z.land_spec, Z.bits_0, Z.pow2_bits_eqb by lia. destruct (n - 1 =? k) eqn:K; [|apply andb_false_r]. apply Z.eqb_eq in K. subst k. rewrite T. reflexivity. }
  rewrite T. rewrite negb_involutive, Z.testbit_odd, Z.shiftr_div_pow2 by lia. rewrite U. destruct (v <? 0) eqn:V.
  - replace ((v + 2 ^ n) / 2 ^ (n - 1)) with 1; [cbn; lia|]. apply (Z.div_unique_pos _ _ _ (v + 2 ^ n - 2 ^ (n - 1))); lia.
  - rewrite Z.div_small by lia. reflexivity.
Qed.
Lemma run_bytes_nonempty prev runs bytes : run_bytes prev runs bytes -> 1 <= zlen bytes.
Proof. intros H. destruct H; rewrite zlen_cons; pose proof (zlen_nonneg (@nil Z)); [unfold zlen; cbn; lia|]. pose proof (zlen_nonneg (l ++ o ++ rest)). lia. Qed.
Section Runs.
Context (read : read_fun) (data : list Z) (Hr : serves read data) (Hd : is_bytes data).
Lemma run_entries_ok prev runs bytes : run_bytes prev runs bytes -> forall p fuel, 0 <= p -> p + zlen bytes <= zlen data -> sub data p (zlen bytes) = bytes -> zlen bytes <= Z.of_nat fuel ->
  exists l, run_entries fuel read (8 * p) = Ok l /\ run_list l prev = runs.
Proof using All.
  intros H. induction H as [prev|prev length cluster runs l o rest Hl Ho El Eo H IH]; intros p fuel Hp Hlen E Hf.
  - destruct fuel as [|fuel]; [change (zlen [0]) with 1 in Hf; lia|]. change (zlen [0]) with 1 in *. cbn [run_entries]. unfold run_fields.
    change 8 with (8 * 1) at 2. rewrite (whole_le read data Hr Hd) by lia. rewrite E. unfold from_bytes_little at 1; cbn [bind fold_right]. cbn. eexists. split; reflexivity.
  - pose proof (run_bytes_nonempty _ _ _ H) as RN. assert (ZL : zlen (zlen o * 16 + zlen l :: l ++ o ++ rest) = 1 + zlen l + zlen o + zlen rest) by (rewrite zlen_cons, !zlen_app; lia).
    rewrite ZL in *. destruct fuel as [|fuel]; [lia|]. cbn [run_entries]. unfold run_fields.
    assert (S1 : sub data p 1 = [zlen o * 16 + zlen l]).
    { replace (sub data p 1) with (sub (sub data p (1 + zlen l + zlen o + zlen rest)) 0 1) by (rewrite sub_sub by lia; f_equal; lia). rewrite E. reflexivity. }
    assert (S2 : sub data (p + 1) (zlen l) = l).
    { replace (sub data (p + 1) (zlen l)) with (sub (sub data p (1 + zlen l + zlen o + zlen rest)) 1 (zlen l)) by (apply sub_sub; lia). rewrite E.
      change (zlen o * 16 + zlen l :: l ++ o ++ rest) with ([zlen o * 16 + zlen l] ++ l ++ o ++ rest). rewrite sub_app_r by (unfold zlen; cbn; lia).
      change (zlen [zlen o * 16 + zlen l]) with 1. rewrite sub_app_l by lia. replace (1 - 1) with 0 by lia. apply sub_all. }
    assert (S3 : sub data (p + 1 + zlen l) (zlen o) = o).
    { replace (sub data (p + 1 + zlen l) (zlen o)) with (sub (sub data p (1 + zlen l + zlen o + zlen rest)) (1 + zlen l) (zlen o)) by (rewrite sub_sub by lia; f_equal; lia). rewrite E.
      change (zlen o * 16 + zlen l :: l ++ o ++ rest) with ([zlen o * 16 + zlen l] ++ l ++ o ++ rest). rewrite sub_app_r by (change (zlen [zlen o * 16 + zlen l]) with 1; lia).
      change (zlen [zlen o * 16 + zlen l]) with 1. rewrite sub_app_r by lia. rewrite sub_app_l by lia. replace (1 + zlen l - 1 - zlen l) with 0 by lia. apply sub_all. }
    assert (S4 : sub data (p + 1 + zlen l + zlen o) (zlen rest) = rest).
    { replace (sub data (p + 1 + zlen l + zlen o) (zlen rest)) with (sub (sub data p (1 + zlen l + zlen o + zlen rest)) (1 + zlen l + zlen o) (zlen rest)) by (rewrite sub_sub by lia; f_equal; lia). rewrite E.
      change (zlen o * 16 + zlen l :: l ++ o ++ rest) with ([zlen o * 16 + zlen l] ++ l ++ o ++ rest). rewrite sub_app_r by (change (zlen [zlen o * 16 + zlen l]) with 1; lia).
      change (zlen [zlen o * 16 + zlen l]) with 1. rewrite sub_app_r by lia. rewrite sub_app_r by lia. replace (1 + zlen l + zlen o - 1 - zlen l - zlen o) with 0 by lia. apply sub_all. }
    change 8 with (8 * 1) at 2. rewrite (whole_le read data Hr Hd) by lia. rewrite S1. unfold from_bytes_little at 1; cbn [bind fold_right].
    set (hd := zlen o * 16 + zlen l + 256 * 0). assert (Eh : hd = zlen o * 16 + zlen l) by (unfold hd; lia). clearbody hd.
    replace (hd =? 0) with false by lia. rewrite Z.shiftr_div_pow2 by lia. change 0xf with (Z.ones 4). rewrite Z.land_ones by lia. change (2 ^ 4) with 16.
    replace (hd / 16) with (zlen o) by (clear - Eh Hl Ho; lia). replace (hd mod 16) with (zlen l) by (clear - Eh Hl Ho; lia). cbv zeta.
    replace (zlen l =? 0) with false by lia. replace (zlen o =? 0) with false by lia. cbn [negb].
    replace (8 * p + 8) with (8 * (p + 1)) by lia. rewrite (Z.mul_comm (zlen l) 8). rewrite (whole_le read data Hr Hd) by lia. cbn [bind].
    replace (8 * (p + 1) + 8 * zlen l) with (8 * (p + 1 + zlen l)) by lia. rewrite (Z.mul_comm (zlen o) 8). rewrite (whole_le read data Hr Hd) by lia. cbn [bind].
    rewrite S2, S3. replace (8 * (p + 1 + zlen l) + 8 * zlen o) with (8 * (p + 1 + zlen l + zlen o)) by lia.
    replace (hd =? 0) with false by lia.
    destruct (IH (p + 1 + zlen l + zlen o) fuel) as (l0 & E1 & E2); [lia|lia|assumption|lia|]. rewrite E1. cbn [bind].
    eexists. split; [reflexivity|]. cbn [run_list]. unfold run_value.
    rewrite (Z.mul_comm 8 (zlen o)). assert (SG := signed_ok o (cluster - prev) ltac:(rewrite <- S3; apply is_bytes_sub; assumption) ltac:(lia) Eo). cbv zeta in SG. rewrite SG.
    replace (hd =? 0) with false by lia. cbn [negb]. replace (prev + (cluster - prev)) with cluster by lia. rewrite E2, <- le_value_ok, El. reflexivity.
Qed.
End Runs.
(** Without terminator, or with fields past the end, there is no endless loop. *)
Lemma readBits_string_not_fuel data addr n e : is_bytes data -> 0 <= addr -> 1 <= n -> readBits (string_read data) addr n e <> Err OutOfFuel.
Proof. intros Hd Ha Hn. rewrite readBits_string_spec by assumption. destruct (bits_available _ _ _ _); discriminate. Qed.
Lemma run_fields_any data p : is_bytes data -> 0 <= p ->
  match run_fields (string_read data) (8 * p) with
  | Err e => e <> OutOfFuel
  | Ok (_, _, _, a) => p + 1 <= zlen data /\ exists q, a = 8 * q /\ p < q
  end.
Proof.
  intros Hd Hp. unfold run_fields. rewrite readBits_string_spec by (auto; lia). destruct (bits_available data (8 * p) 8 LITTLE_ENDIAN) eqn:A; cbn [bind]; [|discriminate].
  unfold bits_available in A. set (h := bits_at data (8 * p) 8 LITTLE_ENDIAN).
  assert (Hh : 0 <= h) by (destruct (bits_at_bound data (8 * p) 8 LITTLE_ENDIAN) as [B _]; [lia..|unfold bits_available; lia|exact B]).
  destruct (h =? 0) eqn:E0; [split; [lia|]; exists (p + 1); lia|]. cbv zeta.
  assert (H1 : 0 <= Z.shiftr h 4) by (apply Z.shiftr_nonneg; assumption).
  assert (H2 : 0 <= Z.land h 0xf) by (apply Z.land_nonneg; lia).
  set (ol := Z.shiftr h 4) in *. set (ll := Z.land h 0xf) in *. clearbody ol ll.
  assert (X : forall a n, 0 <= a -> 1 <= n -> match readBits (string_read data) a n LITTLE_ENDIAN with Err e => e <> OutOfFuel | Ok _ => True end).
  { intros a n Ha Hn. rewrite readBits_string_spec by assumption. destruct (bits_available _ _ _ _); [exact I|discriminate]. }
  assert (X1 := X (8 * p + 8) (ll * 8)). assert (X2 := X (8 * p + 8 + ll * 8) (ol * 8)).
  destruct (ll =? 0) eqn:E1; destruct (ol =? 0) eqn:E2; cbn [negb bind].
  - split; [lia|]. exists (p + 1 + ll + ol). lia.
  - destruct (readBits (string_read data) (8 * p + 8 + ll * 8) (ol * 8) LITTLE_ENDIAN); cbn [bind]; [split; [lia|]; exists (p + 1 + ll + ol); lia|]. apply X2; lia.
  - destruct (readBits (string_read data) (8 * p + 8) (ll * 8) LITTLE_ENDIAN); cbn [bind]; [split; [lia|]; exists (p + 1 + ll + ol); lia|]. apply X1; lia.
  - destruct (readBits (string_read data) (8 * p + 8) (ll * 8) LITTLE_ENDIAN); cbn [bind]; [|apply X1; lia].
    destruct (readBits (string_read data) (8 * p + 8 + ll * 8) (ol * 8) LITTLE_ENDIAN); cbn [bind]; [split; [lia|]; exists (p + 1 + ll + ol); lia|]. apply X2; lia.
Qed.
Lemma run_entries_fuel data : is_bytes data -> forall fuel p, 0 <= p -> Z.max 0 (zlen data - p) < Z.of_nat fuel -> run_entries fuel (string_read data) (8 * p) <> Err OutOfFuel.
Proof.
  intros Hd. induction fuel as [|fuel IH]; intros p Hp Hf.
  - exfalso. lia.
  - cbn [run_entries]. pose proof (run_fields_any data p Hd Hp) as H. destruct (run_fields (string_read data) (8 * p)) as [[[[h l] o] a]|e]; cbn [bind]; [|congruence].
    destruct H as (H1 & q & -> & Hq). destruct (h =? 0); [discriminate|].
    specialize (IH q ltac:(lia) ltac:(lia)). destruct (run_entries fuel (string_read data) (8 * q)); cbn [bind]; congruence.
Qed.

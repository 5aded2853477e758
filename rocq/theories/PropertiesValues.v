(** C61-C65: padding, MS-DOS dates, addresses and identifiers, NTFS run lists, MBR cylinders. *)
From Coq Require Import String.
From Verif Require Import Base BaseProofs BitsModel BitsSpec BitsSpec2 BitsProofs BitsProofs2 StreamModel StreamSpec StreamProofs DictModel DictProofs FieldModel FieldNames HumanModel Lit ValueModel ValueSpec ValueProofs.
Open Scope Z_scope.
Ltac Zify.zify_post_hook ::= Z.div_mod_to_equations.

(** ** C61 *)
Lemma C61_loop : forall read data p n m pattern, serves read data -> 0 <= p -> 1 <= n <= 4096 -> p + n <= zlen data -> pattern <> [] -> (if 4096 <? m then 4096 else m) = n ->
  exists s, check_bytes true read (8 * p) m (Some pattern) = Ok s /\
    match s with
    | Pattern => repeats pattern (sub data p n)
    | Content w => ~ repeats pattern (sub data p n) /\ exists k, let i := Z.of_nat k * zlen pattern in
        w = Some i /\ i < n /\ repeats pattern (sub data p i) /\ sub data (p + i) (Z.min (zlen pattern) (n - i)) <> pattern
    end.
Proof.
  intros read data p n m pattern Hr Hp Hn Hl Hpat Hm. unfold check_bytes. cbn [negb]. rewrite Hm.
  rewrite (readBytes_serves read data) by (auto; lia). cbn [bind].
  destruct (pattern_loop_ok pattern Hpat (S (List.length (sub data p n))) (sub data p n) 0 ltac:(lia)) as (w & E1 & E2). rewrite E1. cbn [bind].
  eexists. split; [reflexivity|]. destruct w as [i|]; [|exact E2]. destruct E2 as (k & rest & S1 & S2 & S3 & S4).
  split; [rewrite S1; apply repeats_not; assumption|].
  assert (LC : zlen (List.concat (List.repeat pattern k)) = Z.of_nat k * zlen pattern).
  { clear. induction k as [|k IH]; [reflexivity|]. cbn [List.repeat List.concat]. rewrite zlen_app, IH. lia. }
  assert (L : zlen (sub data p n) = n) by (apply zlen_sub_exact; lia). rewrite S1, zlen_app, LC in L.
  assert (R : 0 < zlen rest) by (destruct rest; [congruence|rewrite zlen_cons; pose proof (zlen_nonneg rest); lia]).
  pose proof (zlen_nonneg pattern) as NP. assert (NK : 0 <= Z.of_nat k * zlen pattern) by nia.
  exists k. cbv zeta. set (j := Z.of_nat k * zlen pattern) in *. split; [f_equal; lia|]. split; [lia|]. split.
  - exists k. replace (sub data p j) with (sub (sub data p n) 0 j) by (rewrite sub_sub by lia; f_equal; lia).
    rewrite S1, sub_app_l by lia. rewrite <- LC. apply sub_all.
  - intros X. apply S4.
    replace (sub data (p + j) (Z.min (zlen pattern) (n - j))) with (sub (sub data p n) j (Z.min (zlen pattern) (n - j))) in X by (rewrite sub_sub by lia; f_equal; lia).
    rewrite S1, sub_app_r in X by lia. rewrite LC in X. replace (j - j) with 0 in X by lia. clearbody j.
    replace (Z.min (zlen pattern) (n - j)) with (Z.min (zlen pattern) (zlen rest)) in X by lia.
    unfold sub in X. cbn [Z.to_nat skipn] in X. rewrite <- X at 2. unfold zlen. destruct (Nat.le_ge_cases (List.length pattern) (List.length rest)) as [C|C].
    + f_equal. lia.
    + rewrite !firstn_all2 by lia. reflexivity.
Qed.
(** A padding of at most 4096 bytes is shown as its pattern exactly when it is
    the pattern again and again; else the warning gives the first place, at a multiple of the
    length of the pattern, where the pattern does not go on. *)
Theorem C61_bytes : forall read data p n pattern, serves read data -> 0 <= p -> 1 <= n <= 4096 -> p + n <= zlen data -> pattern <> [] ->
  exists s, check_bytes true read (8 * p) n (Some pattern) = Ok s /\
    match s with
    | Pattern => repeats pattern (sub data p n)
    | Content w => ~ repeats pattern (sub data p n) /\ exists k, let i := Z.of_nat k * zlen pattern in
        w = Some i /\ i < n /\ repeats pattern (sub data p i) /\ sub data (p + i) (Z.min (zlen pattern) (n - i)) <> pattern
    end.
Proof. intros. apply C61_loop; auto. replace (4096 <? n) with false by lia. reflexivity. Qed.
Print Assumptions C61_bytes.
Example C61_ex : check_bytes true (string_read [1; 7; 8; 7; 8; 7; 9]) 8 6 (Some [7; 8]) = Ok (Content (Some 4)) /\
  check_bytes true (string_read [1; 7; 8; 7; 8; 7; 9]) 8 4 (Some [7; 8]) = Ok Pattern.
Proof. split; vm_compute; reflexivity. Qed.
(** Of a larger one only the first 4096 bytes are looked at. *)
Theorem C61_large : forall read data p n pattern, serves read data -> 0 <= p -> 4096 < n -> p + n <= zlen data -> pattern <> [] ->
  (check_bytes true read (8 * p) n (Some pattern) = Ok Pattern <-> repeats pattern (sub data p 4096)).
Proof.
  intros read data p n pattern Hr Hp Hn Hl Hpat. destruct (C61_loop read data p 4096 n pattern Hr Hp ltac:(lia) ltac:(lia) Hpat) as (s & E1 & E2); [replace (4096 <? n) with true by lia; reflexivity|].
  rewrite E1. destruct s; split; intros X; [assumption|reflexivity|discriminate|]. destruct E2 as [E2 _]. contradiction.
Qed.
Print Assumptions C61_large.
(** So a field of null bytes is shown as "<null>" although its byte 4096 is not null. *)
Theorem C61_large_refuted : exists data, zlen data = 4097 /\ check_bytes true (string_read data) 0 4097 (Some [0]) = Ok Pattern /\ ~ repeats [0] data.
Proof.
  exists (List.repeat 0 4096 ++ [1]). split; [vm_compute; reflexivity|]. split; [vm_compute; reflexivity|].
  intros (n & E). assert (In 1 (List.repeat 0 4096 ++ [1])) as I by (apply in_or_app; right; left; reflexivity). rewrite E in I.
  apply in_concat in I. destruct I as (x & I1 & I2). apply List.repeat_spec in I1. subst x. destruct I2 as [I2|[]]. discriminate.
Qed.
Print Assumptions C61_large_refuted.
(** An empty pattern is compared for ever. *)
Theorem C61_empty_refuted : forall fuel content index, content <> [] -> pattern_loop fuel [] content index = Err OutOfFuel.
Proof.
  induction fuel as [|fuel IH]; intros content index H; [reflexivity|]. destruct content as [|c content]; [congruence|]. cbn [pattern_loop List.length firstn skipn]. cbn [str_eqb negb]. apply IH. discriminate.
Qed.
Print Assumptions C61_empty_refuted.
(** A padding of at most 128 bits is shown as null exactly when all its bits are. *)
Theorem C61_bits : forall read data addr n e, serves read data -> is_bytes data -> 0 <= addr -> 1 <= n <= 128 -> bits_available data addr n e = true ->
  check_bits true read addr n e (Some 0) = Ok (if bits_at data addr n e =? 0 then Pattern else Content (Some 0)).
Proof.
  intros read data addr n e Hr Hd Ha Hn Hb. unfold check_bits. cbn [negb]. replace (128 <? n) with false by lia.
  rewrite (readBits_serves read data) by (auto; lia). cbn [bind]. destruct (bits_at data addr n e =? 0); reflexivity.
Qed.
Print Assumptions C61_bits.
(** Of a larger one only the first 128 bits. *)
Theorem C61_bits_refuted : exists data, check_bits true (string_read data) 0 129 BIG_ENDIAN (Some 0) = Ok Pattern /\ bits_at data 0 129 BIG_ENDIAN <> 0.
Proof. exists (List.repeat 0 16 ++ [128]). split; vm_compute; [reflexivity|discriminate]. Qed.
Print Assumptions C61_bits_refuted.
(** Without the check, or without pattern, the content is shown. *)
Theorem C61_off : forall read addr n e pattern, (forall p, check_bytes false read addr n p = Ok (Content None)) /\ check_bytes true read addr n None = Ok (Content None) /\
  (forall p, check_bits false read addr n e p = Ok (Content None)) /\ (pattern <> Some 0 -> check_bits true read addr n e pattern = Ok (Content None)).
Proof.
  intros. repeat split; intros; try reflexivity. unfold check_bits. cbn [negb]. destruct pattern as [[| |]|]; try reflexivity. congruence.
Qed.
Print Assumptions C61_off.

(** ** C62 *)
(** Every date and time of 1980-2107, to two seconds, is read back from its two
    MS-DOS words, in either order. *)
Theorem C62_msdos : forall read data p y mo d h mi s, serves read data -> is_bytes data -> 0 <= p -> p + 4 <= zlen data ->
  1980 <= y <= 2107 -> date_ok y mo d -> time_ok h mi s -> s mod 2 = 0 ->
  (sub data p 4 = word_le (dos_time h mi s) ++ word_le (dos_date y mo d) -> TimeDateMSDOS32 read LITTLE_ENDIAN (8 * p) = Ok (moment y mo d h mi s 0)) /\
  (sub data p 4 = word_le (dos_date y mo d) ++ word_le (dos_time h mi s) -> DateTimeMSDOS32 read LITTLE_ENDIAN (8 * p) = Ok (moment y mo d h mi s 0)).
Proof. intros. split; intros; [eapply time_date_ok|eapply date_time_ok]; eassumption. Qed.
Print Assumptions C62_msdos.
(** 2006-07-09 13:52:30 *)
Example C62_ex : word_le (dos_time 13 52 30) ++ word_le (dos_date 2006 7 9) = [0x8F; 0x6E; 0xE9; 0x34] /\ date_ok 2006 7 9 /\ time_ok 13 52 30 /\
  TimeDateMSDOS32 (string_read [0x8F; 0x6E; 0xE9; 0x34]) LITTLE_ENDIAN 0 = Ok (moment 2006 7 9 13 52 30 0).
Proof. split; [reflexivity|]. split; [unfold date_ok; cbn; lia|]. split; [unfold time_ok; lia|]. vm_compute. reflexivity. Qed.
(** Whatever the bytes, the answer is a date that exists or a ValueError. *)
Theorem C62_any : forall read data p, serves read data -> is_bytes data -> 0 <= p -> p + 4 <= zlen data ->
  forall r, (r = TimeDateMSDOS32 read LITTLE_ENDIAN (8 * p) \/ r = DateTimeMSDOS32 read LITTLE_ENDIAN (8 * p)) ->
  match r with
  | Ok t => exists y mo d h mi s, 1980 <= y <= 2107 /\ date_ok y mo d /\ time_ok h mi s /\ s mod 2 = 0 /\ t = moment y mo d h mi s 0
  | Err e => e = ValueError
  end.
Proof.
  intros read data p Hr Hd Hp Hl r H.
  assert (X : exists y mo d h mi s, 0 <= y < 128 /\ r = dos_datetime y mo d h mi s).
  { assert (M : forall v, 0 <= v mod 2 ^ 7 < 128) by (intros v; apply (Z.mod_pos_bound v 128); lia).
    destruct H as [-> | ->]; unfold TimeDateMSDOS32, DateTimeMSDOS32;
      rewrite <- (Z.add_0_r (8 * p)), (fields_le read data p Hr Hd Hp 4) by (first [lia|repeat constructor; lia|cbn [fold_right]; lia]); cbn [bind]; do 6 eexists; (split; [|reflexivity]); apply M. }
  destruct X as (y & mo & d & h & mi & s & Hy & ->). unfold dos_datetime. destruct (py_datetime _ _ _ _ _ _ _) as [t|e] eqn:E.
  - apply py_datetime_inv in E. destruct E as ((E1 & E2 & E3 & E4) & ->). exists (1980 + y). do 5 eexists. split; [lia|]. split; [exact E2|]. split; [exact E3|]. split; [lia|reflexivity].
  - apply py_datetime_err in E. apply E.
Qed.
Print Assumptions C62_any.
(** No date (all bytes null, as in many archives) is shown as the first of January 1980. *)
Theorem C62_null_refuted : TimeDateMSDOS32 (string_read [0; 0; 0; 0]) LITTLE_ENDIAN 0 = Ok (moment 1980 1 1 0 0 0 0).
Proof. vm_compute. reflexivity. Qed.
Print Assumptions C62_null_refuted.
(** The dates of a FAT directory: creation to 10 milliseconds, access to the
    day, modification to two seconds. *)
Theorem C62_fat : forall read data p y mo d h mi s c, serves read data -> is_bytes data -> 0 <= p ->
  1980 <= y <= 2107 -> date_ok y mo d -> time_ok h mi s -> 0 <= c < 100 ->
  (p + 5 <= zlen data -> sub data p 5 = [100 * (s mod 2) + c] ++ word_le (dos_time h mi s) ++ word_le (dos_date y mo d) -> fat_create read (8 * p) = Ok (At (moment y mo d h mi s (10000 * c)))) /\
  (p + 2 <= zlen data -> sub data p 2 = word_le (dos_date y mo d) -> fat_access read (8 * p) = Ok (At (moment y mo d 0 0 0 0))) /\
  (p + 4 <= zlen data -> s mod 2 = 0 -> sub data p 4 = word_le (dos_time h mi s) ++ word_le (dos_date y mo d) -> fat_modify read (8 * p) = Ok (At (moment y mo d h mi s 0))).
Proof. intros. split; [|split]; intros; [eapply fat_create_ok|eapply fat_access_ok|eapply fat_modify_ok]; eassumption. Qed.
Print Assumptions C62_fat.
Example C62_fat_ex : fat_create (string_read ([142] ++ word_le (dos_time 13 52 31) ++ word_le (dos_date 2006 7 9))) 0 = Ok (At (moment 2006 7 9 13 52 31 420000)) /\
  fat_access (string_read [0; 0]) 0 = Ok NoDate /\ fat_modify (string_read [0; 0; 0xFF; 0xFF]) 0 = Ok InvalidDate.
Proof. repeat split; vm_compute; reflexivity. Qed.

(** ** C63 *)
Definition decimal (t : str) (b : Z) : Prop := t <> [] /\ Forall digit t /\ undec 0 t = b /\ (forall l, t = 48 :: l -> l = []).
Lemma dec_byte b : is_byte b -> decimal (dec b) b.
Proof.
  intros H. assert (B : 0 <= b) by (unfold is_byte in H; lia). destruct (dec_spec b B) as (D1 & D2 & D3). repeat split; try assumption.
  assert (F := byte_forall (fun b => match dec b with 48 :: _ :: _ => false | _ => true end) ltac:(vm_compute; reflexivity) b H). cbv beta in F.
  intros l E. rewrite E in F. destruct l; [reflexivity|discriminate].
Qed.
(** An IPv4 address is the four bytes in decimal. *)
Theorem C63_ipv4 : forall read data p, serves read data -> is_bytes data -> 0 <= p -> p + 4 <= zlen data ->
  exists a b c d ta tb tc td, sub data p 4 = [a; b; c; d] /\ decimal ta a /\ decimal tb b /\ decimal tc c /\ decimal td d /\
    IPv4_Address read (8 * p) = Ok (ta ++ lit "." ++ tb ++ lit "." ++ tc ++ lit "." ++ td).
Proof.
  intros read data p Hr Hd Hp Hl. unfold IPv4_Address. rewrite (readBytes_serves read data) by (auto; lia). cbn [bind].
  assert (L : zlen (sub data p 4) = 4) by (apply zlen_sub_exact; lia). assert (B : is_bytes (sub data p 4)) by (apply is_bytes_sub; assumption).
  destruct (sub data p 4) as [|a [|b [|c [|d [|e l]]]]]; try (unfold zlen in L; cbn [List.length] in L; lia).
  assert (B1 := Forall_inv B). assert (B' := Forall_inv_tail B). assert (B2 := Forall_inv B'). assert (B'' := Forall_inv_tail B'). assert (B3 := Forall_inv B''). assert (B4 := Forall_inv (Forall_inv_tail B'')).
  exists a, b, c, d, (dec a), (dec b), (dec c), (dec d). repeat (split; [first [reflexivity|apply dec_byte; assumption]|]). reflexivity.
Qed.
Print Assumptions C63_ipv4.
Example C63_ipv4_ex : IPv4_Address (string_read [127; 0; 10; 255]) 0 = Ok (lit "127.0.10.255").
Proof. vm_compute. reflexivity. Qed.
(** An IPv6 address is made of the eight groups of two bytes, in big endian. *)
Theorem C63_ipv6 : forall read data p, serves read data -> is_bytes data -> 0 <= p -> p + 16 <= zlen data ->
  exists ws, sub data p 16 = flat_map (fun w => [fst w; snd w]) ws /\ List.length ws = 8%nat /\
    IPv6_Address read (8 * p) BIG_ENDIAN = Ok (join (lit ":") (map (fun w => hex_text lower [fst w; snd w]) ws)).
Proof.
  intros read data p Hr Hd Hp Hl. unfold IPv6_Address. change 128 with (8 * 16). rewrite (whole_be read data Hr Hd) by lia. cbn [bind].
  assert (L : zlen (sub data p 16) = 16) by (apply zlen_sub_exact; lia). assert (B : is_bytes (sub data p 16)) by (apply is_bytes_sub; assumption).
  assert (W : forall n (l : list Z), List.length l = (2 * n)%nat -> is_bytes l -> exists ws, l = flat_map (fun w => [fst w; snd w]) ws /\ List.length ws = n /\ Forall (fun w => is_byte (fst w) /\ is_byte (snd w)) ws).
  { clear. induction n as [|n IH]; intros l E F; [destruct l; [exists []; repeat split; constructor|discriminate]|].
    destruct l as [|x [|y l]]; [cbn in E; lia|cbn in E; lia|]. destruct (IH l) as (ws & -> & E2 & E3); [cbn [List.length] in E; lia|exact (Forall_inv_tail (Forall_inv_tail F))|].
    exists ((x, y) :: ws). cbn [flat_map fst snd app List.length]. repeat split; [congruence|]. constructor; [|assumption]. split; [exact (Forall_inv F)|exact (Forall_inv (Forall_inv_tail F))]. }
  destruct (W 8%nat (sub data p 16)) as (ws & E1 & E2 & E3); [unfold zlen in L; lia|assumption|]. exists ws. split; [assumption|]. split; [assumption|].
  rewrite E1. rewrite <- E2. rewrite ipv6_parts_ok by assumption. rewrite rev_involutive. reflexivity.
Qed.
Print Assumptions C63_ipv6.
Example C63_ipv6_ex : IPv6_Address (string_read [0x20; 0x01; 0x0D; 0xB8; 0; 0; 0; 0; 0; 0; 0; 0; 0; 0; 0xAB; 0x12]) 0 BIG_ENDIAN = Ok (lit "2001:0db8:0000:0000:0000:0000:0000:ab12").
Proof. vm_compute. reflexivity. Qed.
(** In a little-endian field set the address is shown backwards. *)
Theorem C63_ipv6_refuted : IPv6_Address (string_read [0x20; 0x01; 0x0D; 0xB8; 0; 0; 0; 0; 0; 0; 0; 0; 0; 0; 0xAB; 0x12]) 0 LITTLE_ENDIAN = Ok (lit "12ab:0000:0000:0000:0000:0000:b80d:0120").
Proof. vm_compute. reflexivity. Qed.
Print Assumptions C63_ipv6_refuted.
(** A MAC address is the six bytes in hexadecimal. *)
Theorem C63_mac : forall read data p, serves read data -> is_bytes data -> 0 <= p -> p + 6 <= zlen data ->
  MAC48_Address read (8 * p) = Ok (join (lit ":") (map (fun b => hex_text lower [b]) (sub data p 6))).
Proof.
  intros read data p Hr Hd Hp Hl. unfold MAC48_Address. rewrite (readBytes_serves read data) by (auto; lia). cbn [bind].
  assert (L : zlen (sub data p 6) = 6) by (apply zlen_sub_exact; lia). assert (B : is_bytes (sub data p 6)) by (apply is_bytes_sub; assumption).
  assert (Q : forall b, is_byte b -> hexn hex_lower 2 b = hex_text lower [b]).
  { intros b Hb. replace b with (from_bytes_big [b]) at 1 by (unfold from_bytes_big; cbn [fold_left]; clear; lia). apply (hexn_bytes hex_lower lower hex_lower_nth [b]). repeat constructor; apply Hb. }
  f_equal. destruct (sub data p 6) as [|a [|b [|c [|d [|e [|f [|g l]]]]]]]; try (unfold zlen in L; cbn [List.length] in L; lia).
  cbn [flat_map map join]. do 6 (assert (X := Forall_inv B); rewrite (Q _ X); clear X; apply Forall_inv_tail in B). reflexivity.
Qed.
Print Assumptions C63_mac.
Example C63_mac_ex : MAC48_Address (string_read [0; 0x1A; 0x2B; 0xFF; 9; 0x90]) 0 = Ok (lit "00:1a:2b:ff:09:90").
Proof. vm_compute. reflexivity. Qed.
(** A GUID of a little-endian file: the first three groups are integers, the others
    bytes (Windows); of a big-endian one: all bytes in order (RFC 4122). *)
Theorem C63_guid : forall read data p, serves read data -> is_bytes data -> 0 <= p -> p + 16 <= zlen data ->
  GUID read (8 * p) LITTLE_ENDIAN = Ok (join (lit "-") [hex_text upper (rev (sub data p 4)); hex_text upper (rev (sub data (p + 4) 2)); hex_text upper (rev (sub data (p + 6) 2));
    hex_text upper (sub data (p + 8) 2); hex_text upper (sub data (p + 10) 6)]) /\
  GUID read (8 * p) BIG_ENDIAN = Ok (join (lit "-") [hex_text upper (sub data p 4); hex_text upper (sub data (p + 4) 2); hex_text upper (sub data (p + 6) 2);
    hex_text upper (sub data (p + 8) 2); hex_text upper (sub data (p + 10) 6)]).
Proof.
  intros read data p Hr Hd Hp Hl. unfold GUID.
  replace (8 * p + 32) with (8 * (p + 4)) by lia. replace (8 * p + 48) with (8 * (p + 6)) by lia. replace (8 * p + 64) with (8 * (p + 8)) by lia. replace (8 * p + 80) with (8 * (p + 10)) by lia.
  assert (R1 : forall q, 0 <= q -> q + 4 <= zlen data -> readBits read (8 * q) 32 LITTLE_ENDIAN = Ok (from_bytes_little (sub data q 4)) /\ readBits read (8 * q) 32 BIG_ENDIAN = Ok (from_bytes_big (sub data q 4))) by (intros q Q1 Q2; split; [apply (whole_le read data Hr Hd q 4)|apply (whole_be read data Hr Hd q 4)]; lia).
  assert (R2 : forall q, 0 <= q -> q + 2 <= zlen data -> readBits read (8 * q) 16 LITTLE_ENDIAN = Ok (from_bytes_little (sub data q 2)) /\ readBits read (8 * q) 16 BIG_ENDIAN = Ok (from_bytes_big (sub data q 2))) by (intros q Q1 Q2; split; [apply (whole_le read data Hr Hd q 2)|apply (whole_be read data Hr Hd q 2)]; lia).
  destruct (R1 p) as [-> ->]; [lia..|]. destruct (R2 (p + 4)) as [-> ->]; [lia..|]. destruct (R2 (p + 6)) as [-> ->]; [lia..|].
  rewrite !(readBytes_serves read data) by (auto; lia). cbn [bind].
  assert (B : forall q n, is_bytes (sub data q n)) by (intros; apply is_bytes_sub; assumption).
  assert (N : forall q n, 0 <= q -> 0 <= n -> q + n <= zlen data -> List.length (sub data q n) = Z.to_nat n) by (intros q n ? ? ?; pose proof (zlen_sub_exact data q n) as E; unfold zlen in E; lia).
  rewrite !str2hex_text by apply B. cbn [join app].
  split; f_equal.
  - rewrite <- !(hex_text_rev_le hex_digit upper hex_upper_nth) by apply B. rewrite !N by lia. reflexivity.
  - rewrite <- !(hexn_bytes hex_digit upper hex_upper_nth (sub data p 4)), <- !(hexn_bytes hex_digit upper hex_upper_nth (sub data (p + 4) 2)), <- !(hexn_bytes hex_digit upper hex_upper_nth (sub data (p + 6) 2)) by apply B. rewrite !N by lia. reflexivity.
Qed.
Print Assumptions C63_guid.
(** The CLSID of a shortcut. *)
Example C63_guid_ex : GUID (string_read [0x01; 0x14; 0x02; 0; 0; 0; 0; 0; 0xC0; 0; 0; 0; 0; 0; 0; 0x46]) 0 LITTLE_ENDIAN = Ok (lit "00021401-0000-0000-C000-000000000046").
Proof. vm_compute. reflexivity. Qed.
(** The version is the first digit of the third group (RFC 4122), in little endian... *)
Theorem C63_version : forall read data p, serves read data -> is_bytes data -> 0 <= p -> p + 16 <= zlen data ->
  exists b, sub data (p + 7) 1 = [b] /\ guid_version read (8 * p) LITTLE_ENDIAN = Ok (b / 16).
Proof.
  intros read data p Hr Hd Hp Hl. assert (L : zlen (sub data (p + 7) 1) = 1) by (apply zlen_sub_exact; lia). assert (B : is_bytes (sub data (p + 7) 1)) by (apply is_bytes_sub; assumption).
  unfold guid_version. replace (8 * p + 32 + 16 + 12) with (8 * (p + 7) + 4) by lia. rewrite (local_le read data Hr Hd (p + 7) 1 4 4) by lia.
  destruct (sub data (p + 7) 1) as [|b [|c l]]; try (unfold zlen in L; cbn [List.length] in L; lia). exists b. split; [reflexivity|].
  apply Forall_inv in B. unfold is_byte in B. unfold from_bytes_little. cbn [fold_right]. change (2 ^ 4) with 16. f_equal. lia.
Qed.
Print Assumptions C63_version.
(** ... but in big endian another digit of it is taken for the version, and in
    little endian the variant is read in the low bits of its byte instead of the high ones. *)
Theorem C63_version_refuted : (exists data, sub data 6 1 = [0x41] /\ guid_version (string_read data) 0 BIG_ENDIAN <> Ok 4) /\
  exists data, sub data 8 1 = [0x80] /\ guid_variant (string_read data) 0 LITTLE_ENDIAN = Ok 0.
Proof.
  split; exists ([0; 0; 0; 0; 0; 0; 0x41; 0x23; 0x80] ++ List.repeat 0 7); (split; [reflexivity|]); vm_compute; [discriminate|reflexivity].
Qed.
Print Assumptions C63_version_refuted.

(** ** C64 *)
(** Every list of runs comes back from its bytes, whatever the widths chosen for the
    lengths and offsets. *)
Theorem C64_runs : forall read data p runs bytes, serves read data -> is_bytes data -> 0 <= p -> p + zlen bytes <= zlen data -> sub data p (zlen bytes) = bytes ->
  run_bytes 0 runs bytes -> forall fuel, zlen bytes <= Z.of_nat fuel -> RunList fuel read (8 * p) = Ok runs.
Proof.
  intros read data p runs bytes Hr Hd Hp Hl E H fuel Hf. unfold RunList. destruct (run_entries_ok read data Hr Hd 0 runs bytes H p fuel Hp Hl E Hf) as (l & E1 & E2). rewrite E1. cbn [bind]. rewrite E2. reflexivity.
Qed.
Print Assumptions C64_runs.
(** A run of 0x18 clusters at 0x5634, then one of 0x338 at 0x5634-0x10. *)
Lemma C64_ex_bytes : run_bytes 0 [(0x18, 0x5634); (0x338, 0x5624)] [0x21; 0x18; 0x34; 0x56; 0x12; 0x38; 0x03; 0xF0; 0].
Proof.
  apply (rb_run 0 0x18 0x5634 _ [0x18] [0x34; 0x56]); [vm_compute; split; discriminate..|reflexivity|split; [vm_compute; split; [discriminate|reflexivity]|reflexivity]|].
  apply (rb_run 0x5634 0x338 0x5624 _ [0x38; 0x03] [0xF0]); [vm_compute; split; discriminate..|reflexivity|split; [vm_compute; split; [discriminate|reflexivity]|reflexivity]|]. constructor.
Qed.
Example C64_ex : RunList 9 (string_read [0x21; 0x18; 0x34; 0x56; 0x12; 0x38; 0x03; 0xF0; 0]) 0 = Ok [(0x18, 0x5634); (0x338, 0x5624)].
Proof. vm_compute. reflexivity. Qed.
(** On any bytes the list ends: with a value or with an error of the stream. *)
Theorem C64_any : forall data p fuel, is_bytes data -> 0 <= p -> Z.max 0 (zlen data - p) < Z.of_nat fuel -> RunList fuel (string_read data) (8 * p) <> Err OutOfFuel.
Proof.
  intros data p fuel Hd Hp Hf. unfold RunList. pose proof (run_entries_fuel data Hd fuel p Hp Hf). destruct (run_entries fuel (string_read data) (8 * p)); cbn [bind]; congruence.
Qed.
Print Assumptions C64_any.
(** A hole (a sparse run has no offset) is given the clusters of the run before it. *)
Theorem C64_sparse_refuted : RunList 9 (string_read [0x11; 4; 100; 0x01; 8; 0]) 0 = Ok [(4, 100); (8, 100)].
Proof. vm_compute. reflexivity. Qed.
Print Assumptions C64_sparse_refuted.

(** ** C65 *)
(** The sector is in the low six bits of a byte, the cylinder in the high two bits of
    it and the next byte. *)
Theorem C65_cylinder : forall read data p sector cylinder, serves read data -> is_bytes data -> 0 <= p -> p + 2 <= zlen data ->
  0 <= sector < 64 -> 0 <= cylinder < 1024 -> sub data p 2 = [sector + 64 * (cylinder / 256); cylinder mod 256] ->
  partition_start read (8 * p) = Ok (sector, cylinder).
Proof.
  intros read data p sector cylinder Hr Hd Hp Hl Hs Hc E. unfold partition_start, CylinderNumber.
  rewrite <- (Z.add_0_r (8 * p)) at 1. rewrite (local_le read data Hr Hd p 2 0 6) by lia. rewrite (local_le read data Hr Hd p 2 6 10) by lia. rewrite E. cbn [bind].
  unfold from_bytes_little. cbn [fold_right]. change (2 ^ 0) with 1. change (2 ^ 6) with 64. change (2 ^ 10) with 1024.
  set (V := sector + 64 * (cylinder / 256) + 256 * (cylinder mod 256 + 256 * 0)).
  assert (V1 : V / 1 mod 64 = sector) by (unfold V; lia). rewrite V1.
  set (i := V / 64 mod 1024). assert (Ei : i = cylinder / 256 + 4 * (cylinder mod 256)) by (unfold i, V; lia). clearbody i.
  do 2 f_equal. rewrite Z.shiftr_div_pow2, Z.shiftl_mul_pow2 by lia. change (2 ^ 2) with 4. change (2 ^ 8) with 256.
  replace (i / 4) with (cylinder mod 256) by lia. replace (i mod 4) with (cylinder / 256) by lia.
  pose proof (lor_add_disjoint (cylinder / 256) (cylinder mod 256) 8) as D. change (2 ^ 8) with 256 in D. rewrite Z.lor_comm, D; clear; lia.
Qed.
Print Assumptions C65_cylinder.
Example C65_ex : partition_start (string_read [0xFF; 0x7F]) 0 = Ok (63, 895).
Proof. vm_compute. reflexivity. Qed.

(** C42-C45 and C52: sizes, durations, timestamps, modes, newlines and printable texts. *)
From Coq Require Import String.
From Verif Require Import Base DictModel BitsModel FieldModel Lit FloatModel HumanModel HumanSpec HumanProofs HumanProofs2 HumanProofs3 HumanProofs4 PrintModel PrintSpec PrintProofs.

(** ** C42: sizes and durations *)
(** A file size up to 2^53 bytes: below 10000 the exact number of bytes, else
    the number in the largest unit KB, MB, GB, TB that does not exceed it, within
    half of the printed digit; beyond 1024 TB the truncated number of TB.
    Partial: larger sizes (inexact floats) are not covered. *)
Theorem C42_filesize_partial : forall n, 0 <= n <= 2 ^ 53 -> exists text, humanFilesize n = Ok text /\
  ((n < 10000 /\ text = dec n ++ lit " bytes") \/
   (10000 <= n /\ exists k, 1 <= k <= 4 /\ (k = 1 \/ 1024 ^ k <= n) /\ n < 1024 ^ (k + 1) /\
      size_text 1024 [lit "KB"; lit "MB"; lit "GB"; lit "TB"] n k text) \/
   (1024 ^ 5 <= n /\ text = dec (n / 1024 ^ 4) ++ lit " TB")).
Proof.
  exact (fun n H => match Z_lt_dec n 10000 with
    | left Hlt => ex_intro _ (dec n ++ lit " bytes") (conj (filesize_small n Hlt) (or_introl (conj Hlt eq_refl)))
    | right Hge => filesize_big n H Hge end).
Qed.
Print Assumptions C42_filesize_partial.
Example C42_filesize_ex : 0 <= 5000000 <= 2 ^ 53 /\ humanFilesize 5000000 = Ok (lit "4.8 MB").
Proof. split; [lia|vm_compute; reflexivity]. Qed.

(** A bit size below 2^53/10: the same with units of 1000, and an error of at
    most half of the printed digit plus a rounding error 10n 2^-53. *)
Theorem C42_bitsize_partial : forall n, 0 <= n -> 10 * n < 2 ^ 53 -> exists text, humanBitSize n = Ok text /\
  ((n < 1000 /\ text = dec n ++ lit " bits") \/
   (exists k unit t, 1 <= k <= 4 /\ 1000 ^ k <= n < 1000 ^ (k + 1) /\
      nth_error [lit "Kbit"; lit "Mbit"; lit "Gbit"; lit "Tbit"] (Z.to_nat (k - 1)) = Some unit /\
      text = tenths t ++ lit " " ++ unit /\ 2 ^ 53 * (2 * Z.abs (t * 1000 ^ k - 10 * n) - 1000 ^ k) <= 200 * n)).
Proof.
  exact (fun n H H2 => match Z_lt_dec n 1000 with
    | left Hlt => ex_intro _ (dec n ++ lit " bits") (conj (bitsize_small n Hlt) (or_introl (conj Hlt eq_refl)))
    | right Hge => bitsize_big n H2 Hge end).
Qed.
Print Assumptions C42_bitsize_partial.
Example C42_bitsize_ex : 10 * 24589 < 2 ^ 53 /\ humanBitSize 24589 = Ok (lit "24.6 Kbit") /\ humanBitRate 24589 = Ok (lit "24.6 Kbit/sec").
Proof. split; [lia|split; vm_compute; reflexivity]. Qed.

(** A duration in milliseconds, over the whole range of timedelta: at most three
    parts, each with the largest unit that fits and the largest amount that fits,
    and the parts add up to the duration when there are less than three. *)
Theorem C42_duration : forall delta, 0 <= delta < 86400000 * 1000000000 -> exists text, humanDuration delta = Ok text /\
  ((delta = 0 /\ text = lit "0 ms") \/
   exists parts, parts <> [] /\ text = join (lit " ") (map part_text parts) /\ in_order (map snd parts) duration_units /\
     greedy delta parts /\ (length parts <= 3)%nat /\ ((length parts < 3)%nat -> total parts = delta)).
Proof. exact duration_lemma. Qed.
Print Assumptions C42_duration.
Example C42_duration_ex : humanDuration 3600000 = Ok (lit "1 hours") /\ humanDuration 10000000 = Ok (lit "2 hours 46 min 40 sec").
Proof. split; vm_compute; reflexivity. Qed.
(** The specification leaves no choice. *)
Theorem C42_unique : forall delta p q, greedy delta p -> greedy delta q ->
  in_order (map snd p) duration_units -> in_order (map snd q) duration_units -> length p = length q -> p = q.
Proof. exact (fun delta p q Hp Hq Ip Iq Hl => greedy_unique p q delta Hp Hq (in_order_in _ _ Ip) (in_order_in _ _ Iq) Hl). Qed.
Print Assumptions C42_unique.

(** Durations in nanoseconds: two decimals of the microseconds or milliseconds. *)
Theorem C42_nanosec : forall n, 0 <= n ->
  (n < 1000 -> humanDurationNanosec n = Ok (dec n ++ lit " nsec")) /\
  (1000 <= n < 1000000 -> exists t, humanDurationNanosec n = Ok (hundredths t ++ lit " usec") /\ Z.abs (10 * t - n) <= 5) /\
  (1000000 <= n < 1000000000 -> exists t, humanDurationNanosec n = Ok (hundredths t ++ lit " ms") /\ Z.abs (10 * t - n / 1000) <= 5) /\
  (1000000000 <= n -> humanDurationNanosec n = humanDuration (n / 1000000)).
Proof. exact nanosec_lemma. Qed.
Print Assumptions C42_nanosec.
Example C42_nanosec_ex : humanDurationNanosec 4512345 = Ok (lit "4.51 ms").
Proof. vm_compute. reflexivity. Qed.

(** ** C43: timestamps *)
Theorem C43_unix : forall v, timestampUNIX v = if (0 <=? v) && (v <=? 2147483647) then Ok (day 719162 + v * 1000000) else Err ValueError.
Proof. exact unix_lemma. Qed.
Print Assumptions C43_unix.
Theorem C43_mac : forall v, timestampMac32 v = if (0 <=? v) && (v <=? 4294967295) then Ok (Some (day 695055 + v * 1000000)) else Ok None.
Proof. exact mac_lemma. Qed.
Print Assumptions C43_mac.
(** Partial: the date is not always a nearest microsecond (see the refutation). *)
Theorem C43_win64_partial : tenth_us_timestamp (day 584388) timestampWin64.
Proof. exact win64_lemma. Qed.
Print Assumptions C43_win64_partial.
Theorem C43_uuid60_partial : tenth_us_timestamp (day 577735) timestampUUID60.
Proof. exact uuid_lemma. Qed.
Print Assumptions C43_uuid60_partial.
Theorem C43_duration_partial : forall v d, durationWin64 v = Ok d -> 0 <= v /\ 2 ^ 53 * (Z.abs (10 * d - v) - 5) <= v.
Proof. exact duration_win64_lemma. Qed.
Print Assumptions C43_duration_partial.
Theorem C43_millis : forall v, durationMillisWin64 v = if v <? 0 then Err ValueError else if v * 1000 <? day 1000000000 then Ok (v * 1000) else Err OtherError.
Proof. exact millis_lemma. Qed.
Print Assumptions C43_millis.
(** The timestamp of the documentation itself is one microsecond off. *)
Theorem C43_exact_refuted : exists v t, timestampUUID60 v = Ok t /\ 5 < Z.abs (10 * (t - day 577735) - v).
Proof. exact exact_witness. Qed.
Print Assumptions C43_exact_refuted.
(** Two distinct timestamps, 3 microseconds apart, give the same date. *)
Theorem C43_distinct_refuted : exists v w t, 30 <= w - v /\ timestampWin64 v = Ok t /\ timestampWin64 w = Ok t.
Proof. exact distinct_witness. Qed.
Print Assumptions C43_distinct_refuted.
Example C43_ex : timestampUNIX 1154175644 = Ok (day 719162 + 1154175644 * 1000000) /\ timestampUNIX (-1) = Err ValueError /\ timestampMac32 2843043290 = Ok (Some (day 695055 + 2843043290000000)) /\
  timestampWin64 127840491566710000 = Ok (day 584388 + 12784049156671000).
Proof. repeat split; vm_compute; reflexivity. Qed.

(** ** C44: modes *)
(** The type letter, the nine permission letters with the three special bits,
    and the mode in octal. *)
Theorem C44_text : forall m, 0 <= m -> exists type o, humanUnixAttributes m = mode_spec type m ++ lit " (" ++ o ++ lit ")" /\
  (forall c, In (m / 4096 mod 16, c) type_letters -> type = c) /\ (~ In (m / 4096 mod 16) (map fst type_letters) -> type = 63) /\
  unoct 0 o = m /\ Forall (fun d => 48 <= d < 56) o /\ (hd 0 o = 48 -> o = [48]).
Proof.
  exact (fun m H => match attributes_lemma m H with ex_intro _ o (conj E (conj U (conj _ (conj T1 T2)))) =>
    ex_intro _ (ftypelet m) (ex_intro _ o (conj E (conj (proj1 (ftypelet_lemma m H)) (conj (proj2 (ftypelet_lemma m H)) (conj U (conj T1 T2)))))) end).
Qed.
Print Assumptions C44_text.
(** The ten letters determine the twelve permission bits. *)
Theorem C44_injective : forall t m t' m', mode_spec t m = mode_spec t' m' -> t = t' /\ m mod 4096 = m' mod 4096.
Proof. exact mode_spec_inj. Qed.
Print Assumptions C44_injective.
Theorem C44_text_injective : forall m m', 0 <= m -> 0 <= m' -> humanUnixAttributes m = humanUnixAttributes m' -> m = m'.
Proof. exact attributes_inj. Qed.
Print Assumptions C44_text_injective.
Example C44_ex : humanUnixAttributes 0x81A4 = lit "-rw-r--r-- (100644)" /\ humanUnixAttributes 0x85FD = lit "-rwxrwsr-x (102775)" /\ humanUnixAttributes 0x43FF = lit "drwxrwxrwt (41777)".
Proof. repeat split; vm_compute; reflexivity. Qed.

(** ** C45: newlines *)
Theorem C45_newlines : forall text r, unix_newlines text r <-> r = normalizeNewline text.
Proof. exact newlines_lemma. Qed.
Print Assumptions C45_newlines.
Theorem C45_clean : forall text, ~ In 13 (normalizeNewline text) /\ forall a b, normalizeNewline text <> a ++ [10; 10] ++ b.
Proof. exact normalize_clean. Qed.
Print Assumptions C45_clean.
Theorem C45_fixed_points : forall text, (~ In 13 text /\ forall a b, text <> a ++ [10; 10] ++ b) <-> normalizeNewline text = text.
Proof. exact clean_normalize. Qed.
Print Assumptions C45_fixed_points.
Theorem C45_idempotent : forall text, normalizeNewline (normalizeNewline text) = normalizeNewline text.
Proof. exact (fun text => proj1 (clean_normalize _) (normalize_clean text)). Qed.
Print Assumptions C45_idempotent.
Example C45_ex : normalizeNewline [97; 13; 10; 13; 98; 10; 10; 99; 13] = [97; 10; 98; 10; 99; 10].
Proof. vm_compute. reflexivity. Qed.

(** ** C52: printable texts *)
(** The result contains no ASCII control character and only characters of the
    charset; for bytes and for the charset ASCII only printable ASCII. *)
Theorem C52_printable : forall is_bytes data cs quote smart, Forall is_char data -> (forall c, quote = Some c -> ascii_printable c) ->
  Forall (fun c => ~ control c) (makePrintable is_bytes data cs quote smart) /\
  Forall (fun c => encodable cs c = true) (makePrintable is_bytes data cs quote smart) /\
  (is_bytes = true \/ cs = ASCII -> Forall ascii_printable (makePrintable is_bytes data cs quote smart)).
Proof. exact printable_no_control. Qed.
Print Assumptions C52_printable.
(** For data without backslash, the result read as a string literal is the data. *)
Theorem C52_literal_partial : forall is_bytes data cs quote smart, data <> [] -> Forall is_char data -> ~ In 92 data ->
  (forall c, quote = Some c -> ascii_printable c /\ c <> 92) ->
  literal (makePrintable is_bytes data cs quote smart) (match quote with Some q => [q] ++ data ++ [q] | None => data end).
Proof. exact printable_literal. Qed.
Print Assumptions C52_literal_partial.
Theorem C52_unicode_partial : forall text, Forall is_char text -> ~ In 92 text -> literal (makeUnicode text) text.
Proof. exact unicode_literal. Qed.
Print Assumptions C52_unicode_partial.
(** A literal denotes one text. *)
Theorem C52_unique : forall t v v', literal t v -> literal t v' -> v = v'.
Proof. exact literal_unique. Qed.
Print Assumptions C52_unique.
(** Backslashes are not escaped: two different texts print alike. *)
Theorem C52_backslash_refuted : exists a b, a <> b /\ Forall is_char a /\ Forall is_char b /\ makePrintable false a UTF8 None true = makePrintable false b UTF8 None true.
Proof. exact backslash_witness. Qed.
Print Assumptions C52_backslash_refuted.
(** The control characters U+0080..U+009F are printed as they are. *)
Theorem C52_c1_refuted : exists c, 128 <= c < 160 /\ makePrintable false [c] LATIN1 None true = [c] /\ makePrintable false [c] UTF8 None true = [c].
Proof. exact c1_witness. Qed.
Print Assumptions C52_c1_refuted.
Example C52_ex : makePrintable false [0; 3; 10; 16; 32; 127] LATIN1 None true = lit "\0\3\n\x10 \x7f" /\ makePrintable true [226; 103; 233] LATIN1 None true = lit "\xe2g\xe9" /\
  makePrintable false (lit "a'b") LATIN1 (Some 39) true = lit "'a\'b'".
Proof. repeat split; vm_compute; reflexivity. Qed.

(** Proofs about the texts and timestamps of hachoir/core/tools.py. *)
From Coq Require Import String.
From Verif Require Import Base BaseProofs DictModel BitsModel FieldModel FieldNames FloatModel FloatProofs Lit HumanModel HumanSpec.
Ltac Zify.zify_post_hook ::= Z.div_mod_to_equations.

(** ** Sizes *)
(** The value of a float: x = p/q. *)
Definition eqv (x y : Z * Z) : Prop := fst x * snd y = fst y * snd x.
Lemma fl_eqv p q p' q' : 0 <= p -> 0 < q -> 0 <= p' -> 0 < q' -> p * q' = p' * q -> eqv (fl p q) (fl p' q').
Proof.
  intros Hp Hq Hp' Hq' H. unfold eqv. apply Z.le_antisymm; apply fl_mono; lia.
Qed.
Lemma format_f1_tenths x : format_f1 x = tenths (fdigits 1 x).
Proof. reflexivity. Qed.

(** Exact division by powers of two. *)
Lemma exact_div n x j : 0 <= n <= 2 ^ 53 -> 0 <= j -> 0 <= fst x -> 0 < snd x -> fst x * 1024 ^ j = n * snd x ->
  let y := fdiv x 1024 in 0 <= fst y /\ 0 < snd y /\ fst y * 1024 ^ (j + 1) = n * snd y.
Proof.
  intros Hn Hj H0 H1 Hx y. unfold fdiv in y.
  assert (Y1 : 0 <= fst y /\ 0 < snd y) by (apply fl_pos; lia). destruct Y1 as [Y1 Y2]. split; [assumption|]. split; [assumption|].
  assert (Hp : 1024 ^ (j + 1) = 2 ^ (10 * (j + 1))) by (change 1024 with (2 ^ 10); rewrite <- Z.pow_mul_r by lia; reflexivity).
  assert (Hq : 0 < 2 ^ (10 * (j + 1))) by (apply Z.pow_pos_nonneg; lia).
  assert (E : eqv y (fl n (2 ^ (10 * (j + 1))))).
  { apply fl_eqv; try lia. rewrite <- Hp, Z.pow_add_r by lia. change (1024 ^ 1) with 1024. rewrite Z.mul_assoc, Hx. ring. }
  pose proof (fl_dyadic n (10 * (j + 1)) Hn ltac:(lia)) as D. destruct (fl_pos n (2 ^ (10 * (j + 1))) ltac:(lia) Hq) as [Z1 Z2].
  unfold eqv in E. rewrite Hp. apply Z.mul_cancel_r with (snd (fl n (2 ^ (10 * (j + 1))))); [lia|].
  transitivity (fst y * snd (fl n (2 ^ (10 * (j + 1)))) * 2 ^ (10 * (j + 1))); [ring|]. rewrite E.
  transitivity (fst (fl n (2 ^ (10 * (j + 1)))) * 2 ^ (10 * (j + 1)) * snd y); [ring|]. rewrite D. ring.
Qed.

(** The tenths printed for x = n / b^k. *)
Lemma tenths_close n b k x : 0 < b -> 0 <= k -> 0 < snd x -> fst x * b ^ k = n * snd x ->
  2 * Z.abs (fdigits 1 x * b ^ k - 10 * n) <= b ^ k.
Proof.
  intros Hb Hk Hq Hx. unfold fdigits. change (10 ^ 1) with 10. pose proof (rhe_error (10 * fst x) (snd x) Hq) as R.
  set (t := rhe (10 * fst x) (snd x)) in *. clearbody t. pose proof (Z.pow_pos_nonneg b k Hb Hk). set (B := b ^ k) in *. clearbody B.
  apply Z.mul_le_mono_pos_r with (snd x); [assumption|].
  assert (E : 2 * Z.abs (t * B - 10 * n) * snd x = 2 * Z.abs (t * snd x - 10 * fst x) * B).
  { rewrite <- (Z.abs_eq (snd x)) at 1 by lia. rewrite <- (Z.abs_eq B) at 2 by lia. rewrite <- !Z.mul_assoc, <- !Z.abs_mul. do 2 f_equal. rewrite !Z.mul_sub_distr_r.
    f_equal; [ring|]. rewrite <- !Z.mul_assoc, Hx. ring. }
  rewrite E. rewrite (Z.mul_comm B). apply Z.mul_le_mono_nonneg_r; lia.
Qed.

Definition filesize_units : list str := [lit "KB"; lit "MB"; lit "GB"; lit "TB"].
Lemma filesize_lemma n : 10000 <= n <= 2 ^ 53 -> exists text, humanFilesize n = Ok text /\
  ((exists k, 1 <= k <= 4 /\ (k = 1 \/ 1024 ^ k <= n) /\ n < 1024 ^ (k + 1) /\ size_text 1024 filesize_units n k text) \/
   (1024 ^ 5 <= n /\ text = dec (n / 1024 ^ 4) ++ lit " TB")).
Proof.
  intros Hn. unfold humanFilesize. replace (n <? 10000) with false by lia.
  assert (Ho : 2 ^ 1024 - 2 ^ 970 <=? n = false).
  { assert (2 ^ 54 <= 2 ^ 970) by (apply Z.pow_le_mono_r; lia). assert (2 ^ 1024 = 2 ^ 54 * 2 ^ 970) by (rewrite <- Z.pow_add_r by lia; reflexivity).
    rewrite H0. change (2 ^ 54) with 18014398509481984 in *. change (2 ^ 53) with 9007199254740992 in Hn.
    set (z := 2 ^ 970) in *. clearbody z. lia. }
  unfold py_float. rewrite Ho. cbn [bind]. clear Ho. eexists. split; [reflexivity|].
  destruct (fl_pos n 1 ltac:(lia) ltac:(lia)) as [P0 Q0]. pose proof (fl_dyadic n 0 ltac:(lia) ltac:(lia)) as D0. change (2 ^ 0) with 1 in D0.
  set (x0 := fl n 1) in *. clearbody x0.
  destruct (exact_div n x0 0 ltac:(lia) ltac:(lia) P0 Q0 ltac:(lia)) as (P1 & Q1 & D1). set (x1 := fdiv x0 1024) in *.
  destruct (exact_div n x1 (0 + 1) ltac:(lia) ltac:(lia) P1 Q1 D1) as (P2 & Q2 & D2). set (x2 := fdiv x1 1024) in *.
  destruct (exact_div n x2 (0 + 1 + 1) ltac:(lia) ltac:(lia) P2 Q2 D2) as (P3 & Q3 & D3). set (x3 := fdiv x2 1024) in *.
  destruct (exact_div n x3 (0 + 1 + 1 + 1) ltac:(lia) ltac:(lia) P3 Q3 D3) as (P4 & Q4 & D4). set (x4 := fdiv x3 1024) in *.
  change (0 + 1) with 1 in *. change (1 + 1) with 2 in *. change (2 + 1) with 3 in *. change (3 + 1) with 4 in *.
  cbn [human_units]. fold x1 x2 x3 x4. unfold flt.
  assert (Hcmp : forall k x, 0 < snd x -> 0 <= k -> fst x * 1024 ^ k = n * snd x -> (fst x <? 1024 * snd x) = (n <? 1024 ^ (k + 1))).
  { intros k x Hs Hk Hx. rewrite Z.pow_add_r by lia. change (1024 ^ 1) with 1024. pose proof (Z.pow_pos_nonneg 1024 k ltac:(lia) Hk).
    set (B := 1024 ^ k) in *. clearbody B. destruct (fst x <? 1024 * snd x) eqn:E.
    - symmetry. apply Z.ltb_lt. apply Z.mul_lt_mono_pos_r with (snd x); [assumption|]. rewrite <- Hx. replace (B * 1024 * snd x) with (1024 * snd x * B) by ring. apply Z.mul_lt_mono_pos_r; lia.
    - symmetry. apply Z.ltb_ge. apply Z.mul_le_mono_pos_r with (snd x); [assumption|]. rewrite <- Hx. replace (B * 1024 * snd x) with (1024 * snd x * B) by ring. apply Z.mul_le_mono_nonneg_r; lia. }
  rewrite (Hcmp 1 x1), (Hcmp 2 x2), (Hcmp 3 x3), (Hcmp 4 x4) by (assumption || lia). clear Hcmp.
  change (1 + 1) with 2. change (2 + 1) with 3. change (3 + 1) with 4. change (4 + 1) with 5.
  destruct (n <? 1024 ^ 2) eqn:E1; [|destruct (n <? 1024 ^ 3) eqn:E2; [|destruct (n <? 1024 ^ 4) eqn:E3; [|destruct (n <? 1024 ^ 5) eqn:E4]]].
  - left. exists 1. split; [lia|]. split; [left; reflexivity|]. split; [change (1 + 1) with 2; lia|].
    exists (lit "KB"), (fdigits 1 x1). split; [reflexivity|]. split; [rewrite format_f1_tenths; reflexivity|]. apply tenths_close; (assumption || lia).
  - left. exists 2. split; [lia|]. split; [right; lia|]. split; [change (2 + 1) with 3; lia|].
    exists (lit "MB"), (fdigits 1 x2). split; [reflexivity|]. split; [rewrite format_f1_tenths; reflexivity|]. apply tenths_close; (assumption || lia).
  - left. exists 3. split; [lia|]. split; [right; lia|]. split; [change (3 + 1) with 4; lia|].
    exists (lit "GB"), (fdigits 1 x3). split; [reflexivity|]. split; [rewrite format_f1_tenths; reflexivity|]. apply tenths_close; (assumption || lia).
  - left. exists 4. split; [lia|]. split; [right; lia|]. split; [change (4 + 1) with 5; lia|].
    exists (lit "TB"), (fdigits 1 x4). split; [reflexivity|]. split; [rewrite format_f1_tenths; reflexivity|]. apply tenths_close; (assumption || lia).
  - right. split; [lia|]. f_equal. f_equal. unfold ftrunc.
    rewrite <- (Z.div_mul_cancel_r (fst x4) (snd x4) (1024 ^ 4)) by lia. rewrite D4. rewrite (Z.mul_comm (snd x4)). rewrite Z.div_mul_cancel_r by lia. reflexivity.
Qed.

(** Division by 1000 rounds each time; after j divisions the error is at most
    2(j+1) times 2^-53. *)
Lemma rounded_div n x j : 0 <= n -> 0 <= j <= 4 -> 0 <= fst x -> 0 < snd x ->
  2 ^ 53 * Z.abs (fst x * 1000 ^ j - n * snd x) <= 2 * (j + 1) * n * snd x ->
  let y := fdiv x 1000 in 0 <= fst y /\ 0 < snd y /\ 2 ^ 53 * Z.abs (fst y * 1000 ^ (j + 1) - n * snd y) <= 2 * (j + 2) * n * snd y.
Proof.
  intros Hn Hj H0 H1 Hx y. unfold fdiv in y.
  assert (Y1 : 0 <= fst y /\ 0 < snd y) by (apply fl_pos; lia). destruct Y1 as [Y1 Y2]. split; [assumption|]. split; [assumption|].
  pose proof (fl_error (fst x) (snd x * 1000) H0 ltac:(lia)) as E. fold y in E.
  rewrite Z.pow_add_r by lia. change (1000 ^ 1) with 1000. pose proof (Z.pow_pos_nonneg 1000 j ltac:(lia) ltac:(lia)).
  set (B := 1000 ^ j) in *. clearbody B. set (p := fst x) in *. set (q := snd x) in *. set (r := fst y) in *. set (s := snd y) in *. clearbody p q r s. clear x y.
  apply Z.mul_le_mono_pos_r with q; [assumption|].
  (* triangle inequality over p B s *)
  assert (T : Z.abs (r * (B * 1000) - n * s) * q <= Z.abs (r * (q * 1000) - p * s) * B + Z.abs (p * B - n * q) * s).
  { rewrite <- (Z.abs_eq q) at 1 by lia. rewrite <- (Z.abs_eq B) at 2 by lia. rewrite <- (Z.abs_eq s) at 3 by lia. rewrite <- !Z.abs_mul.
    replace ((r * (B * 1000) - n * s) * q) with ((r * (q * 1000) - p * s) * B + (p * B - n * q) * s) by ring. apply Z.abs_triangle. }
  assert (E2 : 2 ^ 53 * Z.abs (r * (q * 1000) - p * s) * B <= p * s * B) by (apply Z.mul_le_mono_nonneg_r; lia).
  assert (E3 : 2 ^ 53 * Z.abs (p * B - n * q) * s <= 2 * (j + 1) * n * q * s) by (apply Z.mul_le_mono_nonneg_r; lia).
  (* p B <= 2 n q *)
  assert (E4 : p * B <= 2 * n * q).
  { assert (2 ^ 53 * (p * B - n * q) <= 2 * (j + 1) * n * q) by lia. assert (2 * (j + 1) * n * q <= 10 * (n * q)) by nia.
    change (2 ^ 53) with 9007199254740992 in H2. assert (0 <= n * q) by nia. lia. }
  assert (E5 : p * s * B <= 2 * n * q * s) by (replace (p * s * B) with (p * B * s) by ring; apply Z.mul_le_mono_nonneg_r; lia).
  assert (T2 : 2 ^ 53 * (Z.abs (r * (B * 1000) - n * s) * q) <= 2 ^ 53 * (Z.abs (r * (q * 1000) - p * s) * B + Z.abs (p * B - n * q) * s)) by (apply Z.mul_le_mono_nonneg_l; [lia|exact T]).
  replace (2 * (j + 2) * n * s * q) with (2 * n * q * s + 2 * (j + 1) * n * q * s) by ring. lia.
Qed.
(** Powers of 1000 that fit in n are not lost by rounding. *)
Lemma rounded_floor i x : 0 <= i <= 5 -> 0 <= fst x -> 0 < snd x -> 1000 ^ (i + 1) * snd x <= fst x ->
  let y := fdiv x 1000 in 1000 ^ i * snd y <= fst y.
Proof.
  intros Hi H0 H1 Hx y. unfold fdiv in y.
  assert (H5 : 1000 ^ i <= 1000 ^ 5) by (apply Z.pow_le_mono_r; lia). assert (Hp : 0 < 1000 ^ i) by (apply Z.pow_pos_nonneg; lia).
  pose proof (fl_dyadic (1000 ^ i) 0 ltac:(lia) ltac:(lia)) as D. change (2 ^ 0) with 1 in D.
  assert (M : fst (fl (1000 ^ i) 1) * snd y <= fst y * snd (fl (1000 ^ i) 1)).
  { apply fl_mono; try lia. rewrite Z.pow_add_r in Hx by lia. lia. }
  destruct (fl_pos (1000 ^ i) 1 ltac:(lia) ltac:(lia)) as [Z1 Z2]. rewrite Z.mul_1_r in D. rewrite D in M.
  apply Z.mul_le_mono_pos_r with (snd (fl (1000 ^ i) 1)); [assumption|]. lia.
Qed.
Lemma tenths_rounded n k x c : 0 <= n -> 0 <= k -> 0 < snd x -> 0 <= c -> 2 ^ 53 * Z.abs (fst x * 1000 ^ k - n * snd x) <= c * n * snd x ->
  2 ^ 53 * (2 * Z.abs (fdigits 1 x * 1000 ^ k - 10 * n) - 1000 ^ k) <= 20 * c * n.
Proof.
  intros Hn Hk Hq Hc Hx. unfold fdigits. change (10 ^ 1) with 10. pose proof (rhe_error (10 * fst x) (snd x) Hq) as R.
  set (t := rhe (10 * fst x) (snd x)) in *. clearbody t. pose proof (Z.pow_pos_nonneg 1000 k ltac:(lia) Hk). set (B := 1000 ^ k) in *. clearbody B.
  set (p := fst x) in *. set (q := snd x) in *. clearbody p q. clear x.
  apply Z.mul_le_mono_pos_r with q; [assumption|].
  assert (T : Z.abs (t * B - 10 * n) * q <= Z.abs (t * q - 10 * p) * B + 10 * Z.abs (p * B - n * q)).
  { rewrite <- (Z.abs_eq q) at 1 by lia. rewrite <- (Z.abs_eq B) at 2 by lia. rewrite <- (Z.abs_eq 10) at 3 by lia. rewrite <- !Z.abs_mul.
    replace ((t * B - 10 * n) * q) with ((t * q - 10 * p) * B + 10 * (p * B - n * q)) by ring. apply Z.abs_triangle. }
  assert (R2 : 2 * Z.abs (t * q - 10 * p) * B <= q * B) by (apply Z.mul_le_mono_nonneg_r; lia).
  assert (T2 : 2 * (Z.abs (t * B - 10 * n) * q) - B * q <= 20 * Z.abs (p * B - n * q)) by lia.
  replace (2 ^ 53 * (2 * Z.abs (t * B - 10 * n) - B) * q) with (2 ^ 53 * (2 * (Z.abs (t * B - 10 * n) * q) - B * q)) by ring.
  etransitivity; [apply Z.mul_le_mono_nonneg_l; [lia|exact T2]|]. lia.
Qed.

Definition bit_units : list str := [lit "Kbit"; lit "Mbit"; lit "Gbit"; lit "Tbit"].
Lemma weaken_error c n s : c <= 10 -> 0 <= n -> 0 < s -> c * n * s <= 10 * n * s.
Proof. intros. rewrite <- !Z.mul_assoc. apply Z.mul_le_mono_nonneg_r; [apply Z.mul_nonneg_nonneg; lia|lia]. Qed.
(** The floats of the successive turns. *)
Lemma bits_steps n : 1000 <= n ->
  let x0 := fl n 1 in let x1 := fdiv x0 1000 in let x2 := fdiv x1 1000 in let x3 := fdiv x2 1000 in let x4 := fdiv x3 1000 in
  forall k x, In (k, x) [(1, x1); (2, x2); (3, x3); (4, x4)] ->
    0 <= fst x /\ 0 < snd x /\ 2 ^ 53 * Z.abs (fst x * 1000 ^ k - n * snd x) <= 10 * n * snd x /\
    (1000 ^ (k + 1) <= n -> 1000 * snd x <= fst x).
Proof.
  intros Hn x0 x1 x2 x3 x4.
  destruct (fl_pos n 1 ltac:(lia) ltac:(lia)) as [P0 Q0]. pose proof (fl_error n 1 ltac:(lia) ltac:(lia)) as E0. fold x0 in P0, Q0, E0.
  assert (F0 : forall i, 0 <= i <= 5 -> 1000 ^ i <= n -> 1000 ^ i * snd x0 <= fst x0).
  { intros i Hi Hle. assert (H5 : 1000 ^ i <= 1000 ^ 5) by (apply Z.pow_le_mono_r; lia). assert (Hp : 0 < 1000 ^ i) by (apply Z.pow_pos_nonneg; lia).
    pose proof (fl_dyadic (1000 ^ i) 0 ltac:(lia) ltac:(lia)) as D. change (2 ^ 0) with 1 in D.
    assert (M : fst (fl (1000 ^ i) 1) * snd x0 <= fst x0 * snd (fl (1000 ^ i) 1)) by (apply fl_mono; lia).
    destruct (fl_pos (1000 ^ i) 1 ltac:(lia) ltac:(lia)) as [Z1 Z2]. rewrite Z.mul_1_r in D. rewrite D in M.
    apply Z.mul_le_mono_pos_r with (snd (fl (1000 ^ i) 1)); [assumption|]. lia. }
  destruct (rounded_div n x0 0 ltac:(lia) ltac:(lia) P0 Q0 ltac:(change (1000 ^ 0) with 1; rewrite !Z.mul_1_r in *; nia)) as (P1 & Q1 & E1). fold x1 in P1, Q1, E1.
  destruct (rounded_div n x1 (0 + 1) ltac:(lia) ltac:(lia) P1 Q1 ltac:(exact E1)) as (P2 & Q2 & E2). fold x2 in P2, Q2, E2.
  destruct (rounded_div n x2 (0 + 1 + 1) ltac:(lia) ltac:(lia) P2 Q2 ltac:(exact E2)) as (P3 & Q3 & E3). fold x3 in P3, Q3, E3.
  destruct (rounded_div n x3 (0 + 1 + 1 + 1) ltac:(lia) ltac:(lia) P3 Q3 ltac:(exact E3)) as (P4 & Q4 & E4). fold x4 in P4, Q4, E4.
  change (0 + 1) with 1 in *. change (1 + 1) with 2 in *. change (2 + 1) with 3 in *. change (3 + 1) with 4 in *.
  assert (F1 : forall i, 0 <= i <= 4 -> 1000 ^ (i + 1) <= n -> 1000 ^ i * snd x1 <= fst x1) by (intros i Hi Hle; apply rounded_floor; try lia; apply F0; lia).
  assert (F2 : forall i, 0 <= i <= 3 -> 1000 ^ (i + 2) <= n -> 1000 ^ i * snd x2 <= fst x2).
  { intros i Hi Hle; apply rounded_floor; try lia; apply F1; [lia|]. replace (i + 1 + 1) with (i + 2) by lia. exact Hle. }
  assert (F3 : forall i, 0 <= i <= 2 -> 1000 ^ (i + 3) <= n -> 1000 ^ i * snd x3 <= fst x3).
  { intros i Hi Hle; apply rounded_floor; try lia; apply F2; [lia|]. replace (i + 1 + 2) with (i + 3) by lia. exact Hle. }
  assert (F4 : forall i, 0 <= i <= 1 -> 1000 ^ (i + 4) <= n -> 1000 ^ i * snd x4 <= fst x4).
  { intros i Hi Hle; apply rounded_floor; try lia; apply F3; [lia|]. replace (i + 1 + 3) with (i + 4) by lia. exact Hle. }
  intros k x [E|[E|[E|[E|[]]]]]; injection E as <- <-; (split; [assumption|split; [assumption|split]]).
  - etransitivity; [exact E1|]. apply weaken_error; lia.
  - intros H. apply (F1 1); [lia|exact H].
  - etransitivity; [exact E2|]. apply weaken_error; lia.
  - intros H. apply (F2 1); [lia|exact H].
  - etransitivity; [exact E3|]. apply weaken_error; lia.
  - intros H. apply (F3 1); [lia|exact H].
  - etransitivity; [exact E4|]. apply weaken_error; lia.
  - intros H. apply (F4 1); [lia|exact H].
Qed.

Lemma bitsize_lemma n : 1000 <= n -> 10 * n < 2 ^ 53 -> exists text, humanBitSize n = Ok text /\
  exists k unit t, 1 <= k <= 4 /\ 1000 ^ k <= n < 1000 ^ (k + 1) /\ nth_error bit_units (Z.to_nat (k - 1)) = Some unit /\
    text = tenths t ++ lit " " ++ unit /\ 2 ^ 53 * (2 * Z.abs (t * 1000 ^ k - 10 * n) - 1000 ^ k) <= 200 * n.
Proof.
  intros Hn Hm. unfold humanBitSize. replace (n <? 1000) with false by lia.
  assert (Ho : 2 ^ 1024 - 2 ^ 970 <=? n = false).
  { assert (2 ^ 54 <= 2 ^ 970) by (apply Z.pow_le_mono_r; lia). assert (2 ^ 1024 = 2 ^ 54 * 2 ^ 970) by (rewrite <- Z.pow_add_r by lia; reflexivity).
    rewrite H0. change (2 ^ 54) with 18014398509481984 in *. change (2 ^ 53) with 9007199254740992 in Hm.
    set (z := 2 ^ 970) in *. clearbody z. lia. }
  unfold py_float. rewrite Ho. cbn [bind]. clear Ho. eexists. split; [reflexivity|].
  pose proof (bits_steps n Hn) as S. cbv zeta in S. cbn [human_units].
  set (x1 := fdiv (fl n 1) 1000) in *. set (x2 := fdiv x1 1000) in *. set (x3 := fdiv x2 1000) in *. set (x4 := fdiv x3 1000) in *. clearbody x1 x2 x3 x4.
  assert (Hcmp : forall k x, In (k, x) [(1, x1); (2, x2); (3, x3); (4, x4)] -> flt x 1000 = (n <? 1000 ^ (k + 1))).
  { intros k x Hin. destruct (S k x Hin) as (A1 & A2 & A3 & A4). unfold flt.
    assert (Hk : 1 <= k) by (destruct Hin as [E|[E|[E|[E|[]]]]]; injection E as <- <-; lia).
    rewrite Z.pow_add_r in * by lia. change (1000 ^ 1) with 1000 in *. pose proof (Z.pow_pos_nonneg 1000 k ltac:(lia) ltac:(lia)). set (B := 1000 ^ k) in *. clearbody B.
    destruct (n <? B * 1000) eqn:E.
    - apply Z.ltb_lt. destruct (Z_lt_dec (fst x) (1000 * snd x)) as [|Hge]; [assumption|]. exfalso.
      assert (1000 * snd x * B <= fst x * B) by (apply Z.mul_le_mono_nonneg_r; lia).
      assert ((B * 1000 - n) * snd x <= fst x * B - n * snd x) by lia. assert (1 * snd x <= (B * 1000 - n) * snd x) by (apply Z.mul_le_mono_nonneg_r; lia).
      assert (Hlt : 10 * n * snd x < 2 ^ 53 * snd x) by (apply Z.mul_lt_mono_pos_r; lia). change (2 ^ 53) with 9007199254740992 in *. lia.
    - apply Z.ltb_ge. lia. }
  rewrite (Hcmp 1 x1), (Hcmp 2 x2), (Hcmp 3 x3), (Hcmp 4 x4) by (cbn [In]; tauto). clear Hcmp.
  change (1 + 1) with 2. change (2 + 1) with 3. change (3 + 1) with 4. change (4 + 1) with 5.
  assert (Hfin : forall k x unit, In (k, x) [(1, x1); (2, x2); (3, x3); (4, x4)] -> nth_error bit_units (Z.to_nat (k - 1)) = Some unit -> 1000 ^ k <= n < 1000 ^ (k + 1) ->
     exists k unit' t, 1 <= k <= 4 /\ 1000 ^ k <= n < 1000 ^ (k + 1) /\ nth_error bit_units (Z.to_nat (k - 1)) = Some unit' /\
       format_f1 x ++ lit " " ++ unit = tenths t ++ lit " " ++ unit' /\ 2 ^ 53 * (2 * Z.abs (t * 1000 ^ k - 10 * n) - 1000 ^ k) <= 200 * n).
  { intros k x unit Hin Hu Hr. assert (Hk : 1 <= k <= 4) by (destruct Hin as [E|[E|[E|[E|[]]]]]; injection E as <- <-; lia).
    destruct (S k x Hin) as (A1 & A2 & A3 & A4). exists k, unit, (fdigits 1 x). split; [assumption|]. split; [assumption|]. split; [assumption|]. split; [reflexivity|].
    change 200 with (20 * 10). apply tenths_rounded; (assumption || lia). }
  change (lit "") with (@nil Z).
  destruct (n <? 1000 ^ 2) eqn:E1; [|destruct (n <? 1000 ^ 3) eqn:E2; [|destruct (n <? 1000 ^ 4) eqn:E3; [|destruct (n <? 1000 ^ 5) eqn:E4]]].
  - apply (Hfin 1 x1); [cbn [In]; tauto|reflexivity|change (1 + 1) with 2; change (1000 ^ 1) with 1000; lia].
  - apply (Hfin 2 x2); [cbn [In]; tauto|reflexivity|change (2 + 1) with 3; lia].
  - apply (Hfin 3 x3); [cbn [In]; tauto|reflexivity|change (3 + 1) with 4; lia].
  - apply (Hfin 4 x4); [cbn [In]; tauto|reflexivity|change (4 + 1) with 5; lia].
  - exfalso. change (1000 ^ 5) with 1000000000000000 in E4. change (2 ^ 53) with 9007199254740992 in Hm. lia.
Qed.

Lemma filesize_small n : n < 10000 -> humanFilesize n = Ok (dec n ++ lit " bytes").
Proof. intros H. unfold humanFilesize. replace (n <? 10000) with true by lia. reflexivity. Qed.
Lemma filesize_big n : 0 <= n <= 2 ^ 53 -> ~ n < 10000 -> exists text, humanFilesize n = Ok text /\
  ((n < 10000 /\ text = dec n ++ lit " bytes") \/
   (10000 <= n /\ exists k, 1 <= k <= 4 /\ (k = 1 \/ 1024 ^ k <= n) /\ n < 1024 ^ (k + 1) /\ size_text 1024 filesize_units n k text) \/
   (1024 ^ 5 <= n /\ text = dec (n / 1024 ^ 4) ++ lit " TB")).
Proof.
  intros H Hge. destruct (filesize_lemma n ltac:(lia)) as (text & E & [H1|H1]); exists text; (split; [exact E|]); right; [left; split; [lia|exact H1]|right; exact H1].
Qed.
Lemma bitsize_small n : n < 1000 -> humanBitSize n = Ok (dec n ++ lit " bits").
Proof. intros H. unfold humanBitSize. replace (n <? 1000) with true by lia. reflexivity. Qed.
Lemma bitsize_big n : 10 * n < 2 ^ 53 -> ~ n < 1000 -> exists text, humanBitSize n = Ok text /\
  ((n < 1000 /\ text = dec n ++ lit " bits") \/
   (exists k unit t, 1 <= k <= 4 /\ 1000 ^ k <= n < 1000 ^ (k + 1) /\ nth_error bit_units (Z.to_nat (k - 1)) = Some unit /\
    text = tenths t ++ lit " " ++ unit /\ 2 ^ 53 * (2 * Z.abs (t * 1000 ^ k - 10 * n) - 1000 ^ k) <= 200 * n)).
Proof. intros H Hge. destruct (bitsize_lemma n ltac:(lia) H) as (text & E & H1). exists text. split; [exact E|]. right. exact H1. Qed.

(** Facts about the rounding of floats. *)
From Verif Require Import Base BaseProofs FloatModel.
Ltac Zify.zify_post_hook ::= Z.div_mod_to_equations.

Lemma rhe_error p q : 0 < q -> 2 * Z.abs (rhe p q * q - p) <= q.
Proof.
  intros Hq. unfold rhe. pose proof (Z.div_mod p q ltac:(lia)) as H. pose proof (Z.mod_pos_bound p q Hq) as Hr.
  set (n := p / q) in *. set (r := p mod q) in *. clearbody n r.
  destruct (2 * r <? q) eqn:E1; [nia|]. destruct (q <? 2 * r) eqn:E2; [nia|]. destruct (Z.even n); nia.
Qed.
Lemma rhe_exact n q : 0 < q -> rhe (n * q) q = n.
Proof.
  intros Hq. unfold rhe. rewrite Z.div_mul, Z.mod_mul by lia. replace (2 * 0 <? q) with true by lia. reflexivity.
Qed.
(** Ties go to the even integer. *)
Lemma rhe_even p q : 0 < q -> 2 * Z.abs (rhe p q * q - p) = q -> Z.even (rhe p q) = true.
Proof.
  intros Hq. unfold rhe. pose proof (Z.div_mod p q ltac:(lia)) as H. pose proof (Z.mod_pos_bound p q Hq) as Hr.
  set (n := p / q) in *. set (r := p mod q) in *. clearbody n r.
  destruct (2 * r <? q) eqn:E1; [intros; exfalso; nia|]. destruct (q <? 2 * r) eqn:E2; [intros; exfalso; nia|].
  destruct (Z.even n) eqn:En; intros _; [assumption|]. rewrite Z.even_add, En. reflexivity.
Qed.
Lemma rhe_mono p q p' q' : 0 < q -> 0 < q' -> p * q' <= p' * q -> rhe p q <= rhe p' q'.
Proof.
  intros Hq Hq' H. pose proof (rhe_error p q Hq) as E1. pose proof (rhe_error p' q' Hq') as E2.
  destruct (Z_le_dec (rhe p q) (rhe p' q')) as [|Hn]; [assumption|]. exfalso.
  set (a := rhe p q) in *. set (b := rhe p' q') in *.
  (* a >= b + 1: then a - 1/2 <= p/q <= p'/q' <= b + 1/2, so all are equal and a = b + 1 *)
  assert (F1 : (2 * a - 1) * q <= 2 * p) by lia. assert (F2 : 2 * p' <= (2 * b + 1) * q') by lia.
  assert (F3 : (2 * a - 1) * q * q' <= 2 * p * q') by (apply Z.mul_le_mono_nonneg_r; lia).
  assert (F4 : 2 * p' * q <= (2 * b + 1) * q' * q) by (apply Z.mul_le_mono_nonneg_r; lia).
  assert (F5 : (2 * a - 1) * (q * q') <= (2 * b + 1) * (q * q')) by lia.
  assert (F6 : 2 * a - 1 <= 2 * b + 1) by (apply Z.mul_le_mono_pos_r with (q * q'); [nia|assumption]).
  assert (a = b + 1) by lia. assert (Hab : 2 * a - 1 = 2 * b + 1) by lia.
  assert (G1 : 2 * p = (2 * a - 1) * q).
  { apply Z.mul_cancel_r with q'; [lia|]. assert ((2 * a - 1) * q * q' = (2 * b + 1) * q' * q) by (rewrite Hab; ring). lia. }
  assert (G2 : 2 * p' = (2 * b + 1) * q').
  { apply Z.mul_cancel_r with q; [lia|]. assert ((2 * a - 1) * q * q' = (2 * b + 1) * q' * q) by (rewrite Hab; ring). lia. }
  assert (Ea : Z.even a = true) by (apply (rhe_even p q Hq); fold a; replace (a * q - p) with (p - (a - 1) * q) by lia; lia).
  assert (Eb : Z.even b = true) by (apply (rhe_even p' q' Hq'); fold b; lia).
  rewrite H0, Z.even_add, Eb in Ea. discriminate.
Qed.

Lemma pow_le_true k p q : 0 < q -> pow_le k p q = true <->
  (if 0 <=? k then q * 2 ^ k <= p else q <= p * 2 ^ (- k)).
Proof. intros. unfold pow_le. destruct (0 <=? k); lia. Qed.
(** [2^k <= p/q] is monotone and [flog2] is the exponent. *)
Lemma pow_le_succ k p q : 0 < q -> 0 < p -> pow_le (k + 1) p q = true -> pow_le k p q = true.
Proof.
  intros Hq Hp H. apply pow_le_true in H; [|lia]. apply pow_le_true; [lia|].
  destruct (0 <=? k) eqn:E1; destruct (0 <=? k + 1) eqn:E2; try lia.
  - rewrite Z.pow_add_r in H by lia. change (2 ^ 1) with 2 in H. pose proof (Z.pow_pos_nonneg 2 k). nia.
  - replace k with (-1) by lia. change (2 ^ (- (-1))) with 2. replace (k + 1) with 0 in H by lia. change (2 ^ 0) with 1 in H. lia.
  - replace (- k) with (- (k + 1) + 1) by lia. rewrite Z.pow_add_r by lia. change (2 ^ 1) with 2.
    pose proof (Z.pow_pos_nonneg 2 (- (k + 1))). nia.
Qed.
Lemma log2_bounds n : 0 < n -> 2 ^ Z.log2 n <= n < 2 ^ (Z.log2 n + 1).
Proof. intros H. apply Z.log2_spec in H. rewrite <- Z.add_1_r in H. exact H. Qed.
Lemma flog2_spec p q : 0 < p -> 0 < q -> pow_le (flog2 p q) p q = true /\ pow_le (flog2 p q + 1) p q = false.
Proof.
  intros Hp Hq. unfold flog2. set (k := Z.log2 p - Z.log2 q).
  destruct (log2_bounds p Hp) as [P1 P2]. destruct (log2_bounds q Hq) as [Q1 Q2].
  pose proof (Z.log2_nonneg p) as Lp. pose proof (Z.log2_nonneg q) as Lq.
  assert (Hlow : pow_le (k - 1) p q = true).
  { apply pow_le_true; [lia|]. destruct (0 <=? k - 1) eqn:E.
    - assert (q * 2 ^ (k - 1) <= 2 ^ (Z.log2 q + 1) * 2 ^ (k - 1)) by (pose proof (Z.pow_pos_nonneg 2 (k - 1)); nia).
      rewrite <- Z.pow_add_r in H by lia. replace (Z.log2 q + 1 + (k - 1)) with (Z.log2 p) in H by lia. lia.
    - assert (2 ^ Z.log2 p * 2 ^ (- (k - 1)) <= p * 2 ^ (- (k - 1))) by (pose proof (Z.pow_pos_nonneg 2 (- (k - 1))); nia).
      rewrite <- Z.pow_add_r in H by lia. replace (Z.log2 p + - (k - 1)) with (Z.log2 q + 1) in H by lia. lia. }
  assert (Hhigh : pow_le (k + 1) p q = false).
  { destruct (pow_le (k + 1) p q) eqn:E; [|reflexivity]. exfalso. apply pow_le_true in E; [|lia]. destruct (0 <=? k + 1) eqn:E1.
    - assert (2 ^ Z.log2 q * 2 ^ (k + 1) <= q * 2 ^ (k + 1)) by (pose proof (Z.pow_pos_nonneg 2 (k + 1)); nia).
      rewrite <- Z.pow_add_r in H by lia. replace (Z.log2 q + (k + 1)) with (Z.log2 p + 1) in H by lia. lia.
    - assert (p * 2 ^ (- (k + 1)) < 2 ^ (Z.log2 p + 1) * 2 ^ (- (k + 1))) by (pose proof (Z.pow_pos_nonneg 2 (- (k + 1))); nia).
      rewrite <- Z.pow_add_r in H by lia. replace (Z.log2 p + 1 + - (k + 1)) with (Z.log2 q) in H by lia. lia. }
  destruct (pow_le k p q) eqn:E; [split; assumption|]. split; [assumption|]. replace (k - 1 + 1) with k by lia. assumption.
Qed.
Lemma pow_le_le k j p q : 0 < q -> 0 < p -> j <= k -> pow_le k p q = true -> pow_le j p q = true.
Proof.
  intros Hq Hp Hj H. replace k with (j + Z.of_nat (Z.to_nat (k - j))) in H by lia. revert H.
  generalize (Z.to_nat (k - j)) as n. induction n as [|n IH]; intros H; [rewrite Z.add_0_r in H; exact H|].
  apply IH. apply pow_le_succ; [lia|lia|]. replace (j + Z.of_nat n + 1) with (j + Z.of_nat (S n)) by lia. exact H.
Qed.
Lemma pow_le_mono k p q p' q' : 0 < q -> 0 < q' -> p * q' <= p' * q -> pow_le k p q = true -> pow_le k p' q' = true.
Proof.
  intros Hq Hq' H E. apply pow_le_true in E; [|lia]. apply pow_le_true; [lia|]. destruct (0 <=? k) eqn:Ek.
  - pose proof (Z.pow_pos_nonneg 2 k ltac:(lia) ltac:(lia)).
    apply Z.mul_le_mono_pos_r with q; [lia|]. transitivity (p * q'); [|lia]. replace (q' * 2 ^ k * q) with (q * 2 ^ k * q') by ring. apply Z.mul_le_mono_nonneg_r; lia.
  - pose proof (Z.pow_pos_nonneg 2 (- k) ltac:(lia) ltac:(lia)).
    apply Z.mul_le_mono_pos_r with q; [lia|]. transitivity (p * q' * 2 ^ (- k)).
    + replace (p * q' * 2 ^ (- k)) with (p * 2 ^ (- k) * q') by ring. rewrite (Z.mul_comm q' q). apply Z.mul_le_mono_nonneg_r; lia.
    + replace (p' * 2 ^ (- k) * q) with (p' * q * 2 ^ (- k)) by ring. apply Z.mul_le_mono_nonneg_r; lia.
Qed.
Lemma flog2_mono p q p' q' : 0 < p -> 0 < q -> 0 < p' -> 0 < q' -> p * q' <= p' * q -> flog2 p q <= flog2 p' q'.
Proof.
  intros Hp Hq Hp' Hq' H. destruct (Z_le_dec (flog2 p q) (flog2 p' q')); [assumption|]. exfalso.
  destruct (flog2_spec p q Hp Hq) as [A _]. destruct (flog2_spec p' q' Hp' Hq') as [_ B].
  apply (pow_le_mono _ _ _ p' q' Hq Hq' H) in A. apply (pow_le_le _ (flog2 p' q' + 1)) in A; try lia. congruence.
Qed.

(** The integer significand. *)
Definition scale (e p q : Z) : Z * Z := if 0 <=? e then (p, q * 2 ^ e) else (p * 2 ^ (- e), q).
Lemma fl_scale p q : p <> 0 -> let e := flog2 p q - 52 in
  fl p q = let m := rhe (fst (scale e p q)) (snd (scale e p q)) in if 0 <=? e then (m * 2 ^ e, 1) else (m, 2 ^ (- e)).
Proof. intros Hp e. unfold fl, scale. replace (p =? 0) with false by lia. fold e. destruct (0 <=? e); reflexivity. Qed.
Lemma scale_bounds p q : 0 < p -> 0 < q -> let e := flog2 p q - 52 in
  0 < snd (scale e p q) /\ 2 ^ 52 * snd (scale e p q) <= fst (scale e p q) < 2 ^ 53 * snd (scale e p q).
Proof.
  intros Hp Hq e. destruct (flog2_spec p q Hp Hq) as [A B].
  replace (flog2 p q) with (e + 52) in A, B by lia.
  apply pow_le_true in A; [|lia].
  assert (B' : if 0 <=? e + 52 + 1 then p < q * 2 ^ (e + 52 + 1) else p * 2 ^ (- (e + 52 + 1)) < q).
  { unfold pow_le in B. destruct (0 <=? e + 52 + 1); lia. }
  clear B. replace (e + 52 + 1) with (e + 53) in B' by lia. unfold scale. destruct (0 <=? e) eqn:E; cbn [fst snd].
  - replace (0 <=? e + 52) with true in A by lia. replace (0 <=? e + 53) with true in B' by lia.
    rewrite Z.pow_add_r in A, B' by lia. pose proof (Z.pow_pos_nonneg 2 e). set (E2 := 2 ^ e) in *. clearbody E2. nia.
  - destruct (0 <=? e + 52) eqn:E1; destruct (0 <=? e + 53) eqn:E3; try lia.
    + assert (X1 : 2 ^ 52 = 2 ^ (e + 52) * 2 ^ (- e)) by (rewrite <- Z.pow_add_r by lia; f_equal; lia).
      assert (X2 : 2 ^ 53 = 2 ^ (e + 53) * 2 ^ (- e)) by (rewrite <- Z.pow_add_r by lia; f_equal; lia).
      pose proof (Z.pow_pos_nonneg 2 (- e) ltac:(lia) ltac:(lia)). rewrite X1, X2. set (a := 2 ^ (- e)) in *. set (b := 2 ^ (e + 52)) in *. set (c := 2 ^ (e + 53)) in *. clearbody a b c.
      split; [lia|]. split; [replace (b * a * q) with (q * b * a) by ring; apply Z.mul_le_mono_nonneg_r; lia|replace (c * a * q) with (q * c * a) by ring; apply Z.mul_lt_mono_pos_r; lia].
    + assert (X1 : 2 ^ (- e) = 2 ^ 52 * 2 ^ (- (e + 52))) by (rewrite <- Z.pow_add_r by lia; f_equal; lia).
      replace (e + 53) with 0 in B' by lia. change (2 ^ 0) with 1 in B'. rewrite X1. replace (- (e + 52)) with 1 in * by lia. change (2 ^ 1) with 2 in *. change (2 ^ 53) with (2 ^ 52 * 2). set (z := 2 ^ 52) in *. assert (0 < z) by (unfold z; lia). clearbody z. nia.
    + assert (X1 : 2 ^ (- e) = 2 ^ 52 * 2 ^ (- (e + 52))) by (rewrite <- Z.pow_add_r by lia; f_equal; lia).
      assert (X2 : 2 ^ (- e) = 2 ^ 53 * 2 ^ (- (e + 53))) by (rewrite <- Z.pow_add_r by lia; f_equal; lia).
      split; [lia|]. split.
      * rewrite X1. set (z := 2 ^ (- (e + 52))) in *. clearbody z. replace (p * (2 ^ 52 * z)) with (2 ^ 52 * (p * z)) by ring. apply Z.mul_le_mono_nonneg_l; lia.
      * rewrite X2. set (z := 2 ^ (- (e + 53))) in *. clearbody z. replace (p * (2 ^ 53 * z)) with (2 ^ 53 * (p * z)) by ring. apply Z.mul_lt_mono_pos_l; lia.
Qed.

Lemma fl_pos p q : 0 <= p -> 0 < q -> 0 <= fst (fl p q) /\ 0 < snd (fl p q).
Proof.
  intros Hp Hq. destruct (Z.eq_dec p 0) as [->|Hn]; [unfold fl; cbn; lia|].
  rewrite fl_scale by assumption. cbv zeta. destruct (scale_bounds p q ltac:(lia) Hq) as (S1 & S2).
  set (e := flog2 p q - 52) in *. pose proof (rhe_error (fst (scale e p q)) (snd (scale e p q)) S1) as R.
  assert (Hm : 0 <= rhe (fst (scale e p q)) (snd (scale e p q))) by nia.
  destruct (0 <=? e) eqn:E; cbn [fst snd]; [pose proof (Z.pow_pos_nonneg 2 e); nia|pose proof (Z.pow_pos_nonneg 2 (- e)); lia].
Qed.

(** Relative error of one rounding: at most 2^-53. *)
Lemma fl_error p q : 0 <= p -> 0 < q -> 2 ^ 53 * Z.abs (fst (fl p q) * q - p * snd (fl p q)) <= p * snd (fl p q).
Proof.
  intros Hp Hq. destruct (Z.eq_dec p 0) as [->|Hn]; [unfold fl; cbn [Z.eqb fst snd]; lia|].
  rewrite fl_scale by assumption. cbv zeta. destruct (scale_bounds p q ltac:(lia) Hq) as (S1 & S2 & _).
  set (e := flog2 p q - 52) in *. pose proof (rhe_error (fst (scale e p q)) (snd (scale e p q)) S1) as R.
  set (m := rhe (fst (scale e p q)) (snd (scale e p q))) in *. clearbody m. unfold scale in *.
  change (2 ^ 53) with (2 ^ 52 * 2). set (z := 2 ^ 52) in *. assert (Hz : 0 < z) by (unfold z; lia). clearbody z.
  destruct (0 <=? e) eqn:E; cbn [fst snd] in *.
  - replace (m * 2 ^ e * q - p * 1) with (m * (q * 2 ^ e) - p) by ring. nia.
  - nia.
Qed.

(** Rounding keeps the order. *)
Lemma fl_mono p q p' q' : 0 <= p -> 0 < q -> 0 <= p' -> 0 < q' -> p * q' <= p' * q ->
  fst (fl p q) * snd (fl p' q') <= fst (fl p' q') * snd (fl p q).
Proof.
  intros Hp Hq Hp' Hq' H. destruct (fl_pos p q Hp Hq) as [F1 F2]. destruct (fl_pos p' q' Hp' Hq') as [F3 F4].
  destruct (Z.eq_dec p 0) as [->|Hn]; [unfold fl at 1 4; cbn [Z.eqb fst snd]; nia|].
  assert (Hn' : p' <> 0) by (intros ->; nia).
  pose proof (flog2_mono p q p' q' ltac:(lia) Hq ltac:(lia) Hq' H) as Hlog.
  clear F1 F2 F3 F4. rewrite !fl_scale by assumption. cbv zeta.
  destruct (scale_bounds p q ltac:(lia) Hq) as (S1 & S2 & S3). destruct (scale_bounds p' q' ltac:(lia) Hq') as (T1 & T2 & T3).
  set (e := flog2 p q - 52) in *. set (e' := flog2 p' q' - 52) in *. assert (He : e <= e') by lia.
  clearbody e e'. clear Hlog.
  set (m := rhe (fst (scale e p q)) (snd (scale e p q))). set (m' := rhe (fst (scale e' p' q')) (snd (scale e' p' q'))).
  (* significands are between 2^52 and 2^53 *)
  assert (M1 : m <= 2 ^ 53).
  { unfold m. rewrite <- (rhe_exact (2 ^ 53) 1) by lia. apply rhe_mono; lia. }
  assert (M2 : 2 ^ 52 <= m').
  { unfold m'. rewrite <- (rhe_exact (2 ^ 52) 1) at 1 by lia. apply rhe_mono; lia. }
  assert (M0 : 2 ^ 52 <= m).
  { unfold m. rewrite <- (rhe_exact (2 ^ 52) 1) at 1 by lia. apply rhe_mono; lia. }
  destruct (Z.eq_dec e e') as [<-|Hee].
  - assert (Hmm : m <= m').
    { unfold m, m'. apply rhe_mono; [assumption|assumption|]. unfold scale. destruct (0 <=? e); cbn [fst snd].
      - pose proof (Z.pow_pos_nonneg 2 e). nia.
      - pose proof (Z.pow_pos_nonneg 2 (- e)). nia. }
    clearbody m m'. destruct (0 <=? e) eqn:E; cbn [fst snd].
    + pose proof (Z.pow_pos_nonneg 2 e). nia.
    + pose proof (Z.pow_pos_nonneg 2 (- e)). nia.
  - assert (Hlt : e + 1 <= e') by lia. clearbody m m'. change (2 ^ 53) with (2 * 2 ^ 52) in M1. set (z := 2 ^ 52) in *. assert (0 < z) by (unfold z; lia). clearbody z.
    destruct (0 <=? e) eqn:E; destruct (0 <=? e') eqn:E'; try lia; cbn [fst snd].
    + assert (X : 2 ^ e' = 2 ^ e * 2 * 2 ^ (e' - e - 1)).
      { rewrite <- Z.mul_assoc. change 2 with (2 ^ 1) at 3. rewrite <- !Z.pow_add_r by lia. f_equal. lia. }
      rewrite X. pose proof (Z.pow_pos_nonneg 2 e ltac:(lia) ltac:(lia)). pose proof (Z.pow_pos_nonneg 2 (e' - e - 1) ltac:(lia) ltac:(lia)).
      set (a := 2 ^ e) in *. set (b := 2 ^ (e' - e - 1)) in *. clearbody a b.
      assert (m * a <= 2 * z * a) by nia. assert (2 * z * a <= m' * (a * 2)) by nia. assert (m' * (a * 2) * 1 <= m' * (a * 2) * b) by nia. lia.
    + pose proof (Z.pow_pos_nonneg 2 e' ltac:(lia) ltac:(lia)). 
      assert (X : 2 ^ e' * 2 ^ (- e) = 2 * 2 ^ (e' - e - 1)).
      { change 2 with (2 ^ 1) at 3. rewrite <- !Z.pow_add_r by lia. f_equal. lia. }
      pose proof (Z.pow_pos_nonneg 2 (e' - e - 1) ltac:(lia) ltac:(lia)). rewrite <- Z.mul_assoc, X. set (b := 2 ^ (e' - e - 1)) in *. clearbody b. nia.
    + assert (X : 2 ^ (- e) = 2 ^ (- e') * 2 * 2 ^ (e' - e - 1)).
      { rewrite <- Z.mul_assoc. change 2 with (2 ^ 1) at 3. rewrite <- !Z.pow_add_r by lia. f_equal. lia. }
      rewrite X. pose proof (Z.pow_pos_nonneg 2 (- e') ltac:(lia) ltac:(lia)). pose proof (Z.pow_pos_nonneg 2 (e' - e - 1) ltac:(lia) ltac:(lia)).
      set (a := 2 ^ (- e')) in *. set (b := 2 ^ (e' - e - 1)) in *. clearbody a b.
      assert (m * a <= 2 * z * a) by nia. assert (2 * z * a <= m' * (a * 2)) by nia. assert (m' * (a * 2) * 1 <= m' * (a * 2) * b) by nia. lia.
Qed.

(** Numbers with at most 53 significant bits are not rounded. *)
Lemma fl_dyadic m k : 0 <= m <= 2 ^ 53 -> 0 <= k -> fst (fl m (2 ^ k)) * 2 ^ k = m * snd (fl m (2 ^ k)).
Proof.
  intros Hm Hk. destruct (Z.eq_dec m 0) as [->|Hn]; [unfold fl; cbn [Z.eqb fst snd]; lia|].
  pose proof (Z.pow_pos_nonneg 2 k ltac:(lia) Hk) as Hq.
  rewrite fl_scale by assumption. cbv zeta. destruct (scale_bounds m (2 ^ k) ltac:(lia) Hq) as (S1 & S2 & S3).
  set (e := flog2 m (2 ^ k) - 52) in *. clearbody e.
  (* the scaled fraction is an integer *)
  assert (He : e <= - k \/ (m = 2 ^ 53 /\ e = 1 - k)).
  { unfold scale in S2. destruct (0 <=? e) eqn:E; cbn [fst snd] in S2.
    - assert (X : 2 ^ k * 2 ^ e = 2 ^ (k + e)) by (rewrite <- Z.pow_add_r by lia; reflexivity). rewrite X in S2.
      destruct (Z_le_dec (k + e) 0); [left; lia|]. assert (2 ^ 1 <= 2 ^ (k + e)) by (apply Z.pow_le_mono_r; lia). change (2 ^ 1) with 2 in H.
      right. change (2 ^ 53) with (2 ^ 52 * 2) in *. set (z := 2 ^ 52) in *. assert (0 < z) by (unfold z; lia). clearbody z.
      assert (2 ^ (k + e) = 2) by nia. assert (k + e = 1). { apply (Z.pow_inj_r 2); [lia|lia|lia|]. rewrite H1. reflexivity. } split; [nia|lia].
    - destruct (Z_le_dec e (- k)); [left; lia|]. assert (X : 2 ^ k = 2 ^ (k + e) * 2 ^ (- e)) by (rewrite <- Z.pow_add_r by lia; f_equal; lia).
      rewrite X in S2. pose proof (Z.pow_pos_nonneg 2 (- e) ltac:(lia) ltac:(lia)).
      assert (S4 : 2 ^ 52 * 2 ^ (k + e) <= m) by (apply Z.mul_le_mono_pos_r with (2 ^ (- e)); [lia|]; lia).
      assert (2 ^ 1 <= 2 ^ (k + e)) by (apply Z.pow_le_mono_r; lia). change (2 ^ 1) with 2 in H0.
      right. change (2 ^ 53) with (2 ^ 52 * 2) in *. set (z := 2 ^ 52) in *. assert (0 < z) by (unfold z; lia). clearbody z.
      assert (2 ^ (k + e) = 2) by nia. assert (k + e = 1). { apply (Z.pow_inj_r 2); [lia|lia|lia|]. rewrite H2. reflexivity. } split; [nia|lia]. }
  assert (Hr : exists r, fst (scale e m (2 ^ k)) = r * snd (scale e m (2 ^ k))).
  { unfold scale. destruct (0 <=? e) eqn:E; cbn [fst snd].
    - assert (X : 2 ^ k * 2 ^ e = 2 ^ (k + e)) by (rewrite <- Z.pow_add_r by lia; reflexivity). rewrite X.
      destruct He as [He|[-> He]].
      + exists m. replace (k + e) with 0 by lia. change (2 ^ 0) with 1. lia.
      + exists (2 ^ 52). replace (k + e) with 1 by lia. reflexivity.
    - destruct He as [He|[-> He]].
      + exists (m * 2 ^ (- e - k)). rewrite <- Z.mul_assoc, <- Z.pow_add_r by lia. do 2 f_equal. lia.
      + exists (2 ^ 52). rewrite He. replace k with (1 + - (1 - k)) at 2 by lia. rewrite Z.pow_add_r by lia. change (2 ^ 1) with 2. ring. }
  destruct Hr as [r Hr]. rewrite Hr, rhe_exact by assumption. unfold scale in *. destruct (0 <=? e) eqn:E; cbn [fst snd] in *.
  - rewrite Z.mul_1_r, Hr. ring.
  - symmetry. assumption.
Qed.

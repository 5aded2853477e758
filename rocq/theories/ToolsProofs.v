From Verif Require Import Base BaseProofs ToolsModel.
Ltac Zify.zify_post_hook ::= Z.div_mod_to_equations.

(** ** Alignment *)
Lemma paddingSize_spec v a : 1 <= a ->
  0 <= paddingSize v a < a /\ (v + paddingSize v a) mod a = 0 /\
  forall p, 0 <= p -> (v + p) mod a = 0 -> paddingSize v a <= p.
Proof.
  intros Ha. unfold paddingSize.
  assert (Hm : 0 <= v mod a < a) by (apply Z.mod_pos_bound; lia).
  assert (Hd : v = a * (v / a) + v mod a) by (apply Z.div_mod; lia).
  set (q := v / a) in *. set (r := v mod a) in *. clearbody q r.
  destruct (r =? 0) eqn:E; cbn [negb].
  - split; [lia|]. split.
    + replace (v + 0) with (q * a) by lia. apply Z.mod_mul; lia.
    + intros; lia.
  - split; [lia|]. split.
    + replace (v + (a - r)) with ((q + 1) * a) by lia. apply Z.mod_mul; lia.
    + intros p Hp Hmod. apply Z.mod_divide in Hmod; [|lia]. destruct Hmod as [k Hk].
      destruct (Z_le_gt_dec (a - r) p) as [|Hgt]; [assumption|exfalso].
      assert (q * a < k * a < (q + 1) * a) as [H1 H2] by lia.
      apply Zmult_lt_reg_r in H1; [|lia]. apply Zmult_lt_reg_r in H2; lia.
Qed.
Lemma alignValue_padding v a : alignValue v a = v + paddingSize v a.
Proof. unfold alignValue, paddingSize. destruct (v mod a =? 0); cbn [negb]; lia. Qed.
Lemma alignValue_spec v a : 1 <= a ->
  v <= alignValue v a /\ alignValue v a mod a = 0 /\
  forall m, v <= m -> m mod a = 0 -> alignValue v a <= m.
Proof.
  intros Ha. rewrite alignValue_padding. destruct (paddingSize_spec v a Ha) as (H1 & H2 & H3).
  repeat split; try lia.
  intros m Hm Hmod. specialize (H3 (m - v) ltac:(lia)). replace (v + (m - v)) with m in H3 by lia.
  specialize (H3 Hmod). lia.
Qed.

(** ** Indexing *)
Lemma py_nth_ok {A} (l : list A) i :
  0 <= i < zlen l -> exists x, py_nth l i = Ok x /\ nth_error l (Z.to_nat i) = Some x.
Proof.
  intros H. unfold py_nth. replace (i <? 0) with false by lia.
  replace ((0 <=? i) && (i <? zlen l)) with true by lia.
  destruct (nth_error l (Z.to_nat i)) eqn:E; [eauto|].
  apply nth_error_None in E. unfold zlen in H. lia.
Qed.
Lemma shiftr1 x : Z.shiftr x 1 = x / 2.
Proof. rewrite Z.shiftr_div_pow2 by lia. reflexivity. Qed.

(** ** binarySearch *)
(** [seq] is sorted for [cmp]: once the comparison says "too big" (negative) it
    says so for all later elements, and "too small" for all earlier ones. *)
Definition sorted_for {A} (seq : list A) (cmp : A -> Z) : Prop :=
  forall i j x y, (i <= j)%nat -> nth_error seq i = Some x -> nth_error seq j = Some y ->
    Z.sgn (cmp y) <= Z.sgn (cmp x).

Lemma binarySearch_loop_spec {A} (seq : list A) cmp : sorted_for seq cmp ->
  forall fuel lower upper,
  0 <= lower -> lower <= upper <= zlen seq -> (Z.to_nat (upper - lower) < fuel)%nat ->
  (forall i x, nth_error seq i = Some x -> cmp x = 0 -> lower <= Z.of_nat i < upper) ->
  (exists i x, binarySearch_loop fuel seq cmp lower upper = Ok (Some (Z.of_nat i)) /\
               nth_error seq i = Some x /\ cmp x = 0)
  \/ (binarySearch_loop fuel seq cmp lower upper = Ok None /\
      forall x, In x seq -> cmp x <> 0).
Proof.
  intros Hs. induction fuel as [|f IH]; intros lower upper Hl Hu Hf Hin; [lia|].
  cbn [binarySearch_loop]. destruct (lower <? upper) eqn:E.
  - rewrite shiftr1. set (m := (lower + upper) / 2).
    assert (Hm : lower <= m < upper) by (unfold m; lia). clearbody m.
    destruct (py_nth_ok seq m ltac:(lia)) as (x & Hx & Hnx). rewrite Hx. cbn [bind].
    destruct (cmp x <? 0) eqn:E1; [|destruct (0 <? cmp x) eqn:E2].
    + apply IH; try lia. intros i y Hy Hc. pose proof (Hin i y Hy Hc).
      destruct (Z_lt_ge_dec (Z.of_nat i) m); [lia|exfalso].
      pose proof (Hs (Z.to_nat m) i x y ltac:(lia) Hnx Hy). rewrite Hc in *. cbn [Z.sgn] in *. lia.
    + apply IH; try lia. intros i y Hy Hc. pose proof (Hin i y Hy Hc).
      destruct (Z_le_gt_dec (Z.of_nat i) m); [exfalso|lia].
      pose proof (Hs i (Z.to_nat m) y x ltac:(lia) Hy Hnx). rewrite Hc in *. cbn [Z.sgn] in *. lia.
    + left. exists (Z.to_nat m), x. rewrite Z2Nat.id by lia. repeat split; auto. lia.
  - right. split; [reflexivity|]. intros x Hx Hc. apply In_nth_error in Hx. destruct Hx as [i Hi].
    specialize (Hin i x Hi Hc). lia.
Qed.
Lemma binarySearch_spec {A} (seq : list A) cmp : sorted_for seq cmp ->
  (exists i x, binarySearch seq cmp = Ok (Some (Z.of_nat i)) /\ nth_error seq i = Some x /\ cmp x = 0)
  \/ (binarySearch seq cmp = Ok None /\ forall x, In x seq -> cmp x <> 0).
Proof.
  intros Hs. apply binarySearch_loop_spec; auto; unfold zlen; try lia.
  intros i x Hx _. assert (i < length seq)%nat by (apply nth_error_Some; congruence). lia.
Qed.

(** ** lowerBound *)
Definition downward_closed {A} (seq : list A) (p : A -> bool) : Prop :=
  forall i j x y, (i <= j)%nat -> nth_error seq i = Some x -> nth_error seq j = Some y ->
    p y = true -> p x = true.
Lemma lowerBound_loop_spec {A} (seq : list A) p : downward_closed seq p ->
  forall fuel f n, 0 <= f -> 0 <= n -> f + n <= zlen seq -> (Z.to_nat n < fuel)%nat ->
  (forall i x, nth_error seq i = Some x -> Z.of_nat i < f -> p x = true) ->
  (forall i x, nth_error seq i = Some x -> f + n <= Z.of_nat i -> p x = false) ->
  exists r, lowerBound_loop fuel seq p f n = Ok r /\ 0 <= r <= zlen seq /\
    (forall i x, nth_error seq i = Some x -> Z.of_nat i < r -> p x = true) /\
    (forall i x, nth_error seq i = Some x -> r <= Z.of_nat i -> p x = false).
Proof.
  intros Hd. induction fuel as [|k IH]; intros f n Hf Hn Hl Hk Ht Hff; [lia|].
  cbn [lowerBound_loop]. destruct (0 <? n) eqn:E.
  - rewrite shiftr1. set (h := n / 2). assert (Hh : 0 <= h < n) by (unfold h; lia). clearbody h.
    destruct (py_nth_ok seq (f + h) ltac:(lia)) as (x & Hx & Hnx). rewrite Hx. cbn [bind].
    destruct (p x) eqn:Ep.
    + apply IH; try lia.
      * intros i y Hy Hi. apply (Hd i (Z.to_nat (f + h)) y x); auto. lia.
      * intros i y Hy Hi. apply (Hff i y Hy). lia.
    + apply IH; try lia.
      * assumption.
      * intros i y Hy Hi. destruct (p y) eqn:Ey; [|reflexivity].
        rewrite <- Ep. symmetry. apply (Hd (Z.to_nat (f + h)) i x y); auto. lia.
  - exists f. repeat split; try lia; auto. intros i x Hx Hi. apply (Hff i x Hx). lia.
Qed.
Lemma lowerBound_spec {A} (seq : list A) p : downward_closed seq p ->
  exists r, lowerBound seq p = Ok r /\ 0 <= r <= zlen seq /\
    (forall i x, nth_error seq i = Some x -> Z.of_nat i < r -> p x = true) /\
    (forall i x, nth_error seq i = Some x -> r <= Z.of_nat i -> p x = false).
Proof.
  intros Hd. apply lowerBound_loop_spec; auto; unfold zlen; try lia.
  intros i x Hx Hi. assert (i < length seq)%nat by (apply nth_error_Some; congruence). lia.
Qed.

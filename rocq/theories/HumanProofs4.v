(** Proofs about timestamps. *)
From Coq Require Import String.
From Verif Require Import Base BaseProofs DictModel BitsModel FieldModel FieldNames FloatModel FloatProofs Lit HumanModel HumanSpec.
Ltac Zify.zify_post_hook ::= Z.div_mod_to_equations.

Lemma epochs : UNIX_TIMESTAMP_T0 = day 719162 /\ MAC_TIMESTAMP_T0 = day 695055 /\ WIN64_TIMESTAMP_T0 = day 584388 /\ UUID60_TIMESTAMP_T0 = day 577735 /\ days_before_year 10000 = 3652059.
Proof. repeat split. Qed.
Lemma td_ok us : 0 <= us < 86400000000 * 1000000000 -> timedelta us = Ok us.
Proof. intros H. unfold timedelta, us_per_day. replace (_ && _) with true by lia. reflexivity. Qed.
Lemma td_err us : 86400000000 * 1000000000 <= us -> timedelta us = Err OtherError.
Proof. intros H. unfold timedelta, us_per_day. replace (_ && _) with false by lia. reflexivity. Qed.
Lemma unix_lemma v : timestampUNIX v = if (0 <=? v) && (v <=? 2147483647) then Ok (day 719162 + v * 1000000) else Err ValueError.
Proof.
  unfold timestampUNIX. destruct (0 <=? v) eqn:E0; cbn [andb negb]; [|reflexivity]. destruct (v <=? 2147483647) eqn:E1; cbn [negb]; [|reflexivity].
  rewrite td_ok by lia. cbn [bind]. unfold dt_add. destruct epochs as (-> & _ & _ & _ & ->). unfold day, us_per_day. replace (_ && _) with true by lia. reflexivity.
Qed.
Lemma mac_lemma v : timestampMac32 v = if (0 <=? v) && (v <=? 4294967295) then Ok (Some (day 695055 + v * 1000000)) else Ok None.
Proof.
  unfold timestampMac32. destruct (0 <=? v) eqn:E0; cbn [andb negb]; [|reflexivity]. destruct (v <=? 4294967295) eqn:E1; cbn [negb]; [|reflexivity].
  rewrite td_ok by lia. cbn [bind]. unfold dt_add. destruct epochs as (_ & -> & _ & _ & ->). unfold day, us_per_day. replace (_ && _) with true by lia. reflexivity.
Qed.

(** The float v/10 rounded to microseconds. *)
Definition us_of (v : Z) : Z := fround (fl v 10).
Lemma us_of_error v : 0 <= v -> 2 ^ 53 * (Z.abs (10 * us_of v - v) - 5) <= v.
Proof.
  intros Hv. unfold us_of, fround. destruct (fl_pos v 10 Hv ltac:(lia)) as [P Q]. pose proof (fl_error v 10 Hv ltac:(lia)) as E.
  set (x := fl v 10) in *. clearbody x. destruct x as [f s]. cbn [fst snd] in *. pose proof (rhe_error f s Q) as R. set (t := rhe f s) in *. clearbody t.
  apply Z.mul_le_mono_pos_r with s; [assumption|].
  assert (T : Z.abs (10 * t - v) * s <= 10 * Z.abs (t * s - f) + Z.abs (f * 10 - v * s)).
  { rewrite <- (Z.abs_eq s) at 1 by lia. rewrite <- (Z.abs_eq 10) at 2 by lia. rewrite <- !Z.abs_mul. replace ((10 * t - v) * s) with (10 * (t * s - f) + (f * 10 - v * s)) by ring. apply Z.abs_triangle. }
  replace (2 ^ 53 * (Z.abs (10 * t - v) - 5) * s) with (2 ^ 53 * (Z.abs (10 * t - v) * s - 5 * s)) by ring.
  etransitivity; [apply Z.mul_le_mono_nonneg_l; [lia|]|exact E]. lia.
Qed.
Lemma us_of_mono v w : 0 <= v <= w -> us_of v <= us_of w.
Proof.
  intros H. unfold us_of, fround. destruct (fl_pos v 10 ltac:(lia) ltac:(lia)) as [P Q]. destruct (fl_pos w 10 ltac:(lia) ltac:(lia)) as [P' Q'].
  apply rhe_mono; [assumption|assumption|]. apply fl_mono; lia.
Qed.
Lemma us_of_pos v : 0 <= v -> 0 <= us_of v.
Proof. intros H. pose proof (us_of_mono 0 v ltac:(lia)). change (us_of 0) with 0 in H0. exact H0. Qed.
Lemma big_value v : 2 ^ 1024 <= v / 10 -> 2 ^ 64 <= v.
Proof.
  intros H. assert (2 ^ 64 <= 2 ^ 1024) by (apply Z.pow_le_mono_r; lia). set (z := 2 ^ 1024) in *. clearbody z. assert (0 < 2 ^ 64) by reflexivity. set (y := 2 ^ 64) in *. clearbody y. lia.
Qed.
Lemma tenths_lemma v : 0 <= v -> timedelta_tenths v = (if us_of v <? 86400000000 * 1000000000 then Ok (us_of v) else Err OtherError).
Proof.
  intros Hv. pose proof (us_of_pos v Hv). unfold timedelta_tenths. destruct (2 ^ 1024 <=? v / 10) eqn:E.
  - replace (us_of v <? 86400000000 * 1000000000) with false; [reflexivity|]. symmetry. apply Z.ltb_ge.
    assert (E' : 2 ^ 1024 <= v / 10) by lia. clear E. apply us_of_mono in E' || idtac.
    assert (Hb : 2 ^ 70 <= v). { assert (2 ^ 70 <= 2 ^ 1024) by (apply Z.pow_le_mono_r; lia). set (z := 2 ^ 1024) in *. clearbody z. assert (0 < 2 ^ 70) by reflexivity. set (y := 2 ^ 70) in *. clearbody y. lia. }
    etransitivity; [|apply (us_of_mono (2 ^ 70) v); split; [apply Z.pow_nonneg; lia|exact Hb]]. apply Z.leb_le. vm_compute. reflexivity.
  - fold (us_of v). destruct (us_of v <? 86400000000 * 1000000000) eqn:E2; [apply td_ok; lia|apply td_err; lia].
Qed.
(** Both timestamps: an epoch plus tenths of microseconds. *)
Lemma tenths_timestamp epoch v : 0 <= v -> 0 <= epoch <= day 3652059 -> 
  overflow_to_value (do d <- timedelta_tenths v; dt_add epoch d) =
  (if epoch + us_of v <? day 3652059 then Ok (epoch + us_of v) else Err ValueError).
Proof.
  intros Hv He. rewrite tenths_lemma by assumption. pose proof (us_of_pos v Hv). destruct epochs as (_ & _ & _ & _ & E5).
  unfold day in *. destruct (us_of v <? 86400000000 * 1000000000) eqn:E.
  - cbn [bind]. unfold dt_add. rewrite E5. unfold us_per_day. replace (0 <=? epoch + us_of v) with true by lia. cbn [andb]. 
    replace (3652059 * 86400000000) with (86400000000 * 3652059) by lia. destruct (epoch + us_of v <? 86400000000 * 3652059); reflexivity.
  - cbn [bind overflow_to_value]. replace (epoch + us_of v <? 86400000000 * 3652059) with false by lia. reflexivity.
Qed.
Lemma win64_eq v : timestampWin64 v = if v <? 0 then Err ValueError else if day 584388 + us_of v <? day 3652059 then Ok (day 584388 + us_of v) else Err ValueError.
Proof.
  unfold timestampWin64, durationWin64. destruct (v <? 0) eqn:E; [reflexivity|]. destruct epochs as (_ & _ & -> & _ & _). apply tenths_timestamp; unfold day; lia.
Qed.
Lemma uuid_eq v : timestampUUID60 v = if v <? 0 then Err ValueError else if day 577735 + us_of v <? day 3652059 then Ok (day 577735 + us_of v) else Err ValueError.
Proof.
  unfold timestampUUID60. destruct (v <? 0) eqn:E; [reflexivity|]. destruct epochs as (_ & _ & _ & -> & _). apply tenths_timestamp; unfold day; lia.
Qed.
Lemma accuracy_of epoch f :
  (forall v, f v = if v <? 0 then Err ValueError else if epoch + us_of v <? day 3652059 then Ok (epoch + us_of v) else Err ValueError) ->
  day 577735 <= epoch <= day 3652059 -> us_of (10 * (day 3652059 - epoch)) = day 3652059 - epoch ->
  tenth_us_timestamp epoch f.
Proof.
  intros Hf He Hx. unfold tenth_us_timestamp. assert (H53 : 2 ^ 53 = 9007199254740992) by reflexivity. split; [|split; [|split]].
  - intros v. rewrite Hf. destruct (v <? 0) eqn:E; [right; reflexivity|]. destruct (epoch + us_of v <? day 3652059); [left; eauto|right; reflexivity].
  - intros v t. rewrite Hf. destruct (v <? 0) eqn:E; [discriminate|]. destruct (epoch + us_of v <? day 3652059) eqn:E2; [|discriminate].
    intros H. injection H as <-. pose proof (us_of_error v ltac:(lia)) as A. pose proof (us_of_pos v ltac:(lia)).
    replace (10 * (epoch + us_of v - epoch) - v) with (10 * us_of v - v) by ring. split; [lia|]. split; [lia|]. split; [exact A|].
    intros Hs. rewrite H53 in *. lia.
  - intros v. split.
    + intros H. rewrite Hf. destruct (v <? 0) eqn:E; [reflexivity|]. destruct H as [H|H]; [lia|].
      pose proof (us_of_mono (10 * (day 3652059 - epoch)) v ltac:(lia)) as M. 
      replace (epoch + us_of v <? day 3652059) with false; [reflexivity|]. symmetry. apply Z.ltb_ge.
      lia.
    + intros [H1 H2]. rewrite Hf. replace (v <? 0) with false by lia. pose proof (us_of_error v H1) as A. rewrite H53 in A. unfold day, slack in *.
      replace (epoch + us_of v <? 86400000000 * 3652059) with true by lia. eauto.
  - intros v w t u Hvw. rewrite !Hf. destruct (v <? 0) eqn:E1; [discriminate|]. destruct (w <? 0) eqn:E2; [discriminate|].
    destruct (epoch + us_of v <? day 3652059); [|discriminate]. destruct (epoch + us_of w <? day 3652059); [|discriminate].
    intros H1 H2. injection H1 as <-. injection H2 as <-. pose proof (us_of_mono v w ltac:(lia)). lia.
Qed.
Lemma win64_lemma : tenth_us_timestamp (day 584388) timestampWin64.
Proof. apply accuracy_of; [exact win64_eq|unfold day; lia|vm_compute; reflexivity]. Qed.
Lemma uuid_lemma : tenth_us_timestamp (day 577735) timestampUUID60.
Proof. apply accuracy_of; [exact uuid_eq|unfold day; lia|vm_compute; reflexivity]. Qed.
Lemma duration_win64_lemma v d : durationWin64 v = Ok d -> 0 <= v /\ 2 ^ 53 * (Z.abs (10 * d - v) - 5) <= v.
Proof.
  unfold durationWin64. destruct (v <? 0) eqn:E; [discriminate|]. rewrite tenths_lemma by lia. destruct (us_of v <? 86400000000 * 1000000000); [|discriminate].
  intros H. injection H as <-. split; [lia|]. apply us_of_error. lia.
Qed.
Lemma millis_lemma v : durationMillisWin64 v = if v <? 0 then Err ValueError else if v * 1000 <? day 1000000000 then Ok (v * 1000) else Err OtherError.
Proof.
  unfold durationMillisWin64. destruct (v <? 0) eqn:E; [reflexivity|]. unfold day. destruct (v * 1000 <? 86400000000 * 1000000000) eqn:E2; [apply td_ok; lia|apply td_err; lia].
Qed.

Lemma exact_witness : exists v t, timestampUUID60 v = Ok t /\ 5 < Z.abs (10 * (t - day 577735) - v).
Proof. exists 130435676263032368, (day 577735 + 13043567626303236). split; vm_compute; reflexivity. Qed.
Lemma distinct_witness : exists v w t, 30 <= w - v /\ timestampWin64 v = Ok t /\ timestampWin64 w = Ok t.
Proof. exists 2600000000000000010, 2600000000000000040, (day 584388 + 260000000000000000). split; [lia|]. split; vm_compute; reflexivity. Qed.

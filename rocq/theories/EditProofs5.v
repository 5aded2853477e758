From Verif Require Import Base BaseProofs BitsModel BitsSpec BitsProofs BitsProofs2 StreamModel StreamSpec StreamProofs DictModel DictProofs OutputModel
  OutputProofs OutputProofs2 HuffSpec HuffProofs DeflateSpec DeflateProofs EditModel EditSpec EditProofs EditProofs2 EditProofs3 EditProofs4.
Ltac Zify.zify_post_hook ::= Z.div_mod_to_equations.

(** ** Lists of bits are determined by their length and their value *)
Definition eval (e : endian) (l : list bool) : Z := match e with BIG_ENDIAN => val_be l | _ => val_le l end.
Lemma val_le_inj a : forall b, zlen a = zlen b -> val_le a = val_le b -> a = b.
Proof.
  induction a as [|x a IH]; intros [|y b] L V.
  - reflexivity.
  - rewrite zlen_cons, zlen_nil in L. pose proof (zlen_nonneg b). lia.
  - rewrite zlen_cons, zlen_nil in L. pose proof (zlen_nonneg a). lia.
  - rewrite !zlen_cons in L. rewrite !val_le_cons in V.
    assert (x = y) by (unfold b2z in V; destruct x, y; try reflexivity; lia). subst. f_equal. apply IH; lia.
Qed.
Lemma val_be_rev l : val_be (rev l) = val_le l.
Proof.
  induction l as [|x l IH]; [reflexivity|]. cbn [rev]. rewrite val_be_app, IH, val_le_cons. change (zlen [x]) with 1.
  rewrite val_be_cons. change (zlen (@nil bool)) with 0. rewrite val_be_nil. lia.
Qed.
Lemma val_be_inj a b : zlen a = zlen b -> val_be a = val_be b -> a = b.
Proof.
  intros L V. rewrite <- (rev_involutive a), <- (rev_involutive b) in V. rewrite !val_be_rev in V.
  rewrite <- (rev_involutive a), <- (rev_involutive b). f_equal. apply val_le_inj; [rewrite !zlen_rev; assumption|assumption].
Qed.
Lemma eval_inj e a b : zlen a = zlen b -> eval e a = eval e b -> a = b.
Proof. destruct e; [apply val_be_inj|apply val_le_inj|apply val_le_inj]. Qed.
Lemma eval_app e a b : eval e (a ++ b) = append_bits e (zlen a) (eval e a) (zlen b) (eval e b).
Proof. destruct e; cbn [eval append_bits]; [apply val_be_app|apply val_le_app|apply val_le_app]. Qed.
Lemma zlen_ebits e d : zlen (ebits e d) = 8 * zlen d.
Proof. destruct e; [apply zlen_bits_be|apply zlen_bits_le|apply zlen_bits_le]. Qed.
Lemma eval_ebits e d : is_bytes d -> eval e (ebits e d) = str_value e d.
Proof. intros H. destruct e; cbn; [rewrite from_bytes_big_val|rewrite from_bytes_little_val|rewrite from_bytes_little_val]; auto. Qed.
Lemma ebits_app e a b : ebits e (a ++ b) = ebits e a ++ ebits e b.
Proof. destruct e; [apply bits_be_app|apply bits_le_app|apply bits_le_app]. Qed.
Lemma zlen_spell e n v : 0 <= n -> zlen (spell e n v) = n.
Proof. intros H. destruct e; unfold spell, zlen; rewrite map_length, seq_length; lia. Qed.
Lemma digits_val n : 0 <= n -> forall v, 0 <= v < 2 ^ n -> val_be (digits n v) = v.
Proof.
  intros Hn. pattern n. apply natlike_ind; [| |assumption]; clear n Hn.
  - intros v Hv. change (digits 0 v) with (@nil bool). rewrite val_be_nil. change (2 ^ 0) with 1 in Hv. lia.
  - intros n Hn IH v Hv. unfold Z.succ in *. rewrite digits_cons by assumption. rewrite val_be_cons, digits_length by assumption.
    rewrite Z.pow_add_r in Hv by lia. change (2 ^ 1) with 2 in Hv.
    assert (Hp : 0 < 2 ^ n) by (apply Z.pow_pos_nonneg; lia).
    assert (E : digits n v = digits n (v mod 2 ^ n)).
    { unfold digits. apply map_ext_in. intros k Hk. apply in_seq in Hk. rewrite Z.mod_pow2_bits_low by lia. reflexivity. }
    rewrite E, IH by (apply Z.mod_pos_bound; lia).
    assert (Hb : Z.testbit v n = negb (v / 2 ^ n =? 0)).
    { rewrite Z.testbit_eqb by lia. assert (0 <= v / 2 ^ n < 2) by (split; [apply Z.div_pos; lia|apply Z.div_lt_upper_bound; lia]).
      assert (v / 2 ^ n = 0 \/ v / 2 ^ n = 1) as [-> | ->] by lia; reflexivity. }
    rewrite Hb. assert (0 <= v / 2 ^ n < 2) by (split; [apply Z.div_pos; lia|apply Z.div_lt_upper_bound; lia]).
    pose proof (Z.div_mod v (2 ^ n) ltac:(lia)) as DM.
    assert (v / 2 ^ n = 0 \/ v / 2 ^ n = 1) as [Q|Q] by lia; rewrite Q in *; cbn [Z.eqb negb b2z]; lia.
Qed.
Lemma eval_spell e n v : 0 <= n -> 0 <= v < 2 ^ n -> eval e (spell e n v) = v.
Proof.
  intros Hn Hv. destruct e; cbn [eval].
  - exact (digits_val n Hn v Hv).
  - exact (le_digits_val n Hn v Hv).
  - exact (le_digits_val n Hn v Hv).
Qed.

(** ** The bits of an output stream *)
Lemma zlen_obits e st : wf_out e st -> zlen (obits e st) = total st.
Proof.
  intros (_ & Hb & _). unfold obits. rewrite zlen_app, zlen_ebits. unfold total. f_equal.
  destruct e; rewrite zlen_sub_exact; rewrite ?zlen_bits_be, ?zlen_bits_le; change (zlen [byte st]) with 1; lia.
Qed.
Lemma eval_obits e st : e <> MIDDLE_ENDIAN -> wf_out e st -> eval e (obits e st) = written e st.
Proof.
  intros He (Ho & Hb & Hby). unfold obits. rewrite eval_app, zlen_ebits, eval_ebits by assumption.
  destruct e; [| |congruence].
  - cbn [append_bits eval str_value written].
    rewrite zlen_sub_exact by (rewrite ?zlen_bits_be; change (zlen [byte st]) with 1; lia).
    assert (B : is_bytes [byte st]) by (repeat constructor; unfold is_byte; lia).
    pose proof (bits_at_arith_big [byte st] 0 (bit_pos st) B ltac:(lia) ltac:(lia) ltac:(change (zlen [byte st]) with 1; lia)) as E.
    unfold bits_at in E. rewrite E. change (zlen [byte st]) with 1. change (from_bytes_big [byte st]) with (0 * 256 + byte st).
    replace (0 * 256 + byte st) with (byte st) by lia. replace (8 * 1 - 0 - bit_pos st) with (8 - bit_pos st) by lia. f_equal.
    apply Z.mod_small. split; [apply Z.div_pos; [lia|apply Z.pow_pos_nonneg; lia]|]. apply Z.div_lt_upper_bound; [apply Z.pow_pos_nonneg; lia|].
    rewrite <- pow_split by lia. replace (8 - bit_pos st + bit_pos st) with 8 by lia. change (2 ^ 8) with 256. lia.
  - cbn [append_bits eval str_value written].
    assert (2 ^ bit_pos st <= 2 ^ 7) by (apply Z.pow_le_mono_r; lia). change (2 ^ 7) with 128 in *.
    assert (B : is_bytes [byte st]) by (repeat constructor; unfold is_byte; lia).
    pose proof (bits_at_arith_little [byte st] 0 (bit_pos st) B ltac:(lia) ltac:(lia) ltac:(change (zlen [byte st]) with 1; lia)) as E.
    unfold bits_at in E. rewrite E. change (from_bytes_little [byte st]) with (byte st + 256 * 0).
    replace (byte st + 256 * 0) with (byte st) by lia. rewrite Z.pow_0_r, Z.div_1_r, Z.mod_small by lia. reflexivity.
Qed.
Lemma total_nonneg e st : wf_out e st -> 0 <= total st.
Proof. intros (_ & Hb & _). unfold total. pose proof (zlen_nonneg (out st)). lia. Qed.
Lemma extends_bits e st st' l : e <> MIDDLE_ENDIAN -> wf_out e st -> extends e st st' (zlen l) (eval e l) ->
  wf_out e st' /\ obits e st' = obits e st ++ l.
Proof.
  intros He Hw (Hw' & Ht & Hv). split; [assumption|]. apply (eval_inj e).
  - rewrite zlen_app, !zlen_obits by assumption. assumption.
  - rewrite eval_app, !eval_obits, zlen_obits by assumption. assumption.
Qed.
Lemma extends_bits' e st st' c v l : e <> MIDDLE_ENDIAN -> wf_out e st -> extends e st st' c v -> zlen l = c -> eval e l = v ->
  wf_out e st' /\ obits e st' = obits e st ++ l.
Proof. intros He Hw H E1 E2. subst. apply extends_bits; assumption. Qed.

(** ** Contents as bits *)
Section Bits.
Context (e : endian) (He : e <> MIDDLE_ENDIAN) (data : list Z) (Hd : is_bytes data) (input : read_fun) (Hs : serves input data).
Definition bits_R (st st' : ostream) (l : list bool) : Prop := wf_out e st -> wf_out e st' /\ obits e st' = obits e st ++ l.
Definition bits_range (a n : Z) : Prop := 0 <= a /\ 0 <= n /\ a + n <= 8 * zlen data.

Lemma bits_R_refl st : bits_R st st [].
Proof using. intros H. rewrite app_nil_r. auto. Qed.
Lemma bits_R_trans st1 st2 st3 a b : bits_R st1 st2 a -> bits_R st2 st3 b -> bits_R st1 st3 (a ++ b).
Proof using. intros H1 H2 Hw. destruct (H1 Hw) as [W2 E2]. destruct (H2 W2) as [W3 E3]. split; [assumption|]. rewrite E3, E2, app_assoc. reflexivity. Qed.
Lemma eval_orig a n : bits_range a n -> eval e (orig_bits e data a n) = bits_at data a n e.
Proof using He. intros _. unfold orig_bits, bits_at. destruct e; [reflexivity|reflexivity|congruence]. Qed.
Lemma zlen_orig a n : bits_range a n -> zlen (orig_bits e data a n) = n.
Proof using. clear. intros (H1 & H2 & H3). unfold orig_bits. apply zlen_sub_exact; rewrite ?zlen_ebits; lia. Qed.
Lemma bits_copy_bits st st' a n e' : e' = e -> bits_range a n -> copyBitsFrom st input a n e' = Ok st' -> bits_R st st' (orig_bits e data a n).
Proof using He Hd Hs.
  intros -> Hr H Hw. pose proof Hr as (H1 & H2 & H3). assert (Hb : 0 <= bit_pos st < 8) by apply Hw.
  destruct (Z.eq_dec n 0) as [->|Hn].
  - assert (E : orig_bits e data a 0 = []) by (unfold orig_bits; apply sub_0). rewrite E. unfold copyBitsFrom in H.
    destruct ((0 mod 8 =? 0) && (a mod 8 =? 0) && (bit_pos st mod 8 =? 0)) eqn:E1.
    + unfold copyBytesFrom in H. destruct (negb (a mod 8 =? 0)); [discriminate|]. cbn in H. injection H as <-. rewrite app_nil_r. auto.
    + destruct (0 <=? max_bit_length); cbn [assert_ bind] in H; [|discriminate].
      destruct (readBits input a 0 e) as [v|]; cbn [bind] in H; [|discriminate].
      assert (v = 0) as ->.
      { unfold writeBits in H. destruct (not_middle e); cbn [assert_ bind] in H; [|discriminate].
        destruct ((0 <=? 0) && (0 <=? v) && (v <? 2 ^ 0)) eqn:E2; cbn [assert_ bind] in H; [|discriminate]. change (2 ^ 0) with 1 in E2. lia. }
      destruct (writeBits_spec st 0 0 e He Hw ltac:(lia) ltac:(cbn; lia)) as (st2 & G1 & G2 & G3 & G4). rewrite H in G1. injection G1 as <-.
      apply (extends_bits' e st st' 0 0); auto; [split; auto|destruct e; reflexivity].
  - assert (Hcase : n <= max_bit_length \/ a mod 8 = 0 /\ n mod 8 = 0 /\ bit_pos st = 0).
    { unfold copyBitsFrom in H. destruct ((n mod 8 =? 0) && (a mod 8 =? 0) && (bit_pos st mod 8 =? 0)) eqn:E1; [right; lia|left].
      destruct (n <=? max_bit_length) eqn:E2; [lia|discriminate]. }
    destruct (copyBitsFrom_exact st input data a n e Hs Hd He Hw H1 ltac:(lia) H3 Hcase) as (st2 & G1 & G2). rewrite H in G1. injection G1 as <-.
    apply (extends_bits' e st st' _ _ _ He Hw G2); [apply zlen_orig; assumption|apply eval_orig; assumption].
Qed.
Lemma copyBytes_aligned st st' a n : 0 <= a -> 0 < n -> a + 8 * n <= 8 * zlen data -> copyBytesFrom st input a n = Ok st' ->
  a mod 8 = 0 /\ bit_pos st = 0 /\ st' = {| out := out st ++ sub data (a / 8) n; bit_pos := 0; byte := byte st |}.
Proof using Hs.
  intros H1 H2 H3 H. assert (H' := H). unfold copyBytesFrom in H. destruct (a mod 8 =? 0) eqn:E; cbn [negb] in H; [|discriminate].
  assert (a mod 8 = 0) by lia. assert (bit_pos st = 0).
  { cbn [copyBytes_loop] in H. replace (0 <? n) with true in H by lia.
    set (b := if n <? Z.shiftl 1 12 then n else Z.shiftl 1 12) in *.
    assert (Hb : 1 <= b <= n) by (unfold b; change (Z.shiftl 1 12) with 4096; destruct (n <? 4096) eqn:?; lia).
    replace a with (8 * (a / 8)) in H by lia.
    rewrite (readBytes_serves input data (a / 8) b Hs) in H by lia. cbn [bind] in H.
    unfold writeBytes in H. destruct (bit_pos st =? 0) eqn:E2; [lia|]. discriminate. }
  split; [assumption|]. split; [assumption|].
  pose proof (copyBytesFrom_exact st input data (a / 8) n Hs ltac:(assumption) ltac:(lia) ltac:(lia) ltac:(lia)) as C.
  replace (8 * (a / 8)) with a in C by lia. rewrite C in H'. injection H' as <-. reflexivity.
Qed.
Lemma writeBytes_bits st st' d : is_bytes d -> writeBytes st d = Ok st' -> bits_R st st' (ebits e d).
Proof using He.
  clear Hs. intros B H Hw. assert (E : bit_pos st = 0).
  { unfold writeBytes in H. destruct (bit_pos st =? 0) eqn:E; [lia|discriminate]. }
  destruct (writeBytes_extends e st d He Hw E B) as (st2 & G1 & _ & _ & _ & G2). rewrite H in G1. injection G1 as <-.
  apply (extends_bits' e st st' _ _ _ He Hw G2); [apply zlen_ebits|apply eval_ebits; assumption].
Qed.
Lemma bits_copy_bytes st st' a n : bits_range a n -> n mod 8 = 0 -> copyBytesFrom st input a (n / 8) = Ok st' -> bits_R st st' (orig_bits e data a n).
Proof using He Hd Hs.
  intros Hr Hm H. pose proof Hr as (H1 & H2 & H3). destruct (Z.eq_dec n 0) as [->|Hn].
  - assert (E : orig_bits e data a 0 = []) by (unfold orig_bits; apply sub_0). rewrite E.
    unfold copyBytesFrom in H. destruct (negb (a mod 8 =? 0)); [discriminate|]. cbn in H. injection H as <-. apply bits_R_refl.
  - destruct (copyBytes_aligned st st' a (n / 8) H1 ltac:(lia) ltac:(lia) H) as (A1 & A2 & ->).
    assert (E : orig_bits e data a n = ebits e (sub data (a / 8) (n / 8))).
    { unfold orig_bits. destruct e; cbn [ebits]; rewrite ?bits_be_sub, ?bits_le_sub by lia; f_equal; lia. }
    rewrite E. apply writeBytes_bits; [apply is_bytes_sub; assumption|]. unfold writeBytes. rewrite A2. reflexivity.
Qed.
Lemma bits_write_value st st' e' f v : e' = e -> ef_value f = Some v -> fits (ef_kind f) (ef_size f) v ->
  field_write_value e' f st = Ok st' -> bits_R st st' (enc_bits e' (ef_kind f) (ef_size f) v).
Proof using He.
  clear Hs Hd. intros -> V F H. unfold field_write_value in H. rewrite V in H.
  destruct (ef_kind f) as [signed|fm prefix suffix| | | | |] eqn:K, v as [z|b|t|s]; cbn [fits] in F; try contradiction; cbn [enc_bits].
  - (* integer *)
    destruct F as (F1 & F2 & F3). intros Hw. set (sz := ef_size f / 8) in *.
    assert (Esz : 8 * sz = ef_size f) by (unfold sz; lia). rewrite <- Esz in F3.
    assert (H0 : bit_pos st = 0).
    { destruct (Z.eq_dec (bit_pos st) 0) as [|N]; [assumption|].
      rewrite (writeInteger_unaligned st z signed sz e N He ltac:(lia) F3) in H. discriminate. }
    destruct (writeInteger_raw st z signed sz e H0 He ltac:(lia) F3) as (raw & G1 & G2 & G3 & G4). rewrite H in G1. injection G1 as ->.
    destruct (writeBytes_extends e st raw He Hw H0 G2) as (st2 & W1 & _ & _ & _ & W2).
    unfold writeBytes in W1. rewrite H0 in W1. cbn [Z.eqb negb] in W1. injection W1 as <-.
    apply (extends_bits' e _ _ _ _ _ He Hw W2).
    + rewrite zlen_spell by lia. lia.
    + rewrite G4. rewrite <- Esz. unfold stored. apply eval_spell; [lia|].
      destruct signed; [|assumption]. pose proof (pow_half (8 * sz) ltac:(lia)). lia.
  - (* string *)
    destruct F as (F1 & F2 & F3). destruct fm as [| |n].
    + destruct (writeBytes st b) as [st1|] eqn:E1; cbn [bind] in H; [|discriminate]. rewrite ebits_app.
      apply (bits_R_trans st st1); apply writeBytes_bits; assumption.
    + apply writeBytes_bits; assumption.
    + destruct (writeInteger st (zlen b) false n e); discriminate.
  - destruct F as (F1 & F2). intros Hw.
    destruct (writeBits_spec st (ef_size f) s e He Hw ltac:(lia) ltac:(rewrite F1; assumption)) as (st2 & G1 & G2 & G3 & G4).
    rewrite H in G1. injection G1 as <-. apply (extends_bits' e st st' (ef_size f) s); auto; [split; auto| |].
    + apply zlen_spell. lia.
    + apply eval_spell; [lia|rewrite F1; assumption].
  - apply writeBytes_bits; assumption.
  - destruct F as (F1 & F2). intros Hw.
    destruct (writeBits_spec st (ef_size f) z e He Hw F1 F2) as (st2 & G1 & G2 & G3 & G4).
    rewrite H in G1. injection G1 as <-. apply (extends_bits' e st st' (ef_size f) z); auto; [split; auto| |].
    + apply zlen_spell. lia.
    + apply eval_spell; assumption.
  - destruct (negb (bit_pos st =? 0)); discriminate.
Qed.
Lemma bits_enc_len e' f v : e' = e -> ef_value f = Some v -> fits (ef_kind f) (ef_size f) v ->
  field_size f = 1 * zlen (enc_bits e' (ef_kind f) (ef_size f) v).
Proof using.
  clear. intros -> V F. unfold field_size. rewrite V.
  destruct (ef_kind f) as [signed|fm prefix suffix| | | | |] eqn:K, v as [z|b|t|s]; cbn [fits] in F; try contradiction; cbn [enc_bits].
  - rewrite zlen_spell; lia.
  - destruct F as (_ & _ & F). destruct fm as [| |n]; rewrite ?zlen_app, ?zlen_ebits, ?zlen_app.
    + subst. lia.
    + destruct F as [-> ->]. change (zlen (@nil Z)) with 0. lia.
    + destruct F as (F0 & -> & -> & _). change (zlen (@nil Z)) with 0. rewrite zlen_spell by lia. lia.
  - rewrite zlen_spell; lia.
  - rewrite zlen_ebits. lia.
  - rewrite zlen_spell; lia.
  - destruct F as [F1 F2]. rewrite zlen_ebits. lia.
Qed.

Theorem editor_bits i l n :
  parsed bits_range (fun e' => e' = e) i -> (exists nm e a s ch, i = ISet nm e a s ch) -> edited fits (createEditor i) l n ->
  let d := final_doc (orig_bits e data) enc_bits i l in
  (forall st st', wf_out e st -> writeInto input n st = Ok st' -> obits e st' = obits e st ++ flatten d) /\
  editor_size input n = zlen (flatten d) /\
  exists ds, d = Node ds /\ map v_name (iter_views input n) = map fst ds /\ editor_len n = zlen ds /\
    forall name a, editor_address input n name = Ok a <->
      exists l1 x l2, ds = l1 ++ (name, x) :: l2 /\ ~ In name (map fst l1) /\ a = zlen (flatten (Node l1)).
Proof using He Hd Hs.
  intros P IS E. cbn zeta.
  assert (K := editor_ok 1 input bits_R bits_range (fun e' => e' = e) fits (orig_bits e data) enc_bits bits_R_refl bits_R_trans).
  specialize K with (i := i) (l := l) (n := n).
  destruct K as (S1 & S2 & ds & S3 & S4 & S5 & S6); try assumption.
  - intros a m H. apply H.
  - intros a m k (H1 & H2 & H3) (H4 & H5 & H6) H7. unfold bits_range. lia.
  - intros a. apply sub_0.
  - intros a m k (H1 & H2 & H3) (H4 & H5 & H6). unfold orig_bits. symmetry. apply sub_app_split; lia.
  - intros a m H. rewrite zlen_orig by assumption. lia.
  - intros; eapply bits_copy_bits; eassumption.
  - intros; eapply bits_copy_bytes; eassumption.
  - intros; eapply bits_write_value; eassumption.
  - intros; eapply bits_enc_len; eassumption.
  - split; [|split; [rewrite S2; lia|]].
    + intros st st' Hw H. apply (S1 st st' H Hw).
    + exists ds. repeat (split; [assumption|]). intros name a. rewrite S6.
      split; intros (l1 & x & l2 & E1 & E2 & E3); exists l1, x, l2; (split; [assumption|split; [assumption|lia]]).
Qed.
End Bits.

From Verif Require Import Base BaseProofs BitsModel BitsSpec BitsProofs BitsProofs2 StreamModel StreamSpec StreamProofs DictModel DictProofs OutputModel
  OutputProofs OutputProofs2 HuffSpec HuffProofs DeflateSpec DeflateProofs EditModel EditSpec EditProofs EditProofs2 EditProofs3 EditProofs4 EditProofs5.
Ltac Zify.zify_post_hook ::= Z.div_mod_to_equations.

(** ** The bytes of an integer *)
Lemma zlen_le_bytes n v : zlen (le_bytes n v) = Z.of_nat n.
Proof. revert v; induction n as [|n IH]; intros v; cbn [le_bytes]; [reflexivity|]. rewrite zlen_cons, IH. lia. Qed.
Lemma is_bytes_le_bytes n v : is_bytes (le_bytes n v).
Proof. revert v; induction n as [|n IH]; intros v; cbn [le_bytes]; constructor; [unfold is_byte; lia|apply IH]. Qed.
Lemma le_bytes_val n : forall v, 0 <= v < 256 ^ Z.of_nat n -> from_bytes_little (le_bytes n v) = v.
Proof.
  induction n as [|n IH]; intros v Hv; cbn [le_bytes].
  - change (256 ^ Z.of_nat 0) with 1 in Hv. cbn. lia.
  - change (from_bytes_little (v mod 256 :: le_bytes n (v / 256))) with (v mod 256 + 256 * from_bytes_little (le_bytes n (v / 256))).
    rewrite Nat2Z.inj_succ, Z.pow_succ_r in Hv by lia. rewrite IH; lia.
Qed.
Lemma zlen_bytes_of e n v : 0 <= n -> zlen (bytes_of e n v) = n.
Proof. intros H. destruct e; cbn [bytes_of]; rewrite ?zlen_rev, zlen_le_bytes; lia. Qed.
Lemma is_bytes_bytes_of e n v : is_bytes (bytes_of e n v).
Proof. destruct e; cbn [bytes_of]; try apply is_bytes_le_bytes. apply Forall_rev, is_bytes_le_bytes. Qed.
Lemma str_value_bytes_of e n v : 0 <= n -> 0 <= v < 2 ^ (8 * n) -> str_value e (bytes_of e n v) = v.
Proof.
  intros Hn Hv. assert (Hv' : 0 <= v < 256 ^ Z.of_nat (Z.to_nat n)).
  { rewrite Z2Nat.id by lia. rewrite Z.pow_mul_r in Hv by lia. exact Hv. }
  destruct e; cbn [bytes_of str_value].
  - rewrite <- from_bytes_little_rev. apply le_bytes_val; assumption.
  - apply le_bytes_val; assumption.
  - apply le_bytes_val; assumption.
Qed.
Lemma str_value_inj e a b : is_bytes a -> is_bytes b -> zlen a = zlen b -> str_value e a = str_value e b -> a = b.
Proof.
  intros Ha Hb L V. destruct e; cbn [str_value] in V.
  - rewrite <- (rev_involutive a), <- (rev_involutive b) in V. rewrite <- !from_bytes_little_rev in V.
    rewrite <- (rev_involutive a), <- (rev_involutive b). f_equal. apply from_bytes_little_inj; try (apply Forall_rev; assumption).
    + rewrite !rev_length. unfold zlen in L. lia.
    + assumption.
  - apply from_bytes_little_inj; try assumption. unfold zlen in L. lia.
  - apply from_bytes_little_inj; try assumption. unfold zlen in L. lia.
Qed.

(** ** Contents as bytes *)
Definition byte_aligned (st : ostream) : Prop := is_bytes (out st) /\ bit_pos st = 0 /\ byte st = 0.
Lemma aligned_wf e st : byte_aligned st -> wf_out e st.
Proof.
  intros (H1 & H2 & H3). unfold wf_out. rewrite H2, H3. split; [assumption|]. split; [lia|].
  destruct e; [split; [lia|reflexivity]| |]; cbn; lia.
Qed.
Lemma written_aligned e st : bit_pos st = 0 -> byte st = 0 -> written e st = str_value e (out st).
Proof. intros H1 H2. unfold written. rewrite H1, H2. destruct e; cbn [str_value]; rewrite ?Z.div_0_l by (cbn; lia); change (2 ^ 0) with 1; lia. Qed.
Lemma extends_aligned e st st' n raw : e <> MIDDLE_ENDIAN -> byte_aligned st -> extends e st st' (8 * n) (str_value e raw) -> is_bytes raw -> zlen raw = n ->
  byte_aligned st' /\ out st' = out st ++ raw.
Proof.
  intros He A (W & T & V) B L. pose proof A as (A1 & A2 & A3). pose proof W as (W1 & W2 & W3).
  assert (P0 : bit_pos st' = 0). { unfold total in T. rewrite A2 in T. lia. }
  assert (B0 : byte st' = 0). { rewrite P0 in W3. destruct e; [|cbn in W3; lia|cbn in W3; lia]. change (2 ^ (8 - 0)) with 256 in W3. lia. }
  split; [repeat split; assumption|].
  rewrite !written_aligned in V by assumption. apply (str_value_inj e).
  - assumption.
  - apply is_bytes_app; auto.
  - rewrite zlen_app. unfold total in T. rewrite A2, P0 in T. lia.
  - rewrite V. unfold total. rewrite A2. destruct e; [| |congruence]; cbn [append_bits str_value].
    + rewrite !from_bytes_big_val; auto; [|apply is_bytes_app; auto]. rewrite bits_be_app, val_be_app, zlen_bits_be. f_equal. f_equal. f_equal. lia.
    + rewrite !from_bytes_little_val; auto; [|apply is_bytes_app; auto]. rewrite bits_le_app, val_le_app, zlen_bits_le. f_equal. f_equal. f_equal. lia.
Qed.

Section Bytes.
Context (data : list Z) (Hd : is_bytes data) (input : read_fun) (Hs : serves input data).
Definition bytes_R (st st' : ostream) (l : list Z) : Prop := byte_aligned st -> byte_aligned st' /\ out st' = out st ++ l.
Definition bytes_range (a n : Z) : Prop := 0 <= a /\ 0 <= n /\ a + n <= 8 * zlen data /\ a mod 8 = 0 /\ n mod 8 = 0.
Definition real_endian (e : endian) : Prop := e <> MIDDLE_ENDIAN.

Lemma bytes_R_refl st : bytes_R st st [].
Proof using. intros H. rewrite app_nil_r. auto. Qed.
Lemma bytes_R_trans st1 st2 st3 a b : bytes_R st1 st2 a -> bytes_R st2 st3 b -> bytes_R st1 st3 (a ++ b).
Proof using. intros H1 H2 Hw. destruct (H1 Hw) as [W2 E2]. destruct (H2 W2) as [W3 E3]. split; [assumption|]. rewrite E3, E2, app_assoc. reflexivity. Qed.
Lemma bytes_copy_total st a n : bytes_range a n -> byte_aligned st ->
  exists st', copyBytesFrom st input a (n / 8) = Ok st' /\ byte_aligned st' /\ out st' = out st ++ orig_bytes data a n.
Proof using Hd Hs.
  intros (H1 & H2 & H3 & H4 & H5) (A1 & A2 & A3).
  pose proof (copyBytesFrom_exact st input data (a / 8) (n / 8) Hs A2 ltac:(lia) ltac:(lia) ltac:(lia)) as C.
  replace (8 * (a / 8)) with a in C by lia. eexists. split; [exact C|]. unfold byte_aligned, orig_bytes. cbn [out bit_pos byte].
  split; [|reflexivity]. split; [|auto]. apply is_bytes_app. split; [assumption|apply is_bytes_sub; assumption].
Qed.
Lemma copyBits_aligned st a n e : bytes_range a n -> byte_aligned st -> copyBitsFrom st input a n e = copyBytesFrom st input a (n / 8).
Proof using.
  clear. intros (H1 & H2 & H3 & H4 & H5) (A1 & A2 & A3). unfold copyBitsFrom. rewrite A2, H4, H5. reflexivity.
Qed.
Lemma bytes_copy_bytes st st' a n : bytes_range a n -> n mod 8 = 0 -> copyBytesFrom st input a (n / 8) = Ok st' -> bytes_R st st' (orig_bytes data a n).
Proof using Hd Hs. intros Hr _ H A. destruct (bytes_copy_total st a n Hr A) as (st2 & E & G). rewrite H in E. injection E as <-. exact G. Qed.
Lemma bytes_copy_bits st st' a n e : real_endian e -> bytes_range a n -> copyBitsFrom st input a n e = Ok st' -> bytes_R st st' (orig_bytes data a n).
Proof using Hd Hs.
  intros _ Hr H A. rewrite copyBits_aligned in H by assumption. apply (bytes_copy_bytes st st' a n); auto. apply Hr.
Qed.
Lemma writeBytes_aligned st d : byte_aligned st -> is_bytes d ->
  exists st', writeBytes st d = Ok st' /\ byte_aligned st' /\ out st' = out st ++ d.
Proof using.
  clear. intros (A1 & A2 & A3) B. unfold writeBytes. rewrite A2. cbn [Z.eqb negb]. eexists. split; [reflexivity|]. unfold byte_aligned. cbn [out bit_pos byte].
  split; [|reflexivity]. split; [|auto]. apply is_bytes_app. auto.
Qed.
Lemma writeBits_aligned st e n v : real_endian e -> byte_aligned st -> 0 <= n -> n mod 8 = 0 -> 0 <= v < 2 ^ n ->
  exists st', writeBits st n v e = Ok st' /\ byte_aligned st' /\ out st' = out st ++ bytes_of e (n / 8) v.
Proof using.
  clear. intros He A Hn Hm Hv. destruct (writeBits_spec st n v e He (aligned_wf e st A) Hn Hv) as (st2 & G1 & G2 & G3 & G4).
  exists st2. split; [assumption|]. assert (En : 8 * (n / 8) = n) by lia.
  apply (extends_aligned e st st2 (n / 8)); auto.
  - rewrite str_value_bytes_of by (rewrite ?En; lia). rewrite En. split; auto.
  - apply is_bytes_bytes_of.
  - apply zlen_bytes_of. lia.
Qed.
Lemma bytes_write_total st e f v : real_endian e -> ef_value f = Some v -> fits_bytes (ef_kind f) (ef_size f) v -> byte_aligned st ->
  exists st', field_write_value e f st = Ok st' /\ byte_aligned st' /\ out st' = out st ++ enc_bytes e (ef_kind f) (ef_size f) v.
Proof using.
  clear. intros He V (F & X) A. unfold field_write_value. rewrite V.
  destruct (ef_kind f) as [signed|fm prefix suffix| | | | |] eqn:K, v as [z|b|t|s]; cbn [fits] in F; try contradiction; cbn [enc_bytes].
  - destruct F as (F1 & F2 & F3). set (sz := ef_size f / 8) in *.
    assert (Esz : 8 * sz = ef_size f) by (unfold sz; lia). rewrite <- Esz in F3.
    destruct (writeInteger_raw st z signed sz e ltac:(apply A) He ltac:(lia) F3) as (raw & G1 & G2 & G3 & G4).
    eexists. split; [exact G1|]. pose proof A as (A1 & A2 & A3). unfold byte_aligned. cbn [out bit_pos byte].
    split; [split; [apply is_bytes_app; auto|auto]|]. f_equal. apply (str_value_inj e); auto.
    + apply is_bytes_bytes_of.
    + rewrite zlen_bytes_of by lia. assumption.
    + rewrite G4. rewrite <- Esz. symmetry. apply str_value_bytes_of; [lia|]. unfold stored. destruct signed; [|assumption].
      pose proof (pow_half (8 * sz) ltac:(lia)). lia.
  - destruct F as (F1 & F2 & F3). destruct fm as [| |n]; [| |contradiction].
    + destruct (writeBytes_aligned st b A F1) as (st1 & E1 & A1 & O1). rewrite E1. cbn [bind].
      destruct (writeBytes_aligned st1 suffix A1 F2) as (st2 & E2 & A2 & O2). exists st2. rewrite O2, O1, app_assoc. auto.
    + apply writeBytes_aligned; assumption.
  - destruct F as (F1 & F2). apply writeBits_aligned; auto; rewrite F1; [lia|reflexivity|assumption].
  - apply writeBytes_aligned; assumption.
  - destruct F as (F1 & F2). apply writeBits_aligned; auto.
Qed.
Lemma bytes_write_value st st' e f v : real_endian e -> ef_value f = Some v -> fits_bytes (ef_kind f) (ef_size f) v ->
  field_write_value e f st = Ok st' -> bytes_R st st' (enc_bytes e (ef_kind f) (ef_size f) v).
Proof using.
  clear. intros He V F H A. destruct (bytes_write_total st e f v He V F A) as (st2 & E & G). rewrite H in E. injection E as <-. exact G.
Qed.
Lemma bytes_enc_len e f v : real_endian e -> ef_value f = Some v -> fits_bytes (ef_kind f) (ef_size f) v ->
  field_size f = 8 * zlen (enc_bytes e (ef_kind f) (ef_size f) v).
Proof using.
  clear. intros He V (F & X). unfold field_size. rewrite V.
  destruct (ef_kind f) as [signed|fm prefix suffix| | | | |] eqn:K, v as [z|b|t|s]; cbn [fits] in F; try contradiction; cbn [enc_bytes].
  - rewrite zlen_bytes_of; lia.
  - destruct F as (_ & _ & F). destruct fm as [| |n]; [| |contradiction].
    + rewrite zlen_app. subst. lia.
    + destruct F as [-> ->]. change (zlen (@nil Z)) with 0. lia.
  - rewrite zlen_bytes_of; lia.
  - lia.
  - rewrite zlen_bytes_of; lia.
Qed.

(** ** Writing succeeds *)
Notation good := (good bytes_range real_endian fits_bytes).
Notation parsed := (parsed bytes_range real_endian).
Definition live (v : view) : Prop := forall st, byte_aligned st -> exists st', v_write v st = Ok st' /\ byte_aligned st'.
Lemma live_all vs : Forall live vs -> forall st, byte_aligned st -> exists st', write_all vs st = Ok st' /\ byte_aligned st'.
Proof using.
  clear. induction 1 as [|v vs L F IH]; intros st A; cbn [write_all]; [eauto|].
  destruct (L st A) as (st1 & E & A1). rewrite E. cbn [bind]. apply IH; assumption.
Qed.
Lemma set_copy_live i st : parsed i -> byte_aligned st -> exists st', set_copy input i st = Ok st' /\ byte_aligned st'.
Proof using Hd Hs.
  intros P A. pose proof (parsed_range _ _ i P) as Hr. unfold set_copy. replace (i_size i mod 8) with 0 by (symmetry; apply Hr).
  cbn [Z.eqb negb]. destruct (bytes_copy_total st _ _ Hr A) as (st2 & E & G & _). eauto.
Qed.
Lemma field_live p f : good p (EField f) -> live (field_view input p f).
Proof using Hd Hs.
  intros G st A. cbn [field_view v_write].
  inversion G as [p' f' a C Ra Ge Al V|p' f' Ge (Al & v & V & Fi)|]; subst.
  - rewrite Al. unfold fake_write. rewrite C. cbn [i_addr].
    assert (Sz : field_size f = ef_size f) by (unfold field_size; rewrite V; destruct (ef_kind f); reflexivity). rewrite Sz.
    replace (ef_size f mod 8) with 0 by (symmetry; apply Ra). replace (a mod 8) with 0 by (symmetry; apply Ra). cbn [Z.eqb negb orb].
    destruct (bytes_copy_total st _ _ Ra A) as (st2 & E & G2 & _). eauto.
  - rewrite Al. destruct (bytes_write_total st _ f v Ge V Fi A) as (st2 & E & G2 & _). eauto.
Qed.
Lemma plain_live p c : (exists n e a s l, p = ISet n e a s l) -> parsed p -> In c (i_children p) -> live (plain_view input p c).
Proof using Hd Hs.
  intros IS P Hc. destruct (parsed_set_inv _ _ p P IS) as (Ra & Ge & ND & NE & T & F).
  assert (Pc : parsed c) by (rewrite Forall_forall in F; auto).
  destruct c as [n k a s|n e a s l]; cbn [plain_view].
  - apply field_live. pose proof (find_child_in _ _ ND Hc) as C. cbn [i_name] in C.
    eapply good_leaf; try reflexivity; try assumption; cbn [ef_name ef_kind ef_size]; [exact C|]. apply (parsed_range _ _ _ Pc).
  - intros st A. cbn [v_write]. apply set_copy_live; assumption.
Qed.
Lemma view_live : forall n p, good p n -> live (view_of input p n).
Proof using Hd Hs.
  induction n as [f|i fields deleted inserted IHf IHi] using enode_ind'; intros p G.
  - apply field_live; assumption.
  - inversion G as [| |p' i' fields' deleted' inserted' P IS Ff Fi NK HK ND HD NI HI]; subst p' i' fields' deleted' inserted'.
    destruct (parsed_set_inv _ _ i P IS) as (Ra & Ge & NDc & NE & T & Fc).
    intros st A. cbn [view_of set_view v_write]. destruct (set_altered _ _ _); [|apply set_copy_live; assumption].
    apply live_all; [|assumption]. apply Forall_forall. intros v Hv. unfold set_iter in Hv. apply iterate_in in Hv.
    destruct Hv as [(c & Hc & _ & ->)|(kv & Hkv & Hx)].
    + unfold child_view. rewrite assoc_map. destruct (assoc (i_name c) fields) as [x|] eqn:E; [|apply plain_live; assumption].
      apply assoc_in in E. rewrite Forall_forall in Ff, IHf. destruct (Ff _ E) as (c' & C & M & Gx). exact (IHf _ E i Gx).
    + apply in_map_iff in Hkv. destruct Hkv as ([k l] & <- & Hkl). cbn [fst snd] in Hx. apply in_map_iff in Hx. destruct Hx as (m & <- & Hm).
      rewrite Forall_forall in IHi, Fi. pose proof (IHi _ Hkl) as IHm. pose proof (Fi _ Hkl) as Fm. cbn [snd] in IHm, Fm.
      rewrite Forall_forall in IHm, Fm. destruct (Fm _ Hm) as (f & -> & Nf). apply (IHm _ Hm i). apply good_val; assumption.
Qed.

Theorem editor_bytes i l n :
  parsed i -> (exists nm e a s ch, i = ISet nm e a s ch) -> edited fits_bytes (createEditor i) l n ->
  let d := final_doc (orig_bytes data) enc_bytes i l in
  (forall st, byte_aligned st -> exists st', writeInto input n st = Ok st' /\ byte_aligned st' /\ out st' = out st ++ flatten d) /\
  editor_size input n = 8 * zlen (flatten d) /\
  exists ds, d = Node ds /\ map v_name (iter_views input n) = map fst ds /\ editor_len n = zlen ds /\
    forall name a, editor_address input n name = Ok a <->
      exists l1 x l2, ds = l1 ++ (name, x) :: l2 /\ ~ In name (map fst l1) /\ a = 8 * zlen (flatten (Node l1)).
Proof using Hd Hs.
  intros P IS E. cbn zeta.
  assert (K := editor_ok 8 input bytes_R bytes_range real_endian fits_bytes (orig_bytes data) enc_bytes bytes_R_refl bytes_R_trans).
  specialize K with (i := i) (l := l) (n := n).
  destruct K as (S1 & S2 & S3); try assumption.
  - intros a m H. apply H.
  - intros a m k (H1 & H2 & H3 & H4 & H5) (H6 & H7 & H8 & H9 & H10) H11. unfold bytes_range. repeat split; lia.
  - intros a. apply sub_0.
  - intros a m k (H1 & H2 & H3 & H4 & H5) (H6 & H7 & H8 & H9 & H10). unfold orig_bytes.
    replace ((a + m) / 8) with (a / 8 + m / 8) by lia. replace ((m + k) / 8) with (m / 8 + k / 8) by lia. symmetry. apply sub_app_split; lia.
  - intros a m (H1 & H2 & H3 & H4 & H5). unfold orig_bytes. rewrite zlen_sub_exact by lia. lia.
  - intros; eapply bytes_copy_bits; eassumption.
  - intros; eapply bytes_copy_bytes; eassumption.
  - intros; eapply bytes_write_value; eassumption.
  - intros; eapply bytes_enc_len; eassumption.
  - split; [|split; [exact S2|exact S3]].
    intros st A.
    destruct (edited_ok bytes_range real_endian fits_bytes (orig_bytes data) enc_bytes root i _ l n E eq_refl
                (set_good bytes_range real_endian fits_bytes root i P IS)) as (G & _).
    destruct (view_live n root G st A) as (st' & W & A'). exists st'. split; [exact W|].
    exact (S1 st st' W A).
Qed.
End Bytes.

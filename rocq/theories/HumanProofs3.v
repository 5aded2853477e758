(** Proofs about modes and newlines. *)
From Coq Require Import String.
From Verif Require Import Base BaseProofs DictModel BitsModel FieldModel FieldNames FloatModel FloatProofs Lit HumanModel HumanSpec.
Ltac Zify.zify_post_hook ::= Z.div_mod_to_equations.

(** ** Modes *)
Lemma land_pow2 m k : 0 <= k -> (Z.land m (2 ^ k) =? 0) = negb (Z.testbit m k).
Proof.
  intros Hk. destruct (Z.testbit m k) eqn:E; cbn [negb].
  - apply Z.eqb_neq. intros H. apply (f_equal (fun z => Z.testbit z k)) in H. rewrite Z.land_spec, E, Z.pow2_bits_true, Z.bits_0 in H by lia. discriminate.
  - apply Z.eqb_eq. apply Z.bits_inj'. intros n Hn. rewrite Z.land_spec, Z.bits_0, Z.pow2_bits_eqb by lia.
    destruct (k =? n) eqn:En; [|apply andb_false_r]. assert (k = n) as <- by lia. rewrite E. reflexivity.
Qed.
Lemma set_if (b : bool) l i c : (i < length l)%nat -> (if b then set_char l i c else l) = set_char l i (if b then c else nth i l 0).
Proof.
  intros H. destruct b; [reflexivity|]. revert i H. induction l as [|x l IH]; intros [|i] H; cbn in *; try lia; [reflexivity|].
  rewrite <- IH by lia. reflexivity.
Qed.
Definition clear_step (m : Z) (chars : str) (i : nat) : str :=
  if Z.land m (Z.shiftl 1 (9 - Z.of_nat i)) =? 0 then set_char chars i 45 else chars.
Lemma clear_step_spec m chars i : (i < length chars)%nat -> (i <= 9)%nat ->
  clear_step m chars i = set_char chars i (letter (Z.testbit m (9 - Z.of_nat i)) (nth i chars 0)).
Proof.
  intros H H9. unfold clear_step. rewrite Z.shiftl_1_l, land_pow2 by lia. rewrite set_if by assumption.
  destruct (Z.testbit m (9 - Z.of_nat i)); reflexivity.
Qed.
Definition special_step (s : bool) (chars : str) (i : nat) (both alone : Z) : str :=
  if s then if negb (nth i chars 0 =? 120) then set_char chars i alone else set_char chars i both else chars.
Lemma special_step_spec s x chars i both alone : (i < length chars)%nat -> nth i chars 0 = letter x 120 ->
  special_step s chars i both alone = set_char chars i (exec_letter x s both alone).
Proof.
  intros H Hx. unfold special_step. rewrite Hx. destruct s; [destruct x; reflexivity|].
  cbn [exec_letter]. rewrite <- Hx. exact (set_if false chars i 0 H).
Qed.
Lemma mode_chars_steps m : mode_chars m =
  special_step (negb (Z.land m (2 ^ 9) =? 0))
    (special_step (negb (Z.land m (2 ^ 10) =? 0))
      (special_step (negb (Z.land m (2 ^ 11) =? 0))
        (fold_left (clear_step m) [1; 2; 3; 4; 5; 6; 7; 8; 9]%nat (ftypelet m :: lit "rwxrwxrwx")) 3 115 83) 6 115 83) 9 116 84.
Proof. reflexivity. Qed.
Lemma mode_chars_lemma m : mode_chars m = mode_spec (ftypelet m) m.
Proof.
  rewrite mode_chars_steps. set (t := ftypelet m). clearbody t. change (lit "rwxrwxrwx") with [114; 119; 120; 114; 119; 120; 114; 119; 120].
  assert (F : forall f (l : list nat) i (a : str), fold_left f (i :: l) a = fold_left f l (f a i)) by reflexivity.
  do 9 (rewrite F; rewrite clear_step_spec by (cbn [length]; lia); cbn [nth set_char]). cbn [fold_left].
  rewrite !land_pow2, !negb_involutive by lia.
  rewrite (special_step_spec _ (Z.testbit m (9 - Z.of_nat 3)) _ 3%nat) by first [ apply Nat.ltb_lt; reflexivity | reflexivity ]. cbn [set_char].
  rewrite (special_step_spec _ (Z.testbit m (9 - Z.of_nat 6)) _ 6%nat) by first [ apply Nat.ltb_lt; reflexivity | reflexivity ]. cbn [set_char].
  rewrite (special_step_spec _ (Z.testbit m (9 - Z.of_nat 9)) _ 9%nat) by first [ apply Nat.ltb_lt; reflexivity | reflexivity ]. cbn [set_char].
  reflexivity.
Qed.
Lemma s_ifmt_div m : 0 <= m -> s_ifmt m = 4096 * (m / 4096 mod 16).
Proof.
  intros Hm. unfold s_ifmt. transitivity (Z.shiftl (Z.land (Z.shiftr m 12) (Z.ones 4)) 12).
  - apply Z.bits_inj'. intros n Hn. rewrite Z.land_spec, Z.shiftl_spec by lia. destruct (Z_lt_dec n 12) as [Hlt|Hge].
    + rewrite (Z.testbit_neg_r _ (n - 12)) by lia. change 0xF000 with (Z.shiftl 15 12). rewrite Z.shiftl_spec_low by lia. apply andb_false_r.
    + rewrite Z.land_spec, Z.shiftr_spec by lia. change 0xF000 with (Z.shiftl (Z.ones 4) 12). rewrite Z.shiftl_spec by lia. replace (n - 12 + 12) with n by lia. reflexivity.
  - rewrite Z.land_ones, Z.shiftr_div_pow2, Z.shiftl_mul_pow2 by lia. change (2 ^ 12) with 4096. change (2 ^ 4) with 16. lia.
Qed.
Lemma ftypelet_lemma m : 0 <= m -> let k := m / 4096 mod 16 in
  (forall c, In (k, c) type_letters -> ftypelet m = c) /\ (~ In k (map fst type_letters) -> ftypelet m = 63).
Proof.
  intros Hm k. unfold ftypelet. rewrite s_ifmt_div by assumption. fold k. assert (Hk : 0 <= k < 16) by (subst k; lia). clearbody k.
  replace (4096 * k =? 32768) with (k =? 8) by lia.
  replace (4096 * k =? 24576) with (k =? 6) by lia.
  replace (4096 * k =? 8192) with (k =? 2) by lia.
  replace (4096 * k =? 16384) with (k =? 4) by lia.
  replace (4096 * k =? 4096) with (k =? 1) by lia.
  replace (4096 * k =? 40960) with (k =? 10) by lia.
  replace (4096 * k =? 49152) with (k =? 12) by lia.
  replace (4096 * k =? 0) with (k =? 0) by lia.
  cbn [type_letters In map fst].
  split.
  - intros c H. repeat (destruct H as [H|H]; [injection H as <- <-; reflexivity|]). destruct H.
  - intros H. replace (k =? 8) with false by lia. replace (k =? 0) with false by lia. replace (k =? 6) with false by lia. replace (k =? 2) with false by lia.
    replace (k =? 4) with false by lia. replace (k =? 1) with false by lia. replace (k =? 10) with false by lia. replace (k =? 12) with false by lia. reflexivity.
Qed.
Lemma mode_spec_inj t m t' m' : mode_spec t m = mode_spec t' m' -> t = t' /\ m mod 4096 = m' mod 4096.
Proof.
  unfold mode_spec. cbv zeta. intros H.
  assert (Hn : forall i, nth i (mode_spec t m) 0 = nth i (mode_spec t' m') 0) by (intros i; unfold mode_spec; cbv zeta; rewrite H; reflexivity). clear H.
  split; [exact (Hn 0%nat)|].
  assert (L : forall a b c, c <> 45 -> letter a c = letter b c -> a = b) by (intros [] [] c Hc; cbn; congruence).
  assert (X : forall a s b s' both alone, both <> 45 -> alone <> 45 -> both <> 120 -> alone <> 120 -> both <> alone -> exec_letter a s both alone = exec_letter b s' both alone -> a = b /\ s = s').
  { intros [] [] [] [] both alone; cbn; intros; split; congruence. }
  pose proof (L _ _ 114 ltac:(lia) (Hn 1%nat)) as B8. pose proof (L _ _ 119 ltac:(lia) (Hn 2%nat)) as B7.
  pose proof (L _ _ 114 ltac:(lia) (Hn 4%nat)) as B5. pose proof (L _ _ 119 ltac:(lia) (Hn 5%nat)) as B4.
  pose proof (L _ _ 114 ltac:(lia) (Hn 7%nat)) as B2. pose proof (L _ _ 119 ltac:(lia) (Hn 8%nat)) as B1.
  destruct (X _ _ _ _ 115 83 ltac:(lia) ltac:(lia) ltac:(lia) ltac:(lia) ltac:(lia) (Hn 3%nat)) as [B6 B11].
  destruct (X _ _ _ _ 115 83 ltac:(lia) ltac:(lia) ltac:(lia) ltac:(lia) ltac:(lia) (Hn 6%nat)) as [B3 B10].
  destruct (X _ _ _ _ 116 84 ltac:(lia) ltac:(lia) ltac:(lia) ltac:(lia) ltac:(lia) (Hn 9%nat)) as [B0 B9].
  change 4096 with (2 ^ 12). apply Z.bits_inj'. intros n Hn0. destruct (Z_lt_dec n 12) as [Hlt|Hge].
  - rewrite !Z.mod_pow2_bits_low by lia.
    assert (Hcases : n = 0 \/ n = 1 \/ n = 2 \/ n = 3 \/ n = 4 \/ n = 5 \/ n = 6 \/ n = 7 \/ n = 8 \/ n = 9 \/ n = 10 \/ n = 11) by lia.
    repeat (destruct Hcases as [->|Hcases]; [assumption|]). subst n. assumption.
  - rewrite !Z.mod_pow2_bits_high by lia. reflexivity.
Qed.
(** Octal digits. *)
Definition octal_text (o : str) : Prop := o <> [] /\ Forall (fun d => 48 <= d < 56) o /\ (hd 0 o = 48 -> o = [48]).
Lemma unoct_app a l l' : unoct a (l ++ l') = unoct (unoct a l) l'.
Proof. revert a. induction l as [|d l IH]; intros a; [reflexivity|]. cbn [app unoct]. apply IH. Qed.
Lemma oct_loop_spec fuel : forall n acc, 0 <= n < 8 ^ Z.of_nat fuel -> (0 < fuel)%nat -> exists o, oct_loop fuel n acc = o ++ acc /\ unoct 0 o = n /\ octal_text o.
Proof.
  induction fuel as [|fuel IH]; intros n acc Hn Hf; [lia|]. cbn [oct_loop]. destruct (n <? 8) eqn:E.
  - exists [48 + n]. split; [reflexivity|]. split; [cbn [unoct]; lia|]. split; [discriminate|]. split; [constructor; [lia|constructor]|]. cbn [hd]. intros H. f_equal. lia.
  - destruct fuel as [|fuel']; [change (8 ^ Z.of_nat 1) with 8 in Hn; lia|].
    assert (Hp : 8 ^ Z.of_nat (S (S fuel')) = 8 * 8 ^ Z.of_nat (S fuel')) by (rewrite (Nat2Z.inj_succ (S fuel')), Z.pow_succ_r by lia; reflexivity).
    destruct (IH (n / 8) ((48 + n mod 8) :: acc)) as (o & Ho & Hu & Ht1 & Ht2 & Ht3); [lia|lia|]. exists (o ++ [48 + n mod 8]). rewrite Ho, <- app_assoc. split; [reflexivity|].
    split; [rewrite unoct_app, Hu; cbn [unoct]; lia|]. split; [intros H; apply app_eq_nil in H; destruct H; discriminate|].
    split; [apply Forall_app; split; [assumption|constructor; [lia|constructor]]|].
    destruct o as [|d o]; [contradiction|]. cbn [hd app]. intros H. assert (d :: o = [48]) as Ed by (apply Ht3; exact H). injection Ed as -> ->. cbn [unoct] in Hu. lia.
Qed.
Lemma oct_lemma n : 0 <= n -> unoct 0 (oct n) = n /\ octal_text (oct n).
Proof.
  intros Hn. unfold oct. destruct (oct_loop_spec (S (Z.to_nat (Z.log2 n))) n []) as (o & Ho & Hu & Ht); [|lia|rewrite app_nil_r in Ho; rewrite Ho; split; assumption].
  split; [assumption|]. pose proof (Z.log2_nonneg n). rewrite Nat2Z.inj_succ, Z2Nat.id by lia.
  destruct (Z.eq_dec n 0) as [->|]; [cbn; lia|]. pose proof (Z.log2_spec n ltac:(lia)) as [_ H2].
  apply Z.lt_le_trans with (2 ^ Z.succ (Z.log2 n)); [assumption|]. apply Z.pow_le_mono_l. lia.
Qed.
Lemma unoct_bound l : forall a, 0 <= a -> Forall (fun d => 48 <= d < 56) l -> a * 8 ^ Z.of_nat (length l) <= unoct a l < (a + 1) * 8 ^ Z.of_nat (length l).
Proof.
  induction l as [|d l IH]; intros a Ha H; cbn [unoct length]; [change (8 ^ Z.of_nat 0) with 1; lia|]. inversion H; subst.
  specialize (IH (8 * a + (d - 48)) ltac:(lia) H3). rewrite Nat2Z.inj_succ, Z.pow_succ_r by lia. pose proof (Z.pow_pos_nonneg 8 (Z.of_nat (length l)) ltac:(lia) ltac:(lia)). nia.
Qed.
Lemma attributes_lemma m : 0 <= m -> exists o, humanUnixAttributes m = mode_spec (ftypelet m) m ++ lit " (" ++ o ++ lit ")" /\ unoct 0 o = m /\ octal_text o.
Proof.
  intros Hm. exists (oct m). unfold humanUnixAttributes. rewrite mode_chars_lemma. split; [reflexivity|]. apply oct_lemma. assumption.
Qed.
Lemma attributes_inj m m' : 0 <= m -> 0 <= m' -> humanUnixAttributes m = humanUnixAttributes m' -> m = m'.
Proof.
  intros Hm Hm' H. destruct (attributes_lemma m Hm) as (o & E & U & _). destruct (attributes_lemma m' Hm') as (o' & E' & U' & _).
  rewrite E, E' in H. apply (f_equal (skipn 12)) in H. unfold mode_spec in H. cbv zeta in H. cbn [app skipn lit] in H.
  change (lit " (") with [32; 40] in H. cbn [app skipn] in H. apply app_inj_tail in H. destruct H as [-> _]. congruence.
Qed.

(** ** Newlines *)
Definition is_nl (c : Z) : bool := (c =? 10) || (c =? 13).
Fixpoint nl (in_run : bool) (t : str) : str :=
  match t with
  | [] => []
  | c :: t => if is_nl c then (if in_run then nl true t else 10 :: nl true t) else c :: nl false t
  end.
Lemma normalize_nl : forall n t b, (length t <= n)%nat -> squeeze b (replace_cr (replace_crlf t)) = nl b t.
Proof.
  induction n as [|n IH]; intros [|c t] b Hn; cbn [length] in Hn; try lia; try reflexivity.
  cbn [replace_crlf nl]. unfold is_nl. destruct (c =? 13) eqn:E13.
  - assert (c = 13) as -> by lia. cbn [Z.eqb Pos.eqb orb]. destruct t as [|d t].
    + cbn [replace_cr map squeeze nl Z.eqb Pos.eqb]. destruct b; reflexivity.
    + destruct (d =? 10) eqn:E10.
      * assert (d = 10) as -> by lia. cbn [length] in Hn. unfold replace_cr. cbn [map squeeze Z.eqb Pos.eqb]. fold (replace_cr (replace_crlf t)).
        cbn [nl]. unfold is_nl. cbn [Z.eqb Pos.eqb orb]. rewrite !IH by lia. reflexivity.
      * unfold replace_cr. cbn [map squeeze]. replace (13 =? 13) with true by reflexivity. cbn [squeeze]. replace (10 =? 10) with true by reflexivity.
        fold (replace_cr (replace_crlf (d :: t))). rewrite !IH by (cbn [length] in *; lia). reflexivity.
  - unfold replace_cr. cbn [map squeeze]. rewrite E13. fold (replace_cr (replace_crlf t)). destruct (c =? 10) eqn:E10; cbn [orb]; rewrite !IH by lia; reflexivity.
Qed.
Lemma normalizeNewline_nl t : normalizeNewline t = nl false t.
Proof. apply (normalize_nl (length t)). lia. Qed.
Lemma is_nl_spec c : is_nl c = true <-> newline c.
Proof. unfold is_nl, newline. lia. Qed.
Lemma nl_run run t : Forall newline run -> nl true (run ++ t) = nl true t.
Proof.
  induction 1 as [|c run Hc _ IH]; [reflexivity|]. cbn [app nl]. apply is_nl_spec in Hc. rewrite Hc. exact IH.
Qed.
Lemma nl_true_false t : (forall c u, t = c :: u -> ~ newline c) -> nl true t = nl false t.
Proof.
  destruct t as [|c t]; [reflexivity|]. intros H. cbn [nl]. destruct (is_nl c) eqn:E; [|reflexivity]. apply is_nl_spec in E. exfalso. exact (H c t eq_refl E).
Qed.
Lemma unix_newlines_nl t r : unix_newlines t r -> r = nl false t.
Proof.
  induction 1 as [|c t r Hc H IH|run t r Hne Hr Ht H IH]; [reflexivity| |].
  - cbn [nl]. destruct (is_nl c) eqn:E; [apply is_nl_spec in E; contradiction|]. rewrite IH. reflexivity.
  - destruct run as [|c run]; [contradiction|]. inversion Hr; subst. cbn [app nl]. assert (E : is_nl c = true) by (apply is_nl_spec; assumption). rewrite E.
    rewrite nl_run by assumption. rewrite nl_true_false by assumption. reflexivity.
Qed.
Lemma split_run t : exists run u, t = run ++ u /\ Forall newline run /\ (forall c v, u = c :: v -> ~ newline c).
Proof.
  induction t as [|c t (run & u & E & H1 & H2)]; [exists [], []; split; [reflexivity|]; split; [constructor|discriminate]|].
  destruct (is_nl c) eqn:Ec.
  - exists (c :: run), u. subst t. split; [reflexivity|]. split; [constructor; [apply is_nl_spec; assumption|assumption]|assumption].
  - exists [], (c :: t). split; [reflexivity|]. split; [constructor|]. intros d v Ed. injection Ed as <- <-. intros Hc. apply is_nl_spec in Hc. congruence.
Qed.
Lemma nl_unix : forall n t, (length t <= n)%nat -> unix_newlines t (nl false t).
Proof.
  induction n as [|n IH]; intros [|c t] Hn; cbn [length] in Hn; try lia; try constructor.
  cbn [nl]. destruct (is_nl c) eqn:E.
  - destruct (split_run t) as (run & u & -> & Hr & Hu). rewrite nl_run by assumption. rewrite nl_true_false by assumption.
    apply (un_run (c :: run)); [discriminate|constructor; [apply is_nl_spec; assumption|assumption]|assumption|]. apply IH. rewrite app_length in Hn. lia.
  - apply un_char; [intros Hc; apply is_nl_spec in Hc; congruence|]. apply IH. lia.
Qed.
Lemma newlines_lemma t r : unix_newlines t r <-> r = normalizeNewline t.
Proof.
  rewrite normalizeNewline_nl. split; [apply unix_newlines_nl|]. intros ->. apply (nl_unix (length t)). lia.
Qed.
(** Idempotence: a text without CR and without two consecutive LF is left alone. *)
Definition clean (t : str) : Prop := ~ In 13 t /\ forall a b, t <> a ++ [10; 10] ++ b.
Lemma nl_no_cr t : forall b, ~ In 13 (nl b t).
Proof.
  induction t as [|c t IH]; intros b; [intros []|]. cbn [nl]. destruct (is_nl c) eqn:E.
  - destruct b; [apply IH|]. intros [H|H]; [discriminate|exact (IH true H)].
  - intros [H|H]; [subst c; discriminate|exact (IH false H)].
Qed.
Lemma nl_true_head t : forall c u, nl true t = c :: u -> c <> 10.
Proof.
  induction t as [|d t IH]; intros c u; [discriminate|]. cbn [nl]. destruct (is_nl d) eqn:E; [apply IH|]. intros H. injection H as <- _. intros ->. discriminate.
Qed.
Lemma nl_no_double t : forall b a r, nl b t <> a ++ [10; 10] ++ r.
Proof.
  induction t as [|c t IH]; intros b a r; [destruct a; discriminate|]. cbn [nl]. destruct (is_nl c) eqn:E.
  - destruct b; [apply IH|]. destruct a as [|x a]; cbn [app]; intros H.
    + injection H as H. exact (nl_true_head _ _ _ H eq_refl).
    + injection H as _ H. exact (IH true a r H).
  - destruct a as [|x a]; cbn [app]; intros H; [injection H as -> _; discriminate|]. injection H as _ H. exact (IH false a r H).
Qed.
Lemma clean_nl t : clean t -> nl false t = t /\ ((forall u, t <> 10 :: u) -> nl true t = t).
Proof.
  induction t as [|c t IH]; intros [H1 H2]; [split; reflexivity|].
  assert (Hc : clean t) by (split; [intros H; apply H1; right; exact H|intros a b E; apply (H2 (c :: a) b); rewrite E; reflexivity]).
  destruct (IH Hc) as [I1 I2]. cbn [nl]. destruct (is_nl c) eqn:E.
  - assert (c = 10) as -> by (unfold is_nl in E; destruct (Z.eq_dec c 13) as [->|]; [exfalso; apply H1; left; reflexivity|lia]).
    split; [|intros H; exfalso; exact (H t eq_refl)]. rewrite I2; [reflexivity|]. intros u ->. exact (H2 [] u eq_refl).
  - rewrite I1. split; reflexivity.
Qed.
Lemma normalize_clean t : clean (normalizeNewline t).
Proof. rewrite normalizeNewline_nl. split; [apply nl_no_cr|apply nl_no_double]. Qed.
Lemma clean_normalize t : clean t <-> normalizeNewline t = t.
Proof.
  split; [intros H; rewrite normalizeNewline_nl; apply clean_nl, H|]. intros <-. apply normalize_clean.
Qed.

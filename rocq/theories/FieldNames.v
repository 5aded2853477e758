From Verif Require Import Base BaseProofs DictModel DictProofs FieldModel FieldSpec.
Ltac Zify.zify_post_hook ::= Z.div_mod_to_equations.

(** ** Decimal numbers *)
Fixpoint undec (acc : Z) (l : str) : Z := match l with [] => acc | d :: l => undec (10 * acc + (d - 48)) l end.
Definition digit (d : Z) : Prop := 48 <= d <= 57.
Lemma undec_app l1 l2 a : undec a (l1 ++ l2) = undec (undec a l1) l2.
Proof. revert a; induction l1; intros a'; cbn [app undec]; auto. Qed.
Lemma dec_loop_spec fuel : forall n acc, 0 <= n < 10 ^ Z.of_nat fuel ->
  Forall digit acc ->
  exists ds, dec_loop fuel n acc = ds ++ acc /\ Forall digit ds /\ undec 0 ds = n /\ (fuel <> O -> ds <> []).
Proof.
  induction fuel as [|fuel IH]; intros n acc Hn Ha.
  - exists []. cbn. split; [reflexivity|]. split; [constructor|]. split; [cbn in Hn; lia|congruence].
  - cbn [dec_loop]. destruct (n <? 10) eqn:E.
    + exists [48 + n]. split; [reflexivity|]. split; [constructor; [unfold digit; lia|constructor]|]. split; [cbn [undec]; lia|discriminate].
    + destruct (IH (n / 10) ((48 + n mod 10) :: acc)) as (ds & -> & Hd & Hu & _).
      * replace (Z.of_nat (S fuel)) with (Z.of_nat fuel + 1) in Hn by lia. rewrite Z.pow_add_r in Hn by lia.
        change (10 ^ 1) with 10 in Hn. set (q := 10 ^ Z.of_nat fuel) in *. clearbody q. lia.
      * constructor; [unfold digit; lia|assumption].
      * exists (ds ++ [48 + n mod 10]). rewrite <- app_assoc. split; [reflexivity|]. split.
        -- apply Forall_app. split; [assumption|]. constructor; [unfold digit; lia|constructor].
        -- split; [|intros _; destruct ds; discriminate]. rewrite undec_app, Hu. cbn [undec]. lia.
Qed.
Lemma lt_pow10 n : 0 <= n -> n < 10 ^ Z.of_nat (S (Z.to_nat n)).
Proof.
  intros H. replace (Z.of_nat (S (Z.to_nat n))) with (n + 1) by lia.
  assert (forall m : nat, Z.of_nat m < 10 ^ Z.of_nat m).
  { induction m as [|m IHm]; [cbn; lia|]. replace (Z.of_nat (S m)) with (Z.of_nat m + 1) by lia. rewrite Z.pow_add_r by lia.
    change (10 ^ 1) with 10. set (q := 10 ^ Z.of_nat m) in *. clearbody q. lia. }
  specialize (H0 (Z.to_nat (n + 1))). rewrite Z2Nat.id in H0 by lia. lia.
Qed.
Lemma dec_spec n : 0 <= n -> Forall digit (dec n) /\ undec 0 (dec n) = n /\ dec n <> [].
Proof.
  intros H. unfold dec. destruct (dec_loop_spec (S (Z.to_nat n)) n []) as (ds & -> & Hd & Hu & Hne).
  - split; [lia|]. apply lt_pow10. assumption.
  - constructor.
  - rewrite app_nil_r. auto.
Qed.
Lemma dec_inj a b : 0 <= a -> 0 <= b -> dec a = dec b -> a = b.
Proof. intros Ha Hb E. destruct (dec_spec a Ha) as (_ & H1 & _), (dec_spec b Hb) as (_ & H2 & _). congruence. Qed.

(** ** Array names *)
Lemma digit_split (d1 d2 : str) k1 k2 : Forall digit d1 -> Forall digit d2 ->
  d1 ++ 91 :: k1 = d2 ++ 91 :: k2 -> d1 = d2 /\ k1 = k2.
Proof.
  revert d2; induction d1 as [|x d1 IH]; intros d2 H1 H2 E.
  - destruct d2 as [|y d2]; cbn [app] in E; [injection E; auto|].
    injection E as E _. inversion H2; subst. unfold digit in *. lia.
  - destruct d2 as [|y d2]; cbn [app] in E.
    + injection E as E _. inversion H1; subst. unfold digit in *. lia.
    + injection E as -> E. inversion H1; inversion H2; subst. destruct (IH d2 ltac:(assumption) ltac:(assumption) E). subst. auto.
Qed.
Lemma array_name_rev key n : rev (array_name key n) = 93 :: rev (dec n) ++ 91 :: rev key.
Proof. unfold array_name. rewrite !rev_app_distr. cbn [rev app]. rewrite <- !app_assoc. reflexivity. Qed.
Lemma array_name_inj k1 n1 k2 n2 : 0 <= n1 -> 0 <= n2 -> array_name k1 n1 = array_name k2 n2 -> k1 = k2 /\ n1 = n2.
Proof.
  intros H1 H2 E. apply (f_equal (@rev Z)) in E. rewrite !array_name_rev in E. injection E as E.
  destruct (dec_spec n1 H1) as (D1 & _ & _), (dec_spec n2 H2) as (D2 & _ & _).
  apply digit_split in E; [|apply Forall_rev; assumption|apply Forall_rev; assumption].
  destruct E as [E1 E2]. split.
  - rewrite <- (rev_involutive k1), E2. apply rev_involutive.
  - apply dec_inj; try assumption. rewrite <- (rev_involutive (dec n1)), E1. apply rev_involutive.
Qed.
Lemma array_name_brackets key n : 0 <= n -> ends_brackets (array_name key n) = false.
Proof.
  intros H. unfold ends_brackets. rewrite array_name_rev. destruct (dec_spec n H) as (D & _ & Hne).
  destruct (rev (dec n)) as [|d r] eqn:E.
  - exfalso. apply Hne. rewrite <- (rev_involutive (dec n)), E. reflexivity.
  - cbn [app]. assert (digit d).
    { apply Forall_rev in D. rewrite E in D. inversion D. assumption. }
    unfold digit in H0. destruct d as [|d|d]; try lia. do 7 (destruct d as [d|d|]; try reflexivity; try lia).
Qed.
Lemma brackets_shape n : ends_brackets n = true <-> exists key, n = key ++ brackets.
Proof.
  unfold ends_brackets. split.
  - intros H. assert (Hr : exists r, rev n = 93 :: 91 :: r).
    { destruct (rev n) as [|x [|y r]]; try discriminate; [destruct x as [|x|x]; try discriminate; do 7 (destruct x as [x|x|]; try discriminate)|].
      assert (x = 93). { destruct x as [|x|x]; try discriminate; do 7 (destruct x as [x|x|]; try discriminate). reflexivity. }
      subst x. assert (y = 91). { destruct y as [|y|y]; try discriminate; do 7 (destruct y as [y|y|]; try discriminate). reflexivity. }
      subst y. eauto. }
    destruct Hr as (r & Hr). exists (rev r). rewrite <- (rev_involutive n), Hr. cbn [rev]. rewrite <- app_assoc. reflexivity.
  - intros (key & ->). rewrite rev_app_distr. reflexivity.
Qed.
Lemma key_of_brackets key : key_of (key ++ brackets) = key.
Proof.
  unfold key_of. rewrite app_length. cbn [brackets length]. replace (length key + 2 - 2)%nat with (length key) by lia.
  rewrite firstn_app, Nat.sub_diag, firstn_all. apply app_nil_r.
Qed.
Lemma unique_name_eq ct n : unique_name ct n =
  (array_name (key_of n) (match pd_get ct (key_of n) with Some c => c + 1 | None => 0 end),
   pd_set ct (key_of n) (match pd_get ct (key_of n) with Some c => c + 1 | None => 0 end)).
Proof. reflexivity. Qed.
Lemma raw_not_array : ~ array_like raw_name.
Proof.
  intros (key & i & Hi & E). apply (f_equal ends_brackets) in E. rewrite array_name_brackets in E by assumption. discriminate.
Qed.
Lemma pd_get_set d k v k' : pd_get (pd_set d k v) k' = if str_eqb k' k then Some v else pd_get d k'.
Proof.
  induction d as [|[k0 v0] d IH]; cbn [pd_set pd_get]; [reflexivity|].
  destruct (str_eqb k k0) eqn:E; cbn [pd_get].
  - apply str_eqb_eq in E. subst k0. destruct (str_eqb k' k); reflexivity.
  - rewrite IH. destruct (str_eqb k' k0) eqn:E'; [|reflexivity]. apply str_eqb_eq in E'. subst k0.
    rewrite str_eqb_sym in E. rewrite E. reflexivity.
Qed.

(** ** Names in use *)
Definition in_use (ct : pydict) (n : str) : Prop :=
  (ends_brackets n = false /\ ~ array_like n) \/
  (exists key i c, n = array_name key i /\ 0 <= i <= c /\ pd_get ct key = Some c).
Definition counts_ok (ct : pydict) : Prop := forall k c, pd_get ct k = Some c -> 0 <= c.

Lemma in_use_not_brackets ct n : in_use ct n -> ends_brackets n = false.
Proof. intros [[H _]|(key & i & c & -> & H & _)]; [assumption|]. apply array_name_brackets. lia. Qed.
Lemma in_use_not_raw ct n : in_use ct n -> n <> raw_name.
Proof. intros H ->. apply in_use_not_brackets in H. discriminate. Qed.
(** A numbered name is fresh, and names in use stay so. *)
Lemma unique_fresh ct n n' ct' : counts_ok ct -> unique_name ct n = (n', ct') ->
  counts_ok ct' /\ (forall m, in_use ct m -> in_use ct' m /\ m <> n') /\ in_use ct' n'.
Proof.
  intros Hc E. rewrite unique_name_eq in E. injection E as <- <-. set (key := key_of n).
  set (i := match pd_get ct key with Some c => c + 1 | None => 0 end).
  assert (Hi : 0 <= i).
  { unfold i. destruct (pd_get ct key) as [c|] eqn:E; [specialize (Hc _ _ E)|]; lia. }
  split; [|split].
  - intros k c H. rewrite pd_get_set in H. destruct (str_eqb k key); [injection H as <-; assumption|eauto].
  - intros m [[H1 H2]|(key' & j & c & -> & H1 & H2)].
    + split; [left; auto|]. intros ->. apply H2. exists key, i. auto.
    + split.
      * right. exists key', j. rewrite pd_get_set. destruct (str_eqb key' key) eqn:E.
        -- exists i. apply str_eqb_eq in E. subst key'. split; [reflexivity|]. split; [|reflexivity].
           unfold i. rewrite H2. lia.
        -- exists c. auto.
      * intros E. apply array_name_inj in E; try lia. destruct E as [-> ->]. unfold i in H1. rewrite H2 in H1. lia.
  - right. exists key, i, i. split; [reflexivity|]. split; [lia|]. rewrite pd_get_set, str_eqb_refl. reflexivity.
Qed.

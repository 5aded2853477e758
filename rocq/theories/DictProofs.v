From Verif Require Import Base BaseProofs DictModel DictSpec.
Ltac Zify.zify_post_hook ::= Z.div_mod_to_equations.

Lemma str_eqb_eq a b : str_eqb a b = true <-> a = b.
Proof.
  revert b; induction a as [|x a IH]; intros [|y b]; cbn [str_eqb]; try (split; congruence).
  rewrite andb_true_iff, Z.eqb_eq, IH. split; [intros [-> ->]; reflexivity|intros H; injection H; auto].
Qed.
Lemma str_eqb_refl a : str_eqb a a = true.
Proof. apply str_eqb_eq. reflexivity. Qed.
Lemma str_eqb_neq a b : str_eqb a b = false <-> a <> b.
Proof. rewrite <- str_eqb_eq. destruct (str_eqb a b); split; congruence. Qed.
Lemma str_eqb_sym a b : str_eqb a b = str_eqb b a.
Proof. destruct (str_eqb b a) eqn:E; [apply str_eqb_eq in E; subst; apply str_eqb_refl|].
  apply str_eqb_neq in E. apply str_eqb_neq. congruence. Qed.

(** ** Python dictionaries *)
Lemma pd_get_In d k v : NoDup (map fst d) -> (pd_get d k = Some v <-> In (k, v) d).
Proof.
  induction d as [|[k' v'] d IH]; intros Hn; cbn [pd_get]; [split; [discriminate|intros []]|].
  cbn [map fst] in Hn. inversion Hn as [|? ? Hni Hnd]; subst. specialize (IH Hnd).
  destruct (str_eqb k k') eqn:E.
  - apply str_eqb_eq in E. subst k'. split.
    + intros H. injection H as <-. left. reflexivity.
    + intros [H|H]; [congruence|]. exfalso. apply Hni. apply in_map_iff. exists (k, v). auto.
  - apply str_eqb_neq in E. rewrite IH. split; [intros; right; assumption|intros [H|H]; [congruence|assumption]].
Qed.
Lemma pd_get_None d k : pd_get d k = None <-> ~ In k (map fst d).
Proof.
  induction d as [|[k' v'] d IH]; cbn [pd_get map fst]; [split; auto|].
  destruct (str_eqb k k') eqn:E.
  - apply str_eqb_eq in E. subst. split; [discriminate|intros H; exfalso; apply H; left; reflexivity].
  - apply str_eqb_neq in E. rewrite IH. split; intros H; [intros [?|?]; [congruence|auto]|intros ?; apply H; right; auto].
Qed.
Lemma pd_set_fresh d k v : ~ In k (map fst d) -> pd_set d k v = d ++ [(k, v)].
Proof.
  induction d as [|[k' v'] d IH]; intros H; cbn [pd_set app]; [reflexivity|].
  replace (str_eqb k k') with false by (symmetry; apply str_eqb_neq; intros ->; apply H; left; reflexivity).
  rewrite IH; [reflexivity|]. intros Hi. apply H. right. assumption.
Qed.
Lemma pd_del_In d k k' v : NoDup (map fst d) -> (In (k', v) (pd_del d k) <-> In (k', v) d /\ k' <> k).
Proof.
  induction d as [|[k0 v0] d IH]; intros Hn; cbn [pd_del]; [split; [intros []|intros [[] _]]|].
  cbn [map fst] in Hn. inversion Hn as [|? ? Hni Hnd]; subst. specialize (IH Hnd).
  destruct (str_eqb k k0) eqn:E.
  - apply str_eqb_eq in E. subst k0. split.
    + intros H. split; [right; assumption|]. intros ->. apply Hni. apply in_map_iff. exists (k, v). auto.
    + intros [[H|H] Hk]; [congruence|assumption].
  - apply str_eqb_neq in E. cbn [In]. rewrite IH. split.
    + intros [H|[H1 H2]]; [injection H as <- <-; split; [left; reflexivity|congruence]|split; [right; assumption|assumption]].
    + intros [[H|H] Hk]; [left; assumption|right; auto].
Qed.
Lemma pd_del_NoDup d k : NoDup (map fst d) -> NoDup (map fst (pd_del d k)).
Proof.
  induction d as [|[k0 v0] d IH]; intros Hn; cbn [pd_del]; [constructor|].
  cbn [map fst] in Hn. inversion Hn as [|? ? Hni Hnd]; subst.
  destruct (str_eqb k k0); [assumption|]. cbn [map fst]. constructor; [|auto].
  intros Hi. apply Hni. apply in_map_iff in Hi. destruct Hi as ([k1 v1] & Hf & Hi). cbn in Hf. subst k1.
  apply pd_del_In in Hi; [|assumption]. apply in_map_iff. exists (k0, v1). split; [reflexivity|apply Hi].
Qed.
Lemma pd_del_value_In d i k v :
  (forall k1 k2 z, In (k1, z) d -> In (k2, z) d -> k1 = k2) -> NoDup (map fst d) ->
  (In (k, v) (pd_del_value d i) <-> In (k, v) d /\ v <> i).
Proof.
  induction d as [|[k0 v0] d IH]; intros Hu Hn; cbn [pd_del_value]; [split; [intros []|intros [[] _]]|].
  cbn [map fst] in Hn. inversion Hn as [|? ? Hni Hnd]; subst.
  destruct (v0 =? i) eqn:E.
  - assert (v0 = i) by lia. subst v0. split.
    + intros H. split; [right; assumption|]. intros ->. apply Hni.
      assert (k = k0) by (apply (Hu k k0 i); [right; assumption|left; reflexivity]). subst.
      apply in_map_iff. exists (k0, i). auto.
    + intros [[H|H] Hk]; [congruence|assumption].
  - cbn [In]. rewrite IH; [|intros k1 k2 z H1 H2; apply (Hu k1 k2 z); right; assumption|assumption]. split.
    + intros [H|[H1 H2]]; [injection H as <- <-; split; [left; reflexivity|lia]|split; [right; assumption|assumption]].
    + intros [[H|H] Hk]; [left; assumption|right; auto].
Qed.
Lemma pd_del_value_incl d i x : In x (pd_del_value d i) -> In x d.
Proof.
  induction d as [|[k0 v0] d IH]; cbn [pd_del_value]; [intros []|].
  destruct (v0 =? i); [intros; right; assumption|]. intros [H|H]; [left; assumption|right; auto].
Qed.
Lemma pd_del_value_NoDup d i : NoDup (map fst d) -> NoDup (map fst (pd_del_value d i)).
Proof.
  induction d as [|[k0 v0] d IH]; intros Hn; cbn [pd_del_value]; [constructor|].
  cbn [map fst] in Hn. inversion Hn as [|? ? Hni Hnd]; subst.
  destruct (v0 =? i); [assumption|]. cbn [map fst]. constructor; [|auto].
  intros Hi. apply Hni. apply in_map_iff in Hi. destruct Hi as (x & Hf & Hi). apply in_map_iff. exists x.
  split; [assumption|]. apply pd_del_value_incl in Hi. assumption.
Qed.

(** ** The invariant *)
(** The index maps exactly the keys to their positions. *)
Definition index_ok (idx : pydict) (keys : list str) : Prop :=
  NoDup (map fst idx) /\
  forall k z, In (k, z) idx <-> 0 <= z /\ nth_error keys (Z.to_nat z) = Some k.
Definition represents {V} (d : dict V) (l : list (str * V)) : Prop :=
  d_keys d = map fst l /\ d_vals d = map snd l /\ NoDup (map fst l) /\ index_ok (d_index d) (map fst l).

Lemma pos_of_Some {V} (l : list (str * V)) k i :
  NoDup (map fst l) -> (pos_of l k = Some i <-> nth_error (map fst l) i = Some k).
Proof.
  revert i; induction l as [|[k' v] l IH]; intros i Hn; cbn [pos_of map fst].
  - destruct i; cbn; split; discriminate.
  - cbn [map fst] in Hn. inversion Hn as [|? ? Hni Hnd]; subst.
    destruct (str_eqb k k') eqn:E.
    + apply str_eqb_eq in E. subst k'. split.
      * intros H. injection H as <-. reflexivity.
      * destruct i as [|i]; [reflexivity|]. cbn [nth_error]. intros H. exfalso. apply Hni. apply nth_error_In in H. assumption.
    + apply str_eqb_neq in E. destruct i as [|i]; cbn [nth_error].
      * split; [destruct (pos_of l k); discriminate|congruence].
      * rewrite <- IH by assumption. destruct (pos_of l k); cbn [option_map]; split; congruence.
Qed.
Lemma pos_of_None {V} (l : list (str * V)) k : pos_of l k = None <-> ~ In k (map fst l).
Proof.
  induction l as [|[k' v] l IH]; cbn [pos_of map fst]; [split; auto|].
  destruct (str_eqb k k') eqn:E.
  - apply str_eqb_eq in E. subst. split; [discriminate|intros H; exfalso; apply H; left; reflexivity].
  - apply str_eqb_neq in E. destruct (pos_of l k) eqn:Ep; cbn [option_map].
    + split; [discriminate|]. intros H. exfalso. destruct IH as [_ IH].
      discriminate IH. intros Hi. apply H. right. assumption.
    + split; [|reflexivity]. intros _ [H|H]; [congruence|]. apply IH; auto.
Qed.
Lemma index_ok_get idx keys k :
  index_ok idx keys -> NoDup keys ->
  match pd_get idx k with
  | Some z => 0 <= z /\ nth_error keys (Z.to_nat z) = Some k
  | None => ~ In k keys
  end.
Proof.
  intros [Hn Hi] Hnd. destruct (pd_get idx k) as [z|] eqn:E.
  - apply pd_get_In in E; [|assumption]. apply Hi. assumption.
  - apply pd_get_None in E. intros Hk. apply E. apply In_nth_error in Hk. destruct Hk as [n Hk].
    apply in_map_iff. exists (k, Z.of_nat n). split; [reflexivity|]. apply Hi. rewrite Nat2Z.id. split; [lia|assumption].
Qed.
Lemma get_pos {V} (d : dict V) l k :
  represents d l -> pd_get (d_index d) k = option_map Z.of_nat (pos_of l k).
Proof.
  intros (Hk & Hv & Hnd & Hi). pose proof (index_ok_get _ _ k Hi Hnd) as H.
  destruct (pd_get (d_index d) k) as [z|].
  - destruct H as [Hz H]. apply pos_of_Some in H; [|assumption]. rewrite H. cbn. f_equal. lia.
  - apply pos_of_None in H. rewrite H. reflexivity.
Qed.
Lemma contains_has {V} (d : dict V) l k : represents d l -> dict_contains d k = has l k.
Proof. intros H. unfold dict_contains, has. rewrite (get_pos d l k H). destruct (pos_of l k); reflexivity. Qed.
Lemma represents_len {V} (d : dict V) l : represents d l -> zlen (d_vals d) = zlen l.
Proof. intros (_ & Hv & _). rewrite Hv. apply zlen_map. Qed.

(** nth_error through the list edits *)
Lemma nth_error_insert {A} (l : list A) i x j : (i <= length l)%nat ->
  nth_error (firstn i l ++ x :: skipn i l) j =
  if (j <? i)%nat then nth_error l j else if (j =? i)%nat then Some x else nth_error l (j - 1).
Proof.
  intros Hi. destruct (Nat.ltb_spec j i) as [Hlt|Hge].
  - rewrite nth_error_app1 by (rewrite firstn_length; lia).
    rewrite <- (firstn_skipn i l) at 2. rewrite nth_error_app1 by (rewrite firstn_length; lia). reflexivity.
  - rewrite nth_error_app2 by (rewrite firstn_length; lia). rewrite firstn_length, Nat.min_l by lia.
    destruct (Nat.eqb_spec j i) as [->|Hne].
    + rewrite Nat.sub_diag. reflexivity.
    + replace (j - i)%nat with (S (j - 1 - i)) by lia. cbn [nth_error].
      rewrite <- (firstn_skipn i l) at 2. rewrite nth_error_app2 by (rewrite firstn_length; lia).
      rewrite firstn_length, Nat.min_l by lia. reflexivity.
Qed.
Lemma nth_error_delete {A} (l : list A) i j : (i < length l)%nat ->
  nth_error (firstn i l ++ skipn (S i) l) j = if (j <? i)%nat then nth_error l j else nth_error l (S j).
Proof.
  intros Hi. destruct (Nat.ltb_spec j i) as [Hlt|Hge].
  - rewrite nth_error_app1 by (rewrite firstn_length; lia).
    rewrite <- (firstn_skipn i l) at 2. rewrite nth_error_app1 by (rewrite firstn_length; lia). reflexivity.
  - rewrite nth_error_app2 by (rewrite firstn_length; lia). rewrite firstn_length, Nat.min_l by lia.
    rewrite <- (firstn_skipn (S i) l) at 2. rewrite nth_error_app2 by (rewrite firstn_length; lia).
    rewrite firstn_length, Nat.min_l by lia. reflexivity.
Qed.
Lemma nth_error_put {A} (l : list A) i x j : (i < length l)%nat ->
  nth_error (firstn i l ++ x :: skipn (S i) l) j = if (j =? i)%nat then Some x else nth_error l j.
Proof.
  intros Hi. destruct (lt_eq_lt_dec j i) as [[Hlt| ->]|Hgt].
  - replace (j =? i)%nat with false by lia. rewrite nth_error_app1 by (rewrite firstn_length; lia).
    rewrite <- (firstn_skipn i l) at 2. rewrite nth_error_app1 by (rewrite firstn_length; lia). reflexivity.
  - rewrite Nat.eqb_refl. rewrite nth_error_app2 by (rewrite firstn_length; lia).
    rewrite firstn_length, Nat.min_l by lia. rewrite Nat.sub_diag. reflexivity.
  - replace (j =? i)%nat with false by lia. rewrite nth_error_app2 by (rewrite firstn_length; lia).
    rewrite firstn_length, Nat.min_l by lia. replace (j - i)%nat with (S (j - S i)) by lia. cbn [nth_error].
    rewrite <- (firstn_skipn (S i) l) at 2. rewrite nth_error_app2 by (rewrite firstn_length; lia).
    rewrite firstn_length, Nat.min_l by lia. reflexivity.
Qed.
Lemma map_put {A B} (f : A -> B) l i x : map f (firstn i l ++ x :: skipn i l) = firstn i (map f l) ++ f x :: skipn i (map f l).
Proof. rewrite map_app. cbn [map]. rewrite firstn_map, skipn_map. reflexivity. Qed.

Lemma NoDup_nth {A} (l : list A) : NoDup l <-> forall i j x, nth_error l i = Some x -> nth_error l j = Some x -> i = j.
Proof.
  split.
  - intros Hn i j x Hi Hj. rewrite NoDup_nth_error in Hn. apply Hn; [apply nth_error_Some; congruence|congruence].
  - intros H. apply NoDup_nth_error. intros i j Hi Hij.
    destruct (nth_error l i) as [x|] eqn:E; [|apply nth_error_Some in Hi; congruence].
    apply (H i j x); auto.
Qed.

(** ** Each operation *)
Lemma represents_append {V} (d : dict V) l k v :
  represents d l -> pos_of l k = None ->
  represents {| d_index := pd_set (d_index d) k (zlen (d_vals d));
                d_keys := d_keys d ++ [k]; d_vals := d_vals d ++ [v] |} (l ++ [(k, v)]).
Proof.
  intros Hr Hk. pose proof (represents_len d l Hr) as Hlen. pose proof (get_pos d l k Hr) as Hg.
  destruct Hr as (Hks & Hvs & Hnd & [Hin Hi]). rewrite Hk in Hg. cbn in Hg. apply pd_get_None in Hg.
  apply pos_of_None in Hk.
  repeat split; cbn [d_index d_keys d_vals].
  - rewrite map_app, Hks. reflexivity.
  - rewrite map_app, Hvs. reflexivity.
  - rewrite map_app. cbn [map fst]. apply NoDup_app_comm || idtac.
    apply NoDup_nth. intros i j x Hi1 Hj1.
    assert (Hc : forall n y, nth_error (map fst l ++ [k]) n = Some y -> (n < length (map fst l) /\ nth_error (map fst l) n = Some y)%nat \/ (n = length (map fst l) /\ y = k)).
    { intros n y Hy. destruct (Nat.lt_ge_cases n (length (map fst l))) as [Hl|Hl].
      - rewrite nth_error_app1 in Hy by assumption. auto.
      - rewrite nth_error_app2 in Hy by assumption. right. destruct (n - length (map fst l))%nat as [|m] eqn:E; cbn in Hy.
        + split; [lia|congruence].
        + destruct m; discriminate. }
    apply Hc in Hi1. apply Hc in Hj1. destruct Hi1 as [[? Hi1]|[? Hi1]], Hj1 as [[? Hj1]|[? Hj1]]; subst; try reflexivity.
    + rewrite NoDup_nth in Hnd. eapply Hnd; eassumption.
    + exfalso. apply Hk. eapply nth_error_In; eassumption.
    + exfalso. apply Hk. eapply nth_error_In; eassumption.
  - rewrite pd_set_fresh by assumption. rewrite map_app. cbn [map fst].
    apply NoDup_rev in Hin. rewrite <- (rev_involutive (map fst (d_index d) ++ [k])). apply NoDup_rev.
    rewrite rev_app_distr. cbn [rev app]. constructor; [|assumption]. rewrite <- in_rev. assumption.
  - rewrite pd_set_fresh in H by assumption. apply in_app_or in H. destruct H as [H|[H|[]]].
    + apply Hi in H. lia.
    + injection H as <- <-. unfold zlen; lia.
  - rewrite pd_set_fresh in H by assumption. rewrite map_app. cbn [map fst]. apply in_app_or in H. destruct H as [H|[H|[]]].
    + apply Hi in H. destruct H as [_ H]. rewrite nth_error_app1; [assumption|]. apply nth_error_Some. congruence.
    + injection H as <- <-. rewrite Hlen. unfold zlen. rewrite Nat2Z.id. rewrite nth_error_app2 by (rewrite map_length; lia).
      rewrite map_length, Nat.sub_diag. reflexivity.
  - intros [Hz H]. rewrite pd_set_fresh by assumption. rewrite map_app in H. cbn [map fst] in H.
    apply in_or_app. destruct (Nat.lt_ge_cases (Z.to_nat z) (length (map fst l))) as [Hl|Hl].
    + left. apply Hi. rewrite nth_error_app1 in H by assumption. auto.
    + right. left. rewrite nth_error_app2 in H by assumption. destruct (Z.to_nat z - length (map fst l))%nat as [|m] eqn:E; cbn in H.
      * rewrite map_length in *. f_equal; [congruence|]. rewrite Hlen. unfold zlen. lia.
      * destruct m; discriminate.
Qed.

Lemma represents_insert {V} (d : dict V) l k v i :
  represents d l -> pos_of l k = None -> 0 <= i <= zlen l ->
  represents {| d_index := pd_set (map (fun kv => (fst kv, if i <=? snd kv then snd kv + 1 else snd kv)) (d_index d)) k i;
                d_keys := list_insert (d_keys d) i k; d_vals := list_insert (d_vals d) i v |}
             (firstn (Z.to_nat i) l ++ (k, v) :: skipn (Z.to_nat i) l).
Proof.
  intros Hr Hk Hi0. pose proof (get_pos d l k Hr) as Hg.
  destruct Hr as (Hks & Hvs & Hnd & [Hin Hi]). rewrite Hk in Hg. cbn in Hg. apply pd_get_None in Hg.
  apply pos_of_None in Hk.
  set (sh := fun kv : str * Z => (fst kv, if i <=? snd kv then snd kv + 1 else snd kv)).
  assert (Hmf : map fst (map sh (d_index d)) = map fst (d_index d)) by (rewrite map_map; reflexivity).
  assert (Hfresh : ~ In k (map fst (map sh (d_index d)))) by (rewrite Hmf; assumption).
  unfold zlen in Hi0.
  assert (Hil : (Z.to_nat i <= length (map fst l))%nat) by (rewrite map_length; lia).
  unfold represents; cbn [d_index d_keys d_vals]. unfold list_insert.
  rewrite !map_put. cbn [fst snd]. rewrite Hks, Hvs. repeat split.
  - apply NoDup_nth. intros a b x. rewrite !nth_error_insert by assumption.
    destruct (Nat.ltb_spec a (Z.to_nat i)), (Nat.ltb_spec b (Z.to_nat i)), (Nat.eqb_spec a (Z.to_nat i)), (Nat.eqb_spec b (Z.to_nat i));
      intros Ha Hb; try lia; rewrite NoDup_nth in Hnd;
      try (specialize (Hnd _ _ _ Ha Hb); lia);
      try (exfalso; apply Hk; injection Hb as <-; eapply nth_error_In; eassumption);
      try (exfalso; apply Hk; injection Ha as <-; eapply nth_error_In; eassumption).
  - rewrite pd_set_fresh by assumption. rewrite map_app, Hmf. cbn [map fst].
    apply NoDup_rev in Hin. rewrite <- (rev_involutive (map fst (d_index d) ++ [k])). apply NoDup_rev.
    rewrite rev_app_distr. cbn [rev app]. constructor; [|assumption]. rewrite <- in_rev. assumption.
  - rewrite pd_set_fresh in H by assumption. apply in_app_or in H. destruct H as [H|[H|[]]].
    + apply in_map_iff in H. destruct H as ([k1 z1] & Hsh & H). unfold sh in Hsh. cbn [fst snd] in Hsh.
      injection Hsh as <- <-. apply Hi in H. destruct (i <=? z1); lia.
    + injection H as <- <-. lia.
  - rewrite pd_set_fresh in H by assumption. rewrite nth_error_insert by assumption.
    apply in_app_or in H. destruct H as [H|[H|[]]].
    + apply in_map_iff in H. destruct H as ([k1 z1] & Hsh & H). unfold sh in Hsh. cbn [fst snd] in Hsh.
      injection Hsh as <- <-. apply Hi in H. destruct H as [Hz H]. destruct (i <=? z1) eqn:E.
      * replace (Z.to_nat (z1 + 1) <? Z.to_nat i)%nat with false by lia.
        replace (Z.to_nat (z1 + 1) =? Z.to_nat i)%nat with false by lia.
        replace (Z.to_nat (z1 + 1) - 1)%nat with (Z.to_nat z1) by lia. assumption.
      * replace (Z.to_nat z1 <? Z.to_nat i)%nat with true by lia. assumption.
    + injection H as <- <-. rewrite Nat.ltb_irrefl, Nat.eqb_refl. reflexivity.
  - intros [Hz H]. rewrite pd_set_fresh by assumption. rewrite nth_error_insert in H by assumption.
    apply in_or_app. destruct (Nat.ltb_spec (Z.to_nat z) (Z.to_nat i)).
    + left. apply in_map_iff. exists (k0, z). unfold sh. cbn [fst snd]. replace (i <=? z) with false by lia.
      split; [reflexivity|]. apply Hi. auto.
    + destruct (Nat.eqb_spec (Z.to_nat z) (Z.to_nat i)).
      * right. left. f_equal; [congruence|lia].
      * left. apply in_map_iff. exists (k0, z - 1). unfold sh. cbn [fst snd].
        replace (i <=? z - 1) with true by lia. split; [f_equal; lia|]. apply Hi. split; [lia|].
        replace (Z.to_nat (z - 1)) with (Z.to_nat z - 1)%nat by lia. assumption.
Qed.

Lemma represents_delete {V} (d : dict V) l i :
  represents d l -> 0 <= i < zlen l ->
  represents {| d_index := map (fun kv => (fst kv, if i <? snd kv then snd kv - 1 else snd kv)) (pd_del_value (d_index d) i);
                d_keys := list_del (d_keys d) i; d_vals := list_del (d_vals d) i |}
             (firstn (Z.to_nat i) l ++ skipn (S (Z.to_nat i)) l).
Proof.
  intros (Hks & Hvs & Hnd & [Hin Hi]) Hi0.
  unfold zlen in Hi0.
  assert (Hil : (Z.to_nat i < length (map fst l))%nat) by (rewrite map_length; lia).
  assert (Hu : forall k1 k2 z, In (k1, z) (d_index d) -> In (k2, z) (d_index d) -> k1 = k2).
  { intros k1 k2 z H1 H2. apply Hi in H1. apply Hi in H2. destruct H1, H2. congruence. }
  unfold represents; cbn [d_index d_keys d_vals]. unfold list_del.
  rewrite !map_app, <- !firstn_map, <- !skipn_map. rewrite Hks, Hvs.
  assert (Hmf : map fst (map (fun kv : str * Z => (fst kv, if i <? snd kv then snd kv - 1 else snd kv)) (pd_del_value (d_index d) i))
                = map fst (pd_del_value (d_index d) i)) by (rewrite map_map; reflexivity).
  repeat split.
  - apply NoDup_nth. intros a b x. rewrite !nth_error_delete by assumption. rewrite NoDup_nth in Hnd.
    destruct (Nat.ltb_spec a (Z.to_nat i)), (Nat.ltb_spec b (Z.to_nat i)); intros Ha Hb; specialize (Hnd _ _ _ Ha Hb); lia.
  - rewrite Hmf. apply pd_del_value_NoDup. assumption.
  - apply in_map_iff in H. destruct H as ([k1 z1] & Hsh & H). cbn [fst snd] in Hsh. injection Hsh as <- <-.
    apply pd_del_value_In in H; try assumption. destruct H as [H Hne]. apply Hi in H. destruct (i <? z1) eqn:E; lia.
  - apply in_map_iff in H. destruct H as ([k1 z1] & Hsh & H). cbn [fst snd] in Hsh. injection Hsh as <- <-.
    apply pd_del_value_In in H; try assumption. destruct H as [H Hne]. apply Hi in H. destruct H as [Hz H].
    rewrite nth_error_delete by assumption. destruct (i <? z1) eqn:E.
    + replace (Z.to_nat (z1 - 1) <? Z.to_nat i)%nat with false by lia.
      replace (S (Z.to_nat (z1 - 1))) with (Z.to_nat z1) by lia. assumption.
    + replace (Z.to_nat z1 <? Z.to_nat i)%nat with true by lia. assumption.
  - intros [Hz H]. rewrite nth_error_delete in H by assumption. apply in_map_iff.
    destruct (Nat.ltb_spec (Z.to_nat z) (Z.to_nat i)).
    + exists (k, z). cbn [fst snd]. replace (i <? z) with false by lia. split; [reflexivity|].
      apply pd_del_value_In; try assumption. split; [apply Hi; auto|lia].
    + exists (k, z + 1). cbn [fst snd]. replace (i <? z + 1) with true by lia. split; [f_equal; lia|].
      apply pd_del_value_In; try assumption. split; [apply Hi; split; [lia|]|lia].
      replace (Z.to_nat (z + 1)) with (S (Z.to_nat z)) by lia. assumption.
Qed.

Lemma map_fst_put_same {V} (l : list (str * V)) i k v :
  nth_error (map fst l) i = Some k -> map fst (put l i (k, v)) = map fst l.
Proof.
  unfold put. revert i; induction l as [|[k0 v0] l IH]; intros [|i] H; cbn in *; try discriminate.
  - congruence.
  - rewrite IH by assumption. reflexivity.
Qed.
Lemma map_snd_put {V} (l : list (str * V)) i k v :
  map snd (put l i (k, v)) = firstn i (map snd l) ++ v :: skipn (S i) (map snd l).
Proof. unfold put. rewrite map_app, firstn_map. cbn [map snd]. rewrite <- skipn_map. reflexivity. Qed.
Lemma map_fst_put {V} (l : list (str * V)) i k v :
  map fst (put l i (k, v)) = firstn i (map fst l) ++ k :: skipn (S i) (map fst l).
Proof. unfold put. rewrite map_app, firstn_map. cbn [map fst]. rewrite <- skipn_map. reflexivity. Qed.

Lemma represents_set {V} (d : dict V) l k v i :
  represents d l -> pos_of l k = Some i ->
  represents {| d_index := d_index d; d_keys := d_keys d; d_vals := list_set (d_vals d) (Z.of_nat i) v |} (put l i (k, v)).
Proof.
  intros (Hks & Hvs & Hnd & Hi) Hp. apply pos_of_Some in Hp; [|assumption].
  pose proof (map_fst_put_same l i k v Hp) as Hm.
  unfold represents; cbn [d_index d_keys d_vals]. rewrite Hm, map_snd_put. unfold list_set. rewrite Nat2Z.id, Hvs.
  split; [assumption|]. split; [reflexivity|]. split; assumption.
Qed.

Lemma represents_rename {V} (d : dict V) l o n v i :
  represents d l -> pos_of l o = Some i -> pos_of l n = None ->
  represents {| d_index := pd_set (pd_del (d_index d) o) n (Z.of_nat i);
                d_keys := list_set (d_keys d) (Z.of_nat i) n; d_vals := list_set (d_vals d) (Z.of_nat i) v |} (put l i (n, v)).
Proof.
  intros (Hks & Hvs & Hnd & [Hin Hi]) Hp Hn. apply pos_of_Some in Hp; [|assumption]. apply pos_of_None in Hn.
  assert (Hil : (i < length (map fst l))%nat) by (apply nth_error_Some; congruence).
  unfold represents; cbn [d_index d_keys d_vals]. unfold list_set. rewrite Nat2Z.id, map_snd_put, map_fst_put, Hks, Hvs.
  assert (Hfresh : ~ In n (map fst (pd_del (d_index d) o))).
  { intros H. apply in_map_iff in H. destruct H as ([k z] & Hf & H). cbn in Hf. subst k.
    apply pd_del_In in H; [|assumption]. destruct H as [H _]. apply Hi in H. apply Hn. destruct H as [_ H].
    eapply nth_error_In; eassumption. }
  repeat split.
  - apply NoDup_nth. intros a b x. rewrite !nth_error_put by assumption. rewrite NoDup_nth in Hnd.
    destruct (Nat.eqb_spec a i), (Nat.eqb_spec b i); intros Ha Hb; try lia.
    + exfalso. apply Hn. injection Ha as <-. eapply nth_error_In; eassumption.
    + exfalso. apply Hn. injection Hb as <-. eapply nth_error_In; eassumption.
    + eapply Hnd; eassumption.
  - rewrite pd_set_fresh by assumption. rewrite map_app. cbn [map fst].
    pose proof (pd_del_NoDup (d_index d) o Hin) as Hd. apply NoDup_rev in Hd.
    rewrite <- (rev_involutive (map fst (pd_del (d_index d) o) ++ [n])). apply NoDup_rev.
    rewrite rev_app_distr. cbn [rev app]. constructor; [|assumption]. rewrite <- in_rev. assumption.
  - rewrite pd_set_fresh in H by assumption. apply in_app_or in H. destruct H as [H|[H|[]]].
    + apply pd_del_In in H; [|assumption]. destruct H as [H _]. apply Hi in H. lia.
    + injection H as <- <-. lia.
  - rewrite pd_set_fresh in H by assumption. rewrite nth_error_put by assumption.
    apply in_app_or in H. destruct H as [H|[H|[]]].
    + apply pd_del_In in H; [|assumption]. destruct H as [H Hne]. apply Hi in H. destruct H as [Hz H].
      destruct (Nat.eqb_spec (Z.to_nat z) i) as [He|He]; [|assumption]. exfalso. apply Hne. congruence.
    + injection H as <- <-. rewrite Nat2Z.id, Nat.eqb_refl. reflexivity.
  - intros [Hz H]. rewrite pd_set_fresh by assumption. rewrite nth_error_put in H by assumption. apply in_or_app.
    destruct (Nat.eqb_spec (Z.to_nat z) i) as [He|He].
    + right. left. f_equal; [congruence|lia].
    + left. apply pd_del_In; [assumption|]. split; [apply Hi; auto|]. intros ->.
      rewrite NoDup_nth in Hnd. apply He. eapply Hnd; eassumption.
Qed.

Lemma combine_fst_snd {A B} (l : list (A * B)) : combine (map fst l) (map snd l) = l.
Proof. induction l as [|[a b] l IH]; [reflexivity|]. cbn [map combine fst snd]. rewrite IH. reflexivity. Qed.

Lemma dict_step_refines {V} (d : dict V) l op :
  represents d l -> no_clash l op = true ->
  represents (fst (dict_step d op)) (fst (alist_step l op)) /\
  snd (dict_step d op) = snd (alist_step l op).
Proof.
  intros Hr Hc. pose proof (represents_len d l Hr) as Hlen.
  destruct op as [k v|i k v|o n v|k v|i|k|k|k| | | |]; cbn [dict_step alist_step].
  - unfold dict_append. rewrite (contains_has d l k Hr). unfold has. destruct (pos_of l k) eqn:E; cbn [upd fst snd]; [auto|].
    split; [|reflexivity]. apply represents_append; assumption.
  - unfold dict_insert. rewrite (contains_has d l k Hr), Hlen. unfold has, from_end.
    destruct (pos_of l k) eqn:E; cbn [upd fst snd]; [auto|].
    set (i' := if i <? 0 then i + zlen l else i).
    destruct ((0 <=? i') && (i' <=? zlen l)) eqn:Ei; cbn [negb upd fst snd].
    + replace ((i' <? 0) || (zlen l <? i')) with false by lia. split; [|reflexivity].
      apply represents_insert; auto; lia.
    + replace ((i' <? 0) || (zlen l <? i')) with true by lia. auto.
  - unfold dict_replace. rewrite (get_pos d l o Hr). destruct (pos_of l o) as [i|] eqn:E; cbn [option_map]; [|cbn; auto].
    cbn [no_clash] in Hc. unfold has in Hc. rewrite E in Hc. cbn [negb] in Hc. rewrite orb_false_r in Hc.
    destruct (str_eqb o n) eqn:En; cbn [negb upd fst snd].
    + apply str_eqb_eq in En. subst n. split; [|reflexivity]. apply represents_set; assumption.
    + cbn [orb] in Hc. destruct (pos_of l n) eqn:Epn; [discriminate|]. split; [|reflexivity]. apply represents_rename; assumption.
  - unfold dict_setitem. rewrite (get_pos d l k Hr). destruct (pos_of l k) as [i|] eqn:E; cbn [option_map upd fst snd]; [|auto].
    split; [|reflexivity]. apply represents_set; assumption.
  - unfold dict_delitem, from_end. rewrite Hlen. set (i' := if i <? 0 then i + zlen l else i).
    destruct ((0 <=? i') && (i' <? zlen l)) eqn:Ei; cbn [negb upd fst snd].
    + replace ((i' <? 0) || (zlen l <=? i')) with false by lia. split; [|reflexivity]. apply represents_delete; auto; lia.
    + replace ((i' <? 0) || (zlen l <=? i')) with true by lia. auto.
  - cbn [fst snd]. unfold dict_index. rewrite (get_pos d l k Hr). auto.
  - cbn [fst snd]. split; [assumption|]. unfold dict_getitem. rewrite (get_pos d l k Hr).
    destruct (pos_of l k) as [i|] eqn:E; cbn [option_map]; [|reflexivity].
    destruct Hr as (_ & Hvs & Hnd & _). apply pos_of_Some in E; [|assumption].
    rewrite nth_error_map in E. destruct (nth_error l i) as [[k' v]|] eqn:En; [|discriminate].
    unfold py_nth. rewrite Hvs. assert (i < length l)%nat by (apply nth_error_Some; congruence).
    replace (Z.of_nat i <? 0) with false by lia. rewrite zlen_map. unfold zlen.
    replace ((0 <=? Z.of_nat i) && (Z.of_nat i <? Z.of_nat (length l))) with true by lia.
    rewrite Nat2Z.id, nth_error_map, En. reflexivity.
  - cbn [fst snd]. rewrite (contains_has d l k Hr). auto.
  - cbn [fst snd]. unfold dict_len. rewrite Hlen. auto.
  - cbn [fst snd]. split; [assumption|]. unfold dict_items. destruct Hr as (-> & -> & _). f_equal.
    apply combine_fst_snd.
  - cbn [fst snd]. split; [assumption|]. destruct Hr as (H & _). rewrite H. reflexivity.
  - cbn [fst snd]. split; [assumption|]. destruct Hr as (_ & H2 & _). rewrite H2. reflexivity.
Qed.

Lemma dict_run_refines {V} (ops : list (dict_op V)) : forall d l,
  represents d l -> no_clash_run l ops = true ->
  represents (fst (dict_run d ops)) (fst (alist_run l ops)) /\
  snd (dict_run d ops) = snd (alist_run l ops).
Proof.
  induction ops as [|op ops IH]; intros d l Hr Hc; cbn [dict_run alist_run]; [auto|].
  cbn [no_clash_run] in Hc. apply andb_prop in Hc. destruct Hc as [Hc1 Hc2].
  destruct (dict_step_refines d l op Hr Hc1) as [H1 H2].
  destruct (dict_step d op) as [d1 o1], (alist_step l op) as [l1 o2]. cbn [fst snd] in *.
  destruct (IH d1 l1 H1 Hc2) as [H3 H4].
  destruct (dict_run d1 ops) as [d2 os1], (alist_run l1 ops) as [l2 os2]. cbn [fst snd] in *.
  subst. auto.
Qed.
Lemma represents_empty {V} : represents (@dict_empty V) [].
Proof.
  unfold represents, index_ok, dict_empty; cbn [d_index d_keys d_vals map].
  split; [reflexivity|]. split; [reflexivity|]. split; [constructor|]. split; [constructor|].
  intros k z. split; [intros []|]. intros [_ H]. destruct (Z.to_nat z); discriminate.
Qed.
Lemma dict_history_partial {V} (ops : list (dict_op V)) :
  no_clash_run [] ops = true ->
  snd (dict_run dict_empty ops) = snd (alist_run [] ops) /\
  NoDup (map fst (fst (alist_run [] ops))).
Proof.
  intros H. destruct (dict_run_refines ops dict_empty [] represents_empty H) as [H1 H2].
  split; [assumption|]. apply H1.
Qed.

(** Lemmas about the shared vocabulary. *)
From Verif Require Export Base.
Ltac Zify.zify_post_hook ::= Z.div_mod_to_equations.

Lemma zlen_nonneg {A} (l : list A) : 0 <= zlen l.
Proof. unfold zlen; lia. Qed.
Lemma zlen_nil {A} : zlen (@nil A) = 0.
Proof. reflexivity. Qed.
Lemma zlen_cons {A} (x : A) l : zlen (x :: l) = 1 + zlen l.
Proof. unfold zlen; cbn [length]; lia. Qed.
Lemma zlen_app {A} (l m : list A) : zlen (l ++ m) = zlen l + zlen m.
Proof. unfold zlen; rewrite app_length; lia. Qed.
Lemma zlen_map {A B} (f : A -> B) l : zlen (map f l) = zlen l.
Proof. unfold zlen; rewrite map_length; reflexivity. Qed.
Lemma zlen_rev {A} (l : list A) : zlen (rev l) = zlen l.
Proof. unfold zlen; rewrite rev_length; reflexivity. Qed.
Lemma zlen_repeat {A} (x : A) n : zlen (repeat x n) = Z.of_nat n.
Proof. unfold zlen; rewrite repeat_length; reflexivity. Qed.
Lemma zlen_0 {A} (l : list A) : zlen l = 0 -> l = [].
Proof. destruct l; [reflexivity | rewrite zlen_cons; pose proof (zlen_nonneg l); lia]. Qed.

Lemma zlen_sub {A} (l : list A) a n :
  0 <= a -> 0 <= n -> zlen (sub l a n) = Z.min n (Z.max 0 (zlen l - a)).
Proof. intros; unfold zlen, sub; rewrite firstn_length, skipn_length; lia. Qed.

Lemma zlen_sub_exact {A} (l : list A) a n :
  0 <= a -> 0 <= n -> a + n <= zlen l -> zlen (sub l a n) = n.
Proof. intros; rewrite zlen_sub by lia; lia. Qed.

Lemma sub_0 {A} (l : list A) a : sub l a 0 = [].
Proof. unfold sub; reflexivity. Qed.

Lemma sub_neg {A} (l : list A) a n : n <= 0 -> sub l a n = [].
Proof. intros; unfold sub; replace (Z.to_nat n) with 0%nat by lia; reflexivity. Qed.

Lemma sub_all {A} (l : list A) : sub l 0 (zlen l) = l.
Proof. unfold sub, zlen; rewrite Nat2Z.id; cbn [Z.to_nat skipn]; apply firstn_all. Qed.

Lemma sub_past {A} (l : list A) a n : zlen l <= a -> sub l a n = [].
Proof. intros H; unfold sub; unfold zlen in H; rewrite skipn_all2 by lia; apply firstn_nil. Qed.

Lemma sub_clamp {A} (l : list A) a n :
  0 <= a -> zlen l <= a + n -> sub l a n = sub l a (zlen l - a).
Proof.
  intros Ha H; unfold sub, zlen in *.
  rewrite !firstn_all2; try reflexivity; rewrite skipn_length; lia.
Qed.

Lemma sub_app_split {A} (l : list A) a n m :
  0 <= a -> 0 <= n -> 0 <= m -> sub l a (n + m) = sub l a n ++ sub l (a + n) m.
Proof.
  intros Ha Hn Hm; unfold sub.
  rewrite Z2Nat.inj_add by lia.
  rewrite (Z2Nat.inj_add a n) by lia.
  generalize (Z.to_nat a) (Z.to_nat n) (Z.to_nat m); clear; intros a n m.
  revert l; induction a as [|a IH]; intros l.
  - cbn [skipn plus]. revert l; induction n as [|n IH]; intros l.
    + reflexivity.
    + destruct l; cbn; [rewrite firstn_nil; reflexivity | f_equal; apply IH].
  - destruct l; cbn [skipn plus]; [rewrite !firstn_nil; reflexivity | apply IH].
Qed.

Lemma firstn_skipn_comm' {A} (l : list A) (a n : nat) :
  firstn n (skipn a l) = skipn a (firstn (a + n) l).
Proof.
  revert l; induction a as [|a IH]; intros l; [reflexivity|].
  destruct l; cbn [skipn plus firstn]; [rewrite firstn_nil; reflexivity | apply IH].
Qed.

Lemma skipn_skipn' {A} (l : list A) (a b : nat) : skipn a (skipn b l) = skipn (b + a) l.
Proof.
  revert l; induction b as [|b IH]; intros l; [reflexivity|].
  destruct l; cbn [skipn plus]; [apply skipn_nil | apply IH].
Qed.

Lemma sub_sub {A} (l : list A) a n b m :
  0 <= a -> 0 <= b -> 0 <= m -> b + m <= n -> sub (sub l a n) b m = sub l (a + b) m.
Proof.
  intros Ha Hb Hm Hn; unfold sub.
  rewrite (firstn_skipn_comm' l).
  rewrite firstn_skipn_comm', <- firstn_skipn_comm'.
  rewrite skipn_skipn'.
  rewrite firstn_skipn_comm'.
  rewrite firstn_firstn.
  rewrite Z2Nat.inj_add by lia.
  rewrite firstn_skipn_comm'.
  f_equal. f_equal. lia.
Qed.

Lemma sub_app_l {A} (l m : list A) a n :
  0 <= a -> a + n <= zlen l -> sub (l ++ m) a n = sub l a n.
Proof.
  intros Ha H. destruct (Z_le_gt_dec n 0) as [Hn|Hn]; [rewrite !sub_neg by lia; reflexivity|].
  unfold sub, zlen in *.
  rewrite skipn_app, firstn_app, skipn_length.
  replace (Z.to_nat n - (length l - Z.to_nat a))%nat with 0%nat by lia.
  cbn [firstn]; apply app_nil_r.
Qed.

Lemma sub_app_r {A} (l m : list A) a n :
  zlen l <= a -> sub (l ++ m) a n = sub m (a - zlen l) n.
Proof.
  intros H; unfold sub, zlen in *.
  rewrite skipn_app, (skipn_all2 l) by lia.
  cbn [app]; do 2 f_equal; lia.
Qed.

Lemma sub_app_mid {A} (l m : list A) a n :
  0 <= a <= zlen l -> zlen l <= a + n ->
  sub (l ++ m) a n = sub l a (zlen l - a) ++ sub m 0 (a + n - zlen l).
Proof.
  intros Ha H.
  replace n with ((zlen l - a) + (a + n - zlen l)) at 1 by lia.
  rewrite sub_app_split by lia.
  rewrite sub_app_l by lia.
  rewrite (sub_app_r l m) by lia.
  do 2 f_equal; lia.
Qed.

Lemma app_sub_skip {A} (l : list A) a :
  0 <= a <= zlen l -> l = sub l 0 a ++ sub l a (zlen l - a).
Proof.
  intros H. rewrite <- (sub_all l) at 1.
  replace (zlen l) with (a + (zlen l - a)) at 1 by lia.
  rewrite sub_app_split by lia. f_equal.
Qed.

Lemma sub_length_le {A} (l : list A) a n : (length (sub l a n) <= length l)%nat.
Proof. unfold sub; rewrite firstn_length, skipn_length; lia. Qed.

Lemma nth_sub {A} (l : list A) a n i d :
  0 <= a -> (Z.of_nat i < n) -> nth i (sub l a n) d = nth (Z.to_nat a + i) l d.
Proof.
  intros Ha Hi; unfold sub.
  assert (Hlt : (i < Z.to_nat n)%nat) by lia. clear Hi.
  revert Hlt. generalize (Z.to_nat n) (Z.to_nat a); clear; intros n a Hlt.
  revert l; induction a as [|a IH]; intros l.
  - cbn [skipn plus]. revert i l Hlt; induction n as [|n IHn]; intros i l Hlt; [lia|].
    destruct l; [reflexivity|]. destruct i; [reflexivity|]. cbn. apply IHn; lia.
  - destruct l; cbn [skipn plus nth]; [rewrite firstn_nil; destruct i; reflexivity | apply IH].
Qed.

Lemma nth_error_sub {A} (l : list A) a n i :
  0 <= a -> (Z.of_nat i < n) -> nth_error (sub l a n) i = nth_error l (Z.to_nat a + i).
Proof.
  intros Ha Hi; unfold sub.
  assert (Hlt : (i < Z.to_nat n)%nat) by lia. clear Hi.
  revert Hlt. generalize (Z.to_nat n) (Z.to_nat a); clear; intros n a Hlt.
  revert l; induction a as [|a IH]; intros l.
  - cbn [skipn plus]. revert i l Hlt; induction n as [|n IHn]; intros i l Hlt; [lia|].
    destruct l; [reflexivity|]. destruct i; [reflexivity|]. cbn. apply IHn; lia.
  - destruct l; cbn [skipn plus nth_error]; [rewrite firstn_nil; destruct i; reflexivity | apply IH].
Qed.

(** ** Python slices *)
Lemma py_slice_nonneg {A} (l : list A) a b :
  0 <= a -> 0 <= b -> py_slice l a b = sub l a (b - a).
Proof.
  intros Ha Hb; unfold py_slice, py_norm.
  replace (a <? 0) with false by lia. replace (b <? 0) with false by lia.
  pose proof (zlen_nonneg l).
  destruct (Z_le_gt_dec (zlen l) a) as [H1|H1].
  - rewrite Z.min_r by lia. rewrite !sub_past by lia. reflexivity.
  - rewrite (Z.min_l a) by lia.
    destruct (Z_le_gt_dec (zlen l) b) as [H2|H2].
    + rewrite Z.min_r by lia. symmetry. apply sub_clamp; lia.
    + rewrite Z.min_l by lia. reflexivity.
Qed.

Lemma py_from_nonneg {A} (l : list A) a : 0 <= a -> py_from l a = skipn (Z.to_nat a) l.
Proof.
  intros Ha. unfold py_from. rewrite py_slice_nonneg by (try lia; apply zlen_nonneg).
  unfold sub. apply firstn_all2. rewrite skipn_length. unfold zlen. lia.
Qed.

Lemma is_bytes_app l m : is_bytes (l ++ m) <-> is_bytes l /\ is_bytes m.
Proof. unfold is_bytes. apply Forall_app. Qed.
Lemma is_bytes_firstn n l : is_bytes l -> is_bytes (firstn n l).
Proof. unfold is_bytes. revert l; induction n; intros [|x l] H; cbn; constructor; inversion H; auto. Qed.
Lemma is_bytes_skipn n l : is_bytes l -> is_bytes (skipn n l).
Proof. unfold is_bytes. revert l; induction n; intros [|x l] H; cbn; auto; inversion H; auto. Qed.
Lemma is_bytes_sub l a n : is_bytes l -> is_bytes (sub l a n).
Proof. intros; unfold sub; apply is_bytes_firstn, is_bytes_skipn; assumption. Qed.

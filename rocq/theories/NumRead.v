(** Whole numbers written in bytes, and reading them. *)
From Verif Require Export Base BaseProofs BitsModel BitsSpec BitsProofs StreamModel StreamSpec StreamProofs VarintSpec VarintProofs ChunkBase NumSpec.
Ltac Zify.zify_post_hook ::= Z.div_mod_to_equations.
Lemma zlen_be_bytes n : forall v, zlen (be_bytes n v) = Z.of_nat n.
Proof. induction n as [|n IH]; intros v; [reflexivity|]. cbn [be_bytes]. rewrite zlen_app, IH. change (zlen [v mod 256]) with 1. lia. Qed.
Lemma zlen_le_bytes n : forall v, zlen (le_bytes n v) = Z.of_nat n.
Proof. induction n as [|n IH]; intros v; [reflexivity|]. cbn [le_bytes]. rewrite zlen_cons, IH. lia. Qed.
Lemma zlen_uint e n v : zlen (uint e n v) = Z.of_nat n.
Proof. destruct e; [apply zlen_be_bytes|apply zlen_le_bytes|apply zlen_be_bytes]. Qed.
Lemma is_bytes_uint e n : forall v, is_bytes (uint e n v).
Proof.
  destruct e; cbn [uint]; induction n as [|n IH]; intros v; cbn [be_bytes le_bytes]; try apply Forall_nil;
    try (apply Forall_app; split; [apply IH|constructor; [unfold is_byte; lia|constructor]]);
    constructor; [unfold is_byte; lia|apply IH].
Qed.
Lemma be_val n : forall v, 0 <= v < 256 ^ Z.of_nat n -> from_bytes_big (be_bytes n v) = v.
Proof.
  induction n as [|n IH]; intros v H; [change (256 ^ Z.of_nat 0) with 1 in H; cbn; lia|]. cbn [be_bytes]. unfold from_bytes_big. rewrite fold_left_app. cbn [fold_left].
  replace (Z.of_nat (S n)) with (Z.of_nat n + 1) in H by lia. rewrite Z.pow_add_r in H by lia. change (256 ^ 1) with 256 in H.
  fold (from_bytes_big (be_bytes n (v / 256))). rewrite IH; lia.
Qed.
Lemma le_val n : forall v, 0 <= v < 256 ^ Z.of_nat n -> from_bytes_little (le_bytes n v) = v.
Proof.
  induction n as [|n IH]; intros v H; [change (256 ^ Z.of_nat 0) with 1 in H; cbn; lia|]. cbn [le_bytes].
  change (from_bytes_little (v mod 256 :: le_bytes n (v / 256))) with (v mod 256 + 256 * from_bytes_little (le_bytes n (v / 256))).
  replace (Z.of_nat (S n)) with (Z.of_nat n + 1) in H by lia. rewrite Z.pow_add_r in H by lia. change (256 ^ 1) with 256 in H. rewrite IH; lia.
Qed.
Section Read.
Context (read : read_fun) (data : list Z) (Hs : serves read data) (Hb : is_bytes data).
Lemma read_uint e n v p : e <> MIDDLE_ENDIAN -> (1 <= n)%nat -> 0 <= v < 256 ^ Z.of_nat n -> occurs_at (uint e n v) data p -> readBits read (8 * p) (8 * Z.of_nat n) e = Ok v.
Proof using All.
  intros E N V (K & L & O). rewrite zlen_uint in L, O. rewrite (readBits_serves _ data) by (auto; try lia; unfold bits_available; destruct e; congruence || lia). f_equal.
  unfold bits_at. destruct e; [| |congruence].
  - rewrite <- bits_be_sub by lia. rewrite O. cbn [uint]. rewrite <- from_bytes_big_val by apply (is_bytes_uint BIG_ENDIAN). apply be_val, V.
  - rewrite <- bits_le_sub by lia. rewrite O. cbn [uint]. rewrite <- from_bytes_little_val by apply (is_bytes_uint LITTLE_ENDIAN). apply le_val, V.
Qed.
Lemma read_num e n k v p : e <> MIDDLE_ENDIAN -> (1 <= n)%nat -> k = 8 * Z.of_nat n -> 0 <= v < 2 ^ k -> occurs_at (uint e n v) data p -> readBits read (8 * p) k e = Ok v.
Proof using All.
  intros E N -> V O. apply read_uint; auto. rewrite Z.pow_mul_r in V by lia. exact V.
Qed.
End Read.

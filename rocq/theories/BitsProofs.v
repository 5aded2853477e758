From Verif Require Import Base BaseProofs BitsModel BitsSpec.
Ltac Zify.zify_post_hook ::= Z.div_mod_to_equations.

(** ** Values of bit lists *)
Lemma val_be_acc bs acc :
  fold_left (fun acc b => 2 * acc + b2z b) bs acc = acc * 2 ^ zlen bs + val_be bs.
Proof.
  revert acc; induction bs as [|b bs IH]; intros acc; cbn [fold_left].
  - unfold val_be; cbn. lia.
  - unfold val_be; cbn [fold_left]. rewrite !IH, zlen_cons.
    pose proof (zlen_nonneg bs). rewrite Z.pow_add_r by lia. nia.
Qed.

Lemma val_be_nil : val_be [] = 0. Proof. reflexivity. Qed.
Lemma val_be_cons b bs : val_be (b :: bs) = b2z b * 2 ^ zlen bs + val_be bs.
Proof. unfold val_be at 1; cbn [fold_left]. rewrite val_be_acc. lia. Qed.
Lemma val_be_app a b : val_be (a ++ b) = val_be a * 2 ^ zlen b + val_be b.
Proof. unfold val_be at 1. rewrite fold_left_app, val_be_acc. reflexivity. Qed.
Lemma val_be_bound bs : 0 <= val_be bs < 2 ^ zlen bs.
Proof.
  induction bs as [|b bs IH]; [cbn; lia|].
  rewrite val_be_cons, zlen_cons. pose proof (zlen_nonneg bs).
  rewrite Z.pow_add_r by lia. destruct b; cbn [b2z]; lia.
Qed.

Lemma val_le_nil : val_le [] = 0. Proof. reflexivity. Qed.
Lemma val_le_cons b bs : val_le (b :: bs) = b2z b + 2 * val_le bs.
Proof. reflexivity. Qed.
Lemma val_le_app a b : val_le (a ++ b) = val_le a + 2 ^ zlen a * val_le b.
Proof.
  induction a as [|x a IH]; cbn [app].
  - change (val_le []) with 0. change (2 ^ zlen (@nil bool)) with 1. lia.
  - rewrite !val_le_cons, IH, zlen_cons. pose proof (zlen_nonneg a).
    rewrite Z.pow_add_r by lia. lia.
Qed.
Lemma val_le_bound bs : 0 <= val_le bs < 2 ^ zlen bs.
Proof.
  induction bs as [|b bs IH]; [cbn; lia|].
  rewrite val_le_cons, zlen_cons. pose proof (zlen_nonneg bs).
  rewrite Z.pow_add_r by lia. destruct b; cbn [b2z]; lia.
Qed.

(** Slices of bit lists are shifts and masks of their values. *)
Lemma val_be_sub bs a n :
  0 <= a -> 0 <= n -> a + n <= zlen bs ->
  val_be (sub bs a n) = Z.land (Z.shiftr (val_be bs) (zlen bs - a - n)) (Z.shiftl 1 n - 1).
Proof.
  intros Ha Hn H.
  replace (Z.shiftl 1 n - 1) with (Z.ones n) by (rewrite Z.ones_equiv, Z.shiftl_mul_pow2 by lia; lia).
  rewrite Z.land_ones by lia. rewrite Z.shiftr_div_pow2 by lia.
  assert (Hbs : bs = sub bs 0 a ++ sub bs a n ++ sub bs (a + n) (zlen bs - a - n)).
  { rewrite <- sub_app_split by lia.
    replace (n + (zlen bs - a - n)) with (zlen bs - a) by lia.
    apply app_sub_skip. lia. }
  set (k := zlen bs - a - n) in *.
  rewrite Hbs at 2. rewrite !val_be_app.
  assert (Hl3 : zlen (sub bs (a + n) k) = k) by (apply zlen_sub_exact; lia).
  assert (Hl2 : zlen (sub bs a n) = n) by (apply zlen_sub_exact; lia).
  rewrite zlen_app, Hl2, Hl3.
  pose proof (val_be_bound (sub bs (a + n) k)) as B3. rewrite Hl3 in B3.
  pose proof (val_be_bound (sub bs a n)) as B2. rewrite Hl2 in B2.
  generalize dependent (val_be (sub bs (a+n) k)). intros z Hz.
  generalize dependent (val_be (sub bs a n)). intros y Hy.
  generalize (val_be (sub bs 0 a)). intros x.
  rewrite Z.pow_add_r by lia.
  replace (x * (2 ^ n * 2 ^ k) + (y * 2 ^ k + z)) with (z + (x * 2 ^ n + y) * 2 ^ k) by ring.
  rewrite Z.div_add by lia. rewrite (Z.div_small z) by lia.
  replace (0 + (x * 2 ^ n + y)) with (y + x * 2 ^ n) by ring.
  rewrite Z.mod_add by lia. rewrite Z.mod_small by lia. reflexivity.
Qed.

Lemma val_le_sub bs a n :
  0 <= a -> 0 <= n -> a + n <= zlen bs ->
  val_le (sub bs a n) = Z.land (Z.shiftr (val_le bs) a) (Z.shiftl 1 n - 1).
Proof.
  intros Ha Hn H.
  replace (Z.shiftl 1 n - 1) with (Z.ones n) by (rewrite Z.ones_equiv, Z.shiftl_mul_pow2 by lia; lia).
  rewrite Z.land_ones by lia. rewrite Z.shiftr_div_pow2 by lia.
  assert (Hbs : bs = sub bs 0 a ++ sub bs a n ++ sub bs (a + n) (zlen bs - a - n)).
  { rewrite <- sub_app_split by lia.
    replace (n + (zlen bs - a - n)) with (zlen bs - a) by lia.
    apply app_sub_skip. lia. }
  set (k := zlen bs - a - n) in *.
  rewrite Hbs at 2. rewrite !val_le_app.
  assert (Hl1 : zlen (sub bs 0 a) = a) by (apply zlen_sub_exact; lia).
  assert (Hl2 : zlen (sub bs a n) = n) by (apply zlen_sub_exact; lia).
  rewrite Hl1, Hl2.
  pose proof (val_le_bound (sub bs 0 a)) as B1. rewrite Hl1 in B1.
  pose proof (val_le_bound (sub bs a n)) as B2. rewrite Hl2 in B2.
  generalize dependent (val_le (sub bs 0 a)). intros x Hx.
  generalize dependent (val_le (sub bs a n)). intros y Hy.
  generalize (val_le (sub bs (a + n) k)). intros z.
  replace (x + 2 ^ a * (y + 2 ^ n * z)) with (x + (y + 2 ^ n * z) * 2 ^ a) by ring.
  rewrite Z.div_add by lia. rewrite (Z.div_small x) by lia.
  replace (0 + (y + 2 ^ n * z)) with (y + z * 2 ^ n) by ring.
  rewrite Z.mod_add by lia. rewrite Z.mod_small by lia. reflexivity.
Qed.

(** ** Bits of byte strings *)
Lemma zlen_bits_be data : zlen (bits_be data) = 8 * zlen data.
Proof.
  unfold bits_be. induction data as [|b d IH]; [reflexivity|].
  cbn [flat_map]. rewrite zlen_app, IH, zlen_cons, zlen_map.
  change (zlen [7;6;5;4;3;2;1;0]) with 8. lia.
Qed.
Lemma zlen_bits_le data : zlen (bits_le data) = 8 * zlen data.
Proof.
  unfold bits_le. induction data as [|b d IH]; [reflexivity|].
  cbn [flat_map]. rewrite zlen_app, IH, zlen_cons, zlen_map.
  change (zlen [0;1;2;3;4;5;6;7]) with 8. lia.
Qed.
Lemma bits_be_app a b : bits_be (a ++ b) = bits_be a ++ bits_be b.
Proof. apply flat_map_app. Qed.
Lemma bits_le_app a b : bits_le (a ++ b) = bits_le a ++ bits_le b.
Proof. apply flat_map_app. Qed.
Lemma bits_be_cons b d : bits_be (b :: d) = bits_be [b] ++ bits_be d.
Proof. apply (bits_be_app [b] d). Qed.
Lemma bits_le_cons b d : bits_le (b :: d) = bits_le [b] ++ bits_le d.
Proof. apply (bits_le_app [b] d). Qed.

(** A finite sweep over the 256 bytes. *)
Lemma byte_forall (P : Z -> bool) :
  forallb P (map Z.of_nat (seq 0 256)) = true -> forall b, is_byte b -> P b = true.
Proof.
  intros H b Hb. rewrite forallb_forall in H. apply H.
  apply in_map_iff. exists (Z.to_nat b). unfold is_byte in Hb. split; [lia|].
  apply in_seq. lia.
Qed.

Lemma val_be_byte b : is_byte b -> val_be (bits_be [b]) = b.
Proof.
  intros H. apply Z.eqb_eq. revert b H.
  apply (byte_forall (fun b => val_be (bits_be [b]) =? b)). vm_compute. reflexivity.
Qed.
Lemma val_le_byte b : is_byte b -> val_le (bits_le [b]) = b.
Proof.
  intros H. apply Z.eqb_eq. revert b H.
  apply (byte_forall (fun b => val_le (bits_le [b]) =? b)). vm_compute. reflexivity.
Qed.

Lemma from_bytes_big_acc data acc :
  fold_left (fun acc b => acc * 256 + b) data acc = acc * 256 ^ zlen data + from_bytes_big data.
Proof.
  revert acc; induction data as [|b d IH]; intros acc.
  - cbn. unfold from_bytes_big; cbn. lia.
  - unfold from_bytes_big; cbn [fold_left]. rewrite !IH, zlen_cons. pose proof (zlen_nonneg d).
    rewrite Z.pow_add_r by lia. nia.
Qed.
Lemma from_bytes_big_cons b d : from_bytes_big (b :: d) = b * 256 ^ zlen d + from_bytes_big d.
Proof. unfold from_bytes_big at 1; cbn [fold_left]. rewrite from_bytes_big_acc. lia. Qed.
Lemma from_bytes_big_app a b : from_bytes_big (a ++ b) = from_bytes_big a * 256 ^ zlen b + from_bytes_big b.
Proof. unfold from_bytes_big at 1. rewrite fold_left_app, from_bytes_big_acc. reflexivity. Qed.
Lemma from_bytes_big_bound d : is_bytes d -> 0 <= from_bytes_big d < 256 ^ zlen d.
Proof.
  induction d as [|b d IH]; intros H; [cbn; lia|].
  inversion H as [|? ? Hb Hd]; subst. specialize (IH Hd). unfold is_byte in Hb.
  rewrite from_bytes_big_cons, zlen_cons. pose proof (zlen_nonneg d).
  rewrite Z.pow_add_r by lia. nia.
Qed.

Lemma from_bytes_big_val data : is_bytes data -> from_bytes_big data = val_be (bits_be data).
Proof.
  induction data as [|b d IH]; intros H; [reflexivity|].
  inversion H as [|? ? Hb Hd]; subst.
  rewrite from_bytes_big_cons, bits_be_cons, val_be_app, val_be_byte, zlen_bits_be, IH by assumption.
  pose proof (zlen_nonneg d). change 256 with (2 ^ 8). rewrite <- Z.pow_mul_r by lia. reflexivity.
Qed.

Lemma from_bytes_little_val data : is_bytes data -> from_bytes_little data = val_le (bits_le data).
Proof.
  induction data as [|b d IH]; intros H; [reflexivity|].
  inversion H as [|? ? Hb Hd]; subst.
  rewrite bits_le_cons, val_le_app, val_le_byte, zlen_bits_le by assumption.
  unfold from_bytes_little; cbn [fold_right]. fold (from_bytes_little d). rewrite IH by assumption.
  reflexivity.
Qed.

Lemma from_bytes_little_rev data : from_bytes_little data = from_bytes_big (rev data).
Proof.
  unfold from_bytes_little, from_bytes_big.
  rewrite <- fold_left_rev_right, rev_involutive.
  induction data; cbn [fold_right]; lia.
Qed.

Lemma bits_be_sub data a n :
  0 <= a -> 0 <= n -> bits_be (sub data a n) = sub (bits_be data) (8 * a) (8 * n).
Proof.
  intros Ha Hn. unfold sub.
  rewrite !Z2Nat.inj_mul by lia. change (Z.to_nat 8) with 8%nat.
  generalize (Z.to_nat a) (Z.to_nat n). clear. intros a n.
  revert data; induction a as [|a IH]; intros data.
  - cbn [skipn]. rewrite Nat.mul_0_r. cbn [skipn].
    revert data; induction n as [|n IHn]; intros data; [reflexivity|].
    destruct data as [|b d]; [rewrite !firstn_nil; reflexivity|].
    cbn [firstn]. rewrite (bits_be_cons b (firstn n d)), (bits_be_cons b d), IHn.
    replace (8 * S n)%nat with (8 + 8 * n)%nat by lia.
    rewrite firstn_app. replace (length (bits_be [b])) with 8%nat by reflexivity.
    rewrite (firstn_all2 (n := 8 + 8 * n) (bits_be [b])) by (cbn; lia).
    f_equal. f_equal. lia.
  - destruct data as [|b d].
    { cbn [skipn]. rewrite firstn_nil. cbn [bits_be bits_le flat_map]. rewrite skipn_nil, firstn_nil. reflexivity. }
    cbn [skipn]. rewrite IH, (bits_be_cons b d).
    replace (8 * S a)%nat with (8 + 8 * a)%nat by lia.
    rewrite skipn_app. replace (length (bits_be [b])) with 8%nat by reflexivity.
    rewrite (skipn_all2 (n := 8 + 8 * a) (bits_be [b])) by (cbn; lia).
    replace (8 + 8 * a - 8)%nat with (8 * a)%nat by lia. reflexivity.
Qed.
Lemma bits_le_sub data a n :
  0 <= a -> 0 <= n -> bits_le (sub data a n) = sub (bits_le data) (8 * a) (8 * n).
Proof.
  intros Ha Hn. unfold sub.
  rewrite !Z2Nat.inj_mul by lia. change (Z.to_nat 8) with 8%nat.
  generalize (Z.to_nat a) (Z.to_nat n). clear. intros a n.
  revert data; induction a as [|a IH]; intros data.
  - cbn [skipn]. rewrite Nat.mul_0_r. cbn [skipn].
    revert data; induction n as [|n IHn]; intros data; [reflexivity|].
    destruct data as [|b d]; [rewrite !firstn_nil; reflexivity|].
    cbn [firstn]. rewrite (bits_le_cons b (firstn n d)), (bits_le_cons b d), IHn.
    replace (8 * S n)%nat with (8 + 8 * n)%nat by lia.
    rewrite firstn_app. replace (length (bits_le [b])) with 8%nat by reflexivity.
    rewrite (firstn_all2 (n := 8 + 8 * n) (bits_le [b])) by (cbn; lia).
    f_equal. f_equal. lia.
  - destruct data as [|b d].
    { cbn [skipn]. rewrite firstn_nil. cbn [bits_be bits_le flat_map]. rewrite skipn_nil, firstn_nil. reflexivity. }
    cbn [skipn]. rewrite IH, (bits_le_cons b d).
    replace (8 * S a)%nat with (8 + 8 * a)%nat by lia.
    rewrite skipn_app. replace (length (bits_le [b])) with 8%nat by reflexivity.
    rewrite (skipn_all2 (n := 8 + 8 * a) (bits_le [b])) by (cbn; lia).
    replace (8 + 8 * a - 8)%nat with (8 * a)%nat by lia. reflexivity.
Qed.

(** ** Word swapping *)
Lemma list_pair_ind {A} (P : list A -> Prop) :
  P [] -> (forall x, P [x]) -> (forall x y l, P l -> P (x :: y :: l)) -> forall l, P l.
Proof.
  intros H0 H1 H2 l.
  assert (H : P l /\ forall x, P (x :: l)); [|apply H].
  induction l as [|a l [IH IH']]; [split; auto|]. split; [apply IH'|]. intros x. apply H2, IH.
Qed.
Lemma interleave_swap {A} (l : list A) :
  (zlen l) mod 2 = 0 -> interleave (odds l) (evens l) = swap_words l.
Proof.
  induction l as [| x | x y l IH] using list_pair_ind; intros H; [reflexivity| cbn in H; lia |].
  cbn [odds evens swap_words]. destruct l as [|z l]; [reflexivity|].
  cbn [interleave evens]. rewrite <- IH; [|rewrite !zlen_cons in *; lia].
  cbn [odds]. reflexivity.
Qed.
Lemma swap_words_len {A} (l : list A) : zlen (swap_words l) = zlen l.
Proof.
  induction l as [| x | x y l IH] using list_pair_ind; try reflexivity.
  cbn [swap_words]. rewrite !zlen_cons, IH. reflexivity.
Qed.
Lemma swap_words_involutive {A} (l : list A) : swap_words (swap_words l) = l.
Proof.
  induction l as [| x | x y l IH] using list_pair_ind; try reflexivity.
  cbn [swap_words]. rewrite IH. reflexivity.
Qed.
Lemma swap_words_bytes l : is_bytes l -> is_bytes (swap_words l).
Proof.
  unfold is_bytes. induction l as [| x | x y l IH] using list_pair_ind; intros H; try assumption.
  inversion H as [|? ? Hx H']; inversion H'; subst. cbn [swap_words]. constructor; [assumption|constructor; [assumption|auto]].
Qed.
Lemma swap_words_skipn {A} (l : list A) n : swap_words (skipn (2 * n) l) = skipn (2 * n) (swap_words l).
Proof.
  revert l; induction n as [|n IH]; intros l; [reflexivity|].
  replace (2 * S n)%nat with (S (S (2 * n))) by lia.
  destruct l as [|x [|y l]]; [reflexivity| |].
  - cbn [skipn swap_words]. destruct n; reflexivity.
  - cbn [skipn swap_words]. apply IH.
Qed.
Lemma swap_words_firstn {A} (l : list A) n :
  (2 * n <= length l)%nat -> swap_words (firstn (2 * n) l) = firstn (2 * n) (swap_words l).
Proof.
  revert l; induction n as [|n IH]; intros l H; [reflexivity|].
  replace (2 * S n)%nat with (S (S (2 * n))) by lia.
  destruct l as [|x [|y l]]; [reflexivity| cbn in H; lia |].
  cbn [firstn swap_words]. do 2 f_equal. apply IH. cbn [length] in H. lia.
Qed.
Lemma swap_words_sub {A} (l : list A) a n :
  0 <= a -> 0 <= n -> a mod 2 = 0 -> n mod 2 = 0 -> a + n <= zlen l ->
  swap_words (sub l a n) = sub (swap_words l) a n.
Proof.
  intros Ha Hn Ha2 Hn2 H. unfold sub.
  replace (Z.to_nat a) with (2 * Z.to_nat (a / 2))%nat by lia.
  replace (Z.to_nat n) with (2 * Z.to_nat (n / 2))%nat by lia.
  rewrite swap_words_firstn. { rewrite swap_words_skipn. reflexivity. }
  rewrite skipn_length. unfold zlen in H. lia.
Qed.

Lemma strswapmid_ok data : zlen data mod 2 = 0 -> strswapmid data = Ok (swap_words data).
Proof.
  intros H. unfold strswapmid, arrswapmid. rewrite (proj2 (Z.eqb_eq _ _) H). cbn [assert_ bind].
  rewrite interleave_swap by assumption. reflexivity.
Qed.
Lemma strswapmid_odd data : zlen data mod 2 <> 0 -> strswapmid data = Err AssertionError.
Proof. intros H. unfold strswapmid, arrswapmid. rewrite (proj2 (Z.eqb_neq _ _) H). reflexivity. Qed.

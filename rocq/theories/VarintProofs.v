(** Proofs about variable length integers. *)
From Verif Require Import Base BaseProofs BitsModel BitsSpec BitsProofs StreamModel StreamSpec StreamProofs VarintModel VarintSpec.
Ltac Zify.zify_post_hook ::= Z.div_mod_to_equations.

(** ** Bytes found in the data *)
Lemma occurs_app a b data k : occurs_at (a ++ b) data k -> occurs_at a data k /\ occurs_at b data (k + zlen a).
Proof.
  intros (K & L & E). rewrite zlen_app in *. pose proof (zlen_nonneg a). pose proof (zlen_nonneg b).
  rewrite sub_app_split in E by lia.
  assert (La : zlen (sub data k (zlen a)) = zlen a) by (rewrite zlen_sub_exact; lia).
  assert (H1 : length (sub data k (zlen a)) = length a) by (revert La; generalize (sub data k (zlen a)); unfold zlen; intros; lia).
  assert (sub data k (zlen a) = a /\ sub data (k + zlen a) (zlen b) = b) as [A B].
  { revert E. generalize (sub data k (zlen a)) (sub data (k + zlen a) (zlen b)) H1. clear. intros x y.
    revert a. induction x as [|c x IH]; intros [|d a] L E; cbn in *; try lia; auto.
    injection E as -> E. destruct (IH a ltac:(lia) E) as [-> ->]. auto. }
  repeat split; auto; lia.
Qed.
Lemma occurs_cons b r data k : occurs_at (b :: r) data k -> occurs_at [b] data k /\ occurs_at r data (k + 1).
Proof. intros H. exact (occurs_app [b] r data k H). Qed.
Lemma occurs_bytes a data k : is_bytes data -> occurs_at a data k -> is_bytes a.
Proof. intros D (_ & _ & <-). apply is_bytes_sub, D. Qed.

Section Read.
Context (read : read_fun) (data : list Z) (HS : serves read data) (HD : is_bytes data).

Lemma read_big d k : occurs_at d data k -> d <> [] -> readBits read (8 * k) (8 * zlen d) BIG_ENDIAN = Ok (from_bytes_big d).
Proof using All.
  intros H N. pose proof (occurs_bytes _ _ _ HD H) as B. destruct H as (K & L & E).
  assert (1 <= zlen d) by (destruct d; [congruence|rewrite zlen_cons; pose proof (zlen_nonneg d); lia]).
  rewrite (readBits_serves _ data) by (auto; try lia; unfold bits_available; lia).
  unfold bits_at. rewrite <- bits_be_sub by lia. rewrite E, from_bytes_big_val by exact B. reflexivity.
Qed.
Lemma read_byte b k e : occurs_at [b] data k -> e <> MIDDLE_ENDIAN -> readBits read (8 * k) 8 e = Ok b.
Proof using All.
  intros H N. pose proof (occurs_bytes _ _ _ HD H) as B. destruct H as (K & L & E).
  change (zlen [b]) with 1 in *. inversion B as [|? ? B1 _]; subst.
  rewrite (readBits_serves _ data) by (auto; try lia; unfold bits_available; destruct e; congruence || lia).
  unfold bits_at. destruct e; [| |congruence].
  - change 8 with (8 * 1) at 2; rewrite <- (bits_be_sub data k 1) by lia; rewrite E, val_be_byte by exact B1. reflexivity.
  - change 8 with (8 * 1) at 2; rewrite <- (bits_le_sub data k 1) by lia; rewrite E, val_le_byte by exact B1. reflexivity.
Qed.
(** [m] bits at bit [j] of a byte *)
Lemma read_bits b k j m : occurs_at [b] data k -> 0 <= j -> 1 <= m -> j + m <= 8 ->
  readBits read (8 * k + j) m BIG_ENDIAN = Ok (val_be (sub (bits_be [b]) j m)).
Proof using All.
  intros (K & L & E) J M JM. change (zlen [b]) with 1 in *.
  rewrite (readBits_serves _ data) by (auto; try lia; unfold bits_available; lia).
  unfold bits_at. rewrite <- E, (bits_be_sub data k 1) by lia. rewrite sub_sub by lia. reflexivity.
Qed.
End Read.

Lemma byte_eq (f g : Z -> Z) : forallb (fun b => f b =? g b) (map Z.of_nat (seq 0 256)) = true -> forall b, is_byte b -> f b = g b.
Proof. intros H b B. apply Z.eqb_eq. exact (byte_forall _ H b B). Qed.

(** ** Groups of seven bits *)
Lemma low7 b : is_byte b -> Z.land b 127 = b mod 128.
Proof. apply (byte_eq (fun b => Z.land b 127) (fun b => b mod 128)). vm_compute. reflexivity. Qed.
Lemma mark7 b : is_byte b -> (Z.land b 128 =? 0) = (b <? 128).
Proof.
  intros B. pose proof (byte_forall (fun b => Bool.eqb (Z.land b 128 =? 0) (b <? 128)) ltac:(vm_compute; reflexivity) b B) as E.
  apply Bool.eqb_prop, E.
Qed.

Definition be7 (acc : Z) (l : list Z) : Z := fold_left (fun a b => a * 128 + b mod 128) l acc.
Lemma be_groups_len n v : zlen (be_groups n v) = Z.of_nat n.
Proof. revert v; induction n as [|n IH]; intros v; [reflexivity|]. cbn [be_groups]. rewrite zlen_app, IH. change (zlen [_]) with 1. lia. Qed.
Lemma be_groups_marked n v : Forall (fun b => 128 <= b < 256) (be_groups n v).
Proof. revert v; induction n as [|n IH]; intros v; [constructor|]. cbn [be_groups]. apply Forall_app. split; [apply IH|]. constructor; [lia|constructor]. Qed.
Lemma pow_S b n : b ^ Z.of_nat (S n) = b * b ^ Z.of_nat n.
Proof. rewrite Nat2Z.inj_succ, Z.pow_succ_r by lia. reflexivity. Qed.
Lemma be7_groups n v acc : 0 <= v < 128 ^ Z.of_nat n -> be7 acc (be_groups n v) = acc * 128 ^ Z.of_nat n + v.
Proof.
  revert v; induction n as [|n IH]; intros v V; [cbn in *; lia|].
  rewrite pow_S in *. set (p := 128 ^ Z.of_nat n) in *. clearbody p.
  cbn [be_groups]. unfold be7 in *. rewrite fold_left_app, IH by lia. cbn [fold_left].
  replace (128 + v mod 128) with (v mod 128 + 1 * 128) by lia. rewrite Z_mod_plus_full, Z.mod_mod by lia. lia.
Qed.
Lemma be7_bound acc l : 0 <= acc -> 0 <= be7 acc l.
Proof. revert acc; induction l as [|b l IH]; intros acc A; [exact A|]. cbn. apply IH. lia. Qed.
(** Any chain of marked bytes and a last one is the encoding of a number. *)
Lemma be_groups_of l : Forall (fun b => 128 <= b < 256) l -> l = be_groups (length l) (be7 0 l) /\ 0 <= be7 0 l < 128 ^ zlen l.
Proof.
  induction l as [|b l IH] using rev_ind; intros F; [split; [reflexivity|cbn; lia]|].
  apply Forall_app in F. destruct F as [F B]. inversion B; subst. destruct (IH F) as [E V].
  rewrite app_length, zlen_app. change (zlen [b]) with 1. cbn [length].
  pose proof (zlen_nonneg l). rewrite Z.pow_add_r by lia. set (p := 128 ^ zlen l) in *. clearbody p.
  unfold be7 in *. rewrite fold_left_app. cbn [fold_left]. set (w := fold_left _ l 0) in *. clearbody w.
  rewrite Nat.add_1_r. cbn [be_groups].
  replace ((w * 128 + b mod 128) / 128) with w by lia. replace ((w * 128 + b mod 128) mod 128) with (b mod 128) by lia.
  split; [|lia]. rewrite <- E. do 2 f_equal. lia.
Qed.
Lemma vlq_of l b : Forall (fun b => 128 <= b < 256) l -> 0 <= b < 128 -> 
  l ++ [b] = vlq (length l) (be7 0 l * 128 + b) /\ 0 <= be7 0 l * 128 + b < 128 ^ (zlen l + 1).
Proof.
  intros F B. destruct (be_groups_of l F) as [E V]. pose proof (zlen_nonneg l). rewrite Z.pow_add_r by lia.
  set (p := 128 ^ zlen l) in *. clearbody p. set (w := be7 0 l) in *. clearbody w. unfold vlq.
  replace ((w * 128 + b) / 128) with w by lia. replace ((w * 128 + b) mod 128) with b by lia.
  rewrite <- E. split; [reflexivity|lia].
Qed.

Lemma be_bytes_len n v : zlen (be_bytes n v) = Z.of_nat n.
Proof. revert v; induction n as [|n IH]; intros v; [reflexivity|]. cbn [be_bytes]. rewrite zlen_app, IH. change (zlen [_]) with 1. lia. Qed.
Lemma be_bytes_value n v : 0 <= v < 256 ^ Z.of_nat n -> from_bytes_big (be_bytes n v) = v.
Proof.
  revert v; induction n as [|n IH]; intros v V; [cbn in *; unfold from_bytes_big; cbn; lia|].
  rewrite pow_S in V. set (p := 256 ^ Z.of_nat n) in *. clearbody p.
  cbn [be_bytes]. rewrite from_bytes_big_app, IH by lia. change (zlen [_]) with 1. unfold from_bytes_big. cbn [fold_left]. lia.
Qed.

Section Numbers.
Context (read : read_fun) (data : list Z) (HS : serves read data) (HD : is_bytes data).
Let rbyte := read_byte read data HS HD.

(** *** MIDI *)
Lemma midi_loop_chain e l b fuel k acc size :
  e <> MIDDLE_ENDIAN -> occurs_at (l ++ [b]) data k -> Forall (fun b => 128 <= b < 256) l -> 0 <= b < 128 ->
  size + 8 * zlen l <= 32 -> (length l < fuel)%nat ->
  midi_loop read fuel e (8 * k) acc size = Ok (be7 acc l * 128 + b, size + 8 * zlen l).
Proof using All.
  revert fuel k acc size. induction l as [|c l IH]; intros fuel k acc size N H F B S L.
  - destruct fuel as [|fuel]; [cbn in L; lia|]. cbn [midi_loop]. cbn [app] in H.
    rewrite (rbyte b) by assumption. cbn [bind]. rewrite low7, mark7 by (unfold is_byte; lia).
    replace (b <? 128) with true by lia. rewrite Z.shiftl_mul_pow2 by lia. cbn [be7 fold_left]. change (zlen []) with 0.
    do 2 f_equal; lia.
  - inversion F as [|? ? C F']; subst. destruct fuel as [|fuel]; [cbn in L; lia|]. cbn [midi_loop].
    change ((c :: l) ++ [b]) with (c :: (l ++ [b])) in H. apply occurs_cons in H. destruct H as [H1 H2].
    rewrite (rbyte c) by assumption. cbn [bind]. rewrite low7, mark7 by (unfold is_byte; lia).
    rewrite zlen_cons in *. pose proof (zlen_nonneg l).
    replace (c <? 128) with false by lia. replace (32 <? size + 8) with false by lia.
    rewrite Z.shiftl_mul_pow2 by lia. replace (8 * k + 8) with (8 * (k + 1)) by lia.
    rewrite IH; auto; [|lia|cbn in L; lia]. cbn [be7 fold_left]. do 2 f_equal; lia.
Qed.
Lemma midi_ok e n v k :
  e <> MIDDLE_ENDIAN -> (n <= 3)%nat -> 0 <= v < 128 ^ (Z.of_nat n + 1) -> occurs_at (vlq n v) data k ->
  midi_int read e (8 * k) = Ok (v, 8 * (Z.of_nat n + 1)).
Proof using All.
  intros N L V H. unfold midi_int, vlq in *.
  rewrite Z.pow_add_r in V by lia. change (128 ^ 1) with 128 in V. set (p := 128 ^ Z.of_nat n) in *.
  rewrite (midi_loop_chain e _ _ _ _ _ _ N H (be_groups_marked _ _)).
  - rewrite be7_groups by (fold p; clearbody p; lia). rewrite be_groups_len. do 2 f_equal; lia.
  - lia.
  - rewrite be_groups_len. lia.
  - pose proof (be_groups_len n (v / 128)) as E. unfold zlen in E. lia.
Qed.
Lemma midi_long e l k : e <> MIDDLE_ENDIAN -> occurs_at l data k -> zlen l = 4 -> Forall (fun b => 128 <= b < 256) l ->
  midi_int read e (8 * k) = Err ParserError.
Proof using All.
  intros N H L F. destruct l as [|a [|b [|c [|d [|]]]]]; cbn in L; try lia.
  apply occurs_cons in H. destruct H as [H1 H]. apply occurs_cons in H. destruct H as [H2 H].
  apply occurs_cons in H. destruct H as [H3 H4].
  inversion F as [|? ? A F1]; subst. inversion F1 as [|? ? B F2]; subst. inversion F2 as [|? ? C F3]; subst. inversion F3 as [|? ? D _]; subst.
  unfold midi_int. cbn [midi_loop].
  rewrite (rbyte a) by assumption. cbn [bind]. rewrite (mark7 a) by (unfold is_byte; lia). replace (a <? 128) with false by lia. cbn [Z.ltb Z.add Z.compare].
  replace (8 * k + 8) with (8 * (k + 1)) by lia.
  rewrite (rbyte b) by assumption. cbn [bind]. rewrite (mark7 b) by (unfold is_byte; lia). replace (b <? 128) with false by lia.
  replace (8 * (k + 1) + 8) with (8 * (k + 1 + 1)) by lia.
  rewrite (rbyte c) by assumption. cbn [bind]. rewrite (mark7 c) by (unfold is_byte; lia). replace (c <? 128) with false by lia.
  replace (8 * (k + 1 + 1) + 8) with (8 * (k + 1 + 1 + 1)) by lia.
  rewrite (rbyte d) by assumption. cbn [bind]. rewrite (mark7 d) by (unfold is_byte; lia). replace (d <? 128) with false by lia.
  reflexivity.
Qed.

(** *** ASN.1 *)
Lemma asn_short_ok v k : 0 <= v < 128 -> occurs_at (asn_short v) data k -> asn_int read (8 * k) = Ok (v, 8).
Proof using All.
  intros V H. unfold asn_int. rewrite (rbyte v) by (auto; discriminate). cbn [bind]. replace (128 <=? v) with false by lia. reflexivity.
Qed.
Lemma asn_long_ok n v k : (1 <= n <= 8)%nat -> 0 <= v < 256 ^ Z.of_nat n -> occurs_at (asn_long n v) data k ->
  asn_int read (8 * k) = Ok (v, 8 * (Z.of_nat n + 1)).
Proof using All.
  intros N V H. unfold asn_long in H. apply occurs_cons in H. destruct H as [H1 H2].
  unfold asn_int. rewrite (rbyte _ _ BIG_ENDIAN H1) by discriminate. cbn [bind].
  replace (128 <=? 128 + Z.of_nat n) with true by lia. rewrite low7 by (unfold is_byte; lia).
  replace ((128 + Z.of_nat n) mod 128 * 8) with (8 * Z.of_nat n) by lia.
  replace (8 * Z.of_nat n =? 0) with false by lia. replace (64 <? 8 * Z.of_nat n) with false by lia.
  pose proof (be_bytes_len n v) as L.
  pose proof (read_big read data HS HD _ _ H2) as R. rewrite L in R. replace (8 * k + 8) with (8 * (k + 1)) by lia.
  rewrite R by (intros E; rewrite E in L; cbn in L; lia). cbn [bind]. rewrite be_bytes_value by exact V. do 2 f_equal. lia.
Qed.
Lemma asn_bad b k : occurs_at [b] data k -> b = 128 \/ 136 < b -> asn_int read (8 * k) = Err ParserError.
Proof using All.
  intros H B. pose proof (occurs_bytes _ _ _ HD H) as Y. inversion Y as [|? ? Y1 _]; subst.
  unfold asn_int. rewrite (rbyte b) by (auto; discriminate). cbn [bind]. rewrite low7 by exact Y1. unfold is_byte in Y1.
  replace (128 <=? b) with true by lia. destruct (b mod 128 * 8 =? 0) eqn:E; [reflexivity|]. replace (64 <? b mod 128 * 8) with true by lia. reflexivity.
Qed.
Lemma oid_loop_chain l b fuel k acc c size :
  occurs_at (l ++ [b]) data (k + 1) -> Forall (fun b => 128 <= b < 256) l -> 0 <= b < 128 -> 128 <= c ->
  size + 8 * (zlen l + 1) <= 64 -> (S (length l) < fuel)%nat ->
  oid_loop read fuel (8 * k) size acc c = Ok (be7 acc l * 128 + b, size + 8 * (zlen l + 1)).
Proof using All.
  revert fuel k acc c size. induction l as [|x l IH]; intros fuel k acc c size H F B C S L.
  - destruct fuel as [|fuel]; [cbn in L; lia|]. cbn [oid_loop]. replace (128 <=? c) with true by lia. change (zlen []) with 0 in *.
    replace (64 <? size + 8) with false by lia. replace (8 * k + 8) with (8 * (k + 1)) by lia.
    rewrite (rbyte b) by (auto; discriminate). cbn [bind]. rewrite low7 by (unfold is_byte; lia). destruct fuel as [|fuel]; [cbn in L; lia|].
    cbn [oid_loop]. replace (128 <=? b) with false by lia. rewrite Z.shiftl_mul_pow2 by lia. cbn [be7 fold_left]. do 2 f_equal; lia.
  - inversion F as [|? ? X F']; subst. destruct fuel as [|fuel]; [cbn in L; lia|]. cbn [oid_loop]. replace (128 <=? c) with true by lia.
    rewrite zlen_cons in *. pose proof (zlen_nonneg l).
    replace (64 <? size + 8) with false by lia. replace (8 * k + 8) with (8 * (k + 1)) by lia.
    change ((x :: l) ++ [b]) with (x :: (l ++ [b])) in H. apply occurs_cons in H. destruct H as [H1 H2].
    rewrite (rbyte x) by (auto; discriminate). cbn [bind]. rewrite low7 by (unfold is_byte; lia).
    rewrite IH; auto; try lia; [|cbn in L; lia]. rewrite Z.shiftl_mul_pow2 by lia. cbn [be7 fold_left]. do 2 f_equal; lia.
Qed.
Lemma oid_ok n v k : (n <= 7)%nat -> 0 <= v < 128 ^ (Z.of_nat n + 1) -> occurs_at (vlq n v) data k ->
  oid_int read (8 * k) = Ok (v, 8 * (Z.of_nat n + 1)).
Proof using All.
  intros L V H. unfold oid_int, vlq in *.
  rewrite Z.pow_add_r in V by lia. change (128 ^ 1) with 128 in V. set (p := 128 ^ Z.of_nat n) in *.
  assert (P : be7 0 (be_groups n (v / 128)) = v / 128) by (rewrite be7_groups by (fold p; clearbody p; lia); lia).
  pose proof (be_groups_len n (v / 128)) as G. pose proof (be_groups_marked n (v / 128)) as M.
  destruct (be_groups n (v / 128)) as [|c l].
  - cbn in G. replace n with O in * by lia. cbn [app] in H. rewrite (rbyte _ _ BIG_ENDIAN H) by discriminate. cbn [bind oid_loop].
    replace (128 <=? v mod 128) with false by lia. rewrite low7 by (unfold is_byte; lia). cbn in P. do 2 f_equal. lia.
  - change ((c :: l) ++ [v mod 128]) with (c :: (l ++ [v mod 128])) in H. apply occurs_cons in H. destruct H as [H1 H2].
    inversion M as [|? ? C M']; subst. rewrite zlen_cons in G. pose proof (zlen_nonneg l).
    rewrite (rbyte _ _ BIG_ENDIAN H1) by discriminate. cbn [bind].
    rewrite (oid_loop_chain _ _ _ _ _ _ _ H2 M') by (try lia; unfold zlen in G; lia).
    rewrite low7 by (unfold is_byte; lia). change (be7 (0 * 128 + c mod 128) l = v / 128) in P. replace (0 * 128 + c mod 128) with (c mod 128) in P by lia. rewrite P. do 2 f_equal; lia.
Qed.
End Numbers.

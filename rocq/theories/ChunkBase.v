(** Reading a file piece by piece: tools for the proofs about whole-file parsers. *)
From Verif Require Export Base BaseProofs StreamModel StreamSpec StreamProofs StreamProofs2.
Ltac Zify.zify_post_hook ::= Z.div_mod_to_equations.

(** Reading beyond the end fails. *)
Definition ends (read : Z -> Z -> res (Z * list Z * bool)) (data : list Z) : Prop :=
  forall a n, 0 <= a -> 1 <= n -> 8 * zlen data < a + n -> read a n = Err ReadStreamError.
Lemma string_ends data : ends (string_read data) data.
Proof. intros a n. apply string_read_err. Qed.
Lemma file_ends data : ends (file_read data) data.
Proof. intros a n. apply file_read_past. Qed.

Lemma ok_inj {A} (x y : A) : Ok x = Ok y -> x = y.
Proof. congruence. Qed.
Lemma ok_pair {A B} (x x' : A) (y y' : B) : Ok (x, y) = Ok (x', y') -> x = x' /\ y = y'.
Proof. intros H. injection H as -> ->. auto. Qed.

(** ** Pieces of the data *)
Lemma app_inv_length {A} (a : list A) : forall b c d, a ++ c = b ++ d -> List.length a = List.length b -> a = b /\ c = d.
Proof.
  induction a as [|x a IH]; intros [|y b] c d H L; try discriminate; [auto|]. cbn in H. injection H as <- H. injection L as L.
  destruct (IH b c d H L) as [-> ->]. auto.
Qed.
Lemma occ_nil data p : 0 <= p <= zlen data -> occurs_at [] data p.
Proof. intros H. split; [lia|]. change (zlen (@nil Z)) with 0. split; [lia|reflexivity]. Qed.
Lemma occ_app data p b c : occurs_at (b ++ c) data p <-> occurs_at b data p /\ occurs_at c data (p + zlen b).
Proof.
  unfold occurs_at. rewrite zlen_app. pose proof (zlen_nonneg b). pose proof (zlen_nonneg c). split.
  - intros (H1 & H2 & H3). rewrite sub_app_split in H3 by lia.
    assert (E : sub data p (zlen b) = b /\ sub data (p + zlen b) (zlen c) = c).
    { apply app_inv_length in H3; [exact H3|]. apply Nat2Z.inj. change (zlen (sub data p (zlen b)) = zlen b). apply zlen_sub_exact; lia. }
    destruct E. repeat split; auto; lia.
  - intros ((H1 & H2 & H3) & (H4 & H5 & H6)). repeat split; try lia. rewrite sub_app_split by lia. rewrite H3, H6. reflexivity.
Qed.
Lemma occ_pre pre b post : occurs_at b (pre ++ b ++ post) (zlen pre).
Proof.
  unfold occurs_at. pose proof (zlen_nonneg pre). pose proof (zlen_nonneg b). pose proof (zlen_nonneg post). rewrite !zlen_app. repeat split; try lia.
  rewrite sub_app_r by lia. rewrite Z.sub_diag, sub_app_l by lia. apply sub_all.
Qed.
Lemma occ_sub data p n : 0 <= p -> 0 <= n -> p + n <= zlen data -> occurs_at (sub data p n) data p.
Proof. intros. unfold occurs_at. rewrite zlen_sub_exact by lia. repeat split; lia. Qed.
Lemma occ_in data p b : occurs_at b data p -> 0 <= p /\ p + zlen b <= zlen data.
Proof. intros (H1 & H2 & _). lia. Qed.
(** The data itself, cut *)
Lemma occ_split data p b : occurs_at b data p -> exists pre post, data = pre ++ b ++ post /\ zlen pre = p.
Proof.
  intros (H1 & H2 & H3). pose proof (zlen_nonneg b). exists (sub data 0 p), (sub data (p + zlen b) (zlen data - (p + zlen b))). split.
  - rewrite <- H3 at 1. rewrite <- sub_app_split by lia. replace (zlen b + (zlen data - (p + zlen b))) with (zlen data - p) by lia.
    apply app_sub_skip. lia.
  - apply zlen_sub_exact; lia.
Qed.
Lemma occ_unique data p b c : occurs_at b data p -> occurs_at c data p -> zlen b = zlen c -> b = c.
Proof. intros (_ & _ & H) (_ & _ & H') E. rewrite <- H, <- H', E. reflexivity. Qed.
(** A byte of a piece *)
Lemma occ_byte data p b k c : occurs_at b data p -> nth_error b k = Some c -> occurs_at [c] data (p + Z.of_nat k).
Proof.
  intros H E. apply nth_error_split in E as (l1 & l2 & -> & <-). apply occ_app in H as [_ H].
  change (c :: l2) with ([c] ++ l2) in H. apply occ_app in H as [H _]. exact H.
Qed.
Lemma occ_byte_inv data p b k c : occurs_at b data p -> 0 <= k < zlen b -> occurs_at [c] data (p + k) -> In c b.
Proof.
  intros H Hk Hc. destruct (nth_error b (Z.to_nat k)) as [d|] eqn:E; [|apply nth_error_None in E; unfold zlen in Hk; lia].
  pose proof (occ_byte _ _ _ _ _ H E) as H'. rewrite Z2Nat.id in H' by lia.
  assert ([d] = [c]) as X by (eapply occ_unique; eauto). injection X as <-. eapply nth_error_In; eauto.
Qed.

Section Reads.
Context (read : read_fun) (data : list Z) (Hs : serves read data) (He : ends read data).
Lemma rb p n : 0 <= p -> 1 <= n -> readBytes read (8 * p) n = if p + n <=? zlen data then Ok (sub data p n) else Err ReadStreamError.
Proof using Hs He.
  intros Hp Hn. destruct (p + n <=? zlen data) eqn:E.
  - apply readBytes_serves; auto; lia.
  - unfold readBytes. rewrite He by lia. reflexivity.
Qed.
Lemma rb_occ p b : occurs_at b data p -> b <> [] -> readBytes read (8 * p) (zlen b) = Ok b.
Proof using Hs.
  intros (H1 & H2 & H3) Hb. assert (1 <= zlen b) by (destruct b; [congruence|rewrite zlen_cons; pose proof (zlen_nonneg b); lia]).
  rewrite (readBytes_serves read data) by (auto; lia). rewrite H3. reflexivity.
Qed.
Lemma rb_inv p n b : 0 <= p -> 1 <= n -> readBytes read (8 * p) n = Ok b -> occurs_at b data p /\ zlen b = n.
Proof using Hs He.
  intros Hp Hn H. rewrite rb in H by lia. destruct (p + n <=? zlen data) eqn:E; [|discriminate]. injection H as <-.
  split; [apply occ_sub; lia|apply zlen_sub_exact; lia].
Qed.
Lemma bits_any a n e : is_bytes data -> e <> MIDDLE_ENDIAN -> 0 <= a -> 1 <= n ->
  (readBits read a n e = Ok (bits_at data a n e) /\ a + n <= 8 * zlen data /\ 0 <= bits_at data a n e < 2 ^ n) \/ readBits read a n e = Err ReadStreamError.
Proof using Hs He.
  intros Hb E Ha Hn. destruct (a + n <=? 8 * zlen data) eqn:L.
  - left. assert (A : bits_available data a n e = true) by (unfold bits_available; destruct e; congruence || lia).
    split; [apply readBits_serves; auto|]. split; [lia|apply bits_at_bound; auto; lia].
  - right. unfold readBits. destruct e; try congruence; rewrite He by lia; reflexivity.
Qed.
(** Searching one byte among the next ones *)
Lemma find_byte c p limit : data <> [] -> 0 <= p -> 0 <= limit ->
  (exists t, searchBytesLength read (8 * zlen data) [c] false (8 * p) (Some (8 * p + (limit + 1) * 8)) = Ok (Some (zlen t)) /\
     zlen t <= limit /\ ~ In c t /\ occurs_at (t ++ [c]) data p) \/
  (searchBytesLength read (8 * zlen data) [c] false (8 * p) (Some (8 * p + (limit + 1) * 8)) = Ok None /\
     forall t, zlen t <= limit -> ~ occurs_at (t ++ [c]) data p).
Proof using Hs.
  intros Hd Hp Hl.
  destruct (searchBytesLength_correct read data [c] false p (Some (8 * p + (limit + 1) * 8)) Hs Hd ltac:(discriminate) Hp) as [(i & E & H1 & H2 & H3 & H4)|[E H]].
  - left. unfold search_limit in H2. change (zlen [c]) with 1 in *.
    assert (Zl : zlen (sub data p (i - p)) = i - p) by (apply zlen_sub_exact; lia).
    assert (Oc : occurs_at (sub data p (i - p)) data p) by (apply occ_sub; lia).
    exists (sub data p (i - p)). rewrite E, Zl. split; [do 2 f_equal; lia|]. split; [lia|]. split.
    + intros I. apply In_nth_error in I as (k & I). pose proof (occ_byte _ _ _ _ _ Oc I) as B.
      assert (nth_error (sub data p (i - p)) k <> None) as N by congruence. apply nth_error_Some in N. unfold zlen in Zl.
      apply (H4 (p + Z.of_nat k)); [lia|exact B].
    + apply occ_app. split; [exact Oc|]. rewrite Zl. replace (p + (i - p)) with i by lia. exact H3.
  - right. split; [exact E|]. intros t Ht O. pose proof (zlen_nonneg t).
    (* the first occurrence in t ++ [c] *)
    assert (F : exists t' rest, t ++ [c] = t' ++ c :: rest /\ ~ In c t' /\ zlen t' <= zlen t).
    { clear - H0. induction t as [|x t IH]; [exists [], []; cbn; repeat split; auto; lia|].
      destruct (Z.eq_dec x c) as [->|N]; [exists [], (t ++ [c]); cbn [app]; repeat split; auto|].
      destruct IH as (t' & rest & E & N' & L); [apply zlen_nonneg|]. exists (x :: t'), rest. cbn [app]. rewrite E. split; [reflexivity|]. split; [intros [I|I]; auto|rewrite !zlen_cons; lia]. }
    destruct F as (t' & rest & F & N & L). rewrite F in O. change (c :: rest) with ([c] ++ rest) in O. rewrite app_assoc in O. apply occ_app in O as [O _].
    pose proof (occ_in _ _ _ O) as B. rewrite zlen_app in B. change (zlen [c]) with 1 in B. pose proof (zlen_nonneg t').
    apply occ_app in O as [O O']. apply (H (p + zlen t')). unfold search_limit. change (zlen [c]) with 1. split; [lia|]. split; [change (zlen [c]) with 1; lia|]. split; [exact O'|].
    intros j Hj Hc. apply N. apply (occ_byte_inv data p t' (j - p) c O); [lia|]. replace (p + (j - p)) with j by lia. exact Hc.
Qed.
End Reads.

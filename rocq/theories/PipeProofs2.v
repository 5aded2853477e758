From Coq Require Import Permutation.
From Verif Require Import Base BaseProofs DictProofs PipeModel PipeSpec PipeProofs.
Ltac Zify.zify_post_hook ::= Z.div_mod_to_equations.

Lemma concat_blocks bn data : forall m lo,
  concat (map (blockn bn data) (seq lo m)) = firstn (m * bn) (skipn (lo * bn) data).
Proof.
  induction m as [|m IH]; intros lo; [reflexivity|].
  cbn [seq map concat]. rewrite IH. unfold blockn.
  replace (S m * bn)%nat with (bn + m * bn)%nat by lia.
  rewrite <- (firstn_skipn bn (skipn (lo * bn) data)) at 2.
  rewrite firstn_app. rewrite firstn_firstn. rewrite skipn_skipn'.
  replace (S lo * bn)%nat with (lo * bn + bn)%nat by lia.
  rewrite Nat.min_r by lia. f_equal.
  rewrite firstn_length. destruct (Nat.le_gt_cases bn (length (skipn (lo * bn) data))) as [H|H].
  - rewrite Nat.min_l by assumption. f_equal. lia.
  - rewrite skipn_length in *. rewrite !skipn_all2 by lia. rewrite !firstn_nil. reflexivity.
Qed.
Lemma blocks_fetched bn data count lo m :
  (length data <= count * bn \/ lo + m <= count)%nat ->
  concat (map (fun i => if (count <=? i)%nat then [] else blockn bn data i) (seq lo m)) =
  firstn (m * bn) (skipn (lo * bn) data).
Proof.
  intros H. rewrite <- concat_blocks. f_equal. apply map_ext_in. intros i Hi. apply in_seq in Hi.
  destruct (count <=? i)%nat eqn:E; [|reflexivity]. unfold blockn. rewrite skipn_all2; [symmetry; apply firstn_nil|].
  destruct H as [H|H]; [|lia]. assert (count * bn <= i * bn)%nat by (apply Nat.mul_le_mono_r; lia). lia.
Qed.
Lemma iter_fetch_count k c : c_count (iter k cache_fetch c) = (k + c_count c)%nat.
Proof. induction k as [|k IH]; [reflexivity|]. cbn [iter]. cbn [cache_fetch c_count]. rewrite IH. reflexivity. Qed.
Lemma use_all_count is : forall c, c_count (fst (use_all c is)) = c_count c.
Proof.
  induction is as [|i is IH]; intros c; [reflexivity|]. cbn [use_all].
  destruct (c_count c <=? i)%nat; [apply IH|]. destruct (existsb _ _); [|reflexivity]. rewrite IH. reflexivity.
Qed.

Section Pipe.
Context (nb_min : nat) (bs : Z) (data : list Z) (Hnb : (1 <= nb_min)%nat) (Hbs : 0 <= bs).
Let B := Z.shiftl 1 bs.
Let bn := Z.to_nat B.
Lemma B_pos : 0 < B.
Proof. unfold B. rewrite Z.shiftl_1_l. apply Z.pow_pos_nonneg; lia. Qed.
Lemma bn_pos : (0 < bn)%nat. Proof. pose proof B_pos. unfold bn. lia. Qed.
Lemma bn_B : Z.of_nat bn = B. Proof. pose proof B_pos. unfold bn. lia. Qed.
Lemma shiftr_B x : Z.shiftr x bs = x / B.
Proof. unfold B. rewrite Z.shiftl_1_l. apply Z.shiftr_div_pow2. assumption. Qed.

Lemma blocks_ub count : (count = 0 \/ (count - 1) * bn < length data)%nat -> Z.of_nat count <= blocks_of B (zlen data).
Proof.
  intros H. pose proof B_pos. unfold blocks_of. apply Z.div_le_lower_bound; [assumption|]. unfold zlen.
  pose proof bn_B. destruct H as [->|H]; [lia|]. nia.
Qed.
Lemma blocks_lb count : (length data <= count * bn)%nat -> blocks_of B (zlen data) <= Z.of_nat count.
Proof.
  intros H. pose proof B_pos. pose proof bn_B. unfold blocks_of.
  assert ((zlen data + B - 1) / B < Z.of_nat count + 1); [|lia].
  apply Z.div_lt_upper_bound; [assumption|]. unfold zlen. nia.
Qed.

Lemma read_slice a n m :
  0 <= a -> 0 <= n -> (n = 0 \/ (a / B * B + Z.of_nat m * B >= a + n)) ->
  py_slice (firstn (m * bn) (skipn (Z.to_nat (a / B) * bn) data)) (a mod B) (a mod B + n) = sub data a n.
Proof.
  intros Ha Hn Hm. pose proof B_pos as HB. pose proof bn_B as Hbn.
  pose proof (Z.mod_pos_bound a B HB) as Hmod. pose proof (Z.div_mod a B ltac:(lia)) as Hdm.
  assert (Hq : 0 <= a / B) by (apply Z.div_pos; lia).
  rewrite py_slice_nonneg by lia.
  replace (a mod B + n - a mod B) with n by lia.
  replace (firstn (m * bn) (skipn (Z.to_nat (a / B) * bn) data)) with (sub data (a / B * B) (Z.of_nat m * B)).
  2:{ unfold sub. rewrite <- Hbn. f_equal; [lia|]. f_equal. lia. }
  destruct (Z.eq_dec n 0) as [->|Hn0]; [rewrite !sub_0; reflexivity|].
  rewrite sub_sub by lia. f_equal; lia.
Qed.

Definition rel (p : pipe) (s : ideal) : Prop :=
  inv bn data p (i_cache s) /\ p_address p = i_pos s /\ 0 <= i_pos s.

Lemma read_refines p s n :
  rel p s -> 0 <= n ->
  rel (fst (pipe_read nb_min bs p n)) (fst (ideal_step nb_min B data s (PRead n))) /\
  snd (pipe_read nb_min bs p n) = snd (ideal_step nb_min B data s (PRead n)).
Proof.
  intros (Hinv & Hadr & Hpos) Hn. pose proof B_pos as HB. pose proof bn_B as HbnB. pose proof bn_pos as Hbn0.
  unfold pipe_read. cbn [ideal_step]. rewrite Hadr, !shiftr_B. set (a := i_pos s) in *. fold B.
  set (c := i_cache s) in *.
  rewrite (inv_count _ _ _ _ Hinv).
  set (count := (Z.to_nat ((a + n) / B + 1) - c_count c)%nat).
  destruct (fetch_inv bn bs data eq_refl Hbn0 count p c Hinv) as (p1 & k & Ef & Hinv1 & Ha1 & Hf1 & Hk & Hkc).
  rewrite Ef.
  assert (Hq : 0 <= (a + n) / B) by (apply Z.div_pos; lia).
  assert (Hkk : k = (Z.to_nat (Z.min ((a + n) / B + 1) (blocks_of B (zlen data))) - c_count c)%nat).
  { pose proof (inv_bound _ _ _ _ Hinv1) as Hb. rewrite iter_fetch_count in Hb. apply blocks_ub in Hb.
    destruct Hk as [Hk|[Hk1 Hk2]].
    - subst k. unfold count in *. lia.
    - apply blocks_lb in Hk2. unfold count in *. lia. }
  rewrite <- Hkk. set (c1 := iter k cache_fetch c) in *.
  rewrite Ha1, Hadr. fold a. set (lo := Z.to_nat (a / B)). set (hi := Z.to_nat ((a + n - 1) / B + 1)).
  assert (Hcov : (length data <= c_count c1 * bn \/ lo + (hi - lo) <= c_count c1)%nat).
  { unfold c1. rewrite iter_fetch_count. destruct Hk as [Hk|[Hk1 Hk2]]; [|left; rewrite Nat.add_comm; assumption].
    right. assert ((a + n - 1) / B <= (a + n) / B) by (apply Z.div_le_mono; lia).
    assert (a / B <= (a + n) / B) by (apply Z.div_le_mono; lia). unfold count, lo, hi in *. lia. }
  pose proof (get_all_inv bn data (seq lo (hi - lo)) p1 c1 Hinv1) as Hget.
  pose proof (blocks_fetched bn data (c_count c1) lo (hi - lo) Hcov) as Hcat.
  destruct (pipe_get_all p1 (seq lo (hi - lo))) as [p2 r2] eqn:Eg.
  destruct (use_all c1 (seq lo (hi - lo))) as [c2 ok] eqn:Eu.
  destruct Hget as (Hinv2 & Ha2 & Hs2 & Hf2 & Hc2 & Hr). destruct ok.
  - subst r2. rewrite Hcat. unfold lo. rewrite read_slice; try assumption.
    + destruct (flush_inv bn data nb_min Hnb (S (length (p_buffers p2))) p2 c2 Hinv2) as (p3 & Efl & Hinv3 & Ha3 & _).
      { pose proof (live_length _ _ _ _ Hinv2). pose proof (inv_count _ _ _ _ Hinv2). lia. }
      unfold pipe_flush. rewrite Efl. cbn [fst snd]. split; [|reflexivity].
      unfold rel. cbn [i_cache i_pos p_address]. split.
      * destruct Hinv3. constructor; assumption.
      * rewrite Ha3, Ha2, Ha1, Hadr. fold a. pose proof (zlen_nonneg (sub data a n)). lia.
    + destruct (Z.eq_dec n 0) as [->|Hn0]; [left; reflexivity|right].
      pose proof (Z.div_mod (a + n - 1) B ltac:(lia)). pose proof (Z.mod_pos_bound (a + n - 1) B HB).
      assert (a / B <= (a + n - 1) / B) by (apply Z.div_le_mono; lia). assert (0 <= a / B) by (apply Z.div_pos; lia).
      unfold hi. replace (Z.of_nat (Z.to_nat ((a + n - 1) / B + 1) - Z.to_nat (a / B))) with ((a + n - 1) / B + 1 - a / B) by lia.
      nia.
  - subst r2. cbn [fst snd]. split; [|reflexivity]. unfold rel. cbn [i_cache i_pos]. split; [assumption|].
    split; [congruence|assumption].
Qed.

Lemma step_refines p s op : rel p s -> pipe_op_ok op ->
  rel (fst (pipe_step nb_min bs p op)) (fst (ideal_step nb_min B data s op)) /\
  snd (pipe_step nb_min bs p op) = snd (ideal_step nb_min B data s op).
Proof.
  intros Hr Hok. destruct op as [a|n]; [|apply read_refines; assumption].
  cbn [pipe_step ideal_step]. unfold pipe_seek. destruct (0 <=? a) eqn:E.
  - replace (a <? 0) with false by lia. cbn [fst snd]. split; [|reflexivity].
    destruct Hr as (Hinv & Ha & Hp). unfold rel. cbn [i_cache i_pos p_address]. split; [|lia].
    destruct Hinv. constructor; assumption.
  - replace (a <? 0) with true by lia. cbn [fst snd]. auto.
Qed.

Lemma run_refines ops : forall p s, rel p s -> Forall pipe_op_ok ops ->
  rel (fst (pipe_run nb_min bs p ops)) (fst (ideal_run nb_min B data s ops)) /\
  snd (pipe_run nb_min bs p ops) = snd (ideal_run nb_min B data s ops).
Proof.
  induction ops as [|op ops IH]; intros p s Hr Hok; cbn [pipe_run ideal_run]; [auto|].
  inversion Hok as [|? ? Ho Hos]; subst. destruct (step_refines p s op Hr Ho) as [H1 H2].
  destruct (pipe_step nb_min bs p op) as [p1 r1], (ideal_step nb_min B data s op) as [s1 r1']. cbn [fst snd] in *. subst r1'.
  destruct (IH p1 s1 H1 Hos) as [H3 H4].
  destruct (pipe_run nb_min bs p1 ops) as [p2 rs], (ideal_run nb_min B data s1 ops) as [s2 rs']. cbn [fst snd] in *.
  subst. auto.
Qed.
Lemma init_rel : rel (pipe_init data) ideal_init.
Proof.
  unfold rel, pipe_init, ideal_init, cache_init. cbn [i_cache i_pos p_address]. split; [|lia].
  constructor; cbn [p_rest p_first p_address p_last p_size p_buffers c_count c_live]; auto; try lia.
  - constructor.
  - intros i. split; [intros []|lia].
  - intros i [].
  - exact I.
Qed.

Lemma ideal_like_file ops : forall s, 0 <= i_pos s -> Forall pipe_op_ok ops ->
  like_file data (i_pos s) ops (snd (ideal_run nb_min B data s ops)).
Proof.
  induction ops as [|op ops IH]; intros s Hs Hok; cbn [ideal_run]; [exact I|].
  inversion Hok as [|? ? Ho Hos]; subst.
  destruct (ideal_step nb_min B data s op) as [s1 r1] eqn:E.
  specialize (IH s1). destruct (ideal_run nb_min B data s1 ops) as [s2 rs] eqn:E2. cbn [snd] in *. cbn [like_file].
  destruct op as [a|n]; cbn [ideal_step file_step fst snd] in *.
  - left. destruct (a <? 0) eqn:Ea; injection E as <- <-; cbn [fst snd i_pos] in *; (split; [reflexivity|apply IH; [lia|assumption]]).
  - destruct (use_all _ _) as [c2 ok]. destruct ok; injection E as <- <-; cbn [i_pos] in *.
    + left. split; [reflexivity|]. apply IH; [|assumption]. pose proof (zlen_nonneg (sub data (i_pos s) n)). lia.
    + right. split; [reflexivity|]. split; [eexists; reflexivity|]. apply IH; assumption.
Qed.

Lemma pipe_like_file ops : Forall pipe_op_ok ops ->
  like_file data 0 ops (snd (pipe_run nb_min bs (pipe_init data) ops)).
Proof.
  intros Hok. destruct (run_refines ops _ _ init_rel Hok) as [_ ->].
  apply (ideal_like_file ops ideal_init); [cbn; lia|assumption].
Qed.

(** With few enough blocks nothing is ever discarded. *)
Definition full (c : cache) : Prop :=
  (forall i, (i < c_count c)%nat -> In i (c_live c)) /\ length (c_live c) = c_count c /\ Z.of_nat (c_count c) <= blocks_of B (zlen data).
Lemma NoDup_remove_len (l : list nat) i : NoDup l -> In i l -> length (remove Nat.eq_dec i l ++ [i]) = length l.
Proof.
  intros Hnd Hi. apply in_split in Hi. destruct Hi as (a & b & ->). rewrite remove_split by assumption.
  rewrite !app_length. cbn. lia.
Qed.
Lemma use_all_full is : forall c, NoDup (c_live c) -> full c -> full (fst (use_all c is)) /\ snd (use_all c is) = true.
Proof.
  induction is as [|i is IH]; intros c Hnd Hf; [auto|]. cbn [use_all].
  destruct (c_count c <=? i)%nat eqn:E; [apply IH; assumption|].
  destruct Hf as (Hf1 & Hf2 & Hf3). assert (Hi : In i (c_live c)) by (apply Hf1; lia).
  replace (existsb (Nat.eqb i) (c_live c)) with true by (symmetry; apply existsb_exists; exists i; split; [assumption|apply Nat.eqb_refl]).
  apply IH.
  - cbn [cache_use c_live]. apply in_split in Hi. destruct Hi as (x & y & Hxy). rewrite Hxy in *. rewrite remove_split by assumption.
    apply NoDup_snoc. split; [eapply NoDup_remove_1; eassumption|eapply NoDup_remove_2; eassumption].
  - split; [|split]; cbn [cache_use c_live c_count].
    + intros j Hj. apply in_or_app. destruct (Nat.eq_dec i j) as [->|Hne]; [right; left; reflexivity|].
      left. apply in_in_remove; [congruence|auto].
    + rewrite NoDup_remove_len by assumption. assumption.
    + assumption.
Qed.
Lemma drop_full c : blocks_of B (zlen data) <= Z.of_nat nb_min -> full c -> cache_drop nb_min c = c.
Proof.
  intros Hb (Hf1 & Hf2 & Hf3). unfold cache_drop. destruct c as [n l]; cbn [c_count c_live] in *. f_equal.
  destruct l as [|x l]; [reflexivity|]. cbn [drop_lru]. replace (nb_min <? length (x :: l))%nat with false by lia. reflexivity.
Qed.
Lemma fetch_full c k : full c -> Z.of_nat (k + c_count c) <= blocks_of B (zlen data) -> full (iter k cache_fetch c).
Proof.
  intros Hf. induction k as [|k IH]; intros Hk; [exact Hf|]. cbn [iter].
  destruct IH as (H1 & H2 & H3); [lia|]. split; [|split]; cbn [cache_fetch c_live c_count].
  - intros i Hi. apply in_or_app. destruct (Nat.eq_dec i (c_count (iter k cache_fetch c))) as [->|Hne]; [right; left; reflexivity|].
    left. apply H1. lia.
  - rewrite app_length, H2. cbn. lia.
  - rewrite iter_fetch_count. lia.
Qed.
Lemma ideal_full ops : blocks_of B (zlen data) <= Z.of_nat nb_min -> forall p s, rel p s -> full (i_cache s) ->
  Forall pipe_op_ok ops -> snd (ideal_run nb_min B data s ops) = file_run data (i_pos s) ops.
Proof.
  intros Hb. induction ops as [|op ops IH]; intros p s Hrel Hf Hok; cbn [ideal_run file_run]; [reflexivity|].
  inversion Hok as [|? ? Ho Hos]; subst.
  destruct (step_refines p s op Hrel Ho) as [Hrel1 _].
  set (p1 := fst (pipe_step nb_min bs p op)) in *. clearbody p1. specialize (IH p1).
  destruct op as [a|n]; cbn [ideal_step file_step fst snd] in *.
  - destruct (a <? 0); cbn [fst snd] in *.
    + specialize (IH s Hrel1 Hf Hos). destruct (ideal_run nb_min B data s ops). cbn [snd] in *. congruence.
    + match goal with |- context [ideal_run _ _ _ ?s' ops] => specialize (IH s' Hrel1 Hf Hos); destruct (ideal_run nb_min B data s' ops) end.
      cbn [snd i_pos] in *. congruence.
  - match goal with |- context [use_all ?c ?is] => pose proof (use_all_full is c) as Hu; destruct (use_all c is) as [c2 ok] eqn:Eu end.
    cbn [fst snd] in Hu. destruct Hu as [Hf2 ->].
    + (* NoDup of the fetched cache *)
      destruct Hrel as (Hinv & _). clear - Hinv.
      assert (Hl : forall k, (forall i, In i (c_live (iter k cache_fetch (i_cache s))) -> (i < c_count (iter k cache_fetch (i_cache s)))%nat)
                             /\ NoDup (c_live (iter k cache_fetch (i_cache s)))).
      { induction k as [|k [IH1 IH2]]; cbn [iter].
        - split; [|apply (inv_nodup _ _ _ _ Hinv)]. intros i Hi. apply (inv_live _ _ _ _ Hinv) in Hi. lia.
        - cbn [cache_fetch c_live c_count]. split.
          + intros i Hi. apply in_app_or in Hi. destruct Hi as [Hi|[Hi|[]]]; [apply IH1 in Hi; lia|lia].
          + apply NoDup_snoc. split; [assumption|]. intros Hi. apply IH1 in Hi. lia. }
      apply Hl.
    + apply fetch_full; [assumption|]. destruct Hf as (_ & _ & Hf3). lia.
    + cbn [fst snd] in *. rewrite drop_full in * by assumption.
      match goal with |- context [ideal_run _ _ _ ?s' ops] => specialize (IH s' Hrel1 Hf2 Hos); destruct (ideal_run nb_min B data s' ops) end.
      cbn [snd i_pos] in *. congruence.
Qed.
Lemma pipe_small_file ops : blocks_of B (zlen data) <= Z.of_nat nb_min -> Forall pipe_op_ok ops ->
  snd (pipe_run nb_min bs (pipe_init data) ops) = file_run data 0 ops.
Proof.
  intros Hb Hok. destruct (run_refines ops _ _ init_rel Hok) as [_ ->].
  apply (ideal_full ops Hb (pipe_init data) ideal_init init_rel); [|assumption].
  split; [|split]; cbn; [lia|reflexivity|]. unfold blocks_of. apply Z.div_pos; [|apply B_pos].
  pose proof (zlen_nonneg data). pose proof B_pos. lia.
Qed.

(** Pointwise view of the ring. *)
Lemma links_nth nx pv l k x y : links nx pv l -> nth_error l k = Some x -> nth_error l (S k) = Some y -> nx x = y /\ pv y = x.
Proof.
  revert k; induction l as [|z l IH]; intros k Hl Hx Hy; [destruct k; discriminate|].
  destruct l as [|w l]; [destruct k; cbn in Hy; destruct k || idtac; discriminate|].
  destruct Hl as (H1 & H2 & H3). destruct k as [|k]; [cbn in *; split; congruence|].
  apply (IH k); assumption.
Qed.
Lemma ring_circular bufs live : NoDup live -> (forall i, In i live -> alive bufs i) ->
  ring (nxt bufs) (pvt bufs) live -> circular bufs live.
Proof.
  intros Hnd Hal Hr k i Hk. assert (Hkl : (k < length live)%nat) by (apply nth_error_Some; congruence).
  assert (Hi : In i live) by (eapply nth_error_In; eassumption).
  destruct (alive_get _ _ (Hal i Hi)) as (b & _ & Hb & Hn & Hp & _). exists b. split; [assumption|].
  destruct live as [|h t]; [cbn in Hkl; lia|]. set (L := h :: t) in *. change (links (nxt bufs) (pvt bufs) (L ++ [h])) in Hr.
  assert (Hext : forall j, (j <= length L)%nat -> nth_error (L ++ [h]) j = nth_error L (j mod length L)).
  { intros j Hj. destruct (Nat.eq_dec j (length L)) as [->|Hne].
    - rewrite Nat.mod_same by (cbn; lia). rewrite nth_error_app2 by apply le_n. rewrite Nat.sub_diag. reflexivity.
    - rewrite Nat.mod_small by lia. rewrite nth_error_app1 by lia. reflexivity. }
  assert (Hsome : forall j, (j <= length L)%nat -> exists y, nth_error (L ++ [h]) j = Some y).
  { intros j Hj. destruct (nth_error (L ++ [h]) j) eqn:E; [eexists; reflexivity|]. apply nth_error_None in E. rewrite app_length in E. cbn [length] in E. unfold L in *. cbn [length] in *. lia. }
  assert (Hk' : nth_error (L ++ [h]) k = Some i) by (rewrite nth_error_app1 by lia; assumption).
  split.
  - destruct (Hsome (S k) ltac:(lia)) as (y & Hy). destruct (links_nth _ _ _ _ _ _ Hr Hk' Hy) as [H _].
    replace (k + 1)%nat with (S k) by lia. rewrite <- Hext by lia. rewrite Hy. congruence.
  - destruct k as [|k].
    + cbn in Hk. injection Hk as <-. assert (Hlast : nth_error (L ++ [h]) (length L) = Some h) by (rewrite nth_error_app2 by apply le_n; rewrite Nat.sub_diag; reflexivity).
      destruct (Hsome (length L - 1)%nat ltac:(lia)) as (y & Hy).
      destruct (links_nth _ _ _ (length L - 1) y h Hr Hy) as [_ H]; [replace (S (length L - 1)) with (length L) by (cbn; lia); assumption|].
      cbn [plus]. rewrite <- Hext by lia. rewrite Hy. congruence.
    + destruct (Hsome k ltac:(lia)) as (y & Hy). destruct (links_nth _ _ _ _ _ _ Hr Hy Hk') as [_ H].
      replace (S k + length L - 1)%nat with (k + 1 * length L)%nat by lia. rewrite Nat.mod_add by (cbn; lia).
      rewrite Nat.mod_small by lia. rewrite nth_error_app1 in Hy by lia. rewrite Hy. congruence.
Qed.

Lemma pipe_lru ops : Forall pipe_op_ok ops ->
  let p := fst (pipe_run nb_min bs (pipe_init data) ops) in
  let c := i_cache (fst (ideal_run nb_min B data ideal_init ops)) in
  length (p_buffers p) = c_count c /\
  (forall i, nth_error (p_buffers p) i = Some None <-> (i < p_first p)%nat) /\
  Permutation (c_live c) (seq (p_first p) (c_count c - p_first p)) /\
  p_last p = (match rev (c_live c) with [] => None | x :: _ => Some x end) /\
  circular (p_buffers p) (c_live c) /\
  (forall i b, nth_error (p_buffers p) i = Some (Some b) -> b_data b = sub data (Z.of_nat i * B) B).
Proof.
  intros Hok p c. destruct (run_refines ops _ _ init_rel Hok) as [(Hinv & _) _]. fold p c in Hinv.
  pose proof Hinv as [Hcount Hnd Hlive Hdead Hfirst Hdata Hlast Hring Hrest Hbound Hsome].
  assert (Hal : forall i, In i (c_live c) -> alive (p_buffers p) i) by (intros; eapply inv_alive; eassumption).
  assert (Hcase : forall i, (i < length (p_buffers p))%nat -> (i < p_first p)%nat \/ In i (c_live c)).
  { intros i Hi. destruct (Nat.lt_ge_cases i (p_first p)); [left; assumption|right; apply Hlive; lia]. }
  split; [assumption|]. split; [|split; [|split; [|split]]].
  - intros i. split.
    + intros Hi. assert (i < length (p_buffers p))%nat by (apply nth_error_Some; congruence).
      destruct (Hcase i H) as [Hc|Hc]; [assumption|]. destruct (Hal i Hc) as [d Hd]. unfold dat in Hd. rewrite Hi in Hd. discriminate.
    + intros Hi. specialize (Hdead i Hi). unfold dat in Hdead. destruct (nth_error (p_buffers p) i) as [[?|]|]; try discriminate. reflexivity.
  - apply NoDup_Permutation; [assumption|apply seq_NoDup|]. intros x. rewrite Hlive, in_seq. lia.
  - rewrite Hlast. destruct (c_live c) as [|h t] eqn:E; [reflexivity|].
    assert (Hne : h :: t <> []) by discriminate. destruct (exists_last Hne) as (d & l & Hd). rewrite Hd, rev_app_distr, last_snoc_nat. reflexivity.
  - apply ring_circular; assumption.
  - intros i b Hb. assert (i < length (p_buffers p))%nat by (apply nth_error_Some; congruence).
    destruct (Hcase i H) as [Hc|Hc].
    + specialize (Hdead i Hc). unfold dat in Hdead. rewrite Hb in Hdead. discriminate.
    + specialize (Hdata i Hc). unfold dat in Hdata. rewrite Hb in Hdata. cbn in Hdata. injection Hdata as ->.
      unfold blockn, sub. fold bn. f_equal. f_equal. pose proof bn_B as Hbn. nia.
Qed.

(** ** The announced size *)
Definition size_inv (p : pipe) : Prop := p_size p = None -> (length (p_buffers p) * bn <= length data)%nat.
Lemma append_size p d p' : pipe_append p d = Ok p' ->
  p_size p' = p_size p /\ length (p_buffers p') = S (length (p_buffers p)).
Proof.
  unfold pipe_append. destruct (p_last p) as [l|].
  - unfold set_prev, set_next. destruct (get_buf (p_buffers p) l) as [b|] eqn:E0; cbn [bind]; [|discriminate].
    destruct (get_buf (p_buffers p) (b_next b)) as [b1|] eqn:E1; cbn [bind]; [|discriminate].
    assert (Hlt : (b_next b < length (p_buffers p))%nat).
    { unfold get_buf in E1. apply nth_error_Some. destruct (nth_error _ _); discriminate. }
    match goal with |- context [get_buf ?x ?y] => destruct (get_buf x y) as [b2|] eqn:E2; cbn [bind]; [|discriminate] end.
    intros H. injection H as <-. cbn [p_size p_buffers]. split; [reflexivity|].
    assert (Hll : (l < length (p_buffers p))%nat).
    { unfold get_buf in E0. apply nth_error_Some. destruct (nth_error (p_buffers p) l); discriminate. }
    rewrite app_length, !put_buf_length; rewrite ?put_buf_length; cbn; lia.
  - intros H. injection H as <-. cbn [p_size p_buffers]. rewrite app_length. cbn. split; [reflexivity|lia].
Qed.
Lemma fetch_size count : forall p c p', inv bn data p c -> size_inv p -> pipe_fetch bs count p = Ok p' ->
  size_inv p' /\
  (p_size p = None -> forall z, p_size p' = Some z -> z = zlen data) /\
  ((exists m, length data = m * bn)%nat -> forall z, p_size p' = Some z -> p_size p = Some z \/ z = zlen data) /\
  ((length data < (c_count c + count) * bn)%nat -> p_size p' <> None).
Proof.
  pose proof B_pos as HB. pose proof bn_B as HbnB. pose proof bn_pos as Hbn0.
  assert (HBs : Z.shiftl 1 bs = Z.of_nat bn) by (rewrite HbnB; reflexivity).
  assert (Hsh : forall n, Z.shiftl n bs = n * Z.of_nat bn).
  { intros n. rewrite HbnB. unfold B. rewrite Z.shiftl_1_l. apply Z.shiftl_mul_pow2. assumption. }
  induction count as [|count IH]; intros p c p' Hinv Hsz Ef.
  - cbn [pipe_fetch] in Ef. injection Ef as <-. split; [assumption|]. split; [congruence|]. split; [auto|].
    intros Hl Hn. specialize (Hsz Hn). rewrite (inv_count _ _ _ _ Hinv) in Hsz. lia.
  - cbn [pipe_fetch] in Ef. fold bn in Ef. fold B in Ef. fold bn in Ef. cbn [p_rest p_first p_address p_last p_size p_buffers] in Ef.
    pose proof (inv_rest _ _ _ _ Hinv) as Hr. pose proof (inv_count _ _ _ _ Hinv) as Hc.
    destruct (zlen (firstn bn (p_rest p)) <? B) eqn:E.
    + assert (Hshort : (length (p_rest p) < bn)%nat) by (apply firstn_short; unfold zlen in E; lia).
      assert (Hfn : firstn bn (p_rest p) = p_rest p) by (apply firstn_all2; lia).
      assert (Hlr : length (p_rest p) = (length data - c_count c * bn)%nat) by (rewrite Hr, skipn_length; reflexivity).
      rewrite Hfn in *.
      assert (Hpz : p_size p' = Some (Z.shiftl (zlen (p_buffers p)) bs + zlen (p_rest p))).
      { destruct (p_rest p); [injection Ef as <-; reflexivity|]. apply append_size in Ef. destruct Ef as [-> _]. reflexivity. }
      rewrite Hsh in Hpz. unfold zlen in Hpz at 1. rewrite Hc in Hpz.
      assert (Hgood : (c_count c * bn <= length data)%nat -> Z.of_nat (c_count c) * Z.of_nat bn + zlen (p_rest p) = zlen data).
      { intros H. unfold zlen. rewrite Hlr. nia. }
      split; [unfold size_inv; congruence|]. split; [|split; [|congruence]].
      * intros Hn z Hz. rewrite Hpz in Hz. injection Hz as <-. apply Hgood. rewrite <- Hc. apply Hsz. assumption.
      * intros (m & Hm) z Hz. right. rewrite Hpz in Hz. injection Hz as <-. apply Hgood. rewrite Hm.
        destruct (inv_bound _ _ _ _ Hinv) as [H0|Hb]; [rewrite H0; lia|]. rewrite Hm in Hb.
        assert (c_count c - 1 < m)%nat by nia. apply Nat.mul_le_mono_r. lia.
    + destruct (append_inv bn data p c (p_size p) Hbn0 Hinv) as (p1 & Ea & Hi & _ & Hs1 & _).
      { intros H. rewrite H in E. unfold zlen in E. cbn in E. lia. }
      unfold with_size, with_rest in Ea. cbn [p_rest p_first p_address p_last p_size p_buffers] in Ea. rewrite Ea in Ef. cbn [bind] in Ef.
      assert (Hsz1 : size_inv p1).
      { intros _. rewrite (inv_count _ _ _ _ Hi). cbn [cache_fetch c_count].
        assert (bn <= length (p_rest p))%nat by (unfold zlen in E; rewrite firstn_length in E; lia).
        rewrite Hr, skipn_length in H. nia. }
      specialize (IH p1 _ p' Hi Hsz1 Ef). rewrite Hs1 in IH. cbn [cache_fetch c_count] in IH.
      destruct IH as (H1 & H2 & H3 & H4). split; [assumption|]. split; [assumption|]. split; [assumption|].
      intros Hl. apply H4. replace (S (c_count c) + count)%nat with (c_count c + S count)%nat by lia. assumption.
Qed.
Lemma read_size p s n : rel p s -> size_inv p -> 0 <= n ->
  let p' := fst (pipe_read nb_min bs p n) in
  size_inv p' /\
  (p_size p = None -> forall z, p_size p' = Some z -> z = zlen data) /\
  (zlen data mod B = 0 -> forall z, p_size p' = Some z -> p_size p = Some z \/ z = zlen data) /\
  (zlen data < ((i_pos s + n) / B + 1) * B -> p_size p' <> None).
Proof.
  intros (Hinv & Hadr & Hpos) Hsz Hn p'. pose proof B_pos as HB. pose proof bn_B as HbnB. pose proof bn_pos as Hbn0.
  unfold p', pipe_read. rewrite Hadr, !shiftr_B. set (a := i_pos s) in *. fold B.
  set (c := i_cache s) in *. rewrite (inv_count _ _ _ _ Hinv).
  set (count := (Z.to_nat ((a + n) / B + 1) - c_count c)%nat).
  destruct (fetch_inv bn bs data eq_refl Hbn0 count p c Hinv) as (p1 & k & Ef & Hinv1 & Ha1 & Hf1 & Hk & Hkc).
  rewrite Ef. destruct (fetch_size count p c p1 Hinv Hsz Ef) as (F1 & F2 & F3 & F4).
  match goal with |- context [pipe_get_all p1 ?is] => pose proof (get_all_inv bn data is p1 _ Hinv1) as Hget; destruct (pipe_get_all p1 is) as [p2 r2] end.
  destruct (use_all _ _) as [c2 ok]. destruct Hget as (Hinv2 & Ha2 & Hs2 & Hf2 & Hc2 & Hr).
  assert (Hall : forall q, p_size q = p_size p1 -> length (p_buffers q) = length (p_buffers p1) ->
    size_inv q /\ (p_size p = None -> forall z, p_size q = Some z -> z = zlen data) /\
    (zlen data mod B = 0 -> forall z, p_size q = Some z -> p_size p = Some z \/ z = zlen data) /\
    (zlen data < ((a + n) / B + 1) * B -> p_size q <> None)).
  { intros q Hq1 Hq2. unfold size_inv. rewrite Hq1, Hq2. split; [assumption|]. split; [assumption|]. split.
    - intros Hm. apply F3. exists (Z.to_nat (zlen data / B)). pose proof (Z.div_mod (zlen data) B ltac:(lia)) as Hd.
      assert (0 <= zlen data / B) by (apply Z.div_pos; [apply zlen_nonneg|assumption]).
      unfold zlen in *. nia.
    - intros Hl. apply F4. unfold count, zlen in *.
      assert (0 <= (a + n) / B) by (apply Z.div_pos; lia).
      assert (Hle : (Z.to_nat ((a + n) / B + 1) <= c_count c + (Z.to_nat ((a + n) / B + 1) - c_count c))%nat) by lia.
      apply Nat.lt_le_trans with (m := (Z.to_nat ((a + n) / B + 1) * bn)%nat); [nia|]. apply Nat.mul_le_mono_r. assumption. }
  assert (Hlen2 : length (p_buffers p2) = length (p_buffers p1)).
  { rewrite (inv_count _ _ _ _ Hinv2), (inv_count _ _ _ _ Hinv1). assumption. }
  destruct r2 as [j|e]; [|apply Hall; assumption].
  destruct (flush_inv bn data nb_min Hnb (S (length (p_buffers p2))) p2 c2 Hinv2) as (p3 & Efl & Hinv3 & Ha3 & Hs3).
  { pose proof (live_length _ _ _ _ Hinv2). pose proof (inv_count _ _ _ _ Hinv2). lia. }
  unfold pipe_flush. rewrite Efl. cbn [fst]. apply Hall; cbn [p_size p_buffers]; [congruence|].
  rewrite (inv_count _ _ _ _ Hinv3), (inv_count _ _ _ _ Hinv1). cbn [cache_drop c_count]. congruence.
Qed.
Lemma run_state ops : Forall pipe_op_ok ops ->
  rel (fst (pipe_run nb_min bs (pipe_init data) ops)) (fst (ideal_run nb_min B data ideal_init ops)) /\
  size_inv (fst (pipe_run nb_min bs (pipe_init data) ops)) /\
  (zlen data mod B = 0 -> forall z, p_size (fst (pipe_run nb_min bs (pipe_init data) ops)) = Some z -> z = zlen data).
Proof.
  intros Hok. split; [apply run_refines; [apply init_rel|assumption]|].
  assert (Hgen : forall ops p s, rel p s -> size_inv p -> Forall pipe_op_ok ops ->
    (zlen data mod B = 0 -> forall z, p_size p = Some z -> z = zlen data) ->
    size_inv (fst (pipe_run nb_min bs p ops)) /\
    (zlen data mod B = 0 -> forall z, p_size (fst (pipe_run nb_min bs p ops)) = Some z -> z = zlen data)).
  { clear ops Hok. induction ops as [|op ops IH]; intros p s Hr Hs Hok Hz; cbn [pipe_run]; [auto|].
    inversion Hok as [|? ? Ho Hos]; subst. destruct (step_refines p s op Hr Ho) as [H1 _].
    assert (H2 : size_inv (fst (pipe_step nb_min bs p op)) /\
                 (zlen data mod B = 0 -> forall z, p_size (fst (pipe_step nb_min bs p op)) = Some z -> z = zlen data)).
    { destruct op as [a|n]; cbn [pipe_step].
      - unfold pipe_seek. destruct (0 <=? a); cbn [fst]; auto.
      - destruct (read_size p s n Hr Hs Ho) as (G1 & G2 & G3 & G4). split; [assumption|]. intros Hm z Hq.
        destruct (G3 Hm z Hq); auto. }
    destruct (pipe_step nb_min bs p op) as [p1 r1]. cbn [fst] in *. specialize (IH p1 _ H1 (proj1 H2) Hos (proj2 H2)).
    destruct (pipe_run nb_min bs p1 ops). cbn [fst] in *. assumption. }
  apply (Hgen ops (pipe_init data) ideal_init); [apply init_rel| |assumption|].
  - intros _. cbn. lia.
  - intros _ z Hz. discriminate.
Qed.
Lemma pipe_run_app ops1 ops2 p : fst (pipe_run nb_min bs p (ops1 ++ ops2)) = fst (pipe_run nb_min bs (fst (pipe_run nb_min bs p ops1)) ops2).
Proof.
  revert p; induction ops1 as [|op ops IH]; intros p; [reflexivity|]. cbn [app pipe_run].
  destruct (pipe_step nb_min bs p op) as [p1 r1]. specialize (IH p1).
  destruct (pipe_run nb_min bs p1 (ops ++ ops2)), (pipe_run nb_min bs p1 ops). cbn [fst] in *. assumption.
Qed.
(** The first time a size is announced it is the length of the source. *)
Lemma pipe_first_size ops op z : Forall pipe_op_ok (ops ++ [op]) ->
  p_size (fst (pipe_run nb_min bs (pipe_init data) ops)) = None ->
  p_size (fst (pipe_run nb_min bs (pipe_init data) (ops ++ [op]))) = Some z -> z = zlen data.
Proof.
  intros Hok Hn Hz. apply Forall_app in Hok. destruct Hok as [Hok1 Hok2]. inversion Hok2 as [|? ? Ho _]; subst.
  destruct (run_state ops Hok1) as (Hr & Hs & _). rewrite pipe_run_app in Hz.
  set (p := fst (pipe_run nb_min bs (pipe_init data) ops)) in *. cbn [pipe_run] in Hz.
  destruct op as [a|n]; cbn [pipe_step] in Hz.
  - unfold pipe_seek in Hz. destruct (0 <=? a); cbn [fst p_size] in Hz; congruence.
  - destruct (read_size p _ n Hr Hs Ho) as (_ & G2 & _). destruct (pipe_read nb_min bs p n) as [p1 r1]. cbn [fst] in *. auto.
Qed.
Lemma pipe_exact_size ops z : Forall pipe_op_ok ops -> zlen data mod B = 0 ->
  p_size (fst (pipe_run nb_min bs (pipe_init data) ops)) = Some z -> z = zlen data.
Proof. intros Hok. destruct (run_state ops Hok) as (_ & _ & H). auto. Qed.
(** A read that reaches the end announces a size. *)
Lemma pipe_end_seen ops n : Forall pipe_op_ok ops -> 0 <= n ->
  zlen data < i_pos (fst (ideal_run nb_min B data ideal_init ops)) + n ->
  p_size (fst (pipe_run nb_min bs (pipe_init data) (ops ++ [PRead n]))) <> None.
Proof.
  intros Hok Hn Hl. destruct (run_state ops Hok) as (Hr & Hs & _). rewrite pipe_run_app.
  set (p := fst (pipe_run nb_min bs (pipe_init data) ops)) in *. cbn [pipe_run pipe_step].
  destruct (read_size p _ n Hr Hs Hn) as (_ & _ & _ & G4). destruct (pipe_read nb_min bs p n) as [p1 r1]. cbn [fst] in *.
  apply G4. pose proof B_pos. set (x := i_pos (fst (ideal_run nb_min B data ideal_init ops)) + n) in *.
  pose proof (Z.div_mod x B ltac:(lia)). pose proof (Z.mod_pos_bound x B H). nia.
Qed.
End Pipe.

Lemma shiftl_pow bs : 0 <= bs -> Z.shiftl 1 bs = 2 ^ bs.
Proof. intros H. rewrite Z.shiftl_mul_pow2 by assumption. apply Z.mul_1_l. Qed.
Section PipeMain.
Context (nb_min : nat) (bs : Z) (data : list Z).
Lemma pipe_like_file' ops : (1 <= nb_min)%nat -> 0 <= bs -> Forall pipe_op_ok ops ->
  like_file data 0 ops (snd (pipe_run nb_min bs (pipe_init data) ops)).
Proof. intros. apply pipe_like_file; assumption. Qed.
Lemma pipe_small_file' ops : (1 <= nb_min)%nat -> 0 <= bs ->
  blocks_of (2 ^ bs) (zlen data) <= Z.of_nat nb_min -> Forall pipe_op_ok ops ->
  snd (pipe_run nb_min bs (pipe_init data) ops) = file_run data 0 ops.
Proof. intros H1 H2. rewrite <- shiftl_pow by assumption. intros. apply pipe_small_file; assumption. Qed.
Lemma pipe_first_size' ops op z : (1 <= nb_min)%nat -> 0 <= bs -> Forall pipe_op_ok (ops ++ [op]) ->
  p_size (fst (pipe_run nb_min bs (pipe_init data) ops)) = None ->
  p_size (fst (pipe_run nb_min bs (pipe_init data) (ops ++ [op]))) = Some z -> z = zlen data.
Proof. intros. eapply pipe_first_size; eassumption. Qed.
Lemma pipe_exact_size' ops z : (1 <= nb_min)%nat -> 0 <= bs -> Forall pipe_op_ok ops -> zlen data mod 2 ^ bs = 0 ->
  p_size (fst (pipe_run nb_min bs (pipe_init data) ops)) = Some z -> z = zlen data.
Proof. intros H1 H2 H3. rewrite <- shiftl_pow by assumption. intros. eapply pipe_exact_size; eassumption. Qed.
Lemma pipe_lru' ops : (1 <= nb_min)%nat -> 0 <= bs -> Forall pipe_op_ok ops ->
  let p := fst (pipe_run nb_min bs (pipe_init data) ops) in
  let c := i_cache (fst (ideal_run nb_min (2 ^ bs) data ideal_init ops)) in
  length (p_buffers p) = c_count c /\
  (forall i, nth_error (p_buffers p) i = Some None <-> (i < p_first p)%nat) /\
  Permutation (c_live c) (seq (p_first p) (c_count c - p_first p)) /\
  p_last p = (match rev (c_live c) with [] => None | x :: _ => Some x end) /\
  circular (p_buffers p) (c_live c) /\
  (forall i b, nth_error (p_buffers p) i = Some (Some b) -> b_data b = sub data (Z.of_nat i * 2 ^ bs) (2 ^ bs)).
Proof. intros H1 H2 H3. rewrite <- !shiftl_pow by assumption. apply pipe_lru; assumption. Qed.
End PipeMain.

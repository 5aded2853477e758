From Verif Require Import Base BaseProofs BitsSpec HuffModel HuffSpec.
Ltac Zify.zify_post_hook ::= Z.div_mod_to_equations.

(** ** Lists *)
Lemma upd_length {A} (l : list A) : forall i v, length (upd l i v) = length l.
Proof. induction l; intros [|i] v; cbn [upd length]; auto. Qed.
Lemma upd_nth (l : list Z) : forall i j v d, (i < length l)%nat -> nth j (upd l i v) d = if Nat.eqb j i then v else nth j l d.
Proof.
  induction l as [|x l IH]; intros i j v d Hi; cbn [length] in Hi; [lia|].
  destruct i as [|i], j as [|j]; cbn [upd nth Nat.eqb]; try reflexivity. apply IH. lia.
Qed.
Lemma get_upd l i j v : 0 <= i < zlen l -> 0 <= j -> get (upd l (Z.to_nat i) v) j = if j =? i then v else get l j.
Proof.
  unfold get, zlen. intros Hi Hj. rewrite upd_nth by lia. destruct (Nat.eqb_spec (Z.to_nat j) (Z.to_nat i)); destruct (Z.eqb_spec j i); try reflexivity; lia.
Qed.
Lemma zlen_upd (l : list Z) i v : zlen (upd l i v) = zlen l.
Proof. unfold zlen. rewrite upd_length. reflexivity. Qed.

Lemma app_inv_len {A} (a b c d : list A) : length a = length c -> a ++ b = c ++ d -> a = c /\ b = d.
Proof.
  revert c. induction a as [|x a IH]; intros [|y c] H E; cbn in *; try discriminate; [auto|].
  injection E as -> E. destruct (IH c ltac:(lia) E) as [-> ->]. auto.
Qed.
(** ** Counting *)
Fixpoint count (n : Z) (l : list Z) : Z := match l with [] => 0 | x :: l => (if x =? n then 1 else 0) + count n l end.
Lemma count_nonneg n l : 0 <= count n l.
Proof. induction l as [|x l IH]; cbn [count]; [lia|]. destruct (x =? n); lia. Qed.
Lemma max_length_le l : Forall (fun x => x <= max_length l) l.
Proof.
  induction l as [|x l IH]; [constructor|]. cbn [max_length fold_right]. constructor; [lia|].
  eapply Forall_impl; [|exact IH]. unfold max_length. cbn. intros a H. lia.
Qed.
Lemma max_length_nonneg l : 0 <= max_length l.
Proof. induction l as [|x l IH]; cbn; [lia|]. unfold max_length in IH. lia. Qed.
Lemma max_length_lub l top : 0 <= top -> Forall (fun x => x <= top) l -> max_length l <= top.
Proof. intros H0. induction 1 as [|x l Hx H IH]; cbn; [lia|]. unfold max_length in IH. lia. Qed.
Lemma bit_counts_loop : forall l bc n, Forall (fun x => 0 <= x < zlen bc) l -> 0 <= n ->
  let bc' := fold_left (fun bc i => if i =? 0 then bc else upd bc (Z.to_nat i) (get bc i + 1)) l bc in
  zlen bc' = zlen bc /\ get bc' n = get bc n + (if n =? 0 then 0 else count n l).
Proof.
  induction l as [|x l IH]; intros bc n Hl Hn; cbn [fold_left count].
  - cbv zeta. split; [reflexivity|]. destruct (n =? 0); lia.
  - inversion Hl as [|? ? Hx Hl']; subst. destruct (x =? 0) eqn:Ex.
    + destruct (IH bc n Hl' Hn) as [E1 E2]. split; [exact E1|]. cbv zeta in E2. rewrite E2. destruct (n =? 0) eqn:En; [lia|].
      replace (x =? n) with false by lia. lia.
    + assert (Hl2 : Forall (fun y => 0 <= y < zlen (upd bc (Z.to_nat x) (get bc x + 1))) l) by (rewrite zlen_upd; exact Hl').
      destruct (IH _ n Hl2 Hn) as [E1 E2]. rewrite zlen_upd in E1. split; [exact E1|]. cbv zeta in E2. rewrite E2.
      rewrite get_upd by lia. destruct (n =? x) eqn:En.
      * replace n with x by lia. rewrite Z.eqb_refl. replace (x =? 0) with false by lia. lia.
      * destruct (n =? 0); [lia|]. replace (x =? n) with false by lia. lia.
Qed.
Lemma get_repeat k n : get (repeat 0 k) n = 0.
Proof. unfold get. apply nth_repeat. Qed.
Lemma bit_counts_spec lengths n : Forall (fun x => 0 <= x) lengths -> 0 <= n ->
  zlen (bit_counts lengths) = max_length lengths + 1 /\ get (bit_counts lengths) n = if n =? 0 then 0 else count n lengths.
Proof.
  intros Hl Hn. pose proof (max_length_nonneg lengths) as Hm.
  assert (El : zlen (repeat 0 (Z.to_nat (max_length lengths + 1))) = max_length lengths + 1) by (unfold zlen; rewrite repeat_length; lia).
  destruct (bit_counts_loop lengths (repeat 0 (Z.to_nat (max_length lengths + 1))) n) as [E1 E2].
  - rewrite El. pose proof (max_length_le lengths) as H. rewrite Forall_forall in *. intros x Hx. specialize (H x Hx). specialize (Hl x Hx). lia.
  - assumption.
  - unfold bit_counts. cbv zeta in *. rewrite E1, E2, El, get_repeat. split; [reflexivity|]. destruct (n =? 0); lia.
Qed.
(** ** next_code *)
Fixpoint base (cnt : nat -> Z) (n : nat) : Z := match n with O => 0 | S n => (base cnt n + cnt n) * 2 end.
Lemma base_shift : forall n cnt, base cnt (S n) = base (fun k => cnt (S k)) n + 2 ^ Z.of_nat n * (cnt O * 2).
Proof.
  induction n as [|n IH]; intros cnt; [cbn [base]; change (2 ^ Z.of_nat 0) with 1; ring|]. change (base cnt (S (S n))) with ((base cnt (S n) + cnt (S n)) * 2).
  rewrite IH. cbn [base]. replace (Z.of_nat (S n)) with (Z.of_nat n + 1) by lia. rewrite Z.pow_add_r by lia. ring.
Qed.
Lemma next_codes_spec : forall bcs code n, (n < length bcs)%nat ->
  nth n (next_codes code bcs) 0 = base (fun k => nth k bcs 0) (S n) + 2 ^ Z.of_nat (S n) * code.
Proof.
  induction bcs as [|b bcs IH]; intros code n Hn; cbn [length] in Hn; [lia|]. cbn [next_codes]. cbv zeta. destruct n as [|n].
  - cbn [nth base]. change (2 ^ Z.of_nat 1) with 2. ring.
  - rewrite (base_shift (S n)). cbn [nth]. rewrite IH by lia.
    replace (Z.of_nat (S (S n))) with (Z.of_nat (S n) + 1) by lia. rewrite Z.pow_add_r by lia.
    set (B := base (fun k => nth k bcs 0) (S n)). ring.
Qed.
Lemma next_codes_length : forall bcs code, length (next_codes code bcs) = length bcs.
Proof. induction bcs; intros; cbn [next_codes length]; [reflexivity|]. rewrite IHbcs. reflexivity. Qed.
Lemma removelast_length {A} (l : list A) : length (removelast l) = (length l - 1)%nat.
Proof. rewrite removelast_firstn_len, firstn_length. lia. Qed.
Lemma removelast_nth (l : list Z) k d : (S k < length l)%nat -> nth k (removelast l) d = nth k l d.
Proof.
  revert k. induction l as [|x l IH]; intros k H; cbn [length] in H; [lia|]. destruct l as [|y l]; [cbn in H; lia|].
  change (removelast (x :: y :: l)) with (x :: removelast (y :: l)). destruct k; cbn [nth]; [reflexivity|]. apply IH. cbn [length] in *. lia.
Qed.
Lemma base_ext n : forall f g, (forall k, (k < n)%nat -> f k = g k) -> base f n = base g n.
Proof. induction n as [|n IH]; intros f g H; cbn [base]; [reflexivity|]. rewrite (H n) by lia. rewrite (IH f g); [reflexivity|]. intros; apply H; lia. Qed.
Definition cnt0 (lengths : list Z) (k : nat) : Z := if Nat.eqb k 0 then 0 else count (Z.of_nat k) lengths.
Lemma next_code_spec lengths n : Forall (fun x => 0 <= x) lengths -> 0 <= n <= max_length lengths ->
  get (next_code lengths) n = base (cnt0 lengths) (Z.to_nat n).
Proof.
  intros Hl Hn. unfold next_code, get. destruct (Z.to_nat n) as [|m] eqn:Em; [reflexivity|]. cbn [nth].
  destruct (bit_counts_spec lengths 0 Hl (Z.le_refl 0)) as [E _]. unfold zlen in E.
  rewrite next_codes_spec by (rewrite removelast_length; lia). rewrite Z.mul_0_r, Z.add_0_r. apply base_ext. intros k Hk.
  rewrite removelast_nth by lia. destruct (bit_counts_spec lengths (Z.of_nat k) Hl) as [_ E2]; [lia|]. unfold get in E2. rewrite Nat2Z.id in E2. rewrite E2.
  unfold cnt0. destruct (Nat.eqb_spec k 0); destruct (Z.eqb_spec (Z.of_nat k) 0); try reflexivity; lia.
Qed.
Lemma next_code_length lengths : Forall (fun x => 0 <= x) lengths -> zlen (next_code lengths) = max_length lengths + 1.
Proof.
  intros Hl. unfold next_code. destruct (bit_counts_spec lengths 0 Hl (Z.le_refl 0)) as [E _]. pose proof (max_length_nonneg lengths).
  unfold zlen in *. cbn [length]. rewrite next_codes_length, removelast_length. lia.
Qed.
(** [base n], left justified, is the space of the shorter codes. *)
Definition shorter (top n : Z) (lengths : list Z) : Z := zsum (map (fun ln => if ln <? n then space top ln else 0) lengths).
Lemma shorter_step top n lengths : 0 <= n -> Forall (fun x => 0 <= x) lengths ->
  shorter top (n + 1) lengths = shorter top n lengths + (if n =? 0 then 0 else count n lengths) * 2 ^ (top - n).
Proof.
  intros Hn. induction 1 as [|x l Hx H IH]; cbn [map zsum fold_right shorter count]; [destruct (n =? 0); lia|].
  unfold shorter, zsum in *. cbn [map fold_right]. rewrite IH. unfold space.
  destruct (Z.eqb_spec n 0) as [->|Hn0].
  - replace (x <? 0 + 1) with (x =? 0) by lia. replace (x <? 0) with false by lia. destruct (x =? 0); lia.
  - destruct (Z.eqb_spec x n) as [->|Hxn].
    + replace (n <? n + 1) with true by lia. replace (n <? n) with false by lia. replace (n =? 0) with false by lia. lia.
    + replace (x <? n + 1) with (x <? n) by lia. lia.
Qed.
Lemma base_spec top lengths : Forall (fun x => 0 <= x) lengths -> forall n, Z.of_nat n <= top ->
  base (cnt0 lengths) n * 2 ^ (top - Z.of_nat n) = shorter top (Z.of_nat n) lengths.
Proof.
  intros Hl. induction n as [|n IH]; intros Hn.
  - cbn [base]. clear -Hl. unfold shorter. induction Hl as [|x l Hx H IH]; [reflexivity|]. cbn [map zsum fold_right] in *.
    change (Z.of_nat 0) with 0 in *. replace (x <? 0) with false by lia. unfold zsum in *. lia.
  - replace (Z.of_nat (S n)) with (Z.of_nat n + 1) in * by lia. rewrite shorter_step by (assumption || lia). rewrite <- IH by lia.
    cbn [base]. unfold cnt0 at 2. replace (Nat.eqb n 0) with (Z.of_nat n =? 0) by (destruct n; reflexivity).
    replace (top - Z.of_nat n) with (top - (Z.of_nat n + 1) + 1) by lia. rewrite Z.pow_add_r by lia.
    set (B := base _ n). destruct (Z.of_nat n =? 0); lia.
Qed.

(** ** assign *)
Lemma assign_in : forall ls i next t ln c s, Forall (fun x => 0 <= x < zlen next) ls ->
  In ((ln, c), s) (assign i ls next t) <-> In ((ln, c), s) t \/
  exists k, (k < length ls)%nat /\ nth k ls 0 = ln /\ ln <> 0 /\ s = i + Z.of_nat k /\ c = get next ln + count ln (firstn k ls).
Proof.
  induction ls as [|x ls IH]; intros i next t ln c s Hl; cbn [assign].
  - split; [auto|]. intros [H|(k & H & _)]; [assumption|cbn in H; lia].
  - inversion Hl as [|? ? Hx Hl']; subst. destruct (x =? 0) eqn:Ex.
    + rewrite IH by assumption. split; intros [H|(k & Hk & E1 & E2 & E3 & E4)]; auto; right.
      * exists (S k). cbn [length nth firstn count]. replace (x =? ln) with false by lia. repeat split; try assumption; lia.
      * destruct k as [|k]; [cbn in E1; lia|]. cbn [length nth firstn count] in *. replace (x =? ln) with false in E4 by lia.
        exists k. repeat split; try assumption; lia.
    + rewrite IH by (rewrite zlen_upd; assumption). split.
      * intros [[H|H]|(k & Hk & E1 & E2 & E3 & E4)].
        -- injection H as <- <- <-. right. exists O. cbn [length nth firstn count]. repeat split; try lia.
        -- left; assumption.
        -- right. exists (S k). cbn [length nth firstn count]. 
           assert (0 <= ln) by (rewrite Forall_forall in Hl'; subst ln; specialize (Hl' _ (nth_In ls 0 Hk)); lia).
           rewrite get_upd in E4 by lia. repeat split; try assumption; try lia. destruct (Z.eqb_spec ln x); destruct (Z.eqb_spec x ln); try lia. subst ln. subst x. lia.
      * intros [H|(k & Hk & E1 & E2 & E3 & E4)]; [left; right; assumption|]. destruct k as [|k].
        -- cbn [nth firstn count] in *. left; left. subst. f_equal; [f_equal|]; lia.
        -- right. cbn [length nth firstn count] in *. exists k.
           assert (Hk' : (k < length ls)%nat) by lia.
           assert (0 <= ln) by (rewrite Forall_forall in Hl'; subst ln; specialize (Hl' _ (nth_In ls 0 Hk')); lia).
           rewrite get_upd by lia. repeat split; try assumption; try lia. destruct (Z.eqb_spec ln x); destruct (Z.eqb_spec x ln); try lia. subst ln. subst x. lia.
Qed.
Lemma tree_get_in t k v : tree_get t k = Some v -> In (k, v) t.
Proof.
  induction t as [|[[ln c] w] t IH]; cbn [tree_get]; [discriminate|]. destruct k as [a b]. cbn [fst snd].
  destruct ((a =? ln) && (b =? c)) eqn:E; [intros H; injection H as <-; left; f_equal; f_equal; lia|]. intros H. right. auto.
Qed.
Lemma in_tree_get t k v : In (k, v) t -> exists w, tree_get t k = Some w.
Proof.
  induction t as [|[[ln c] w] t IH]; cbn [tree_get]; [intros []|]. destruct k as [a b]. cbn [fst snd]. intros [H|H].
  - injection H as -> -> ->. rewrite !Z.eqb_refl. cbn. eauto.
  - destruct ((a =? ln) && (b =? c)); eauto.
Qed.
Lemma count_step l n k : (k < length l)%nat -> nth k l 0 = n -> count n (firstn (S k) l) = count n (firstn k l) + 1.
Proof.
  revert k. induction l as [|x l IH]; intros k Hk E; cbn [length] in Hk; [lia|]. destruct k as [|k].
  - cbn [nth firstn count] in *. subst. rewrite Z.eqb_refl. lia.
  - change (firstn (S (S k)) (x :: l)) with (x :: firstn (S k) l). change (firstn (S k) (x :: l)) with (x :: firstn k l).
    cbn [count]. cbn [nth] in E. rewrite (IH k) by (assumption || lia). lia.
Qed.
Lemma count_mono l n : forall i j, (i <= j)%nat -> count n (firstn i l) <= count n (firstn j l).
Proof.
  induction l as [|x l IH]; intros i j H; [rewrite !firstn_nil; lia|]. destruct i as [|i], j as [|j]; cbn [firstn count]; try lia.
  - pose proof (count_nonneg n (firstn j l)). destruct (x =? n); lia.
  - specialize (IH i j). lia.
Qed.
Lemma count_inj l n i j : (i < length l)%nat -> (j < length l)%nat -> nth i l 0 = n -> nth j l 0 = n ->
  count n (firstn i l) = count n (firstn j l) -> i = j.
Proof.
  intros Hi Hj Ei Ej E. destruct (Nat.lt_trichotomy i j) as [H|[H|H]]; [|assumption|].
  - pose proof (count_step l n i Hi Ei). pose proof (count_mono l n (S i) j H). lia.
  - pose proof (count_step l n j Hj Ej). pose proof (count_mono l n (S j) i H). lia.
Qed.
(** ** The code space before a symbol *)
Lemma space_before_gen top i : forall ls s ln, i <= s -> s < i + zlen ls -> Forall (fun x => 0 <= x) ls -> 0 < ln ->
  zsum (map (fun t => space top (snd t)) (filter (fun t => precedes t (s, ln)) (symbols i ls))) =
  shorter top ln ls + count ln (firstn (Z.to_nat (s - i)) ls) * 2 ^ (top - ln).
Proof.
  intros ls. revert i. induction ls as [|x ls IH]; intros i s ln H1 H2 Hl Hln; [rewrite zlen_nil in H2; lia|].
  rewrite zlen_cons in H2. inversion Hl as [|? ? Hx Hl']; subst. cbn [symbols filter]. unfold shorter. cbn [map].
  assert (Hrest : forall s', zsum (map (fun t => space top (snd t)) (filter (fun t => precedes t (s', ln)) (symbols (i + 1) ls))) =
     shorter top ln ls + count ln (firstn (Z.to_nat (s' - (i + 1))) ls) * 2 ^ (top - ln)).
  { clear s H1 H2. intros s'. destruct (Z_lt_dec s' (i + 1)) as [Hs|Hs].
    - (* symbols at or after s' *)
      replace (Z.to_nat (s' - (i + 1))) with O by lia. cbn [firstn count]. clear IH.
      revert i Hs. induction Hl' as [|y l Hy Hl'' IH]; intros i Hs; [reflexivity|]. cbn [symbols filter]. unfold shorter in *. cbn [map].
      specialize (IH ltac:(constructor; assumption) (i + 1) ltac:(lia)). unfold precedes at 1. cbn [fst snd].
      destruct (y <? ln) eqn:E; cbn [orb].
      + cbn [map zsum fold_right snd]. unfold zsum in *. lia.
      + replace ((y =? ln) && (i + 1 <? s')) with false by lia. cbn [zsum fold_right]. unfold zsum in *. lia.
    - destruct (Z_lt_dec s' (i + 1 + zlen ls)) as [Hs'|Hs']; [apply IH; (assumption || lia)|].
      (* all symbols are before s' *)
      rewrite firstn_all2 by (unfold zlen in Hs'; lia). clear IH Hs.
      revert i Hs'. induction Hl' as [|y l Hy Hl'' IH]; intros i Hs'; [reflexivity|]. rewrite zlen_cons in Hs'. cbn [symbols filter count]. unfold shorter in *. cbn [map].
      specialize (IH ltac:(constructor; assumption) (i + 1) ltac:(lia)). unfold precedes at 1. cbn [fst snd].
      pose proof (zlen_nonneg l).
      destruct (y <? ln) eqn:E; cbn [orb].
      + cbn [map zsum fold_right snd]. replace (y =? ln) with false by lia. unfold zsum in *. lia.
      + replace (i + 1 <? s') with true by lia. destruct (y =? ln) eqn:E2; cbn [andb map zsum fold_right snd].
        * unfold zsum in *. unfold space at 1. replace (y =? 0) with false by lia. replace y with ln by lia. lia.
        * unfold zsum in *. lia. }
  unfold precedes at 1. cbn [fst snd]. destruct (Z.eq_dec s i) as [->|Hs].
  - replace (i <? i) with false by lia. replace (Z.to_nat (i - i)) with O by lia. cbn [firstn count]. rewrite andb_false_r, orb_false_r.
    specialize (Hrest i). replace (Z.to_nat (i - (i + 1))) with O in Hrest by lia. cbn [firstn count] in Hrest. unfold shorter in *.
    destruct (x <? ln); cbn [map zsum fold_right snd]; unfold zsum in *; lia.
  - replace (i <? s) with true by lia. replace (Z.to_nat (s - i)) with (S (Z.to_nat (s - (i + 1)))) by lia. cbn [firstn count].
    specialize (Hrest s). unfold shorter in *. rewrite andb_true_r. destruct (x <? ln) eqn:E; cbn [orb].
    + cbn [map zsum fold_right snd]. replace (x =? ln) with false by lia. unfold zsum in *. lia.
    + destruct (x =? ln) eqn:E2; cbn [map zsum fold_right snd]; unfold zsum in *.
      * unfold space at 1. replace (x =? 0) with false by lia. replace x with ln by lia. lia.
      * lia.
Qed.
Lemma filter_sum {A} (f : A -> Z) (p q : A -> bool) x l : (forall y, 0 <= f y) -> (forall y, q y = true -> p y = true) ->
  In x l -> p x = true -> q x = false -> zsum (map f (filter q l)) + f x <= zsum (map f (filter p l)).
Proof.
  intros Hf Hqp Hin Hp Hq.
  assert (Hle : forall l, zsum (map f (filter q l)) <= zsum (map f (filter p l))).
  { clear -Hf Hqp. induction l as [|y l IH]; [cbn; lia|]. cbn [filter]. specialize (Hqp y). specialize (Hf y). destruct (q y) eqn:E.
    - rewrite Hqp by reflexivity. cbn [map zsum fold_right]. unfold zsum in *. lia.
    - destruct (p y); cbn [map zsum fold_right]; unfold zsum in *; lia. }
  induction l as [|y l IH]; [destruct Hin|]. destruct Hin as [->|Hin].
  - cbn [filter]. rewrite Hp, Hq. cbn [map zsum fold_right]. specialize (Hle l). unfold zsum in *. lia.
  - specialize (IH Hin). cbn [filter]. pose proof (Hqp y) as Hy. specialize (Hf y). destruct (q y) eqn:E.
    + rewrite Hy by reflexivity. cbn [map zsum fold_right]. unfold zsum in *. lia.
    + destruct (p y); cbn [map zsum fold_right]; unfold zsum in *; lia.
Qed.
Lemma space_nonneg top ln : 0 <= space top ln.
Proof. unfold space. destruct (ln =? 0); [lia|]. apply Z.pow_nonneg. lia. Qed.
Lemma symbols_in : forall ls i s, i <= s < i + zlen ls -> In (s, nth (Z.to_nat (s - i)) ls 0) (symbols i ls).
Proof.
  induction ls as [|x ls IH]; intros i s H; [rewrite zlen_nil in H; lia|]. rewrite zlen_cons in H. cbn [symbols].
  destruct (Z.eq_dec s i) as [->|Hs].
  - left. replace (Z.to_nat (i - i)) with O by lia. reflexivity.
  - right. replace (Z.to_nat (s - i)) with (S (Z.to_nat (s - (i + 1)))) by lia. cbn [nth]. apply IH. lia.
Qed.
Lemma len_of_range lengths i : 0 < len_of lengths i -> 0 <= i < zlen lengths.
Proof.
  unfold len_of, zlen. destruct (i <? 0) eqn:E; [lia|]. intros H. split; [lia|].
  destruct (Z_lt_dec i (Z.of_nat (length lengths))); [assumption|]. rewrite nth_overflow in H by lia. lia.
Qed.
Lemma len_of_in lengths i : 0 < len_of lengths i -> In (i, len_of lengths i) (symbols 0 lengths).
Proof.
  intros H. pose proof (len_of_range _ _ H) as Hr. pose proof (symbols_in lengths 0 i ltac:(lia)) as Hin.
  unfold len_of. replace (i <? 0) with false by lia. rewrite Z.sub_0_r in Hin. exact Hin.
Qed.
Lemma before_step top lengths i j : 0 < len_of lengths i -> precedes (i, len_of lengths i) (j, len_of lengths j) = true ->
  space_before top lengths (i, len_of lengths i) + space top (len_of lengths i) <= space_before top lengths (j, len_of lengths j).
Proof.
  intros Hi Hp. unfold space_before.
  apply (filter_sum (fun t => space top (snd t)) (fun t => precedes t (j, len_of lengths j)) (fun t => precedes t (i, len_of lengths i)) (i, len_of lengths i)).
  - intros y. apply space_nonneg.
  - intros [y ly]. unfold precedes in *. cbn [fst snd] in *. lia.
  - apply len_of_in. assumption.
  - assumption.
  - unfold precedes. cbn [fst snd]. lia.
Qed.
Lemma symbols_snd : forall ls i, map snd (symbols i ls) = ls.
Proof. induction ls as [|x ls IH]; intros i; cbn [symbols map snd]; [reflexivity|]. rewrite IH. reflexivity. Qed.
Lemma filter_true {A} (l : list A) : filter (fun _ => true) l = l.
Proof. induction l; cbn; congruence. Qed.
Lemma before_total top lengths i : 0 < len_of lengths i ->
  space_before top lengths (i, len_of lengths i) + space top (len_of lengths i) <= zsum (map (space top) lengths).
Proof.
  intros Hi. assert (E : zsum (map (space top) lengths) = zsum (map (fun t => space top (snd t)) (filter (fun _ => true) (symbols 0 lengths)))) by (rewrite filter_true, <- (map_map snd (space top)), symbols_snd; reflexivity).
  rewrite E. unfold space_before.
  apply (filter_sum (fun t => space top (snd t)) (fun _ => true) (fun t => precedes t (i, len_of lengths i)) (i, len_of lengths i)).
  - intros y. apply space_nonneg.
  - reflexivity.
  - apply len_of_in. assumption.
  - reflexivity.
  - unfold precedes. cbn [fst snd]. lia.
Qed.

(** ** The tree *)
Lemma nth_len lengths i : 0 <= i -> nth (Z.to_nat i) lengths 0 = len_of lengths i.
Proof. intros H. unfold len_of. replace (i <? 0) with false by lia. reflexivity. Qed.
Definition code_of (lengths : list Z) (i : Z) : Z :=
  base (cnt0 lengths) (Z.to_nat (len_of lengths i)) + count (len_of lengths i) (firstn (Z.to_nat i) lengths).
Lemma len_le lengths i top : Forall (fun x => x <= top) lengths -> 0 < len_of lengths i -> len_of lengths i <= top.
Proof.
  intros H Hi. pose proof (len_of_range _ _ Hi) as Hr. rewrite Forall_forall in H. apply H.
  unfold len_of. replace (i <? 0) with false by lia. apply nth_In. unfold zlen in Hr. lia.
Qed.
Lemma code_of_canonical lengths i : Forall (fun x => 0 <= x) lengths -> 0 < len_of lengths i -> canonical lengths i (code_of lengths i).
Proof.
  intros Hl Hi. pose proof (len_of_range _ _ Hi) as Hr. split; [assumption|]. intros top Ht. pose proof (len_le _ _ _ Ht Hi) as Hle.
  unfold space_before. rewrite space_before_gen by (assumption || lia). unfold code_of. rewrite Z.mul_add_distr_r.
  pose proof (base_spec top lengths Hl (Z.to_nat (len_of lengths i))) as E. rewrite Z2Nat.id in E by lia. rewrite E by lia.
  rewrite Z.sub_0_r. reflexivity.
Qed.
Lemma canonical_det lengths i c d : canonical lengths i c -> canonical lengths i d -> c = d.
Proof.
  intros [H1 H2] [_ H3]. specialize (H2 _ (max_length_le lengths)). specialize (H3 _ (max_length_le lengths)).
  pose proof (len_le lengths i _ (max_length_le lengths) H1) as Hle.
  rewrite <- H3 in H2. apply Z.mul_cancel_r in H2; [assumption|]. apply Z.pow_nonzero; lia.
Qed.
Lemma tree_lemma lengths t ln c i : Forall (fun x => 0 <= x) lengths -> build_tree lengths = Ok t ->
  (tree_get t (ln, c) = Some i <-> len_of lengths i = ln /\ canonical lengths i c).
Proof.
  intros Hl Hb.
  assert (Ht : t = assign 0 lengths (next_code lengths) []) by (destruct lengths; [discriminate|injection Hb as <-; reflexivity]).
  assert (Hr : Forall (fun x => 0 <= x < zlen (next_code lengths)) lengths).
  { rewrite next_code_length by assumption. pose proof (max_length_le lengths) as H. rewrite Forall_forall in *. intros x Hx. specialize (H x Hx). specialize (Hl x Hx). lia. }
  assert (Hin : forall ln c i, In ((ln, c), i) t <-> len_of lengths i = ln /\ canonical lengths i c).
  { clear ln c i. intros ln c i. rewrite Ht, assign_in by assumption. split.
    - intros [[]|(k & Hk & E1 & E2 & E3 & E4)]. rewrite Z.add_0_l in E3. assert (Hlen : len_of lengths i = ln) by (unfold len_of; subst i; replace (Z.of_nat k <? 0) with false by lia; rewrite Nat2Z.id; assumption).
      assert (Hpos : 0 < ln) by (rewrite Forall_forall in Hl; specialize (Hl ln); rewrite <- E1 in Hl |- *; specialize (Hl (nth_In lengths 0 Hk)); lia).
      split; [assumption|]. assert (E : c = code_of lengths i).
      { unfold code_of. rewrite Hlen, E4. subst i. rewrite Nat2Z.id. f_equal. apply next_code_spec; [assumption|]. split; [lia|]. rewrite <- Hlen. apply len_le; [apply max_length_le|lia]. }
      rewrite E. apply code_of_canonical; [assumption|lia].
    - intros [Hlen Hc]. right. pose proof Hc as [Hpos _]. pose proof (len_of_range _ _ Hpos) as Hri.
      assert (E : c = code_of lengths i) by (eapply canonical_det; [exact Hc|]; apply code_of_canonical; assumption).
      exists (Z.to_nat i). unfold zlen in Hri. split; [lia|]. rewrite nth_len by lia. split; [assumption|]. split; [lia|]. split; [lia|].
      rewrite E. unfold code_of. rewrite Hlen. f_equal. symmetry. apply next_code_spec; [assumption|]. split; [lia|]. rewrite <- Hlen. apply len_le; [apply max_length_le|lia]. }
  split.
  - intros H. apply Hin. apply tree_get_in. assumption.
  - intros H. pose proof (proj2 (Hin ln c i) H) as Hi. destruct (in_tree_get _ _ _ Hi) as [j Hj]. rewrite Hj. f_equal.
    apply tree_get_in in Hj. apply Hin in Hj. destruct H as [H1 H2], Hj as [H3 H4]. pose proof H2 as [Hp _]. pose proof H4 as [Hp' _].
    assert (E : code_of lengths i = code_of lengths j).
    { transitivity c; [symmetry|].
      - exact (canonical_det lengths i c _ H2 (code_of_canonical lengths i Hl Hp)).
      - exact (canonical_det lengths j c _ H4 (code_of_canonical lengths j Hl Hp')). }
    unfold code_of in E. rewrite H1, H3 in E. pose proof (len_of_range _ _ Hp) as R1. pose proof (len_of_range _ _ Hp') as R2. unfold zlen in *.
    assert (Z.to_nat j = Z.to_nat i); [|lia].
    apply (count_inj lengths ln); try lia; rewrite nth_len by lia; assumption.
Qed.
(** Codes fit in their length, and are apart. *)
Lemma code_bound lengths i c : kraft lengths -> canonical lengths i c -> 0 <= c < 2 ^ len_of lengths i.
Proof.
  intros (top & H0 & Hl & Hk) [Hp Hc]. assert (Hl' : Forall (fun x => x <= top) lengths) by (eapply Forall_impl; [|exact Hl]; cbn; lia).
  specialize (Hc top Hl'). pose proof (before_total top lengths i Hp) as H. pose proof (len_le _ _ _ Hl' Hp) as Hle.
  rewrite <- Hc in H. unfold space at 1 in H. replace (len_of lengths i =? 0) with false in H by lia.
  assert (Hpow : 0 < 2 ^ (top - len_of lengths i)) by (apply Z.pow_pos_nonneg; lia).
  assert (E : 2 ^ top = 2 ^ len_of lengths i * 2 ^ (top - len_of lengths i)) by (rewrite <- Z.pow_add_r by lia; f_equal; lia).
  assert (Hn : 0 <= c * 2 ^ (top - len_of lengths i)).
  { rewrite Hc. unfold space_before. generalize (filter (fun t => precedes t (i, len_of lengths i)) (symbols 0 lengths)). intros l.
    induction l as [|y l IH]; cbn; [lia|]. pose proof (space_nonneg top (snd y)). unfold zsum in IH. lia. }
  split; nia.
Qed.
Lemma codes_apart lengths i j c d k : Forall (fun x => 0 <= x) lengths -> canonical lengths i c -> canonical lengths j d ->
  0 <= k -> len_of lengths j + k = len_of lengths i -> 0 < k -> c / 2 ^ k <> d.
Proof.
  intros Hl [Hi Hc] [Hj Hd] Hk Hlen Hpos E. set (top := max_length lengths).
  specialize (Hc top (max_length_le lengths)). specialize (Hd top (max_length_le lengths)).
  pose proof (len_le lengths i top (max_length_le lengths) Hi) as Hle.
  pose proof (before_step top lengths j i Hj) as H. rewrite <- Hc, <- Hd in H.
  assert (Hpr : precedes (j, len_of lengths j) (i, len_of lengths i) = true) by (unfold precedes; cbn [fst snd]; lia).
  specialize (H Hpr). unfold space in H. replace (len_of lengths j =? 0) with false in H by lia.
  replace (top - len_of lengths j) with (k + (top - len_of lengths i)) in H by lia. rewrite Z.pow_add_r in H by lia.
  set (P := 2 ^ (top - len_of lengths i)) in *. assert (0 < P) by (apply Z.pow_pos_nonneg; lia).
  assert (Hk2 : 0 < 2 ^ k) by (apply Z.pow_pos_nonneg; lia). 
  assert (Hc2 : c < (d + 1) * 2 ^ k) by (rewrite <- E; pose proof (Z.mod_pos_bound c (2 ^ k) Hk2); pose proof (Z.div_mod c (2 ^ k)); lia).
  nia.
Qed.
(** ** Decoding *)
Lemma digits_cons m v : 0 <= m -> digits (m + 1) v = Z.testbit v m :: digits m v.
Proof.
  intros Hm. unfold digits. replace (Z.to_nat (m + 1)) with (S (Z.to_nat m)) by lia. cbn [seq map]. f_equal; [f_equal; lia|].
  rewrite <- seq_shift, map_map. apply map_ext. intros k. f_equal. lia.
Qed.
Lemma digits_length n v : 0 <= n -> zlen (digits n v) = n.
Proof. intros H. unfold digits, zlen. rewrite map_length, seq_length. lia. Qed.
Lemma div_step c m : 0 <= m -> c / 2 ^ m = (c / 2 ^ (m + 1)) * 2 + b2z (Z.testbit c m).
Proof.
  intros Hm. rewrite Z.testbit_eqb by assumption. rewrite Z.pow_add_r, <- Z.div_div by lia.
  change (2 ^ 1) with 2. set (q := c / 2 ^ m). unfold b2z. destruct (Z.eqb_spec (q mod 2) 1); lia.
Qed.
Lemma huff_read_ok lengths t i c rest : Forall (fun x => 0 <= x) lengths -> build_tree lengths = Ok t -> canonical lengths i c ->
  0 <= c < 2 ^ len_of lengths i -> len_of lengths i <= 257 ->
  huffman_code t (digits (len_of lengths i) c ++ rest) = Ok (i, len_of lengths i, rest).
Proof.
  intros Hl Hb Hc Hcb H257. set (n := len_of lengths i) in *. pose proof Hc as [Hpos _]. fold n in Hpos.
  assert (H : forall m, 0 <= m <= n -> huff_read t (n - m) (c / 2 ^ m) (digits m c ++ rest) = Ok (i, n, rest)).
  { intros m Hm. assert (Hm0 : 0 <= m) by lia. revert Hm. pattern m. apply natlike_ind; [| |assumption]; clear m Hm0.
    - intros _. change (digits 0 c) with (@nil bool). rewrite Z.sub_0_r, Z.pow_0_r, Z.div_1_r. cbn [app].
      assert (E : tree_get t (n, c) = Some i) by (apply (tree_lemma lengths t n c i Hl Hb); split; [reflexivity|assumption]).
      destruct rest; cbn [huff_read]; rewrite E; reflexivity.
    - intros m Hm IH Hle. unfold Z.succ in *. rewrite digits_cons by assumption. cbn [app huff_read].
      assert (E : tree_get t (n - (m + 1), c / 2 ^ (m + 1)) = None).
      { destruct (tree_get t (n - (m + 1), c / 2 ^ (m + 1))) as [j|] eqn:E; [|reflexivity]. exfalso.
        apply (tree_lemma lengths t _ _ j Hl Hb) in E. destruct E as [E1 E2].
        apply (codes_apart lengths i j c _ (m + 1) Hl Hc E2); try lia. }
      rewrite E. replace (256 <? n - (m + 1)) with false by lia. rewrite <- div_step by assumption.
      replace (n - (m + 1) + 1) with (n - m) by lia. apply IH. lia. }
  specialize (H n ltac:(lia)). rewrite Z.sub_diag in H. rewrite (Z.div_small c) in H by assumption. exact H.
Qed.
Lemma huff_read_consumes t : forall bits size value s n rest, huff_read t size value bits = Ok (s, n, rest) ->
  exists used, bits = used ++ rest /\ n = size + zlen used /\ tree_get t (n, value * 2 ^ zlen used + val_be used) = Some s.
Proof.
  assert (Hval : forall l b, val_be (b :: l) = b2z b * 2 ^ zlen l + val_be l).
  { assert (H : forall l acc, fold_left (fun acc b => 2 * acc + b2z b) l acc = acc * 2 ^ zlen l + val_be l).
    { unfold val_be. induction l as [|b l IH]; intros acc; [rewrite (@zlen_nil bool); cbn; lia|]. cbn [fold_left]. rewrite IH, (IH (2 * 0 + b2z b)).
      rewrite zlen_cons, Z.pow_add_r by (pose proof (zlen_nonneg l); lia). lia. }
    intros l b. unfold val_be. cbn [fold_left]. rewrite H. fold (val_be l). lia. }
  induction bits as [|b bits IH]; intros size value s n rest; cbn [huff_read]; destruct (tree_get t (size, value)) as [v|] eqn:E.
  1,3: intros H; injection H as <- <- <-; exists []; rewrite (@zlen_nil bool); split; [reflexivity|split; [lia|]];
    rewrite Z.pow_0_r, Z.mul_1_r; change (val_be []) with 0; rewrite Z.add_0_r; exact E.
  - destruct (256 <? size); discriminate.
  - destruct (256 <? size); [discriminate|]. intros H. apply IH in H. destruct H as (used & E1 & E2 & E3). exists (b :: used).
    split; [cbn; congruence|]. rewrite zlen_cons. split; [lia|]. rewrite Hval, Z.pow_add_r by (pose proof (zlen_nonneg used); lia).
    rewrite <- E3. f_equal. f_equal. lia.
Qed.
(** Two different symbols: no code is a prefix of the other. *)
Lemma digits_app n m v : 0 <= n -> 0 <= m -> digits (n + m) v = digits n (v / 2 ^ m) ++ digits m v.
Proof.
  intros Hn Hm. revert Hm. pattern n. apply natlike_ind; [| |assumption]; clear n Hn.
  - intros _. rewrite Z.add_0_l. reflexivity.
  - intros n Hn IH Hm. unfold Z.succ. replace (n + 1 + m) with (n + m + 1) by lia. rewrite !digits_cons by lia. cbn [app]. rewrite <- IH by assumption.
    f_equal. rewrite Z.div_pow2_bits by lia. f_equal.
Qed.
Lemma digits_inj n : 0 <= n -> forall v w, 0 <= v < 2 ^ n -> 0 <= w < 2 ^ n -> digits n v = digits n w -> v = w.
Proof.
  intros Hn. pattern n. apply natlike_ind; [| |assumption]; clear n Hn.
  - intros v w Hv Hw _. rewrite Z.pow_0_r in *. lia.
  - intros n Hn IH v w Hv Hw. unfold Z.succ in *. rewrite !digits_app by lia. intros E.
    apply app_inv_len in E.
    2:{ apply Nat2Z.inj. pose proof (digits_length n (v / 2 ^ 1) Hn). pose proof (digits_length n (w / 2 ^ 1) Hn). unfold zlen in *. lia. }
    destruct E as [E1 E2]. rewrite Z.pow_add_r in * by lia. change (2 ^ 1) with 2 in *. apply IH in E1; [|split; [apply Z.div_pos; lia|apply Z.div_lt_upper_bound; lia]..].
    change (digits 1 v) with [Z.testbit v 0] in E2. change (digits 1 w) with [Z.testbit w 0] in E2. apply (f_equal (fun l => hd false l)) in E2. cbn [hd] in E2. rewrite !Z.bit0_odd in E2.
    rewrite (Z_div_mod_eq_full v 2), (Z_div_mod_eq_full w 2), E1. rewrite !Zmod_odd, E2. reflexivity.
Qed.
Lemma prefix_free_lemma lengths i j c d : Forall (fun x => 0 <= x) lengths -> kraft lengths -> canonical lengths i c -> canonical lengths j d -> i <> j ->
  ~ prefix_of (digits (len_of lengths j) d) (digits (len_of lengths i) c).
Proof.
  intros Hl Hk Hc Hd Hij [r E]. pose proof (code_bound _ _ _ Hk Hc) as Bc. pose proof (code_bound _ _ _ Hk Hd) as Bd.
  pose proof Hc as [Hpi Ci]. pose proof Hd as [Hpj Cj].
  assert (Hlen : zlen (digits (len_of lengths i) c) = zlen (digits (len_of lengths j) d) + zlen r) by (rewrite E; unfold zlen; rewrite app_length; lia).
  rewrite !digits_length in Hlen by lia. pose proof (zlen_nonneg r) as Hr. set (k := zlen r) in *.
  rewrite Hlen, digits_app in E by lia. apply app_inv_len in E.
  2:{ apply Nat2Z.inj. pose proof (digits_length (len_of lengths j) (c / 2 ^ k) ltac:(lia)). pose proof (digits_length (len_of lengths j) d ltac:(lia)). unfold zlen in *. lia. }
  destruct E as [E _]. apply digits_inj in E; try assumption; try lia.
  2:{ split; [apply Z.div_pos; [lia|apply Z.pow_pos_nonneg; lia]|]. apply Z.div_lt_upper_bound; [apply Z.pow_pos_nonneg; lia|].
      rewrite <- Z.pow_add_r by lia. replace (k + len_of lengths j) with (len_of lengths i) by lia. lia. }
  destruct (Z.eq_dec k 0) as [Hk0|Hk0].
  - (* same length: the codes differ *)
    rewrite Hk0, Z.pow_0_r, Z.div_1_r in E. subst d. set (top := max_length lengths).
    specialize (Ci top (max_length_le lengths)). specialize (Cj top (max_length_le lengths)).
    assert (Hll : len_of lengths i = len_of lengths j) by lia.
    pose proof (len_le lengths i top (max_length_le lengths) Hpi) as Hle.
    assert (HP : 0 < 2 ^ (top - len_of lengths i)) by (apply Z.pow_pos_nonneg; lia).
    destruct (Z.lt_total i j) as [H|[H|H]]; [|contradiction|].
    + pose proof (before_step top lengths i j Hpi) as B. rewrite <- Ci, <- Cj, <- Hll in B. unfold space in B.
      replace (len_of lengths i =? 0) with false in B by lia. unfold precedes in B. cbn [fst snd] in B. lia.
    + pose proof (before_step top lengths j i Hpj) as B. rewrite <- Ci, <- Cj, <- Hll in B. unfold space in B.
      replace (len_of lengths i =? 0) with false in B by lia. unfold precedes in B. cbn [fst snd] in B. lia.
  - exact (codes_apart lengths i j c d k Hl Hc Hd Hr ltac:(lia) ltac:(lia) E).
Qed.

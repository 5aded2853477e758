(** Repetition *)
From Verif Require Import Base DictModel RegexModel RegexSpec RegexProofs RegexProofs2 RegexProofs3.
Ltac Zify.zify_post_hook ::= Z.div_mod_to_equations.

Lemma power_same n R S : same R S -> same (s_power n R) (s_power n S).
Proof. intros H. induction n as [|n IH]; [apply same_refl|]. apply seq_same; assumption. Qed.
Lemma power_add n m R : same (s_power (n + m) R) (s_seq (s_power n R) (s_power m R)).
Proof.
  induction n as [|n IH]; cbn [s_power Nat.add]; [apply same_sym, seq_empty_l|].
  apply (same_trans _ (s_seq R (s_seq (s_power n R) (s_power m R)))); [apply seq_same; [apply same_refl| exact IH] | apply seq_assoc].
Qed.
Lemma power_mono n R S : incl_s R S -> incl_s (s_power n R) (s_power n S).
Proof. intros H. induction n as [|n IH]; intros i j; [auto|]. intros (k & A & B). exists k. auto. Qed.
Lemma power_one R : same (s_power 1 R) R. Proof. apply seq_empty_r. Qed.
Lemma repeat_same R S lo hi : same R S -> same (s_repeat R lo hi) (s_repeat S lo hi).
Proof. intros H i j. split; intros (n & A & B & C); exists n; (split; [exact A|]); (split; [exact B|]); eapply power_same; try exact C; [apply same_sym; exact H| exact H]. Qed.

Definition below (n : nat) (hi : option Z) : Prop := match hi with Some h => Z.of_nat n <= h | None => True end.

(** ** A repetition of a repetition *)
Definition mulo (p hi : option Z) : option Z := match p, hi with Some p, Some h => Some (h * p) | _, _ => None end.
Lemma flat_power R n p k : 0 <= n -> forall i j, s_power k (s_repeat R n p) i j ->
  exists m, Z.of_nat k * n <= Z.of_nat m /\ (match p with Some p => Z.of_nat m <= Z.of_nat k * p | None => True end) /\ s_power m R i j.
Proof.
  intros Hn. induction k as [|k IH]; intros i j H.
  - exists 0%nat. cbn. split; [lia|]. split; [destruct p; lia| exact H].
  - destruct H as (x & (m1 & A1 & A2 & A3) & H). destruct (IH _ _ H) as (m & B1 & B2 & B3). exists (m1 + m)%nat.
    split; [nia|]. split; [destruct p; [nia|exact I]|]. apply power_add. exists x. auto.
Qed.
Lemma unflat_power R n p k : 0 <= n -> (match p with Some p => n <= p | None => True end) -> forall m i j,
  Z.of_nat k * n <= Z.of_nat m -> (match p with Some p => Z.of_nat m <= Z.of_nat k * p | None => k <> 0%nat \/ m = 0%nat end) ->
  s_power m R i j -> s_power k (s_repeat R n p) i j.
Proof.
  intros Hn Hp. induction k as [|k IH]; intros m i j L U H.
  - assert (m = 0)%nat by (destruct p; lia). subst m. exact H.
  - assert (E : exists m1 m', m = (m1 + m')%nat /\ n <= Z.of_nat m1 /\ (match p with Some p => Z.of_nat m1 <= p | None => True end) /\
        Z.of_nat k * n <= Z.of_nat m' /\ (match p with Some p => Z.of_nat m' <= Z.of_nat k * p | None => k <> 0%nat \/ m' = 0%nat end)).
    { destruct p as [p|].
      - pose (m1 := Z.max n (Z.of_nat m - Z.of_nat k * p)).
        exists (Z.to_nat m1), (m - Z.to_nat m1)%nat. assert (m1 <= Z.of_nat m) by (unfold m1; nia). assert (0 <= m1) by (unfold m1; lia).
        rewrite Nat2Z.inj_sub, Z2Nat.id by lia. unfold m1. repeat split; try nia. 
      - destruct k as [|k].
        + exists m, 0%nat. repeat split; try lia.
        + exists (Z.to_nat n), (m - Z.to_nat n)%nat. rewrite Nat2Z.inj_sub, Z2Nat.id by nia. repeat split; try nia; try lia. }
    destruct E as (m1 & m' & -> & A1 & A2 & A3 & A4). apply power_add in H. destruct H as (x & H1 & H2).
    exists x. split; [exists m1; auto| exact (IH m' x j A3 A4 H2)].
Qed.
Lemma least_k p m lo : 1 <= p -> 0 <= lo -> lo * p < m -> exists k, lo < k /\ (k - 1) * p < m <= k * p.
Proof.
  intros Hp Hlo Hm. exists ((m + p - 1) / p). set (q := (m + p - 1) / p).
  assert (m + p - 1 = p * q + (m + p - 1) mod p) by (apply Z.div_mod; lia). pose proof (Z.mod_pos_bound (m + p - 1) p ltac:(lia)).
  clearbody q. split; nia.
Qed.
Lemma repeat_repeat R n p lo hi : bounds_ok n p -> bounds_ok lo hi -> gapless n p lo hi ->
  same (s_repeat (s_repeat R n p) lo hi) (s_repeat R (lo * n) (mulo p hi)).
Proof.
  intros [Hn Hp] [Hlo Hhi] G i j. split.
  - intros (k & A & B & C). destruct (flat_power R n p k Hn _ _ C) as (m & D & E & F). exists m. split; [nia|]. split; [|exact F].
    unfold mulo. destruct p as [p|]; [destruct hi as [h|]; [nia|exact I]|exact I].
  - intros (m & A & B & C).
    assert (K : exists k : nat, lo <= Z.of_nat k /\ below k hi /\ Z.of_nat k * n <= Z.of_nat m /\
       (match p with Some p => Z.of_nat m <= Z.of_nat k * p | None => k <> 0%nat \/ m = 0%nat end)).
    { unfold below. unfold gapless in G. destruct p as [p|].
      - destruct (Z_le_gt_dec (Z.of_nat m) (lo * p)) as [Hm|Hm].
        + exists (Z.to_nat lo). rewrite Z2Nat.id by lia. repeat split; try lia. destruct hi; lia.
        + destruct (least_k p (Z.of_nat m) lo ltac:(lia) Hlo ltac:(lia)) as (k & K1 & K2).
          exists (Z.to_nat k). rewrite Z2Nat.id by lia. split; [lia|]. split.
          * destruct hi as [h|]; [|exact I]. cbn [mulo] in B. nia.
          * split; [|lia]. 
            assert (K3 : hi <> Some lo) by (intros ->; cbn [mulo] in B; nia).
            assert (GG : (lo + 1) * n <= lo * p + 1) by (destruct G as [G|[G|G]]; [nia| contradiction| exact G]).
            assert (k * n <= (k - 1) * p + 1) by nia. lia.
      - assert (L : 1 <= lo \/ lo = 0) by lia. destruct L as [L|L].
        + exists (Z.to_nat lo). rewrite Z2Nat.id by lia. repeat split; try lia. destruct hi; lia.
        + subst lo. assert (n <= 1) by (destruct G as [G|[->|G]]; lia).
          destruct m as [|m]; [exists 0%nat; repeat split; try lia; destruct hi; lia | exists 1%nat; repeat split; try lia; destruct hi; lia]. }
    destruct K as (k & K1 & K2 & K3 & K4). exists k. split; [exact K1|]. split; [exact K2|].
    apply (unflat_power R n p k Hn) with m; auto. destruct p; [lia|exact I].
Qed.

(** ** A repetition of an alternative *)
Lemma repeat_empty S lo hi : incl_s s_empty S -> bounds_ok lo hi -> same (s_repeat S lo hi) (s_repeat S 0 hi).
Proof.
  intros He [Hlo Hhi] i j. split.
  - intros (n & A & B & C). exists n. repeat split; auto; lia.
  - intros (n & A & B & C). destruct (Z_le_gt_dec lo (Z.of_nat n)) as [L|L]; [exists n; auto|].
    exists (Z.to_nat lo). rewrite Z2Nat.id by lia. split; [lia|]. split; [destruct hi; lia|].
    replace (Z.to_nat lo) with ((Z.to_nat lo - n) + n)%nat by lia. apply power_add. exists i. split; [|exact C].
    generalize (Z.to_nat lo - n)%nat. intros k. induction k as [|k IH]; [reflexivity|]. exists i. split; [apply He; reflexivity| exact IH].
Qed.
Lemma power_opt S S' n : incl_s S (s_alt S' s_empty) -> forall i j, s_power n S i j -> exists m, (m <= n)%nat /\ s_power m S' i j.
Proof.
  intros H. induction n as [|n IH]; intros i j K; [exists 0%nat; auto|]. destruct K as (x & A & B). destruct (IH _ _ B) as (m & L & C).
  destruct (H _ _ A) as [A'|E]; [exists (Datatypes.S m); split; [lia|]; exists x; auto| unfold s_empty in E; subst x; exists m; split; [lia| exact C]].
Qed.
Lemma repeat_opt S S' hi : incl_s S' S -> incl_s S (s_alt S' s_empty) -> same (s_repeat S 0 hi) (s_repeat S' 0 hi).
Proof.
  intros H1 H2 i j. split; intros (n & A & B & C).
  - destruct (power_opt S S' n H2 _ _ C) as (m & L & D). exists m. split; [lia|]. split; [destruct hi; [lia|exact I]| exact D].
  - exists n. repeat split; auto. eapply power_mono; eauto.
Qed.
Lemma power_star S S' lo n : 0 <= lo -> incl_s S (s_repeat S' lo None) -> forall i j, s_power n S i j -> exists m, Z.of_nat n * lo <= Z.of_nat m /\ s_power m S' i j.
Proof.
  intros Hlo H. induction n as [|n IH]; intros i j K; [exists 0%nat; split; [lia| exact K]|]. destruct K as (x & A & B). destruct (IH _ _ B) as (m & L & C).
  destruct (H _ _ A) as (m1 & L1 & _ & C1). exists (m1 + m)%nat. split; [nia|]. apply power_add. exists x. auto.
Qed.
Lemma repeat_star S S' lo x : 0 <= x -> 0 <= lo -> (x = 1 \/ lo = 0) -> incl_s S' S -> incl_s S (s_repeat S' x None) -> same (s_repeat S lo None) (s_repeat S' lo None).
Proof.
  intros Hx Hlo D H1 H2 i j. split; intros (n & A & B & C).
  - destruct (power_star S S' x n Hx H2 _ _ C) as (m & L & E). exists m. repeat split; auto. destruct D; subst; nia.
  - exists n. repeat split; auto. eapply power_mono; eauto.
Qed.

Section Repeat.
Context (same_items : list item -> list item -> bool) (same_items_ok : forall l m, same_items l m = true -> l = m).
Context (e : engine) (dot_ok : forall c, In c (text e) -> dot e c).
Notation D := (denote e).

Lemma raw_ok r lo hi r' : mk_repeat_raw r lo hi = Ok r' -> r' = RRepeat r lo hi /\ bounds_ok lo hi.
Proof using All.
  unfold mk_repeat_raw, assert_, bounds_ok. destruct (0 <=? lo) eqn:E; cbn [bind]; [|discriminate]. destruct hi as [h|].
  - destruct ((h <? lo) || (h =? 0) || ((lo =? h) && (h =? 1))) eqn:F; [discriminate|]. intros H. injection H as <-. split; [reflexivity|]. lia.
  - intros H. injection H as <-. split; [reflexivity|]. lia.
Qed.
Lemma raw_total r lo hi : bounds_ok lo hi -> mk_repeat_raw r lo hi = Ok (RRepeat r lo hi) \/ mk_repeat_raw r lo hi = Err ValueError.
Proof using All.
  intros [A B]. unfold mk_repeat_raw, assert_. replace (0 <=? lo) with true by lia. cbn [bind].
  destruct hi as [h|]; [|auto]. destruct ((h <? lo) || (h =? 0) || ((lo =? h) && (h =? 1))); auto.
Qed.
Lemma wf_Repeat r lo hi : wf (RRepeat r lo hi) <-> wf r /\ bounds_ok lo hi.
Proof using All. reflexivity. Qed.

Lemma repeat_min_spec l : forall lo, 0 <= lo -> let m := repeat_min l lo in
  0 <= m /\ (m = lo \/ (m = 0 /\ exists i, In i l /\ (i = REmpty \/ exists q p, i = RRepeat q 0 p))) /\
  (m <> 0 -> ~ In REmpty l) /\ (m = 1 -> forall q p, ~ In (RRepeat q 0 p) l).
Proof using All.
  induction l as [|x l IH]; intros lo Hlo; cbv zeta; [cbn; repeat split; auto|].
  unfold repeat_min. cbn [fold_left]. fold (repeat_min l).
  assert (Zero : repeat_min l 0 = 0) by (destruct (IH 0 ltac:(lia)) as (_ & [E|[E _]] & _); exact E).
  set (lo' := match x with REmpty => 0 | RRepeat _ n _ => if (n =? 0) && (lo =? 1) then 0 else lo | _ => lo end).
  assert (Hl' : lo' = lo \/ (lo' = 0 /\ (x = REmpty \/ exists q p, x = RRepeat q 0 p))).
  { unfold lo'. destruct x; auto. destruct ((rmin =? 0) && (lo =? 1)) eqn:E; [|auto]. right. split; [reflexivity|]. right. exists x, rmax. f_equal. lia. }
  assert (Hr : x = REmpty -> lo' = 0) by (intros ->; reflexivity).
  assert (Hp : lo = 1 -> forall q p, x = RRepeat q 0 p -> lo' = 0) by (intros -> q p ->; reflexivity).
  clearbody lo'. change (fold_left _ l lo') with (repeat_min l lo').
  destruct (IH lo' ltac:(lia)) as (M1 & M2 & M3 & M4). split; [exact M1|]. split.
  - destruct M2 as [M2|(M2 & i & I1 & I2)]; [|right; split; [exact M2|]; exists i; split; [right; exact I1| exact I2]].
    destruct Hl' as [->|[-> X]]; [left; exact M2|]. right. split; [exact M2|]. exists x. split; [left; reflexivity| exact X].
  - split.
    + intros N [E|E]; [specialize (Hr E); subst lo'; congruence | exact (M3 N E)].
    + intros N q p [E|E]; [|exact (M4 N q p E)]. destruct Hl' as [Hl'|[-> _]]; [|congruence].
      destruct M2 as [M2|[M2 _]]; [|congruence]. subst lo'. rewrite M2 in N. subst lo. discriminate (Hp eq_refl q p E).
Qed.

(** What replacing the items of the alternative may change *)
Definition rel (m : Z) (hi : option Z) (S' S : span) : Prop :=
  incl_s S' S /\
  match hi with
  | Some _ => incl_s S (s_alt S' (fun i j => m = 0 /\ i = j))
  | None => incl_s S (s_repeat S' (if m =? 0 then 0 else 1) None)
  end.
Lemma rel_same m hi S : rel m hi S S.
Proof using All.
  split; [intros i j H; exact H|]. destruct hi; intros i j H; [left; exact H|]. exists 1%nat. split; [destruct (m =? 0); lia|]. split; [exact I|]. apply power_one. exact H.
Qed.
Lemma rel_mono m (hi : option Z) S' T S : incl_s S' T -> (match hi with Some _ => incl_s S (s_alt S' (fun i j => m = 0 /\ i = j)) | None => incl_s S (s_repeat S' (if m =? 0 then 0 else 1) None) end) ->
  (match hi with Some _ => incl_s S (s_alt T (fun i j => m = 0 /\ i = j)) | None => incl_s S (s_repeat T (if m =? 0 then 0 else 1) None) end).
Proof using All.
  intros H K. destruct hi; intros i j X; apply K in X.
  - destruct X; [left; auto|right; assumption].
  - destruct X as (n & A & B & C). exists n. repeat split; auto. eapply power_mono; eauto.
Qed.
Lemma repeat_items_spec m hi l : forall l', 0 <= m -> Forall wf l -> (m <> 0 -> ~ In REmpty l) -> (m = 1 -> forall q p, ~ In (RRepeat q 0 p) l) ->
  (hi = None -> forall q n, In (RRepeat q n None) l -> n <= 1) -> repeat_items m hi l = Ok l' ->
  Forall wf l' /\ (l' = [] -> Forall (fun r => r = REmpty) l) /\ rel m hi (Dany e l') (Dany e l).
Proof using All.
  induction l as [|x l IH]; intros l' Hm W NE NR NB H; cbn [repeat_items] in H.
  { injection H as <-. split; [constructor|]. split; [constructor|]. apply rel_same. }
  inversion W as [|? ? Wx Wl]; subst.
  assert (IH' : forall l', repeat_items m hi l = Ok l' -> Forall wf l' /\ (l' = [] -> Forall (fun r => r = REmpty) l) /\ rel m hi (Dany e l') (Dany e l)).
  { intros. apply IH; auto; [intros N K; apply (NE N); right; exact K | intros N q p K; apply (NR N q p); right; exact K | intros N q n K; apply (NB N q n); right; exact K]. }
  clear IH.
  assert (Step : forall y l2, wf y -> rel m hi (D y) (D x) -> repeat_items m hi l = Ok l2 ->
     Forall wf (y :: l2) /\ (y :: l2 = [] -> Forall (fun r => r = REmpty) (x :: l)) /\ rel m hi (Dany e (y :: l2)) (Dany e (x :: l))).
  { intros y l2 Wy [Y1 Y2] El. destruct (IH' _ El) as (A & _ & B1 & B2). split; [constructor; assumption|]. split; [discriminate|].
    split; [intros i j [K|K]; [left; apply Y1, K | right; apply B1, K]|].
    cbn [Dany fold_right]. fold (Dany e l2) (Dany e l).
    assert (Y2' := rel_mono m hi (D y) (s_alt (D y) (Dany e l2)) (D x) ltac:(intros i j K; left; exact K) Y2).
    assert (B2' := rel_mono m hi (Dany e l2) (s_alt (D y) (Dany e l2)) (Dany e l) ltac:(intros i j K; right; exact K) B2).
    clear -Y2' B2'. destruct hi; intros i j [K|K]; auto. }
  destruct x as [| | | | |t|rs ex|c|c|q n p];
    try (destruct (repeat_items m hi l) as [l2|] eqn:El; cbn [bind] in H; [injection H as <-; eapply Step; [exact Wx| apply rel_same| reflexivity] | discriminate]).
  - destruct (IH' _ H) as (A & B & C1 & C2). split; [exact A|]. split; [intros E; constructor; [reflexivity| apply B, E]|].
    assert (M0 : m = 0) by (destruct (Z.eq_dec m 0) as [E|E]; [exact E| destruct (NE E); left; reflexivity]).
    split; [intros i j K; right; apply C1, K|]. cbn [Dany fold_right]. fold (Dany e l). subst m. cbn [Z.eqb] in *.
    destruct hi; intros i j [K|K]; auto; cbn in K; [right; auto|]. exists 0%nat. split; [lia|]. split; [exact I| exact K].
  - apply wf_Repeat in Wx. destruct Wx as [Wq Bp].
    assert (Same : forall l2, repeat_items m hi l = Ok l2 -> Forall wf (RRepeat q n p :: l2) /\ (RRepeat q n p :: l2 = [] -> Forall (fun r => r = REmpty) (RRepeat q n p :: l)) /\ rel m hi (Dany e (RRepeat q n p :: l2)) (Dany e (RRepeat q n p :: l))).
    { intros l2 El. apply Step; [apply wf_Repeat; auto| apply rel_same| exact El]. }
    destruct (n =? 0) eqn:N0; [|destruct (n =? 1) eqn:N1].
    + assert (n = 0) by lia. subst n. clear N0. destruct ((m =? 0) || (m =? 1)) eqn:M01.
      * assert (m = 0). { destruct (Z.eq_dec m 1) as [->|]; [|lia]. exfalso. apply (NR eq_refl q p). left. reflexivity. }
        subst m. destruct (is_none hi && is_none p) eqn:NN.
        -- cbn [bind] in H. destruct (repeat_items 0 hi l) as [l2|] eqn:El; cbn [bind] in H; [|discriminate]. injection H as <-.
           destruct hi; [discriminate|]. destruct p; [discriminate|]. apply Step; [exact Wq| |reflexivity]. split.
           ++ intros i j K. exists 1%nat. split; [lia|]. split; [exact I|]. apply power_one. exact K.
           ++ intros i j K. exact K.
        -- destruct (mk_repeat_raw q 1 p) as [y|] eqn:Er; cbn [bind] in H; [|discriminate]. apply raw_ok in Er. destruct Er as [-> By].
           destruct (repeat_items 0 hi l) as [l2|] eqn:El; cbn [bind] in H; [|discriminate]. injection H as <-.
           apply Step; [apply wf_Repeat; auto| |reflexivity].
           assert (K2 : forall i j, s_repeat (D q) 0 p i j -> s_repeat (D q) 1 p i j \/ i = j).
           { intros i j (k & A & B & C). destruct k as [|k]; [right; exact C| left; exists (S k); repeat split; auto; lia]. }
           split.
           ++ intros i j (k & A & B & C). exists k. repeat split; auto; lia.
           ++ cbn [denote]. destruct hi; intros i j K; destruct (K2 i j K) as [K'|K'].
              ** left. exact K'.
              ** right. auto.
              ** exists 1%nat. split; [cbn; lia|]. split; [exact I|]. apply power_one. exact K'.
              ** exists 0%nat. split; [cbn; lia|]. split; [exact I| exact K'].
      * cbn [bind] in H. destruct (repeat_items m hi l) as [l2|] eqn:El; cbn [bind] in H; [|discriminate]. injection H as <-. apply Same. reflexivity.
    + assert (n = 1) by lia. subst n. cbn [bind] in H. destruct (repeat_items m hi l) as [l2|] eqn:El; cbn [bind] in H; [|discriminate]. injection H as <-.
      destruct (is_none hi && is_none p) eqn:NN; [|apply Same; reflexivity].
      destruct hi; [discriminate|]. destruct p; [discriminate|]. apply Step; [exact Wq| |reflexivity]. split.
      * intros i j K. exists 1%nat. split; [lia|]. split; [exact I|]. apply power_one. exact K.
      * intros i j (k & A & B & C). exists k. split; [destruct (m =? 0); lia|]. auto.
    + destruct (is_none hi && is_none p) eqn:NN.
      * exfalso. destruct hi; [discriminate|]. destruct p; [discriminate|]. specialize (NB eq_refl q n (or_introl eq_refl)). destruct Bp. lia.
      * cbn [bind] in H. destruct (repeat_items m hi l) as [l2|] eqn:El; cbn [bind] in H; [|discriminate]. injection H as <-. apply Same. reflexivity.
Qed.
Lemma mulo_spec p hi : bounds_ok 0 p -> bounds_ok 0 hi ->
  match p, hi with Some p', Some m => if truthy p && truthy hi then Some (m * p') else None | _, _ => None end = mulo p hi.
Proof using All.
  intros [_ Hp] [_ Hh]. destruct p as [p|]; [|destruct hi; reflexivity]. destruct hi as [h|]; [|reflexivity]. unfold truthy, mulo.
  replace (p =? 0) with false by lia. replace (h =? 0) with false by lia. reflexivity.
Qed.
Lemma raw_sem r lo hi r' : wf r -> mk_repeat_raw r lo hi = Ok r' -> wf r' /\ same (D r') (s_repeat (D r) lo hi).
Proof using All.
  intros W H. apply raw_ok in H. destruct H as [-> B]. split; [apply wf_Repeat; auto| apply same_refl].
Qed.
Theorem mk_repeat_sem r lo hi r' : wf r -> bounds_ok lo hi -> repeat_ok r lo hi -> mk_repeat same_items r lo hi = Ok r' ->
  wf r' /\ same (D r') (s_repeat (D r) lo hi).
Proof using All.
  intros W B R H. destruct r as [| | | | |t|rs ex|c|c|q n p]; try (apply raw_sem; assumption).
  - cbn [mk_repeat] in H. apply wf_Or in W as W'. destruct W' as [L F].
    destruct (repeat_min_spec c lo (proj1 B)) as (M1 & M2 & M3 & M4). cbv zeta in *. remember (repeat_min c lo) as m eqn:Em. clear Em.
    destruct (repeat_items m hi c) as [l'|] eqn:El; cbn [bind] in H; [|discriminate].
    destruct (repeat_items_spec m hi c l' M1 F M3 M4 R El) as (F' & Nil & Rel1 & Rel2).
    destruct (or_join_sem same_items same_items_ok e dot_ok l' F') as (r2 & E2 & W2 & S2 & Z2). rewrite E2 in H. cbn [bind] in H.
    destruct (raw_sem r2 m hi r' W2 H) as [W' S']. split; [exact W'|]. apply (same_trans _ _ _ S'). cbn [denote]. fold (Dany e c).
    assert (B' : bounds_ok m hi) by (apply raw_ok in H; apply H).
    assert (C1 : incl_s (D r2) (Dany e c)).
    { destruct l' as [|x l']; [|intros i j K; apply Rel1, S2; [discriminate| exact K]]. rewrite (Z2 eq_refl). specialize (Nil eq_refl).
      destruct c as [|y c]; [cbn in L; lia|]. inversion Nil; subst. intros i j K. left. exact K. }
    assert (C2 := rel_mono m hi (Dany e l') (D r2) (Dany e c) ltac:(intros i j K; destruct l' as [|x l']; [destruct K| apply S2; [discriminate| exact K]]) Rel2).
    apply (same_trans _ (s_repeat (Dany e c) m hi)).
    + apply same_sym. destruct (Z.eq_dec m 0) as [->|N].
      * destruct hi as [h|]; [apply repeat_opt; [exact C1| intros i j K; destruct (C2 i j K) as [X|[_ X]]; [left|right]; exact X]|].
        apply (repeat_star _ _ 0 0); auto; lia.
      * destruct hi as [h|].
        -- apply repeat_same. intros i j. split; [intros K; destruct (C2 i j K) as [X|[X _]]; [exact X| contradiction]| apply C1].
        -- apply (repeat_star _ _ m 1); auto; [lia|]. replace (m =? 0) with false in C2 by lia. exact C2.
    + destruct M2 as [->|(-> & i & I1 & I2)]; [apply same_refl|]. apply same_sym, repeat_empty; [|exact B].
      intros a b <-. apply Dany_in. exists i. split; [exact I1|]. destruct I2 as [->|(q & p & ->)]; [reflexivity|].
      exists 0%nat. split; [lia|]. split; [|reflexivity]. rewrite Forall_forall in F. specialize (F _ I1). apply wf_Repeat in F. destruct F as [_ [_ F]]. destruct p; [lia|exact I].
  - apply wf_Repeat in W. destruct W as [Wq Bq]. cbn [mk_repeat] in H.
    destruct (negb ((lo =? 0) && match hi with Some m => m =? 1 | None => false end)) eqn:E.
    + rewrite (mulo_spec p hi) in H by (unfold bounds_ok in *; destruct p, hi; lia).
      destruct (raw_sem _ _ _ _ Wq H) as [W' S']. split; [exact W'|]. apply (same_trans _ _ _ S'). apply same_sym. cbn [denote].
      apply repeat_repeat; auto. destruct R as [[-> ->]|R]; [discriminate E| exact R].
    + apply raw_sem; [apply wf_Repeat; auto| exact H].
Qed.
(** RegexRepeat gives a regex or raises ValueError. *)
Lemma repeat_items_total m hi l : Forall wf l -> (exists l', repeat_items m hi l = Ok l') \/ repeat_items m hi l = Err ValueError.
Proof using All.
  induction l as [|x l IH]; intros W; cbn [repeat_items]; [left; eauto|]. inversion W as [|? ? Wx Wl]; subst. specialize (IH Wl).
  assert (G : forall i, (exists l', (do l' <- repeat_items m hi l; Ok (i :: l')) = Ok l') \/ (do l' <- repeat_items m hi l; Ok (i :: l')) = Err ValueError).
  { intros i. destruct IH as [[l' ->]| ->]; cbn [bind]; eauto. }
  destruct x; try apply G; [exact IH|]. apply wf_Repeat in Wx. destruct Wx as [Wx B].
  match goal with |- context [bind ?t _] => assert (T : (exists i, t = Ok i) \/ t = Err ValueError) end.
  { destruct (rmin =? 0) eqn:E0; [|destruct (rmin =? 1); [left; eauto|]].
    - destruct ((m =? 0) || (m =? 1)); [|left; eauto]. destruct (is_none hi && is_none rmax); [left; eauto|].
      destruct (raw_total x 1 rmax); [unfold bounds_ok in *; destruct rmax; lia| |]; eauto.
    - destruct (is_none hi && is_none rmax) eqn:N; [|left; eauto].
      destruct (raw_total x rmin (Some rmin)); [unfold bounds_ok in *; lia| |]; eauto. }
  destruct T as [[i ->]| ->]; cbn [bind]; [apply G| auto].
Qed.
Lemma repeat_items_wf m hi l : forall l', Forall wf l -> repeat_items m hi l = Ok l' -> Forall wf l'.
Proof using All.
  induction l as [|x l IH]; intros l' F E; cbn [repeat_items] in E; [injection E as <-; constructor|].
  inversion F as [|? ? Fx Fc]; subst.
  assert (Step : forall i, wf i -> (do l' <- repeat_items m hi l; Ok (i :: l')) = Ok l' -> Forall wf l').
  { intros i Wi K. destruct (repeat_items m hi l) as [l2|] eqn:El; cbn [bind] in K; [|discriminate]. injection K as <-. constructor; auto. }
  destruct x; try (apply (Step _ Fx E)); [exact (IH _ Fc E)|]. apply wf_Repeat in Fx as Fx'. destruct Fx' as [Wx B].
  match type of E with bind ?t _ = _ => destruct t as [i|] eqn:T; cbn [bind] in E; [|discriminate] end. apply (Step i); [|exact E].
  assert (RW : forall lo h y, mk_repeat_raw x lo h = Ok y -> wf y) by (intros lo h y K; apply raw_ok in K; destruct K as [-> K]; apply wf_Repeat; auto).
  destruct (rmin =? 0); [|destruct (rmin =? 1)].
  - destruct ((m =? 0) || (m =? 1)); [|injection T as <-; exact Fx]. destruct (is_none hi && is_none rmax); [injection T as <-; exact Wx| exact (RW _ _ _ T)].
  - injection T as <-. destruct (is_none hi && is_none rmax); assumption.
  - destruct (is_none hi && is_none rmax); [exact (RW _ _ _ T)| injection T as <-; exact Fx].
Qed.
Theorem mk_repeat_total r lo hi : wf r -> bounds_ok lo hi -> (exists r', mk_repeat same_items r lo hi = Ok r') \/ mk_repeat same_items r lo hi = Err ValueError.
Proof using All.
  intros W B. assert (G : forall q m h, bounds_ok m h -> (exists r', mk_repeat_raw q m h = Ok r') \/ mk_repeat_raw q m h = Err ValueError).
  { intros q m h K. destruct (raw_total q m h K); eauto. }
  destruct r as [| | | | |t|rs ex|c|c|q n p]; try (apply G; exact B); cbn [mk_repeat].
  - apply wf_Or in W. destruct W as [L F]. destruct (repeat_items_total (repeat_min c lo) hi c F) as [[l' E]|E]; rewrite E; cbn [bind]; [|auto].
    destruct (repeat_min_spec c lo (proj1 B)) as (M1 & M2 & M3 & M4). cbv zeta in *.
    assert (F' := repeat_items_wf _ _ _ _ F E).
    destruct (or_join_sem same_items same_items_ok e dot_ok l' F') as (r2 & E2 & W2 & _ & _). rewrite E2. cbn [bind]. apply G.
    unfold bounds_ok in *. split; [exact M1|]. destruct hi; [|exact I]. destruct M2 as [->|[-> _]]; lia.
  - apply wf_Repeat in W. destruct W as [Wq Bq].
    destruct (negb ((lo =? 0) && match hi with Some m => m =? 1 | None => false end)); [|apply G; exact B].
    rewrite (mulo_spec p hi) by (unfold bounds_ok in *; destruct p, hi; lia). apply G.
    unfold bounds_ok in *. split; [nia|]. destruct p as [p|]; [|exact I]. destruct hi as [h|]; [|exact I]. cbn [mulo]. nia.
Qed.
End Repeat.

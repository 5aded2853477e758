From Verif Require Import Base BaseProofs GapModel GapSpec.
From Coq Require Import Permutation Sorted.
Ltac Zify.zify_post_hook ::= Z.div_mod_to_equations.

Definition le_start (a b : Z * Z) : Prop := fst a <= fst b.
Lemma insert_perm b l : Permutation (b :: l) (insert_block b l).
Proof.
  induction l as [|c l IH]; cbn; [reflexivity|]. destruct (fst c <=? fst b); [|reflexivity].
  rewrite perm_swap. constructor. assumption.
Qed.
Lemma sort_perm_gen l : forall acc, Permutation (acc ++ l) (fold_left (fun acc b => insert_block b acc) l acc).
Proof.
  induction l as [|b l IH]; intros acc; cbn [fold_left]; [rewrite app_nil_r; reflexivity|].
  rewrite <- IH. rewrite <- Permutation_middle. change (b :: acc ++ l) with ((b :: acc) ++ l). apply Permutation_app_tail. apply insert_perm.
Qed.
Lemma sort_perm l : Permutation l (sort_blocks l).
Proof. apply (sort_perm_gen l []). Qed.
Lemma insert_sorted b l : StronglySorted le_start l -> StronglySorted le_start (insert_block b l).
Proof.
  induction 1 as [|c l Hs IH Hc]; cbn; [repeat constructor|]. destruct (fst c <=? fst b) eqn:E.
  - constructor; [assumption|]. rewrite <- (insert_perm b l). constructor; [unfold le_start; lia|assumption].
  - constructor; [constructor; assumption|]. constructor; [unfold le_start; lia|]. eapply Forall_impl; [|exact Hc].
    unfold le_start. intros x Hx. cbn in *. lia.
Qed.
Lemma sort_sorted_gen l : forall acc, StronglySorted le_start acc -> StronglySorted le_start (fold_left (fun acc b => insert_block b acc) l acc).
Proof. induction l as [|b l IH]; intros acc H; cbn [fold_left]; [assumption|]. apply IH. apply insert_sorted. assumption. Qed.
Lemma sort_sorted l : StronglySorted le_start (sort_blocks l).
Proof. apply sort_sorted_gen. constructor. Qed.

Lemma covered_perm a b x : Permutation a b -> covered a x -> covered b x.
Proof. intros H (s & l & Hin & Hx). exists s, l. split; [eapply Permutation_in; eassumption|assumption]. Qed.
Lemma covered_cons b l x : covered (b :: l) x <-> fst b <= x < fst b + snd b \/ covered l x.
Proof.
  split.
  - intros (s & n & [->|H] & Hx); [left; exact Hx|right; exists s, n; auto].
  - intros [H|(s & n & H & Hx)]; [exists (fst b), (snd b); split; [left; destruct b; reflexivity|assumption]|exists s, n; split; [right; assumption|assumption]].
Qed.
(** Where the last gap may end. *)
Definition far (fin : Z) (blocks : list (Z * Z)) : Z := fold_right (fun b m => Z.max (fst b) m) fin blocks.
Lemma far_perm fin a b : Permutation a b -> far fin a = far fin b.
Proof. induction 1; cbn [far fold_right] in *; unfold far in *; lia. Qed.
Lemma far_ge fin l : fin <= far fin l.
Proof. induction l as [|b l IH]; cbn; unfold far in *; lia. Qed.

Lemma gaps_loop_in : forall blocks start fin x, StronglySorted le_start blocks ->
  (covered (gaps_loop start blocks fin) x <-> start <= x < far fin blocks /\ ~ covered blocks x).
Proof.
  induction blocks as [|[s l] blocks IH]; intros start fin x Hs; cbn [gaps_loop far fold_right].
  - destruct (start <? fin) eqn:E.
    + rewrite covered_cons. cbn [fst snd]. split; [|intros [H _]; left; lia].
      intros [H|(? & ? & [] & _)]. split; [lia|]. intros (? & ? & [] & _).
    + split; [intros (? & ? & [] & _)|]. intros [H _]. cbn in H. lia.
  - inversion Hs as [|? ? Hs1 Hs2]; subst. cbn [fst].
    cbv zeta. set (start' := if (if start <? s then s else start) <? s + l then s + l else if start <? s then s else start). specialize (IH start' fin x Hs1).
    change (fold_right (fun (b : Z * Z) (m : Z) => Z.max (fst b) m) fin blocks) with (far fin blocks).
    assert (Hcov : covered blocks x -> s <= x).
    { intros (s' & l' & Hin & Hx). rewrite Forall_forall in Hs2. specialize (Hs2 _ Hin). unfold le_start in Hs2. cbn in Hs2. lia. }
    rewrite covered_cons. cbn [fst snd].
    assert (Hout : covered ((if start <? s then [(start, s - start)] else []) ++ gaps_loop start' blocks fin) x <->
      (start <= x < s \/ covered (gaps_loop start' blocks fin) x)).
    { destruct (start <? s) eqn:E; cbn [app].
      - rewrite covered_cons. cbn [fst snd]. split; (intros [H|H]; [left; lia|right; assumption]).
      - split; [auto|]. intros [H|H]; [lia|assumption]. }
    rewrite Hout, IH. unfold start'. destruct (start <? s) eqn:E1.
    + destruct (s <? s + l) eqn:E2.
      * split.
        -- intros [H|[H1 H2]]; (split; [pose proof (far_ge fin blocks); lia|]); intros [H'|H']; try (specialize (Hcov H')); try lia; contradiction.
        -- intros [H1 H2]. destruct (Z_lt_ge_dec x s); [left; lia|right]. split; [|tauto]. destruct (Z_lt_ge_dec x (s + l)); [exfalso; apply H2; left; lia|lia].
      * split.
        -- intros [H|[H1 H2]]; (split; [pose proof (far_ge fin blocks); lia|]); intros [H'|H']; try (specialize (Hcov H')); try lia; contradiction.
        -- intros [H1 H2]. destruct (Z_lt_ge_dec x s); [left; lia|right]. split; [lia|tauto].
    + destruct (start <? s + l) eqn:E2.
      * split.
        -- intros [H|[H1 H2]]; [lia|]. split; [lia|]. intros [H'|H']; [lia|contradiction].
        -- intros [H1 H2]. right. split; [|tauto]. destruct (Z_lt_ge_dec x (s + l)); [exfalso; apply H2; left; lia|lia].
      * split.
        -- intros [H|[H1 H2]]; [lia|]. split; [lia|]. intros [H'|H']; [lia|contradiction].
        -- intros [H1 H2]. right. split; [lia|tauto].
Qed.
Lemma apart_weaken from from' l : from' <= from -> apart from l -> apart from' l.
Proof. intros H. destruct l as [|[s n] l]; cbn; [auto|]. intros (H1 & H2 & H3). split; [lia|auto]. Qed.
Lemma gaps_loop_apart : forall blocks start fin, StronglySorted le_start blocks -> Forall (fun b => 0 < snd b) blocks ->
  apart start (gaps_loop start blocks fin).
Proof.
  induction blocks as [|[s l] blocks IH]; intros start fin Hs Hp; cbn [gaps_loop].
  - destruct (start <? fin) eqn:E; cbn; [|exact I]. split; [lia|]. split; [lia|exact I].
  - inversion Hs; subst. inversion Hp; subst. cbn in H3. destruct (start <? s) eqn:E1; cbn [app].
    + replace (s <? s + l) with true by lia. cbn [apart]. split; [lia|]. split; [lia|]. eapply apart_weaken; [|apply IH; assumption]. lia.
    + eapply apart_weaken; [|apply IH; assumption]. destruct (start <? s + l) eqn:E2; lia.
Qed.
(** Both ends of a gap are at the edge or next to a covered unit. *)
Lemma gaps_exact start length blocks x : (forall s l, In (s, l) blocks -> s <= start + length) ->
  (covered (getgaps start length blocks) x <-> start <= x < start + length /\ ~ covered blocks x).
Proof.
  intros Hb. unfold getgaps. rewrite gaps_loop_in by apply sort_sorted.
  rewrite <- (far_perm (start + length) _ _ (sort_perm blocks)).
  assert (far (start + length) blocks = start + length).
  { induction blocks as [|[s l] blocks IH]; [reflexivity|]. cbn [far fold_right fst]. fold (far (start + length) blocks). rewrite IH.
    - specialize (Hb s l (or_introl eq_refl)). lia.
    - intros s' l' H. apply (Hb s' l'). right. assumption. }
  rewrite H. split; (intros [H1 H2]; split; [assumption|]; intros H3; apply H2; eapply covered_perm; [|exact H3]).
  - apply sort_perm.
  - symmetry. apply sort_perm.
Qed.
Lemma gaps_apart start length blocks : Forall (fun b => 0 < snd b) blocks -> apart start (getgaps start length blocks).
Proof.
  intros H. apply gaps_loop_apart; [apply sort_sorted|]. eapply Permutation_Forall; [apply sort_perm|assumption].
Qed.
(** In general: gaps may go on up to the start of the last block. *)
Lemma gaps_general start length blocks x :
  covered (getgaps start length blocks) x <->
  start <= x < fold_right (fun b m => Z.max (fst b) m) (start + length) blocks /\ ~ covered blocks x.
Proof.
  unfold getgaps. rewrite gaps_loop_in by apply sort_sorted. rewrite <- (far_perm (start + length) _ _ (sort_perm blocks)).
  split; (intros [H1 H2]; split; [assumption|]; intros H3; apply H2; eapply covered_perm; [|exact H3]).
  - apply sort_perm.
  - symmetry. apply sort_perm.
Qed.
Lemma gaps_loop_positive : forall blocks start fin, Forall (fun g => 0 < snd g) (gaps_loop start blocks fin).
Proof.
  induction blocks as [|[s l] blocks IH]; intros start fin; cbn [gaps_loop].
  - destruct (start <? fin) eqn:E; repeat constructor. cbn. lia.
  - apply Forall_app. split; [|apply IH]. destruct (start <? s) eqn:E; repeat constructor. cbn. lia.
Qed.

(** ** Repair *)
Lemma max_end_ge base : forall l m, max_end base l = Some m -> forall f, In f l -> base + fst f + snd f <= m.
Proof.
  intros [|g l] m; cbn; [discriminate|]. intros E. injection E as <-. intros f.
  assert (H : forall l m0, m0 <= fold_left (fun m g => Z.max m (base + fst g + snd g)) l m0 /\
    forall f, In f l -> base + fst f + snd f <= fold_left (fun m g => Z.max m (base + fst g + snd g)) l m0).
  { induction l0 as [|h l0 IH]; intros m0; cbn [fold_left]; [split; [lia|intros ? []]|].
    destruct (IH (Z.max m0 (base + fst h + snd h))) as [I1 I2]. split; [lia|]. intros f0 [->|Hin]; [lia|auto]. }
  destruct (H l (base + fst g + snd g)) as [H1 H2]. intros [->|Hin]; auto.
Qed.
Lemma covered_shift base l x : covered (map (fun f => (base + fst f, snd f)) l) x <-> covered l (x - base).
Proof.
  split.
  - intros (s & n & Hin & Hx). apply in_map_iff in Hin. destruct Hin as ([s' n'] & E & Hin). injection E as <- <-. cbn in *.
    exists s', n'. split; [assumption|lia].
  - intros (s & n & Hin & Hx). exists (base + s), n. split; [|lia]. apply in_map_iff. exists (s, n). auto.
Qed.
Lemma covered_app a b x : covered (a ++ b) x <-> covered a x \/ covered b x.
Proof.
  split.
  - intros (s & n & Hin & Hx). apply in_app_or in Hin. destruct Hin; [left|right]; exists s, n; auto.
  - intros [(s & n & Hin & Hx)|(s & n & Hin & Hx)]; exists s, n; (split; [apply in_or_app|]); auto.
Qed.
Lemma covered_dec l x : {covered l x} + {~ covered l x}.
Proof.
  induction l as [|[s n] l IH]; [right; intros (? & ? & [] & _)|].
  destruct IH as [IH|IH]; [left; apply covered_cons; right; assumption|].
  destruct (Z_le_gt_dec s x); [destruct (Z_lt_ge_dec x (s + n))|].
  - left. apply covered_cons. left. cbn. lia.
  - right. rewrite covered_cons. cbn. intros [H|H]; [lia|contradiction].
  - right. rewrite covered_cons. cbn. intros [H|H]; [lia|contradiction].
Qed.
Lemma sizes_app a b : sizes (a ++ b) = sizes a + sizes b.
Proof. unfold sizes. induction a as [|x a IH]; cbn [app fold_right]; [reflexivity|]. rewrite IH. lia. Qed.
Lemma sizes_rev a : sizes (rev a) = sizes a.
Proof. induction a as [|x a IH]; [reflexivity|]. cbn [rev]. rewrite sizes_app, IH. unfold sizes. cbn [fold_right]. lia. Qed.
Lemma repair_ok base size cur l l' size' cur' : Forall (fun f => 0 <= snd f) l ->
  fix_seekable base size cur l = Ok (l', size', cur') ->
  size <= size' /\ cur' = size' /\
  exists kept gone gaps, l = kept ++ gone /\ l' = kept ++ gaps /\
    (forall x, covered gaps x <-> 0 <= x < size' /\ ~ covered kept x) /\
    (forall x, 0 <= x < size' -> covered l' x) /\ (forall f, In f l' -> fst f + snd f <= size') /\
    cur - sizes gone <= size /\ (forall f gone', gone = f :: gone' -> size < cur - sizes gone').
Proof.
  intros Hl. unfold fix_seekable.
  assert (Hd : forall m size cur r c, drop_last size m cur = Ok (r, c) -> exists g, m = g ++ r /\
            cur - sizes g <= size /\ (forall f h, g = h ++ [f] -> size < cur - sizes h)).
  { induction m as [|f m IH]; intros sz c0 r c; cbn [drop_last].
    - destruct (sz <? c0) eqn:K; [discriminate|]. intros E. injection E as <- <-. exists []. repeat split; [cbn; lia|].
      intros f h E. destruct h; discriminate.
    - destruct (sz <? c0) eqn:K.
      + intros E. destruct (IH _ _ _ _ E) as (g & -> & H1 & H2). exists (f :: g). split; [reflexivity|]. split; [cbn [sizes fold_right]; unfold sizes in H1; lia|].
        intros f0 h E0. destruct h as [|f1 h].
        * cbn. lia.
        * injection E0 as <- E0. specialize (H2 _ _ E0). cbn [sizes fold_right]. unfold sizes in H2. lia.
      + intros E. injection E as <- <-. exists []. repeat split; [cbn; lia|]. intros f0 h E. destruct h; discriminate. }
  destruct (drop_last size (rev l) cur) as [[r c]|e] eqn:Ed; cbn [bind]; [|discriminate].
  destruct (Hd _ _ _ _ _ Ed) as (g & Eg & Hg1 & Hg2). assert (El : l = rev r ++ rev g) by (rewrite <- rev_app_distr, <- Eg, rev_involutive; reflexivity).
  destruct (max_end base (rev r)) as [m|] eqn:Em; [|discriminate]. intros E. injection E as <- <- <-.
  set (size' := Z.max size (m - base)). split; [unfold size'; lia|]. split; [reflexivity|].
  set (gaps := map (fun g => (fst g - base, snd g)) (getgaps base size' (map (fun f => (base + fst f, snd f)) (rev r)))).
  exists (rev r), (rev g), gaps. split; [assumption|]. split; [reflexivity|].
  assert (Hin : forall f, In f (rev r) -> base + fst f + snd f <= m /\ 0 <= snd f).
  { intros f Hf. split; [eapply max_end_ge; eassumption|]. rewrite Forall_forall in Hl. apply Hl. rewrite El. apply in_or_app. left. assumption. }
  assert (Hg : forall x, covered gaps x <-> 0 <= x < size' /\ ~ covered (rev r) x).
  { intros x. assert (H1 : covered gaps x <-> covered (getgaps base size' (map (fun f => (base + fst f, snd f)) (rev r))) (x + base)).
    { unfold gaps. rewrite (map_ext _ (fun g : Z * Z => (- base + fst g, snd g))) by (intros ?; f_equal; lia).
      rewrite covered_shift. replace (x - - base) with (x + base) by lia. reflexivity. }
    rewrite H1, gaps_exact.
    - rewrite covered_shift. replace (x + base - base) with x by lia. split; (intros [H2 H3]; split; [lia|assumption]).
    - intros s n Hin'. apply in_map_iff in Hin'. destruct Hin' as (f & E & Hf). injection E as <- <-. specialize (Hin f Hf). unfold size'. lia. }
  split; [assumption|]. split; [|split; [|split]].
  - intros x Hx. rewrite covered_app. destruct (covered_dec (rev r) x) as [H|H]; [left; assumption|right]. apply Hg. auto.
  - intros f Hf. apply in_app_or in Hf. destruct Hf as [Hf|Hf].
    + specialize (Hin f Hf). unfold size'. lia.
    + assert (Hpos : 0 < snd f).
      { unfold gaps in Hf. apply in_map_iff in Hf. destruct Hf as (h & <- & Hh). cbn. unfold getgaps in Hh.
        pose proof (gaps_loop_positive (sort_blocks (map (fun f => (base + fst f, snd f)) (rev r))) base (base + size')) as Hp.
        rewrite Forall_forall in Hp. apply Hp. assumption. }
      assert (Hc : covered gaps (fst f + snd f - 1)) by (exists (fst f), (snd f); split; [destruct f; assumption|lia]).
      apply Hg in Hc. lia.
  - rewrite sizes_rev. assumption.
  - intros f gone' E0. specialize (Hg2 f (rev gone')). rewrite sizes_rev in Hg2. apply Hg2.
    rewrite <- (rev_involutive g), E0. reflexivity.
Qed.

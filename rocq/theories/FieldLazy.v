From Verif Require Import Base BaseProofs DictModel DictProofs FieldModel FieldSpec FieldNames FieldProofs FieldProofs2 FieldHist FieldWeak.
Ltac Zify.zify_post_hook ::= Z.div_mod_to_equations.

(** ** Feeding depends on the layout of the fields only *)
Definition same_res {R} (l m : list field) (s : fset) (a b : fset * R) : Prop :=
  fields (fst a) = fields s ++ m /\ b = (set_fields (fst a) (l ++ m), snd a).

Lemma has_name_layout l l' n : layout l = layout l' -> has_name l n = has_name l' n.
Proof.
  intros E. destruct (has_name l n) eqn:H1, (has_name l' n) eqn:H2; try reflexivity; exfalso.
  - apply has_name_in in H1. apply has_name_false in H2. rewrite names_layout in *. congruence.
  - apply has_name_in in H2. apply has_name_false in H1. rewrite names_layout in *. congruence.
Qed.
Lemma has_name_snoc l l' m n : layout l = layout l' -> has_name (l ++ m) n = has_name (l' ++ m) n.
Proof. intros E. apply has_name_layout. rewrite !layout_app. congruence. Qed.

Lemma add_append_layout s l f ask : layout l = layout (fields s) ->
  exists m, same_res l m s (add_append s f ask) (add_append (set_fields s l) f ask).
Proof.
  intros El. unfold add_append. cbn [set_fields fields counts cur fsize resume]. rewrite (has_name_layout _ _ _ El).
  destruct (has_name (fields s) (f_name f)).
  - destruct (unique_name (counts s) (f_name f ++ brackets)) as [n ct]. rewrite (has_name_layout _ _ _ El).
    destruct (has_name (fields s) n).
    + exists []. split; [cbn; rewrite app_nil_r; reflexivity|]. rewrite app_nil_r. reflexivity.
    + eexists [_]. split; reflexivity.
  - eexists [_]. split; reflexivity.
Qed.
Lemma same_nil {R} l s (s' : fset) (r : R) : fields s' = fields s -> same_res l [] s (s', r) (set_fields s' l, r).
Proof. intros E. split; cbn [fst snd]; rewrite app_nil_r; congruence. Qed.
Lemma add_check_layout autofix room s l f ask : layout l = layout (fields s) ->
  exists m, same_res l m s (add_check autofix room s f ask) (add_check autofix room (set_fields s l) f ask).
Proof.
  intros El. unfold add_check, avail. cbn [set_fields fields counts cur fsize resume].
  set (z := match fsize s with Some z => z | None => room end).
  destruct ((z - (f_addr f + f_size f) <? 0) || _); [|apply add_append_layout; assumption].
  destruct (autofix && negb (cur s =? 0)); [|exists []; apply same_nil; reflexivity].
  destruct (0 <? f_size f + (z - (f_addr f + f_size f))); [|exists []; apply same_nil; reflexivity].
  assert (Hb : forall n, exists m, same_res l m s
     (MkSet (fields s) (match fsize s with None => Some (cur s + n) | z => z end) (cur s) (counts s) (resume s), AddStop)
     (MkSet l (match fsize s with None => Some (cur s + n) | z => z end) (cur s) (counts s) (resume s), AddStop)).
  { intros n. exists []. apply (same_nil l s (MkSet (fields s) _ (cur s) (counts s) (resume s))). reflexivity. }
  destruct f as [n a fz|n a x]; [apply Hb|]. destruct (0 <? f_size (FSet n a x)); [|apply Hb].
  destruct (truncate x _) as [x'|e]; [apply add_append_layout; assumption|exists []; apply same_nil; reflexivity].
Qed.
Lemma add_field_layout autofix room x s l : layout l = layout (fields s) ->
  exists m, same_res l m s (add_field autofix room x s) (add_field autofix room x (set_fields s l)).
Proof.
  intros El. destruct x as [n z|n z g]; cbn [add_field s_name]; cbn [set_fields counts];
  destruct (if ends_brackets n then unique_name (counts s) n else (n, counts s)) as [n' ct];
  cbn [with_counts fields fsize cur counts resume].
  - apply (add_check_layout autofix room (with_counts s ct) l); assumption.
  - destruct z as [z|]; [apply (add_check_layout autofix room (with_counts s ct) l); assumption|].
    change (avail room (with_counts (set_fields s l) ct)) with (avail room (with_counts s ct)).
    change (cur (set_fields s l)) with (cur s). set (room' := avail room (with_counts s ct) - cur s).
    destruct (feed autofix (fun _ => false) true room' g (MkSet [] None 0 [] (Some (fun _ => g)))) as [c [f|o|e]].
    1, 2: apply (add_check_layout autofix room (with_counts s ct) l); assumption.
    assert (Hb : forall e, exists m, same_res l m s (with_counts s ct, AddErr e)
       (MkSet l (fsize s) (cur s) ct (resume s), AddErr e)).
    { intros e'. exists []. apply (same_nil l s (with_counts s ct)). reflexivity. }
    destruct (negb (zlen (fields c) =? 0) && (avail room' c - (cur c + 1) <? 0)); [|apply Hb].
    destruct (stop_feeding autofix true c) as [c' [o|e']]; [|apply Hb].
    apply (add_check_layout autofix room (with_counts s ct) l); assumption.
Qed.
Lemma fix_last_layout z s l : wpre s -> fsize s = Some z -> layout l = layout (fields s) ->
  exists m, same_res l m s (fix_last z s) (fix_last z (set_fields s l)).
Proof.
  intros Hp Hz El. unfold fix_last. destruct Hp as [H2 H3 H4 H5 H6]. rewrite Hz in H6. cbn [set_fields fields counts cur fsize resume].
  rewrite !delete_none by assumption. rewrite !rev_involutive, (has_name_layout _ _ _ El).
  destruct (z - cur s =? 0); [exists []; split; cbn; rewrite ?app_nil_r; reflexivity|].
  destruct (z - cur s <=? 0); [exists []; split; cbn; rewrite ?app_nil_r; reflexivity|].
  destruct (has_name (fields s) raw_name); [exists []; split; cbn; rewrite ?app_nil_r; reflexivity|].
  eexists [_]. split; reflexivity.
Qed.
Lemma same_feed_end l m s a b : same_res l m s a b -> same_res l m s (feed_end a) (feed_end b).
Proof. destruct a as [s1 [o|e]]; intros [H1 ->]; split; auto. Qed.
Lemma stop_layout autofix hasp s l : wpre s -> layout l = layout (fields s) ->
  exists m, same_res l m s (stop_feeding autofix hasp s) (stop_feeding autofix hasp (set_fields s l)).
Proof.
  intros Hp El. unfold stop_feeding. cbn [set_fields fields counts cur fsize resume]. destruct (fsize s) as [z|] eqn:Ez.
  - destruct (negb (z =? cur s)).
    + destruct autofix.
      * apply fix_last_layout; assumption.
      * exists []. apply same_nil. reflexivity.
    + exists []. apply (same_nil l s (with_resume s None)). reflexivity.
  - exists []. apply (same_nil l s (MkSet (fields s) _ (cur s) (counts s) None)). reflexivity.
Qed.
Lemma error_layout autofix s l e : wpre s -> layout l = layout (fields s) ->
  exists m, same_res l m s (fix_feed_error autofix s e) (fix_feed_error autofix (set_fields s l) e).
Proof.
  intros Hp El. unfold fix_feed_error. cbn [set_fields fsize]. destruct (fsize s) as [z|] eqn:Ez.
  - destruct autofix.
    + apply fix_last_layout; assumption.
    + exists []. apply same_nil. reflexivity.
  - exists []. apply same_nil. reflexivity.
Qed.
Lemma same_trans {R} l m m' s s1 (a b : fset * R) : fields s1 = fields s ++ m ->
  same_res (l ++ m) m' s1 a b -> same_res l (m ++ m') s a b.
Proof. intros E [H1 H2]. split; [rewrite H1, E, app_assoc; reflexivity|rewrite H2, app_assoc; reflexivity]. Qed.

Lemma feed_layout autofix p hasp room : forall g s l, wpre s -> layout l = layout (fields s) ->
  exists m, same_res l m s (feed autofix p hasp room g s) (feed autofix p hasp room g (set_fields s l)).
Proof.
  fix IH 1. intros g s l Hp El. destruct g as [|e|x k]; cbn [feed].
  - destruct (stop_layout autofix hasp (with_resume s (Some (fun _ => GStop))) l) as (m & H); [eapply wpre_ext; [eassumption|reflexivity..]|assumption|].
    exists m. apply same_feed_end. exact H.
  - destruct (error_layout autofix (with_resume s (Some (fun _ => GStop))) l e) as (m & H); [eapply wpre_ext; [eassumption|reflexivity..]|assumption|].
    exists m. apply same_feed_end. exact H.
  - assert (Hp' : wpre (with_resume s (Some k))) by (eapply wpre_ext; [eassumption|reflexivity..]).
    pose proof (proj2 wfeed x autofix room _ Hp') as Ha.
    destruct (add_field_layout autofix room x (with_resume s (Some k)) l El) as (m & Hm1 & Hm2).
    change (with_resume (set_fields s l) (Some k)) with (set_fields (with_resume s (Some k)) l). rewrite Hm2.
    destruct (add_field autofix room x (with_resume s (Some k))) as [s1 r]. cbn [fst snd] in *. destruct Ha as (A1 & _).
    cbn [with_resume fields] in Hm1.
    assert (El1 : layout (l ++ m) = layout (fields s1)) by (rewrite Hm1, !layout_app; congruence).
    destruct r as [f| |e].
    + destruct (p f).
      * exists m. split; [assumption|reflexivity].
      * replace (view_of room (set_fields s1 (l ++ m))) with (view_of room s1) by (unfold view_of; cbn [set_fields fields fsize avail]; rewrite El1; reflexivity).
        destruct (IH (k (view_of room s1)) s1 (l ++ m) A1 El1) as (m' & H). exists (m ++ m'). eapply same_trans; eassumption.
    + destruct (stop_layout autofix hasp s1 (l ++ m) A1 El1) as (m' & H). exists (m ++ m'). eapply same_trans; [eassumption|]. apply same_feed_end. assumption.
    + destruct (error_layout autofix s1 (l ++ m) e A1 El1) as (m' & H). exists (m ++ m'). eapply same_trans; [eassumption|]. apply same_feed_end. assumption.
Qed.
Lemma step_layout autofix hasp s l z : sane z s -> layout l = layout (fields s) ->
  exists m, same_res l m s (step autofix hasp s) (step autofix hasp (set_fields s l)).
Proof.
  intros [Hg Hz] El. unfold step, feed_from. cbn [set_fields resume]. destruct (resume s) as [k|] eqn:Ek.
  - pose proof (wset_wpre _ _ Hg Ek) as Hp.
    replace (view_of 0 (set_fields s l)) with (view_of 0 s) by (unfold view_of; cbn [set_fields fields fsize avail]; rewrite El; reflexivity).
    apply feed_layout; auto.
  - exists []. apply same_nil. reflexivity.
Qed.

(** ** A sized set does not look at its parent *)
Lemma stop_hasp autofix s z : fsize s = Some z -> stop_feeding autofix false s = stop_feeding autofix true s.
Proof. intros E. unfold stop_feeding. rewrite E. reflexivity. Qed.
Lemma feed_hasp autofix p room : forall g s z, wpre s -> fsize s = Some z ->
  feed autofix p false room g s = feed autofix p true room g s.
Proof.
  fix IH 1. intros g s z Hp Hz. destruct g as [|e|x k]; cbn [feed].
  - f_equal. eapply stop_hasp. cbn. eassumption.
  - reflexivity.
  - assert (Hp' : wpre (with_resume s (Some k))) by (eapply wpre_ext; [eassumption|reflexivity..]).
    pose proof (proj2 wfeed x autofix room _ Hp') as Ha.
    destruct (add_field autofix room x (with_resume s (Some k))) as [s1 [f| |e]]; destruct Ha as (A1 & A2 & A3 & _).
    + destruct (p f); [reflexivity|]. eapply IH; [assumption|]. apply A3. cbn. eassumption.
    + f_equal. eapply stop_hasp. apply A3. cbn. eassumption.
    + reflexivity.
Qed.
Lemma feed_from_hasp autofix p hasp s z : sane z s -> feed_from autofix p hasp s = feed_from autofix p true s.
Proof.
  intros [Hg Hz]. destruct hasp; [reflexivity|]. unfold feed_from. destruct (resume s) as [k|] eqn:Ek; [|reflexivity].
  pose proof (wset_wpre _ _ Hg Ek) as Hp. eapply feed_hasp; eauto.
Qed.

(** ** Every loop is a number of steps *)
Definition next (autofix : bool) (s : fset) : fset := fst (step autofix true s).
Fixpoint steps (autofix : bool) (n : nat) (s : fset) : fset :=
  match n with O => s | S n => steps autofix n (next autofix s) end.
Lemma next_sane autofix s z : sane z s -> sane z (next autofix s).
Proof.
  intros Hs. pose proof (sane_feed autofix (fun _ => true) true s z Hs) as H. unfold next, step.
  destruct (feed_from autofix (fun _ => true) true s). apply H.
Qed.
Lemma next_prefix autofix s z : sane z s -> prefix (fields s) (fields (next autofix s)).
Proof.
  intros Hs. pose proof (sane_feed autofix (fun _ => true) true s z Hs) as H. unfold next, step.
  destruct (feed_from autofix (fun _ => true) true s). apply H.
Qed.
Lemma steps_sane autofix n : forall s z, sane z s -> sane z (steps autofix n s).
Proof. induction n as [|n IH]; intros s z Hs; cbn [steps]; [assumption|]. apply IH. apply next_sane. assumption. Qed.
Lemma steps_prefix autofix n : forall s z, sane z s -> prefix (fields s) (fields (steps autofix n s)).
Proof.
  induction n as [|n IH]; intros s z Hs; cbn [steps]; [apply prefix_refl|].
  eapply prefix_trans; [eapply next_prefix; eassumption|]. eapply IH. apply next_sane. eassumption.
Qed.
Lemma steps_add autofix n : forall m s, steps autofix (n + m) s = steps autofix m (steps autofix n s).
Proof. induction n as [|n IH]; intros m s; cbn [steps Nat.add]; auto. Qed.
Lemma next_done autofix s : resume s = None -> next autofix s = s.
Proof. intros E. unfold next, step, feed_from. rewrite E. reflexivity. Qed.
Lemma steps_done autofix n s : resume s = None -> steps autofix n s = s.
Proof. intros E. induction n as [|n IH]; cbn [steps]; [reflexivity|]. rewrite next_done; assumption. Qed.

(** A loop with another stopping condition goes on where [step] stops. *)
Lemma feed_step autofix p : forall g s z, wpre s -> fsize s = Some z ->
  feed autofix p true 0 g s =
  match feed autofix (fun _ => true) true 0 g s with
  | (s1, FFound f) => if p f then (s1, FFound f) else feed_from autofix p true s1
  | x => x
  end.
Proof.
  intros g s z Hp Hz. destruct g as [|e|x k]; cbn [feed].
  - destruct (stop_feeding autofix true (with_resume s (Some (fun _ => GStop)))) as [s1 [o|e]]; reflexivity.
  - destruct (fix_feed_error autofix (with_resume s (Some (fun _ => GStop))) e) as [s1 [o|e']]; reflexivity.
  - assert (Hp' : wpre (with_resume s (Some k))) by (eapply wpre_ext; [eassumption|reflexivity..]).
    pose proof (proj2 wfeed x autofix 0 _ Hp') as Ha.
    destruct (add_field autofix 0 x (with_resume s (Some k))) as [s1 [f| |e]]; destruct Ha as (A1 & A2 & A3 & _).
    + destruct (p f); [reflexivity|]. unfold feed_from. cbn in A2. rewrite A2. reflexivity.
    + destruct (stop_feeding autofix true s1) as [s2 [o|e]]; reflexivity.
    + destruct (fix_feed_error autofix s1 e) as [s2 [o|e']]; reflexivity.
Qed.
Lemma feed_steps autofix p : forall g s z, wpre s -> fsize s = Some z ->
  exists n, fst (feed autofix p true 0 g s) = steps autofix n (fst (feed autofix (fun _ => true) true 0 g s)).
Proof.
  fix IH 1. intros g s z Hp Hz. destruct g as [|e|x k]; cbn [feed].
  - exists O. reflexivity.
  - exists O. reflexivity.
  - assert (Hp' : wpre (with_resume s (Some k))) by (eapply wpre_ext; [eassumption|reflexivity..]).
    pose proof (proj2 wfeed x autofix 0 _ Hp') as Ha.
    destruct (add_field autofix 0 x (with_resume s (Some k))) as [s1 [f| |e]]; destruct Ha as (A1 & A2 & A3 & _).
    + destruct (p f); [exists O; reflexivity|]. cbn [fst].
      destruct (IH (k (view_of 0 s1)) s1 z A1) as (n & Hn); [apply A3; cbn; assumption|].
      exists (S n). cbn [steps]. rewrite Hn. f_equal. unfold next, step, feed_from. cbn in A2. rewrite A2. reflexivity.
    + exists O. reflexivity.
    + exists O. reflexivity.
Qed.
Lemma feed_from_steps autofix p hasp s z : sane z s -> exists n, fst (feed_from autofix p hasp s) = steps autofix n s.
Proof.
  intros Hs. rewrite (feed_from_hasp autofix p hasp s z Hs). destruct Hs as [Hg Hz]. unfold feed_from.
  destruct (resume s) as [k|] eqn:Ek; [|exists O; reflexivity]. pose proof (wset_wpre _ _ Hg Ek) as Hp.
  destruct (feed_steps autofix p (k (view_of 0 s)) s z Hp Hz) as (n & Hn). exists (S n). cbn [steps]. rewrite Hn.
  f_equal. unfold next, step, feed_from. rewrite Ek. reflexivity.
Qed.
Lemma read_more_steps autofix hasp k : forall s z, sane z s -> exists n, fst (read_more autofix hasp k s) = steps autofix n s.
Proof.
  induction k as [|k IH]; intros s z Hs; cbn [read_more]; [exists O; reflexivity|].
  destruct (resume s) eqn:Er; [|exists O; reflexivity]. unfold step. rewrite (feed_from_hasp autofix (fun _ => true) hasp s z Hs).
  assert (Hn : forall s1 r, feed_from autofix (fun _ => true) true s = (s1, r) -> s1 = next autofix s).
  { intros s1 r E. unfold next, step. rewrite E. reflexivity. }
  destruct (feed_from autofix (fun _ => true) true s) as [s1 [f|o|e]] eqn:E.
  - rewrite (Hn _ _ eq_refl). destruct (IH (next autofix s) z (next_sane _ _ _ Hs)) as (n & H). exists (S n). assumption.
  - exists 1%nat. exact (Hn _ _ eq_refl).
  - exists 1%nat. exact (Hn _ _ eq_refl).
Qed.

Lemma wfield_set n a x : wfield (FSet n a x) -> exists z, sane z x /\ 0 < z.
Proof. intros H. inversion H; subst. exists z. split; [split; assumption|assumption]. Qed.
(** ** Histories *)
(** [s] comes from [s0] by steps, here and in the sets below. *)
Inductive evolves (autofix : bool) : fset -> fset -> Prop :=
| ev n z s0 l : sane z s0 -> evl autofix (fields (steps autofix n s0)) l ->
    evolves autofix s0 (set_fields (steps autofix n s0) l)
with evl (autofix : bool) : list field -> list field -> Prop :=
| evl_nil : evl autofix [] []
| evl_leaf n a z l l' : evl autofix l l' -> evl autofix (FLeaf n a z :: l) (FLeaf n a z :: l')
| evl_set n a x x' l l' : evolves autofix x x' -> evl autofix l l' -> evl autofix (FSet n a x :: l) (FSet n a x' :: l').
Scheme evolves_mut := Induction for evolves Sort Prop with evl_mut := Induction for evl Sort Prop.
Combined Scheme ev_ind2 from evolves_mut, evl_mut.

Lemma set_fields_id s : set_fields s (fields s) = s.
Proof. destruct s; reflexivity. Qed.
Lemma ev_refl autofix s : forall z, sane z s -> evolves autofix s s.
Proof.
  induction s as [l z0 c ct r IH] using fset_ind'. intros z Hs.
  rewrite <- (set_fields_id (MkSet l z0 c ct r)) at 2. change (MkSet l z0 c ct r) with (steps autofix 0 (MkSet l z0 c ct r)) at 2.
  apply (ev autofix 0 z); [assumption|]. cbn [fields steps]. destruct Hs as [Hg _].
  assert (Hl : Forall wfield l) by (inversion Hg; assumption). clear Hg.
  induction l as [|f l IHl]; [constructor|]. inversion Hl; subst.
  assert (Hrec : evl autofix l l) by (apply IHl; [intros n a x Hin; apply (IH n a x); right; assumption|assumption]).
  destruct f as [n a fz|n a x]; constructor; try assumption.
  destruct (wfield_set _ _ _ H1) as (z1 & Hx & _). apply (IH n a x) with z1; [left; reflexivity|assumption].
Qed.
Lemma evl_refl autofix l : Forall wfield l -> evl autofix l l.
Proof.
  induction l as [|f l IH]; intros H; [constructor|]. inversion H; subst. destruct f as [n a fz|n a x]; constructor; auto.
  destruct (wfield_set _ _ _ H2) as (z1 & Hx & _). eapply ev_refl. eassumption.
Qed.
Lemma evl_app autofix l1 l2 m1 m2 : evl autofix l1 l2 -> evl autofix m1 m2 -> evl autofix (l1 ++ m1) (l2 ++ m2).
Proof. induction 1; intros Hm; cbn [app]; try constructor; auto. Qed.
Lemma sane_good z s : sane z s -> Forall wfield (fields s).
Proof. intros [Hg _]. destruct Hg. assumption. Qed.
Lemma ev_sane autofix :
  (forall s0 s, evolves autofix s0 s -> exists z, sane z s0 /\ sane z s) /\
  (forall l l', evl autofix l l' -> layout l' = layout l /\ (Forall wfield l -> Forall wfield l')).
Proof.
  apply ev_ind2.
  - intros n z s0 l Hs Hl [IH1 IH2]. exists z. split; [assumption|]. pose proof (steps_sane autofix n s0 z Hs) as Hs'.
    apply sane_put; [assumption| |assumption]. eapply Forall_impl; [exact wfield_okf|]. apply IH2; eapply sane_good; eassumption.
  - auto.
  - intros n a z l l' Hl [IH1 IH2]. split; [cbn; f_equal; assumption|]. intros H. inversion H; subst. constructor; auto.
  - intros n a x x' l l' Hx (z & Hz1 & Hz2) Hl [IH1 IH2]. split.
    + cbn. f_equal; [|assumption]. destruct Hz1 as [_ ->], Hz2 as [_ ->]. reflexivity.
    + intros H. inversion H; subst. constructor; [|auto]. destruct (wfield_set _ _ _ H2) as (z1 & [H41 H42] & H5).
      destruct Hz1 as [_ Hz1], Hz2 as [Hg2 Hz2]. rewrite Hz1 in H42. injection H42 as ->. econstructor; eassumption.
Qed.
Lemma ev_next autofix s0 s : evolves autofix s0 s -> evolves autofix s0 (next autofix s).
Proof.
  intros H. destruct H as [n z s0 l Hs Hl]. pose proof (steps_sane autofix n s0 z Hs) as Hs'.
  destruct (proj2 (ev_sane autofix) _ _ Hl) as [El _].
  destruct (step_layout autofix true (steps autofix n s0) l z Hs' El) as (m & Hm1 & Hm2).
  unfold next. rewrite Hm2. cbn [fst].
  assert (E : fst (step autofix true (steps autofix n s0)) = steps autofix (n + 1) s0) by (rewrite steps_add; reflexivity).
  rewrite E. rewrite E in Hm1. apply (ev autofix (n + 1) z); [assumption|]. rewrite Hm1.
  apply evl_app; [assumption|]. apply evl_refl.
  pose proof (sane_good _ _ (steps_sane autofix (n + 1) s0 z Hs)) as Hg. rewrite Hm1 in Hg. apply Forall_app in Hg. apply Hg.
Qed.
Lemma ev_steps autofix n : forall s0 s, evolves autofix s0 s -> evolves autofix s0 (steps autofix n s).
Proof. induction n as [|n IH]; intros s0 s H; cbn [steps]; [assumption|]. apply IH. apply ev_next. assumption. Qed.
Lemma ev_in_child autofix n h : (forall x0 x, evolves autofix x0 x -> evolves autofix x0 (fst (h x))) ->
  forall l l', evl autofix l l' -> evl autofix l (fst (in_child n h l')).
Proof.
  intros Hh. induction 1; cbn [in_child fst]; [constructor| |].
  - cbn [f_name]. destruct (str_eqb n n0); cbn [fst]; [constructor; assumption|]. destruct (in_child n h l') as [l2 r]. constructor. assumption.
  - cbn [f_name]. destruct (str_eqb n n0).
    + specialize (Hh _ _ H). destruct (h x') as [x2 r]. cbn [fst] in *. constructor; assumption.
    + destruct (in_child n h l') as [l2 r]. cbn [fst] in *. constructor; assumption.
Qed.
Lemma ev_access autofix a : forall hasp s0 s, evolves autofix s0 s -> evolves autofix s0 (fst (do_access autofix hasp a s)).
Proof.
  assert (Hf : forall p hasp s0 s, evolves autofix s0 s -> evolves autofix s0 (fst (feed_from autofix p hasp s))).
  { intros p hasp s0 s H. destruct (proj1 (ev_sane autofix) _ _ H) as (z & _ & Hs).
    destruct (feed_from_steps autofix p hasp s z Hs) as (n & ->). apply ev_steps. assumption. }
  assert (Hm : forall k hasp s0 s, evolves autofix s0 s -> evolves autofix s0 (fst (read_more autofix hasp k s))).
  { intros k hasp s0 s H. destruct (proj1 (ev_sane autofix) _ _ H) as (z & _ & Hs).
    destruct (read_more_steps autofix hasp k s z Hs) as (n & ->). apply ev_steps. assumption. }
  induction a; intros hasp s0 s H; cbn [do_access].
  - specialize (Hf (fun _ => false) hasp s0 s H). destruct (feed_from autofix (fun _ => false) hasp s). assumption.
  - specialize (Hf (fun _ => false) hasp s0 s H). destruct (feed_from autofix (fun _ => false) hasp s). assumption.
  - destruct (fsize s); [assumption|]. specialize (Hf (fun _ => false) hasp s0 s H). destruct (feed_from autofix (fun _ => false) hasp s). assumption.
  - unfold get_name. destruct (find_name (fields s) n); [assumption|]. destruct (resume s); [|assumption].
    specialize (Hf (fun f => str_eqb (f_name f) n) hasp s0 s H).
    destruct (feed_from autofix (fun f => str_eqb (f_name f) n) hasp s) as [s1 [f|o|e]]; assumption.
  - unfold get_index. destruct (i <? 0); [assumption|]. specialize (Hm (Z.to_nat (i + 1 - zlen (fields s))) hasp s0 s H).
    destruct (read_more autofix hasp (Z.to_nat (i + 1 - zlen (fields s))) s) as [s1 [e|]]; [assumption|].
    destruct (nth_error (fields s1) (Z.to_nat i)); assumption.
  - specialize (Hm n hasp s0 s H). destruct (read_more autofix hasp n s) as [s1 r]. assumption.
  - unfold iter_next. destruct (nth_error (fields s) done); [assumption|]. destruct (resume s); [|assumption].
    specialize (Hf (fun _ => true) hasp s0 s H). unfold step. destruct (feed_from autofix (fun _ => true) hasp s) as [s1 [f|[o|]|e]]; assumption.
  - destruct H as [k z s0 l Hs Hl]. cbn [set_fields fields].
    pose proof (ev_in_child autofix n (do_access autofix true a) (IHa true) _ _ Hl) as H.
    destruct (in_child n (do_access autofix true a) l) as [l2 r]. cbn [fst] in *. apply (ev autofix k z s0 l2); assumption.
Qed.
Lemma ev_accesses autofix ops : forall s0 s, evolves autofix s0 s -> evolves autofix s0 (fst (do_accesses autofix ops s)).
Proof.
  induction ops as [|a ops IH]; intros s0 s H; cbn [do_accesses]; [assumption|].
  pose proof (ev_access autofix a false s0 s H) as H1. destruct (do_access autofix false a s) as [s1 r]. cbn [fst] in H1.
  specialize (IH _ _ H1). destruct (do_accesses autofix ops s1). assumption.
Qed.

(** ** Two histories *)
Lemma evl_find autofix n : forall l l', evl autofix l l' ->
  match find_name l' n with
  | Some (FSet fn fa x') => exists x, find_name l n = Some (FSet fn fa x) /\ evolves autofix x x'
  | Some (FLeaf fn fa z) => find_name l n = Some (FLeaf fn fa z)
  | None => find_name l n = None
  end.
Proof.
  unfold find_name. induction 1; cbn [find]; [reflexivity| |]; cbn [f_name]; destruct (str_eqb n n0); auto. eauto.
Qed.
Lemma find_prefix l m n f : find_name l n = Some f -> find_name (l ++ m) n = Some f.
Proof.
  unfold find_name. induction l as [|g l IH]; cbn [find app]; [discriminate|]. destruct (str_eqb n (f_name g)); auto.
Qed.
Lemma steps_find autofix n1 n2 s0 z n f1 f2 : sane z s0 ->
  find_name (fields (steps autofix n1 s0)) n = Some f1 -> find_name (fields (steps autofix n2 s0)) n = Some f2 -> f1 = f2.
Proof.
  intros Hs H1 H2.
  assert (Hm : forall a b, (a <= b)%nat -> exists m, fields (steps autofix b s0) = fields (steps autofix a s0) ++ m).
  { intros a b Hab. replace b with (a + (b - a))%nat by lia. rewrite steps_add.
    destruct (steps_prefix autofix (b - a) (steps autofix a s0) z (steps_sane _ _ _ _ Hs)) as (m & ->). eauto. }
  destruct (Nat.le_ge_cases n1 n2) as [H|H]; destruct (Hm _ _ H) as (m & Em); rewrite Em in *.
  - rewrite (find_prefix _ _ _ _ H1) in H2. congruence.
  - rewrite (find_prefix _ _ _ _ H2) in H1. congruence.
Qed.
Lemma ev_compare autofix path : forall s0 t1 t2 s1 s2, evolves autofix s0 t1 -> evolves autofix s0 t2 ->
  set_at path t1 = Some s1 -> set_at path t2 = Some s2 -> exists s0', evolves autofix s0' s1 /\ evolves autofix s0' s2.
Proof.
  induction path as [|n path IH]; intros s0 t1 t2 s1 s2 H1 H2; cbn [set_at].
  - intros E1 E2. injection E1 as <-. injection E2 as <-. eauto.
  - destruct H1 as [n1 z s0 l1 Hs Hl1]. inversion H2; subst. rename n0 into n2, l into l2, H0 into Hl2.
    cbn [set_fields fields].
    pose proof (evl_find autofix n _ _ Hl1) as F1. pose proof (evl_find autofix n _ _ Hl2) as F2.
    destruct (find_name l1 n) as [[fn1 fa1 z1|fn1 fa1 x1]|]; try discriminate.
    destruct (find_name l2 n) as [[fn2 fa2 z2|fn2 fa2 x2]|]; try discriminate.
    destruct F1 as (y1 & F1 & G1). destruct F2 as (y2 & F2 & G2).
    pose proof (steps_find autofix n1 n2 s0 z n _ _ Hs F1 F2) as E. injection E as -> -> ->.
    intros E1 E2. exact (IH _ _ _ _ _ G1 G2 E1 E2).
Qed.
Definition one_then (autofix : bool) (s1 s2 : fset) : Prop :=
  fsize s1 = fsize s2 /\
  (prefix (layout (fields s1)) (layout (fields s2)) \/ prefix (layout (fields s2)) (layout (fields s1))) /\
  (done s1 -> prefix (layout (fields s2)) (layout (fields s1))).
Lemma ev_layouts autofix s0 s1 s2 : evolves autofix s0 s1 -> evolves autofix s0 s2 -> one_then autofix s1 s2.
Proof.
  intros H1 H2. destruct H1 as [n1 z s0 l1 Hs Hl1]. inversion H2; subst. rename n into n2, l into l2, H0 into Hl2.
  destruct (proj2 (ev_sane autofix) _ _ Hl1) as [E1 _]. destruct (proj2 (ev_sane autofix) _ _ Hl2) as [E2 _].
  unfold one_then, done. cbn [set_fields fields fsize resume]. rewrite E1, E2.
  assert (Hm : forall a b, (a <= b)%nat -> prefix (layout (fields (steps autofix a s0))) (layout (fields (steps autofix b s0)))).
  { intros a b Hab. replace b with (a + (b - a))%nat by lia. rewrite steps_add.
    destruct (steps_prefix autofix (b - a) (steps autofix a s0) z (steps_sane _ _ _ _ Hs)) as (m & ->). rewrite layout_app. apply prefix_app. }
  split; [destruct (steps_sane autofix n1 s0 z Hs) as [_ ->], (steps_sane autofix n2 s0 z Hs) as [_ ->]; reflexivity|].
  split; [destruct (Nat.le_ge_cases n1 n2) as [Hle|Hle]; auto|].
  intros Hd. destruct (Nat.le_ge_cases n1 n2) as [Hle|Hle]; [|auto].
  replace n2 with (n1 + (n2 - n1))%nat by lia. rewrite steps_add, (steps_done autofix (n2 - n1)) by assumption. apply prefix_refl.
Qed.
Lemma lazy_lemma g size autofix ops1 ops2 path s1 s2 : 0 < size ->
  set_at path (fst (do_accesses autofix ops1 (root_set g size))) = Some s1 ->
  set_at path (fst (do_accesses autofix ops2 (root_set g size))) = Some s2 ->
  fsize s1 = fsize s2 /\
  (prefix (layout (fields s1)) (layout (fields s2)) \/ prefix (layout (fields s2)) (layout (fields s1))) /\
  (done s1 -> prefix (layout (fields s2)) (layout (fields s1))).
Proof.
  intros Hs H1 H2. pose proof (ev_refl autofix _ _ (root_sane g size Hs)) as Hr.
  pose proof (ev_accesses autofix ops1 _ _ Hr) as E1. pose proof (ev_accesses autofix ops2 _ _ Hr) as E2.
  destruct (ev_compare autofix path _ _ _ _ _ E1 E2 H1 H2) as (s0 & G1 & G2). exact (ev_layouts autofix s0 s1 s2 G1 G2).
Qed.

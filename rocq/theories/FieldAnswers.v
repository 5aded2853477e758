From Verif Require Import Base BaseProofs DictModel DictProofs FieldModel FieldSpec FieldNames FieldProofs FieldProofs2 FieldHist FieldProofs3 FieldWeak FieldLazy.
Ltac Zify.zify_post_hook ::= Z.div_mod_to_equations.

(** ** What the finished set looks like (autofix on) *)
Definition final (s : fset) : list (str * Z * Z) := layout (fields (fst (feed_from true (fun _ => false) true s))).

Lemma prefix_antisym {A} (a b : list A) : prefix a b -> prefix b a -> a = b.
Proof.
  intros (x & ->) (y & E). rewrite <- app_assoc in E. rewrite <- (app_nil_r a) in E at 1. apply app_inv_head in E.
  symmetry in E. apply app_eq_nil in E. destruct E as [-> _]. rewrite app_nil_r. reflexivity.
Qed.
Lemma feed_all s z p : sane z s -> (forall f, p f = false) ->
  exists s' o, feed_from true p true s = (s', FEnd o) /\ sane z s' /\ done s'.
Proof.
  intros Hs Hp. pose proof (sane_feed true p true s z Hs) as H.
  destruct (feed_from true p true s) as [s' [f|o|e]]; destruct H as (H1 & H2 & H3).
  - destruct H3 as [H3 _]. rewrite Hp in H3. discriminate.
  - eauto.
  - destruct H3; discriminate.
Qed.
Lemma ev_final s0 s : evolves true s0 s -> final s = final s0.
Proof.
  intros H. destruct (proj1 (ev_sane true) _ _ H) as (z & Hs0 & Hs).
  pose proof (ev_access true AAll true s0 s H) as E1. pose proof (ev_access true AAll true s0 s0 (ev_refl true s0 z Hs0)) as E2.
  cbn [do_access] in E1, E2. unfold final.
  destruct (feed_all s z (fun _ => false) Hs (fun _ => eq_refl)) as (s' & o & Ef & S1 & D1).
  destruct (feed_all s0 z (fun _ => false) Hs0 (fun _ => eq_refl)) as (s0' & o' & Ef' & S2 & D2).
  rewrite Ef in *. rewrite Ef' in *. cbn [fst] in *.
  apply prefix_antisym; [apply (ev_layouts true s0 s0' s')|apply (ev_layouts true s0 s' s0')]; assumption.
Qed.
Lemma final_steps n s z : sane z s -> final (steps true n s) = final s.
Proof. intros Hs. apply ev_final. apply ev_steps. eapply ev_refl. eassumption. Qed.
Lemma final_done s : done s -> final s = layout (fields s).
Proof. intros H. unfold final, feed_from. rewrite H. reflexivity. Qed.
Lemma final_prefix s z : sane z s -> prefix (layout (fields s)) (final s).
Proof.
  intros Hs. unfold final. pose proof (sane_feed true (fun _ => false) true s z Hs) as H.
  destruct (feed_from true (fun _ => false) true s) as [s' r]. destruct H as (_ & (m & E) & _). cbn [fst]. rewrite E, layout_app. apply prefix_app.
Qed.

(** ** Answers are about the finished set *)
Lemma feed_found autofix hasp g s s' f : wpre s ->
  feed autofix (fun _ => true) hasp 0 g s = (s', FFound f) -> fields s' = fields s ++ [f].
Proof.
  intros Hp. destruct g as [|e|x k]; cbn [feed].
  - destruct (stop_feeding autofix hasp (with_resume s (Some (fun _ => GStop)))) as [s1 [o|e]]; discriminate.
  - destruct (fix_feed_error autofix (with_resume s (Some (fun _ => GStop))) e) as [s1 [o|e']]; discriminate.
  - assert (Hp' : wpre (with_resume s (Some k))) by (eapply wpre_ext; [eassumption|reflexivity..]).
    pose proof (proj2 wfeed x autofix 0 _ Hp') as Ha.
    destruct (add_field autofix 0 x (with_resume s (Some k))) as [s1 [f1| |e]]; destruct Ha as (A1 & A2 & A3 & A5).
    + intros E. injection E as <- <-. apply A5.
    + destruct (stop_feeding autofix hasp s1) as [s2 [o|e]]; discriminate.
    + destruct (fix_feed_error autofix s1 e) as [s2 [o|e']]; discriminate.
Qed.
Lemma read_more_reaches k : forall s z, sane z s ->
  exists s', read_more true true k s = (s', None) /\ (done s' \/ length (fields s') = (length (fields s) + k)%nat).
Proof.
  induction k as [|k IH]; intros s z Hs; cbn [read_more]; [exists s; split; [reflexivity|right; lia]|].
  destruct (resume s) as [kk|] eqn:Er; [|exists s; auto].
  pose proof (sane_feed true (fun _ => true) true s z Hs) as H. unfold step.
  destruct (feed_from true (fun _ => true) true s) as [s1 [f|o|e]] eqn:E; destruct H as (F1 & F2 & F3).
  - destruct (IH s1 z F1) as (s' & H1 & H2). exists s'. split; [assumption|]. destruct H2 as [H2|H2]; [auto|right].
    destruct Hs as [Hg Hz]. pose proof (wset_wpre _ _ Hg Er) as Hp. unfold feed_from in E. rewrite Er in E.
    rewrite (feed_found true true _ s s1 f Hp E), app_length in H2. cbn in H2. lia.
  - exists s1. auto.
  - destruct F3; discriminate.
Qed.
Lemma nth_prefix {A} (l m : list A) i : (i < length l)%nat -> prefix l m -> nth_error m i = nth_error l i.
Proof. intros H (x & ->). apply nth_error_app1. assumption. Qed.
Lemma nth_layout l i : nth_error (layout l) i = match nth_error l i with Some f => Some (show f) | None => None end.
Proof. unfold layout. rewrite nth_error_map. destruct (nth_error l i); reflexivity. Qed.

Definition index_answer (l : list (str * Z * Z)) (i : Z) : answer :=
  if i <? 0 then RFail KeyError
  else match nth_error l (Z.to_nat i) with Some x => RField x | None => RFail MissingField end.
Lemma index_final i s z : sane z s -> snd (do_access true true (AIndex i) s) = index_answer (final s) i.
Proof.
  intros Hs. cbn [do_access]. unfold get_index, index_answer. destruct (i <? 0) eqn:Ei; [reflexivity|].
  destruct (read_more_reaches (Z.to_nat (i + 1 - zlen (fields s))) s z Hs) as (s' & E & Hl).
  destruct (read_more_steps true true (Z.to_nat (i + 1 - zlen (fields s))) s z Hs) as (n & En).
  rewrite E in *. cbn [fst] in En. subst s'. rewrite <- (final_steps n s z Hs).
  pose proof (steps_sane true n s z Hs) as Hs'.
  assert (Hnth : nth_error (final (steps true n s)) (Z.to_nat i) = nth_error (layout (fields (steps true n s))) (Z.to_nat i)).
  { destruct Hl as [Hl|Hl]; [rewrite final_done by assumption; reflexivity|].
    apply nth_prefix; [|eapply final_prefix; eassumption]. unfold layout. rewrite map_length, Hl. unfold zlen. lia. }
  rewrite Hnth, nth_layout. destruct (nth_error (fields (steps true n s)) (Z.to_nat i)); reflexivity.
Qed.
Lemma len_final s z : sane z s -> snd (do_access true true ALen s) = RNum (zlen (final s)).
Proof.
  intros Hs. cbn [do_access]. unfold final. destruct (feed_all s z (fun _ => false) Hs (fun _ => eq_refl)) as (s' & o & -> & _).
  cbn. unfold layout, zlen. rewrite map_length. reflexivity.
Qed.
Lemma name_final n s z f : sane z s -> snd (do_access true true (AName n) s) = RField f -> In f (final s) /\ fst (fst f) = n.
Proof.
  intros Hs. cbn [do_access]. unfold get_name.
  assert (Hin : forall t x k, t = steps true k s -> In x (fields t) -> In (show x) (final s)).
  { intros t x k -> Hx. rewrite <- (final_steps k s z Hs).
    destruct (final_prefix _ _ (steps_sane true k s z Hs)) as (m & ->). apply in_or_app. left.
    apply in_map_iff. exists x. auto. }
  destruct (find_name (fields s) n) as [x|] eqn:Ef.
  - cbn [snd]. intros E. injection E as <-. apply find_name_in in Ef. destruct Ef as [Ef En]. split; [apply (Hin s x O); auto|exact En].
  - destruct (resume s) eqn:Er; [|discriminate].
    pose proof (sane_feed true (fun f => str_eqb (f_name f) n) true s z Hs) as H.
    destruct (feed_from_steps true (fun f => str_eqb (f_name f) n) true s z Hs) as (k & Hk).
    destruct (feed_from true (fun f => str_eqb (f_name f) n) true s) as [s1 [x|o|e]]; destruct H as (F1 & F2 & F3); try discriminate.
    cbn [snd fst] in *. intros E. injection E as <-. destruct F3 as [F3 (l & F4)]. apply str_eqb_eq in F3.
    split; [|exact F3]. apply (Hin s1 x k); [assumption|]. rewrite F4. apply in_or_app. right. left. reflexivity.
Qed.
Lemma name_again n s z : sane z s -> snd (do_access true true (AName n) s) = RFail MissingField ->
  done (fst (do_access true true (AName n) s)).
Proof.
  intros Hs. cbn [do_access]. unfold get_name. destruct (find_name (fields s) n) as [x|] eqn:Ef; [discriminate|].
  destruct (resume s) eqn:Er; [|auto].
  pose proof (sane_feed true (fun f => str_eqb (f_name f) n) true s z Hs) as H.
  destruct (feed_from true (fun f => str_eqb (f_name f) n) true s) as [s1 [x|o|e]]; destruct H as (F1 & F2 & F3); try discriminate.
  - auto.
  - destruct F3; discriminate.
Qed.
Lemma in_name_unique (l : list (str * Z * Z)) x y : NoDup (names l) -> In x l -> In y l -> fst (fst x) = fst (fst y) -> x = y.
Proof.
  induction l as [|z l IH]; intros Hn Hx Hy E; [destruct Hx|]. cbn in Hn. inversion Hn; subst.
  destruct Hx as [->|Hx], Hy as [->|Hy]; try reflexivity.
  - exfalso. apply H1. rewrite E. apply in_map_iff. eauto.
  - exfalso. apply H1. rewrite <- E. apply in_map_iff. eauto.
  - auto.
Qed.
Lemma final_nodup s z : sane z s -> NoDup (names (final s)).
Proof.
  intros Hs. unfold final. destruct (feed_all s z (fun _ => false) Hs (fun _ => eq_refl)) as (s' & o & -> & [Hg _] & _).
  cbn [fst]. destruct Hg. cbn. rewrite <- names_layout. assumption.
Qed.

(** ** Accesses below the root *)
Definition top (path : list str) (hasp : bool) : bool := match path with [] => hasp | _ => true end.
Lemma set_at_inside autofix a path : forall hasp s s', set_at path s = Some s' ->
  snd (do_access autofix hasp (inside path a) s) = snd (do_access autofix (top path hasp) a s') /\
  set_at path (fst (do_access autofix hasp (inside path a) s)) = Some (fst (do_access autofix (top path hasp) a s')).
Proof.
  induction path as [|n path IH]; intros hasp s s'; cbn [set_at inside fold_right top].
  - intros E. injection E as <-. auto.
  - change (fold_right AIn a path) with (inside path a). cbn [do_access].
    assert (Hc : forall l, match find_name l n with Some (FSet _ _ x) => set_at path x | _ => None end = Some s' ->
      let '(l', r) := in_child n (do_access autofix true (inside path a)) l in
      r = snd (do_access autofix true a s') /\
      match find_name l' n with Some (FSet _ _ x) => set_at path x | _ => None end = Some (fst (do_access autofix true a s'))).
    { induction l as [|f l IHl]; cbn [in_child find_name find]; [discriminate|].
      destruct (str_eqb n (f_name f)) eqn:E.
      - destruct f as [fn fa fz|fn fa x]; [discriminate|]. intros Hx. destruct (IH true x s' Hx) as [H1 H2].
        replace (top path true) with true in * by (destruct path; reflexivity).
        destruct (do_access autofix true (inside path a) x) as [x' r]. unfold find_name. cbn [find f_name fst snd] in *. rewrite E. auto.
      - intros Hx. specialize (IHl Hx). destruct (in_child n (do_access autofix true (inside path a)) l) as [l' r].
        unfold find_name in *. cbn [find]. rewrite E. assumption. }
    intros Hx. specialize (Hc (fields s) Hx). destruct (in_child n (do_access autofix true (inside path a)) (fields s)) as [l' r].
    cbn [fst snd fields]. exact Hc.
Qed.
Lemma access_hasp autofix a hasp s z : sane z s -> do_access autofix hasp a s = do_access autofix true a s.
Proof.
  intros Hs.
  assert (Hm : forall k s, sane z s -> read_more autofix hasp k s = read_more autofix true k s).
  { induction k as [|k IH]; intros s0 Hs0; cbn [read_more]; [reflexivity|]. destruct (resume s0); [|reflexivity].
    unfold step. rewrite (feed_from_hasp autofix (fun _ => true) hasp s0 z Hs0).
    pose proof (sane_feed autofix (fun _ => true) true s0 z Hs0) as H.
    destruct (feed_from autofix (fun _ => true) true s0) as [s1 [f|o|e]]; destruct H as (F1 & _); auto. }
  destruct a; cbn [do_access]; unfold get_name, get_index, iter_next, step;
    rewrite ?(feed_from_hasp autofix _ hasp s z Hs), ?(Hm _ s Hs); reflexivity.
Qed.

(** ** User level *)
Lemma inside_sane g size autofix ops path s' : 0 < size ->
  set_at path (fst (do_accesses autofix ops (root_set g size))) = Some s' -> exists z, sane z s'.
Proof.
  intros Hs Hat. pose proof (sane_accesses autofix ops _ _ (root_sane g size Hs)) as H.
  destruct (do_accesses autofix ops (root_set g size)) as [s rs]. destruct H as (H1 & _).
  eapply sane_set_at; eassumption.
Qed.
Lemma cover_gen g size ops path s' : 0 < size ->
  set_at path (fst (do_accesses true ops (root_set g size))) = Some s' ->
  let t := do_access true false (inside path AAll) (fst (do_accesses true ops (root_set g size))) in
  snd t = RUnit /\
  exists s'' z, set_at path (fst t) = Some s'' /\ done s'' /\ fsize s' = Some z /\ fsize s'' = Some z /\ cur s'' = z /\
    prefix (layout (fields s')) (layout (fields s'')).
Proof.
  intros Hs Hat. destruct (inside_sane g size true ops path s' Hs Hat) as (z & Hz).
  destruct (set_at_inside true AAll path false _ _ Hat) as [H1 H2]. cbv zeta.
  rewrite H1, (access_hasp true AAll _ s' z Hz). cbn [do_access].
  destruct (feed_all s' z (fun _ => false) Hz (fun _ => eq_refl)) as (s'' & o & Ef & Hs'' & Hd). rewrite Ef. split; [reflexivity|].
  exists s'', z. rewrite H2, (access_hasp true AAll _ s' z Hz). cbn [do_access]. rewrite Ef. split; [reflexivity|]. split; [assumption|].
  split; [apply Hz|]. split; [apply Hs''|].
  pose proof (sane_feed true (fun _ => false) true s' z Hz) as Hp. rewrite Ef in Hp. destruct Hp as (_ & (m & Em) & _).
  split; [|rewrite Em, layout_app; apply prefix_app].
  destruct Hs'' as [Hg'' Hz'']. destruct Hg'' as [l z0 c ct r G1 G2 G3 G4 G5]. unfold done in Hd. cbn in *.
  rewrite (G5 Hd) in Hz''. congruence.
Qed.
Lemma accesses_snoc autofix ops a s :
  fst (do_accesses autofix (ops ++ [a]) s) = fst (do_access autofix false a (fst (do_accesses autofix ops s))).
Proof.
  revert s. induction ops as [|b ops IH]; intros s; cbn [app do_accesses].
  - cbn [fst]. destruct (do_access autofix false a s). reflexivity.
  - destruct (do_access autofix false b s) as [s1 r]. specialize (IH s1).
    destruct (do_accesses autofix (ops ++ [a]) s1), (do_accesses autofix ops s1). exact IH.
Qed.
Lemma cover_lemma g size ops path s' : gen_ok g -> 0 < size ->
  set_at path (fst (do_accesses true ops (root_set g size))) = Some s' ->
  let t := do_access true false (inside path AAll) (fst (do_accesses true ops (root_set g size))) in
  snd t = RUnit /\
  exists s'' z, set_at path (fst t) = Some s'' /\ done s'' /\ fsize s' = Some z /\ fsize s'' = Some z /\
    tiles 0 (layout (fields s'')) z /\ prefix (layout (fields s')) (layout (fields s'')).
Proof.
  intros Hg Hs Hat. destruct (cover_gen g size ops path s' Hs Hat) as (H1 & s'' & z & H2 & H3 & H4 & H5 & H6 & H7).
  cbv zeta in *. split; [assumption|]. exists s'', z. repeat (split; [assumption|]). split; [|assumption].
  rewrite <- accesses_snoc in H2. pose proof (tiling_lemma g size true _ path s'' Hg Hs H2) as Ht. congruence.
Qed.
Lemma same_final g size ops1 ops2 path s1 s2 : 0 < size ->
  set_at path (fst (do_accesses true ops1 (root_set g size))) = Some s1 ->
  set_at path (fst (do_accesses true ops2 (root_set g size))) = Some s2 -> final s1 = final s2.
Proof.
  intros Hs H1 H2. pose proof (ev_refl true _ _ (root_sane g size Hs)) as Hr.
  pose proof (ev_accesses true ops1 _ _ Hr) as E1. pose proof (ev_accesses true ops2 _ _ Hr) as E2.
  destruct (ev_compare true path _ _ _ _ _ E1 E2 H1 H2) as (s0 & G1 & G2).
  rewrite (ev_final _ _ G1), (ev_final _ _ G2). reflexivity.
Qed.
(** The questions whose answer does not depend on what was read before. *)
Definition steady (a : access) : Prop := match a with ALen => True | ASize => True | AIndex _ => True | _ => False end.
Lemma answers_lemma g size ops1 ops2 path s1 s2 a : 0 < size -> steady a ->
  set_at path (fst (do_accesses true ops1 (root_set g size))) = Some s1 ->
  set_at path (fst (do_accesses true ops2 (root_set g size))) = Some s2 ->
  snd (do_access true false (inside path a) (fst (do_accesses true ops1 (root_set g size)))) =
  snd (do_access true false (inside path a) (fst (do_accesses true ops2 (root_set g size)))).
Proof.
  intros Hs Ha H1 H2. pose proof (same_final g size ops1 ops2 path s1 s2 Hs H1 H2) as Ef.
  destruct (lazy_lemma g size true ops1 ops2 path s1 s2 Hs H1 H2) as (Ez & _).
  destruct (inside_sane g size true ops1 path s1 Hs H1) as (z1 & Hz1). destruct (inside_sane g size true ops2 path s2 Hs H2) as (z2 & Hz2).
  rewrite (proj1 (set_at_inside true a path false _ _ H1)), (proj1 (set_at_inside true a path false _ _ H2)).
  rewrite (access_hasp true a _ s1 z1 Hz1), (access_hasp true a _ s2 z2 Hz2).
  destruct a; cbn [steady] in Ha; try contradiction.
  - rewrite (len_final s1 z1 Hz1), (len_final s2 z2 Hz2), Ef. reflexivity.
  - cbn [do_access]. destruct Hz1 as [_ Hz1], Hz2 as [_ Hz2]. rewrite <- Ez, Hz1. reflexivity.
  - rewrite (index_final i s1 z1 Hz1), (index_final i s2 z2 Hz2), Ef. reflexivity.
Qed.
Lemma names_lemma g size ops1 ops2 path s1 s2 n f1 f2 : 0 < size ->
  set_at path (fst (do_accesses true ops1 (root_set g size))) = Some s1 ->
  set_at path (fst (do_accesses true ops2 (root_set g size))) = Some s2 ->
  snd (do_access true false (inside path (AName n)) (fst (do_accesses true ops1 (root_set g size)))) = RField f1 ->
  snd (do_access true false (inside path (AName n)) (fst (do_accesses true ops2 (root_set g size)))) = RField f2 -> f1 = f2.
Proof.
  intros Hs H1 H2. pose proof (same_final g size ops1 ops2 path s1 s2 Hs H1 H2) as Ef.
  destruct (inside_sane g size true ops1 path s1 Hs H1) as (z1 & Hz1). destruct (inside_sane g size true ops2 path s2 Hs H2) as (z2 & Hz2).
  rewrite (proj1 (set_at_inside true (AName n) path false _ _ H1)), (proj1 (set_at_inside true (AName n) path false _ _ H2)).
  rewrite (access_hasp true _ _ s1 z1 Hz1), (access_hasp true _ _ s2 z2 Hz2). intros A1 A2.
  destruct (name_final n s1 z1 f1 Hz1 A1) as [I1 N1]. destruct (name_final n s2 z2 f2 Hz2 A2) as [I2 N2]. rewrite <- Ef in I2.
  eapply in_name_unique; [apply (final_nodup s1 z1 Hz1)|assumption|assumption|congruence].
Qed.
(** With autofix off: what is seen at an address or under a name agrees. *)
Lemma lazy_same_field g size autofix ops1 ops2 path s1 s2 f1 f2 : 0 < size ->
  set_at path (fst (do_accesses autofix ops1 (root_set g size))) = Some s1 ->
  set_at path (fst (do_accesses autofix ops2 (root_set g size))) = Some s2 ->
  In f1 (layout (fields s1)) -> In f2 (layout (fields s2)) -> fst (fst f1) = fst (fst f2) -> f1 = f2.
Proof.
  intros Hs H1 H2 I1 I2 E. destruct (lazy_lemma g size autofix ops1 ops2 path s1 s2 Hs H1 H2) as (_ & Hp & _).
  destruct (inside_sane g size autofix ops1 path s1 Hs H1) as (z1 & [Hz1 _]). destruct (inside_sane g size autofix ops2 path s2 Hs H2) as (z2 & [Hz2 _]).
  assert (N1 : NoDup (names (layout (fields s1)))) by (destruct Hz1; cbn; rewrite <- names_layout; assumption).
  assert (N2 : NoDup (names (layout (fields s2)))) by (destruct Hz2; cbn; rewrite <- names_layout; assumption).
  destruct Hp as [(m & Hp)|(m & Hp)]; rewrite Hp in *.
  - eapply in_name_unique; [exact N2|apply in_or_app; left; exact I1|exact I2|exact E].
  - eapply in_name_unique; [exact N1|exact I1|apply in_or_app; left; exact I2|exact E].
Qed.

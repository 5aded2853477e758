From Coq Require Import String.
From Verif Require Import Base BaseProofs DictModel DictProofs MetaModel MetaSpec MetaProofs HumanModel HumanSpec HumanProofs3 TextModel.
From Coq Require Import Sorted Permutation.
Open Scope Z_scope.
Ltac Zify.zify_post_hook ::= Z.div_mod_to_equations.

(** ** The normal form of a text *)
Definition blankb (c : Z) : bool := existsb (Z.eqb c) [32; 9; 11; 10; 13; 0].
Lemma blankb_spec c : blankb c = true <-> blank c.
Proof.
  unfold blankb, blank. rewrite existsb_exists. split.
  - intros (x & Hx & E). apply Z.eqb_eq in E. subst. exact Hx.
  - intros H. exists c. split; [exact H|apply Z.eqb_refl].
Qed.
Lemma lstrip_app p a r : Forall (fun c => p c = true) a -> (forall c t, r = c :: t -> p c = false) -> lstrip p (a ++ r) = r.
Proof.
  induction 1 as [|c a Hc _ IH]; intros Hr; cbn [app].
  - destruct r as [|c t]; [reflexivity|]. cbn [lstrip]. rewrite (Hr c t eq_refl). reflexivity.
  - cbn [lstrip]. rewrite Hc. apply IH. exact Hr.
Qed.
Lemma stripped_strip s core : stripped s core -> core <> [] -> strip blankb s = core.
Proof.
  intros (a & b & -> & Ha & Hb & Hs & He) Hne. unfold strip.
  assert (B : forall l, Forall blank l -> Forall (fun c => blankb c = true) l) by (intros l Hl; eapply Forall_impl; [|exact Hl]; intros c Hc; apply blankb_spec; exact Hc).
  assert (NB : forall c, ~ blank c -> blankb c = false) by (intros c Hc; destruct (blankb c) eqn:E; [apply blankb_spec in E; contradiction|reflexivity]).
  rewrite lstrip_app; [|apply B; exact Ha|].
  - rewrite rev_app_distr, lstrip_app; [apply rev_involutive|apply Forall_rev, B; exact Hb|].
    intros c t E. apply NB. apply (He (rev t) c). rewrite <- (rev_involutive core), E. reflexivity.
  - intros c t E. destruct core as [|c0 core]; [congruence|]. cbn [app] in E. injection E as <- _. apply NB. apply (Hs c0 core eq_refl).
Qed.
Lemma lstrip_split p text : exists b, text = b ++ lstrip p text /\ Forall (fun c => p c = true) b /\ (forall c t, lstrip p text = c :: t -> p c = false).
Proof.
  induction text as [|c text (b & E & H1 & H2)]; cbn [lstrip]; [exists []; repeat split; [constructor|discriminate]|].
  destruct (p c) eqn:Ec.
  - exists (c :: b). split; [cbn [app]; congruence|]. split; [constructor; assumption|exact H2].
  - exists []. split; [reflexivity|]. split; [constructor|]. intros c' t' E'. injection E' as <- _. exact Ec.
Qed.
Lemma strip_stripped s : stripped s (strip blankb s).
Proof.
  assert (B : forall l, Forall (fun c => blankb c = true) l -> Forall blank l) by (intros l Hl; eapply Forall_impl; [|exact Hl]; intros c Hc; apply blankb_spec; exact Hc).
  destruct (lstrip_split blankb s) as (a & E & Ha & Hs). destruct (lstrip_split blankb (rev (lstrip blankb s))) as (b & E' & Hb & He).
  assert (E2 : lstrip blankb s = strip blankb s ++ rev b).
  { unfold strip. rewrite <- rev_app_distr, <- E', rev_involutive. reflexivity. }
  exists a, (rev b). split; [rewrite <- E2; exact E|]. split; [apply B; exact Ha|]. split; [apply B, Forall_rev; exact Hb|]. split.
  - intros c t Ec Hc. apply blankb_spec in Hc. rewrite Ec in E2. cbn [app] in E2. rewrite (Hs c _ E2) in Hc. discriminate.
  - intros t c Ec Hc. apply blankb_spec in Hc. unfold strip in Ec. apply (f_equal (@rev Z)) in Ec. rewrite rev_involutive, rev_app_distr in Ec. cbn [rev app] in Ec.
    rewrite (He c _ Ec) in Hc. discriminate.
Qed.
Lemma py_upto_firstn {A} (l : list A) n : 0 <= n -> n <= zlen l -> py_upto l n = firstn (Z.to_nat n) l.
Proof.
  intros H1 H2. unfold py_upto. rewrite py_slice_nonneg by lia. unfold sub. cbn [Z.to_nat skipn]. rewrite Z.sub_0_r. reflexivity.
Qed.
Lemma final_normal e s w : 0 <= e_max_str_length e -> (final e (MStr s) w <-> exists t, w = MStr t /\ normal e s t).
Proof.
  intros Hm. cbn [final].
  assert (A : forall c, abridged (e_max_str_length e) (normalizeNewline c)
     (if negb (e_max_str_length e =? 0) && (e_max_str_length e <? zlen (normalizeNewline c)) then py_upto (normalizeNewline c) (e_max_str_length e) ++ lit "(...)" else normalizeNewline c)).
  { intros c. unfold abridged. destruct (e_max_str_length e =? 0) eqn:E0; cbn [negb andb].
    - left. split; [left; lia|reflexivity].
    - destruct (e_max_str_length e <? zlen (normalizeNewline c)) eqn:E1.
      + right. split; [lia|]. rewrite py_upto_firstn by lia. reflexivity.
      + left. split; [right; lia|reflexivity]. }
  split.
  - intros (c & Hc & Hn & ->). eexists. split; [reflexivity|]. exists c, (normalizeNewline c). split; [|split; [exact Hc|split; [apply newlines_lemma; reflexivity|apply A]]].
    unfold normalizeString in Hn. destruct (e_raw_output e); [congruence|]. subst c. apply strip_stripped.
  - intros (t & -> & core & r & Hs & Hne & Hr & Ha). exists core. split; [exact Hne|]. split.
    + unfold normalizeString. destruct (e_raw_output e); [congruence|]. exact (stripped_strip _ _ Hs Hne).
    + apply newlines_lemma in Hr. subst r. f_equal. cbv zeta.
      destruct Ha as [[H ->]|[[H1 H2] ->]]; destruct (e_max_str_length e =? 0) eqn:E0; destruct (e_max_str_length e <? zlen (normalizeNewline core)) eqn:E1; cbn [negb andb]; try reflexivity; try lia.
      rewrite py_upto_firstn by lia. reflexivity.
Qed.

(** ** Metadata *)
Lemma set_values_id d : set_values d (d_values d) = d. Proof. destruct d; reflexivity. Qed.
Lemma find_with_values m key l k : find_data (with_values m key l) k = option_map (fun d => if str_eqb key (d_key d) then set_values d l else d) (find_data m k).
Proof.
  unfold find_data, with_values. cbn [m_data]. induction (m_data m) as [|d ds IH]; [reflexivity|]. cbn [map find].
  replace (d_key (if str_eqb key (d_key d) then set_values d l else d)) with (d_key d) by (destruct (str_eqb key (d_key d)); reflexivity).
  destruct (str_eqb k (d_key d)); [reflexivity|exact IH].
Qed.
Lemma find_key m k d : find_data m k = Some d -> d_key d = k.
Proof. unfold find_data. intros H. apply find_some in H. destruct H as [_ H]. apply str_eqb_eq in H. congruence. Qed.
Lemma find_with_values_same m k l d : find_data m k = Some d -> find_data (with_values m k l) k = Some (set_values d l).
Proof. intros H. rewrite find_with_values, H. cbn [option_map]. rewrite (find_key _ _ _ H), str_eqb_refl. reflexivity. Qed.
Lemma find_with_values_other m k l k' : k <> k' -> find_data (with_values m k l) k' = find_data m k'.
Proof.
  intros Hk. rewrite find_with_values. destruct (find_data m k') as [d|] eqn:E; [|reflexivity]. cbn [option_map].
  rewrite (find_key _ _ _ E). replace (str_eqb k k') with false by (symmetry; apply str_eqb_neq; exact Hk). reflexivity.
Qed.

(** where a value given to [store] comes from *)
Definition source (d : data) (key : str) (ka : str * arg) (v : mval) : Prop :=
  d_conv d = None -> key <> lit "track_total" -> fst ka = key /\ exists v0, carried (snd ka) v0 /\ v0 <> MNone /\ v = decode v0.
Lemma data_add_cases e d a o r l' : data_add e d a = Ok (o, r) -> r = Ok l' ->
  l' = d_values d \/ exists v text, store e d v text = Ok l' /\ (d_conv d = None -> exists v0, carried a v0 /\ v0 <> MNone /\ v = decode v0).
Proof.
  intros H ->. unfold data_add in H.
  assert (G : forall v0 text, carried a v0 ->
    match v0 with
    | MNone => Ok (None, Ok (d_values d))
    | _ => match d_conv d with
          | Some c => let '(total, r) := convert e c v0 in
              Ok (total, do o <- converted e d v0 text r; match o with None => Ok (d_values d) | Some (v, text) => store e d v text end)
          | None => Ok (None, store e d (decode v0) text)
          end
    end = Ok (o, Ok l') -> l' = d_values d \/ exists v text, store e d v text = Ok l' /\ (d_conv d = None -> exists v0, carried a v0 /\ v0 <> MNone /\ v = decode v0)).
  { intros v0 text Hca H0.
    assert (G : match d_conv d with
          | Some c => let '(total, r) := convert e c v0 in
              Ok (total, do o <- converted e d v0 text r; match o with None => Ok (d_values d) | Some (v, text) => store e d v text end)
          | None => Ok (None, store e d (decode v0) text)
          end = Ok (o, Ok l') -> v0 <> MNone -> l' = d_values d \/ exists v text, store e d v text = Ok l' /\ (d_conv d = None -> exists v0, carried a v0 /\ v0 <> MNone /\ v = decode v0)).
    { intros H1 Hn. destruct (d_conv d) as [c|].
      - destruct (convert e c v0) as [total r]. injection H1 as <- H1. destruct (converted e d v0 text r) as [[[v t]|]|]; [|left; cbn [bind] in H1; congruence|discriminate].
        cbn [bind] in H1. right. exists v, t. split; [exact H1|discriminate].
      - injection H1 as <- H1. right. exists (decode v0), text. split; [exact H1|]. intros _. exists v0. auto. }
    destruct v0; try (apply G; [exact H0|discriminate]). left. injection H0 as _ H0. symmetry. exact H0. }
  destruct a as [v0|v0 t|]; [|exact (G v0 t (or_intror (ex_intro _ t eq_refl)) H)|discriminate].
  exact (G v0 None (or_introl eq_refl) H).
Qed.
Lemma step_find e m ka key d : find_data m key = Some d ->
  exists l', find_data (set_or_keep e m ka) key = Some (set_values d l') /\
    (l' = d_values d \/ exists v text, source d key ka v /\ store e d v text = Ok l').
Proof.
  intros Hd. destruct ka as [k a]. unfold set_or_keep. cbn [fst snd].
  assert (Same : exists l', find_data m key = Some (set_values d l') /\ (l' = d_values d \/ exists v text, source d key (k, a) v /\ store e d v text = Ok l')).
  { exists (d_values d). rewrite set_values_id. split; [exact Hd|left; reflexivity]. }
  destruct (setattr e m k a) as [m'|] eqn:Es; [|exact Same].
  unfold setattr in Es. destruct (find_data m k) as [dk|] eqn:Ek; [|discriminate].
  destruct (data_add e dk a) as [[o r]|] eqn:Ea; [|discriminate]. cbn [bind fst snd] in Es.
  (* the assignment of the key itself *)
  assert (Here : forall l, r = Ok l -> k = key -> l = d_values d \/ exists v text, source d key (k, a) v /\ store e d v text = Ok l).
  { intros l Hr ->. rewrite Hd in Ek. injection Ek as <-. destruct (data_add_cases _ _ _ _ _ _ Ea Hr) as [H|(v & text & H1 & H2)]; [left; exact H|].
    right. exists v, text. split; [|exact H1]. intros Hc _. split; [reflexivity|exact (H2 Hc)]. }
  destruct o as [total|].
  - destruct (set_plain e m (lit "track_total") (AVal total)) as [m1|] eqn:Ep; [|injection Es as <-; exact Same].
    destruct r as [l|]; [|discriminate]. cbn [bind] in Es. injection Es as <-.
    assert (M1 : exists l', find_data m1 key = Some (set_values d l') /\ (l' = d_values d \/ exists v text, source d key (k, a) v /\ store e d v text = Ok l')).
    { unfold set_plain in Ep. destruct (find_data m (lit "track_total")) as [dt|] eqn:Et; [|discriminate].
      destruct (data_add e dt (AVal total)) as [[o1 r1]|] eqn:Ea1; [|discriminate]. cbn [bind snd] in Ep. destruct r1 as [l1|] eqn:Er1; [|discriminate]. cbn [bind] in Ep. injection Ep as <-.
      destruct (str_eqb (lit "track_total") key) eqn:Ekey.
      - apply str_eqb_eq in Ekey. subst key. rewrite Hd in Et. injection Et as <-. exists l1. split; [apply find_with_values_same; exact Hd|].
        destruct (data_add_cases _ _ _ _ _ _ Ea1 eq_refl) as [H|(v & text & H1 & H2)]; [left; exact H|]. right. exists v, text. split; [|exact H1]. intros _ Hk. congruence.
      - apply str_eqb_neq in Ekey. rewrite find_with_values_other by exact Ekey. exact Same. }
    destruct (str_eqb k key) eqn:Ekk.
    + apply str_eqb_eq in Ekk. subst k. destruct M1 as (l1 & M1 & _). exists l. split; [|exact (Here l eq_refl eq_refl)].
      rewrite (find_with_values_same _ _ _ _ M1). reflexivity.
    + apply str_eqb_neq in Ekk. destruct M1 as (l1 & M1 & M2). exists l1. split; [|exact M2]. rewrite find_with_values_other by exact Ekk. exact M1.
  - destruct r as [l|]; [|discriminate]. cbn [bind] in Es. injection Es as <-. destruct (str_eqb k key) eqn:Ekk.
    + apply str_eqb_eq in Ekk. subst k. exists l. split; [|exact (Here l eq_refl eq_refl)]. apply find_with_values_same. exact Hd.
    + apply str_eqb_neq in Ekk. rewrite find_with_values_other by exact Ekk. exact Same.
Qed.
Lemma set_all_find e (R : list item -> list item -> Prop) L : (forall l, R l l) -> (forall a b c, R a b -> R b c -> R a c) ->
  forall m key d, find_data m key = Some d ->
  (forall l ka v text l', In ka L -> source d key ka v -> store e (set_values d l) v text = Ok l' -> R l l') ->
  exists l', find_data (set_all e m L) key = Some (set_values d l') /\ R (d_values d) l'.
Proof.
  intros Rr Rt. induction L as [|ka L IH]; intros m key d Hd HR; cbn [set_all fold_left].
  - exists (d_values d). rewrite set_values_id. split; [exact Hd|apply Rr].
  - destruct (step_find e m ka key d Hd) as (l1 & H1 & Hc).
    destruct (IH (set_or_keep e m ka) key (set_values d l1) H1) as (l2 & H2 & Hr).
    { intros l ka' v text l' Hin Hs Hst. apply (HR l ka' v text l'); [right; exact Hin|exact Hs|exact Hst]. }
    exists l2. split; [exact H2|]. apply (Rt _ l1); [|exact Hr]. destruct Hc as [->|(v & text & Hs & Hst)]; [apply Rr|].
    apply (HR (d_values d) ka v text l1); [left; reflexivity|exact Hs|rewrite set_values_id; exact Hst].
Qed.
Lemma set_all_none e L : forall m key, find_data m key = None -> find_data (set_all e m L) key = None.
Proof.
  induction L as [|[k a] L IH]; intros m key H; [exact H|]. cbn [set_all fold_left]. apply IH. unfold set_or_keep. cbn [fst snd].
  destruct (setattr e m k a) as [m'|] eqn:Es; [|exact H]. unfold setattr in Es. destruct (find_data m k) as [dk|]; [|discriminate].
  destruct (data_add e dk a) as [[o r]|]; [|discriminate]. cbn [bind fst snd] in Es.
  destruct o as [total|].
  - destruct (set_plain e m (lit "track_total") (AVal total)) as [m1|] eqn:Ep; [|injection Es as <-; exact H].
    destruct r as [l|]; [|discriminate]. injection Es as <-. rewrite find_with_values. unfold set_plain in Ep.
    destruct (find_data m (lit "track_total")) as [dt|]; [|discriminate]. destruct (data_add e dt (AVal total)) as [[o1 [l1|]]|]; try discriminate.
    injection Ep as <-. rewrite find_with_values, H. reflexivity.
  - destruct r as [l|]; [|discriminate]. injection Es as <-. rewrite find_with_values, H. reflexivity.
Qed.

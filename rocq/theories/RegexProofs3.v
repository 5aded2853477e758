(** a | b matches what a or b matches; the recursion always ends. *)
From Verif Require Import Base DictModel DictProofs RegexModel RegexSpec RegexProofs RegexProofs2.
Ltac Zify.zify_post_hook ::= Z.div_mod_to_equations.

Section Or.
Context (same_items : list item -> list item -> bool) (same_items_ok : forall l m, same_items l m = true -> l = m).
Context (e : engine) (dot_ok : forall c, In c (text e) -> dot e c).
Notation D := (denote e).

Lemma req_eq a b : req same_items a b = true -> a = b.
Proof using All.
  revert b. induction a using regex_ind'; intros b Hq; destruct b; try discriminate Hq; try reflexivity; cbn in Hq.
  - apply str_eqb_eq in Hq. congruence.
  - apply andb_true_iff in Hq. destruct Hq as [A B]. apply Bool.eqb_prop in A. apply same_items_ok in B. congruence.
  - f_equal. revert content Hq. induction l as [|x l IH]; intros [|y m] Hq; try discriminate; [reflexivity|].
    inversion H as [|? ? Hx Hl]; subst. apply andb_true_iff in Hq. destruct Hq as [A B]. f_equal; [apply Hx; exact A| apply IH; assumption].
  - f_equal. revert content Hq. induction l as [|x l IH]; intros [|y m] Hq; try discriminate; [reflexivity|].
    inversion H as [|? ? Hx Hl]; subst. apply andb_true_iff in Hq. destruct Hq as [A B]. f_equal; [apply Hx; exact A| apply IH; assumption].
  - apply andb_true_iff in Hq. destruct Hq as [A C]. apply andb_true_iff in A. destruct A as [A B]. apply Z.eqb_eq in A. apply IHa in C.
    assert (hi = rmax) by (destruct hi, rmax; try discriminate; [apply Z.eqb_eq in B; congruence| reflexivity]). congruence.
Qed.
Lemma rmatch_sem a b : wf a -> wf b -> rmatch a b = true -> incl_s (D b) (D a).
Proof using All.
  intros Wa Wb H. destruct a; try discriminate H.
  - destruct b as [| | | | |t|r ex| | |]; try discriminate H.
    + destruct t as [|c [|]]; try discriminate. intros i j Hb. apply (string_cons e c i j) in Hb. destruct Hb as (x & A & -> & J).
      exists c. split; [exact A|]. split; [apply dot_ok; eapply nth_error_In; exact A| exact J].
    + intros i j (x & A & B & J). exists x. split; [exact A|]. split; [apply dot_ok; eapply nth_error_In; exact A| exact J].
  - destruct Wa as [-> [Na Va]]. destruct b as [| | | | |t|r ex| | |]; try discriminate H.
    + destruct t as [|c [|]]; try discriminate. cbn in H. intros i j Hb. apply (string_cons e c i j) in Hb. destruct Hb as (x & A & -> & J).
      exists c. split; [exact A|]. split; [|exact J]. apply existsb_exists in H. destruct H as (it & I1 & I2). exists it. split; [exact I1|].
      unfold item_in, range_char in I2. cbn in I2. lia.
    + destruct Wb as [-> [Nb Vb]]. cbn in H. intros i j (x & A & B & J). exists x. split; [exact A|]. split; [|exact J].
      destruct B as (it & I1 & I2). rewrite forallb_forall in H. specialize (H it I1). apply existsb_exists in H.
      destruct H as (ia & H1 & H2). exists ia. split; [exact H1|]. unfold item_in in H2. lia.
Qed.

Definition is_or (r : regex) : bool := match r with ROr _ => true | _ => false end.
(** The result of a union *)
Definition union_ok (a b r : regex) (extra : nat) : Prop :=
  wf r /\ (weight r <= extra + weight a + weight b)%nat /\ same (D r) (s_alt (D a) (D b)) /\ (is_or a = true -> is_or r = true) /\
  (single r = true -> same (D a) (D b)).
Definition ok_opt (a b : regex) (o : res (option regex)) : Prop :=
  exists o', o = Ok o' /\ (forall r, o' = Some r -> union_ok a b r 0) /\ (is_or a = true -> o' <> None).
Definition good (orr : regex -> regex -> res (option regex)) (n : nat) : Prop :=
  forall a b, wf a -> wf b -> (weight a + weight b <= n)%nat -> ok_opt a b (orr a b).
Lemma bar_ok orr n a b : good orr n -> wf a -> wf b -> (weight a + weight b <= n)%nat ->
  exists r, bar_ orr a b = Ok r /\ union_ok a b r 1 /\ (is_or a = true -> union_ok a b r 0).
Proof using All.
  intros G Wa Wb L. destruct (G a b Wa Wb L) as (o & E & P & N). unfold bar_. rewrite E. cbn [bind].
  destruct o as [r|].
  - exists r. split; [reflexivity|]. specialize (P r eq_refl). split; [|auto]. destruct P as (P1 & P2 & P3 & P4 & P5). split; [exact P1|]. split; [lia|]. auto.
  - exists (ROr [a; b]). split; [reflexivity|]. split; [|intros I; destruct (N I); reflexivity].
    split; [apply wf_Or; split; [cbn; lia| repeat constructor; assumption]|]. split; [rewrite weight_Or; unfold wsum; cbn; lia|].
    split; [cbn; apply alt_same; [apply same_refl| apply alt_false_r]|]. split; [reflexivity| discriminate].
Qed.
Lemma bars_ok orr n l : forall a, good orr n -> wf a -> is_or a = true -> Forall wf l -> (weight a + wsum l <= n)%nat ->
  exists r, bars orr a l = Ok r /\ wf r /\ is_or r = true /\ (weight r <= weight a + wsum l)%nat /\ same (D r) (s_alt (D a) (Dany e l)).
Proof using All.
  induction l as [|x l IH]; intros a G Wa Ia Wl L; cbn [bars].
  - exists a. repeat split; auto; [lia| |]; unfold s_alt; cbn; tauto.
  - inversion Wl as [|? ? Wx Wl']; subst. rewrite wsum_cons in L.
    destruct (bar_ok orr n a x G Wa Wx ltac:(lia)) as (t & E & _ & K). destruct (K Ia) as (T1 & T2 & T3 & T4 & _). rewrite E. cbn [bind].
    destruct (IH t G T1 (T4 Ia) Wl' ltac:(lia)) as (r & F & R1 & R2 & R3 & R4). exists r. rewrite wsum_cons. repeat split; auto; [lia| |].
    + intros H. apply R4 in H. destruct H as [H|H]; [apply T3 in H; destruct H; [left; assumption| right; left; assumption] | right; right; exact H].
    + intros H. apply R4. destruct H as [H|[H|H]]; [left; apply T3; left; exact H| left; apply T3; right; exact H| right; exact H].
Qed.
Lemma or_item_ok orr n other l : forall before, good orr n -> wf other -> Forall wf before -> Forall wf l -> (wsum l + weight other <= n)%nat ->
  exists o, or_item orr other before l = Ok o /\ forall c, o = Some c ->
    Forall wf c /\ length c = length (before ++ l) /\ (wsum c <= wsum (before ++ l) + weight other)%nat /\ same (Dany e c) (s_alt (Dany e (before ++ l)) (D other)).
Proof using All.
  induction l as [|x l IH]; intros before G Wo Wb Wl L; cbn [or_item].
  - exists None. split; [reflexivity| discriminate].
  - inversion Wl as [|? ? Wx Wl']; subst. rewrite wsum_cons in L.
    destruct (G x other Wx Wo ltac:(lia)) as (o & E & P & _). rewrite E. cbn [bind]. destruct o as [y|].
    + destruct (P y eq_refl) as (P1 & P2 & P3 & _). eexists. split; [reflexivity|]. intros c Hc. injection Hc as <-.
      assert (R : Forall wf (rev before)) by (apply Forall_rev; exact Wb).
      split; [apply Forall_app; split; [exact R| constructor; assumption]|].
      split; [rewrite !app_length, rev_length; reflexivity|].
      assert (Rs : wsum (rev before) = wsum before) by (clear; induction before as [|z b IH]; [reflexivity|]; cbn [rev]; rewrite wsum_app, IH, !wsum_cons; change (wsum []) with 0%nat; lia).
      split; [rewrite !wsum_app, !wsum_cons, Rs; lia|].
      intros i j. unfold s_alt. rewrite !Dany_in. split.
      * intros (r & I1 & I2). rewrite in_app_iff in I1. destruct I1 as [I1|[<-|I1]].
        -- left. exists r. rewrite <- in_rev in I1. split; [apply in_app_iff; auto| exact I2].
        -- apply P3 in I2. destruct I2 as [I2|I2]; [left; exists x; split; [apply in_app_iff; right; left; reflexivity| exact I2] | right; exact I2].
        -- left. exists r. split; [apply in_app_iff; right; right; exact I1| exact I2].
      * intros [(r & I1 & I2)|I2].
        -- rewrite in_app_iff in I1. destruct I1 as [I1|[<-|I1]].
           ++ exists r. split; [apply in_app_iff; left; rewrite <- in_rev; exact I1| exact I2].
           ++ exists y. split; [apply in_app_iff; right; left; reflexivity| apply P3; left; exact I2].
           ++ exists r. split; [apply in_app_iff; right; right; exact I1| exact I2].
        -- exists y. split; [apply in_app_iff; right; left; reflexivity| apply P3; right; exact I2].
    + destruct (IH (x :: before) G Wo ltac:(constructor; assumption) Wl' ltac:(lia)) as (o & F & Q). exists o. split; [exact F|].
      intros c Hc. destruct (Q c Hc) as (Q1 & Q2 & Q3 & Q4). split; [exact Q1|].
      split; [rewrite Q2, !app_length; cbn; lia|]. split; [rewrite !wsum_app, wsum_cons in Q3; rewrite wsum_app, wsum_cons; lia|].
      intros i j. rewrite (Q4 i j). unfold s_alt. rewrite !Dany_in. apply or_iff_compat_r.
      split; intros (r & I1 & I2); exists r; (split; [|exact I2]); cbn in *; rewrite ?in_app_iff in *; cbn in *; tauto.
Qed.

Lemma common_items_le a : forall b, let n := common_items same_items a b in
  (n <= length a)%nat /\ (n <= length b)%nat /\ firstn n a = firstn n b.
Proof using All.
  induction a as [|x a IH]; intros [|y b]; cbn [common_items]; try (cbn; repeat split; lia).
  destruct (req same_items x y) eqn:E; [|cbn; repeat split; lia]. apply req_eq in E. subst. destruct (IH b) as (A & B & C). cbn [length firstn]. rewrite C. repeat split; lia.
Qed.
(** The two ways RegexAnd finds a common prefix, for the contents in order *)
Definition and_or (orr : regex -> regex -> res (option regex)) (ca cb : list regex) : res (option regex) :=
  let index := common_items same_items ca cb in
  if negb (Nat.eqb index 0) then
    do r <- bar_ orr (and_join (skipn index ca)) (and_join (skipn index cb)); Ok (Some (and_ (and_join (firstn index ca)) r))
  else
    match ca, cb with
    | a0 :: ca', b0 :: cb' =>
        match findPrefix a0 b0 with
        | Some (p, a, b) =>
            do r <- bar_ orr (and_ a (and_join ca')) (and_ b (and_join cb'));
            if matchSingleValue p || matchSingleValue r then Ok (Some (and_ p r)) else Ok None
        | None => Ok None
        end
    | _, _ => Err IndexError
    end.
Lemma and_or_ok orr n ca cb a b : good orr n -> Forall item_ok ca -> Forall item_ok cb -> ca <> [] -> cb <> [] ->
  (wsum ca <= weight a)%nat -> (wsum cb <= weight b)%nat -> (weight a + weight b <= S n)%nat ->
  ((wsum ca < weight a)%nat /\ (wsum cb < weight b)%nat \/ (exists t, ca = [RString t]) \/ exists t, cb = [RString t]) ->
  is_or a = false -> same (D a) (Dall e ca) -> same (D b) (Dall e cb) ->
  exists o, and_or orr ca cb = Ok o /\ forall r, o = Some r -> union_ok a b r 0.
Proof using All.
  intros G Fa Fb Na Nb La Lb Ln Two Io Sa Sb. unfold and_or. cbv zeta.
  destruct (common_items_le ca cb) as (L1 & L2 & L3). cbv zeta in *. remember (common_items same_items ca cb) as k eqn:Ek.
  destruct (Nat.eqb k 0) eqn:K0; cbn [negb].
  - destruct ca as [|a0 ca']; [congruence|]. destruct cb as [|b0 cb']; [congruence|].
    destruct (findPrefix a0 b0) as [[[p x] y]|] eqn:FP; [|exists None; split; [reflexivity| discriminate] ].
    inversion Fa as [|? ? Wa0 Fa']; subst. inversion Fb as [|? ? Wb0 Fb']; subst.
    destruct (findPrefix_spec e a0 b0 p x y (proj1 Wa0) (proj1 Wb0) FP) as (Wp & Wx & Wy & Pp & P1 & P2 & P3 & P4).
    destruct (and_join_ok ca' Fa') as (Wja & _ & Ja). destruct (and_join_ok cb' Fb') as (Wjb & _ & Jb).
    destruct (and_ok x (and_join ca') Wx Wja) as (Wxa & _ & Xa & _). destruct (and_ok y (and_join cb') Wy Wjb) as (Wyb & _ & Yb & _).
    rewrite wsum_cons in La, Lb.
    destruct (bar_ok orr n (and_ x (and_join ca')) (and_ y (and_join cb')) G Wxa Wyb ltac:(lia)) as (r & E & (R1 & R2 & R3 & _ & R5) & _).
    rewrite E. cbn [bind]. destruct (matchSingleValue p || matchSingleValue r) eqn:MS; [|exists None; split; [reflexivity| discriminate] ].
    eexists. split; [reflexivity|]. intros q Hq. injection Hq as <-.
    destruct (and_ok p r (proj1 Wp) R1) as (W & _ & Wt & _).
    assert (Za : same (D (and_ x (and_join ca'))) (s_seq (D x) (Dall e ca'))).
    { apply (same_trans _ _ _ (and_sem e x (and_join ca'))). apply seq_same; [apply same_refl| apply and_join_sem]. }
    assert (Zb : same (D (and_ y (and_join cb'))) (s_seq (D y) (Dall e cb'))).
    { apply (same_trans _ _ _ (and_sem e y (and_join cb'))). apply seq_same; [apply same_refl| apply and_join_sem]. }
    assert (Zr : same (D r) (s_alt (s_seq (D x) (Dall e ca')) (s_seq (D y) (Dall e cb')))).
    { apply (same_trans _ _ _ R3). apply alt_same; assumption. }
    assert (S1 : single r = true -> same (s_seq (D x) (Dall e ca')) (s_seq (D y) (Dall e cb'))).
    { intros S. apply (same_trans _ _ _ (same_sym _ _ Za)). apply (same_trans _ _ _ (R5 S)). exact Zb. }
    cbn [Dall fold_right] in Sa, Sb. fold (Dall e ca') in Sa. fold (Dall e cb') in Sb.
    assert (Final : same (D (and_ p r)) (s_alt (D a) (D b)) /\ (single (and_ p r) = true -> same (D a) (D b))).
    { destruct P4 as [(c & d & -> & -> & -> & -> & -> & Pd)|[Pa Pb]].
      - assert (Ncd : c <> d).
        { intros ->. apply Nat.eqb_eq in K0. cbn [common_items req] in K0. rewrite (proj2 (str_eqb_eq [d] [d]) eq_refl) in K0. discriminate. }
        assert (S : single r = true).
        { apply orb_true_iff in MS. destruct MS as [MS|MS]; [|exact MS]. apply single_two in MS. congruence. }
        specialize (S1 S).
        assert (SS : same (Dall e ca') (Dall e cb')).
        { apply (same_trans _ _ _ (same_sym _ _ (seq_empty_l _))). apply (same_trans _ _ _ S1). apply seq_empty_l. }
        split.
        + apply (same_trans _ _ _ (and_sem e _ r)).
          assert (Zr' : same (D r) (Dall e ca')).
          { apply (same_trans _ _ _ Zr). apply (same_trans _ (s_alt (Dall e ca') (Dall e ca'))).
            - apply alt_same; [apply seq_empty_l|]. apply (same_trans _ _ _ (seq_empty_l _)). apply same_sym. exact SS.
            - intros i j. unfold s_alt. tauto. }
          apply (same_trans _ (s_seq (s_alt (D (RString [c])) (D (RString [d]))) (Dall e ca'))); [apply seq_same; assumption|].
          apply (same_trans _ (s_alt (s_seq (D (RString [c])) (Dall e ca')) (s_seq (D (RString [d])) (Dall e ca')))).
          { intros i j. split; [intros (k & [H|H] & K); [left|right]; exists k; auto | intros [(k & H & K)|(k & H & K)]; exists k; (split; [|exact K]); [left|right]; exact H]. }
          apply alt_same; [apply same_sym; exact Sa|]. apply (same_trans _ (s_seq (D (RString [d])) (Dall e cb'))); [apply seq_same; [apply same_refl| exact SS]| apply same_sym; exact Sb].
        + intros T. apply and_single in T. destruct T as [T _]. apply single_two in T. congruence.
      - assert (Qa : same (s_seq (D p) (s_seq (D x) (Dall e ca'))) (D a)).
        { apply (same_trans _ _ _ (seq_assoc _ _ _)). apply (same_trans _ (s_seq (D a0) (Dall e ca'))); [apply seq_same; [exact Pa| apply same_refl]|]. apply same_sym, Sa. }
        assert (Qb : same (s_seq (D p) (s_seq (D y) (Dall e cb'))) (D b)).
        { apply (same_trans _ _ _ (seq_assoc _ _ _)). apply (same_trans _ (s_seq (D b0) (Dall e cb'))); [apply seq_same; [exact Pb| apply same_refl]|]. apply same_sym, Sb. }
        split.
        + apply (same_trans _ _ _ (and_sem e p r)).
          apply (same_trans _ _ _ (seq_same _ _ _ _ (same_refl (D p)) Zr)).
          apply (same_trans _ _ _ (seq_alt_l _ _ _)). apply alt_same; assumption.
        + intros T. apply and_single in T. destruct T as [_ T]. specialize (S1 T).
          apply (same_trans _ _ _ (same_sym _ _ Qa)). apply (same_trans _ _ _ (seq_same _ _ _ _ (same_refl (D p)) S1)). exact Qb. }
    split; [exact W|]. split; [lia|]. split; [apply Final|]. split; [congruence| apply Final].
  - apply Nat.eqb_neq in K0.
    assert (Ha := firstn_skipn k ca). assert (Hb := firstn_skipn k cb). rewrite <- L3 in Hb.
    remember (firstn k ca) as q eqn:Eq. remember (skipn k ca) as ra eqn:Era. remember (skipn k cb) as rb eqn:Erb.
    assert (Nq : q <> []) by (intros ->; destruct k, ca; try discriminate; congruence).
    clear Eq Era Erb Ek. subst ca cb. apply Forall_app in Fa. destruct Fa as [Fq Fra]. apply Forall_app in Fb. destruct Fb as [_ Frb].
    rewrite wsum_app in La, Lb. rewrite !wsum_app in Two.
    destruct (and_join_ok ra Fra) as (Wja & _ & Ja). destruct (and_join_ok rb Frb) as (Wjb & _ & Jb). destruct (and_join_ok q Fq) as (Wq & _ & Jq).
    assert (Wt : (wsum q + wsum ra + wsum rb + 5 <= weight a + weight b /\ 3 <= wsum q)%nat).
    { destruct q as [|x q]; [congruence|]. inversion Fq as [|? ? Wx _]; subst. rewrite wsum_cons in La, Lb |- *. rewrite !wsum_cons in Two. pose proof (weight_item x Wx).
      destruct Two as [[T1 T2]|[[t T]|[t T]]].
      - lia.
      - cbn [app] in T. injection T as Ex Er. assert (8 <= weight x)%nat by (rewrite Ex; cbn; lia). lia.
      - cbn [app] in T. injection T as Ex Er. assert (8 <= weight x)%nat by (rewrite Ex; cbn; lia). lia. }
    destruct (bar_ok orr n (and_join ra) (and_join rb) G Wja Wjb ltac:(lia)) as (r & E & (R1 & R2 & R3 & _ & R5) & _).
    rewrite E. cbn [bind]. eexists. split; [reflexivity|]. intros z Hz. injection Hz as <-.
    destruct (and_ok (and_join q) r Wq R1) as (W & _ & Wz & _).
    assert (Qa : same (s_seq (Dall e q) (D (and_join ra))) (D a)).
    { apply (same_trans _ (s_seq (Dall e q) (Dall e ra))); [apply seq_same; [apply same_refl| apply and_join_sem]|].
      apply same_sym. apply (same_trans _ _ _ Sa). apply Dall_app. }
    assert (Qb : same (s_seq (Dall e q) (D (and_join rb))) (D b)).
    { apply (same_trans _ (s_seq (Dall e q) (Dall e rb))); [apply seq_same; [apply same_refl| apply and_join_sem]|].
      apply same_sym. apply (same_trans _ _ _ Sb). apply Dall_app. }
    split; [exact W|]. split; [lia|]. split.
    + apply (same_trans _ _ _ (and_sem e _ r)).
      apply (same_trans _ _ _ (seq_same _ _ _ _ (and_join_sem e q) R3)). apply (same_trans _ _ _ (seq_alt_l _ _ _)). apply alt_same; assumption.
    + split; [congruence|]. intros T. apply and_single in T. destruct T as [_ T]. specialize (R5 T).
      apply (same_trans _ _ _ (same_sym _ _ Qa)). apply (same_trans _ _ _ (seq_same _ _ _ _ (same_refl _) R5)). exact Qb.
Qed.
Lemma union_swap a b r n : is_or a = false -> is_or b = false -> union_ok a b r n -> union_ok b a r n.
Proof using All.
  intros Ia Ib (U1 & U2 & U3 & U4 & U5). split; [exact U1|]. split; [lia|]. split; [apply (same_trans _ _ _ U3), alt_comm|].
  split; [congruence|]. intros S. apply same_sym. auto.
Qed.

(** A single range *)
Lemma range_single l m u : l <> [] -> m <> [] -> Forall item_valid l -> Forall item_valid m ->
  (forall c, in_ranges u c <-> in_ranges l c \/ in_ranges m c) -> single (RRange u false) = true -> forall c, in_ranges l c <-> in_ranges m c.
Proof using All.
  intros Nl Nm Vl Vm U S. cbn in S. destruct u as [|i [|]]; try discriminate.
  assert (P : forall l, l <> [] -> Forall item_valid l -> (forall c, in_ranges l c -> c = cmin i) -> in_ranges l (cmin i)).
  { clear. intros [|x l] N V H; [congruence|]. inversion V as [|? ? Vx _]; subst. unfold item_valid in Vx.
    rewrite <- (H (cmin x)); apply in_ranges_cons; lia. }
  assert (Hl : forall c, in_ranges l c -> c = cmin i) by (intros c Hc; assert (K := proj2 (U c) (or_introl Hc)); rewrite in_ranges_one in K; lia).
  assert (Hm : forall c, in_ranges m c -> c = cmin i) by (intros c Hc; assert (K := proj2 (U c) (or_intror Hc)); rewrite in_ranges_one in K; lia).
  intros c. split; intros Hc; [rewrite (Hl c Hc); apply P; auto | rewrite (Hm c Hc); apply P; auto].
Qed.
(** What a range or a one character string denotes *)
Definition ranges_of (r : regex) : option (list item) :=
  match r with RRange l false => Some l | RString [c] => Some [range_char c] | _ => None end.
Lemma ranges_of_sem r l : wf r -> ranges_of r = Some l -> l <> [] /\ Forall item_valid l /\ same (D r) (s_char e (in_ranges l)).
Proof using All.
  intros W H. destruct r; try discriminate H.
  - destruct text as [|c [|]]; try discriminate H. injection H as <-. split; [discriminate|].
    split; [repeat constructor; unfold item_valid; cbn; lia|]. apply (same_trans _ _ _ (string_cons e c)). apply char_same. intros x. rewrite in_ranges_one. cbn. lia.
  - destruct exclude; [discriminate|]. injection H as <-. destruct W as (_ & N & V). split; [exact N|]. split; [exact V| apply same_refl].
Qed.
Lemma range_union a b l m u : wf a -> wf b -> ranges_of a = Some l -> ranges_of b = Some m -> (8 <= weight b)%nat ->
  u <> [] -> Forall item_valid u -> (forall c, in_ranges u c <-> in_ranges l c \/ in_ranges m c) -> union_ok a b (RRange u false) 0.
Proof using All.
  intros Wa Wb Ha Hb L Nu Vu U. destruct (ranges_of_sem a l Wa Ha) as (Nl & Vl & Sl). destruct (ranges_of_sem b m Wb Hb) as (Nm & Vm & Sm).
  split; [cbn; auto|]. split; [cbn [weight]; lia|]. split.
  - cbn [denote]. apply (same_trans _ (s_char e (fun c => in_ranges l c \/ in_ranges m c))); [apply char_same; exact U|].
    apply (same_trans _ _ _ (char_alt e _ _)). apply alt_same; apply same_sym; assumption.
  - split; [destruct a; try discriminate; destruct text as [|? [|]]; discriminate|]. intros S.
    apply (same_trans _ _ _ Sl). apply (same_trans _ (s_char e (in_ranges m))); [apply char_same; eapply range_single; eauto | apply same_sym; exact Sm].
Qed.
Lemma rmatch_union a b : wf a -> wf b -> rmatch a b = true -> union_ok a b a 0 /\ union_ok b a a 0.
Proof using All.
  intros Wa Wb H. pose proof (rmatch_sem a b Wa Wb H) as I.
  assert (S : single a = true -> same (D a) (D b)).
  { intros S. destruct a; try discriminate S; try discriminate H. destruct Wa as (-> & Na & Va).
    destruct (ranges_of b) as [m|] eqn:Em.
    - destruct (ranges_of_sem b m Wb Em) as (Nm & Vm & Sm). apply (same_trans _ (s_char e (in_ranges ranges))); [apply same_refl|].
      apply (same_trans _ (s_char e (in_ranges m))); [|apply same_sym; exact Sm].
      apply char_same. apply (range_single ranges m ranges); auto. intros c. split; [auto|]. intros [K|K]; [exact K|].
      clear -H K Em Wb. destruct b; try discriminate Em.
      + destruct text as [|d [|]]; try discriminate Em. injection Em as <-. cbn in H. apply existsb_exists in H. destruct H as (i & I1 & I2).
        exists i. split; [exact I1|]. rewrite in_ranges_one in K. unfold item_in in I2. cbn in *. lia.
      + destruct exclude; [discriminate|]. injection Em as <-. cbn in H. destruct K as (it & K1 & K2). rewrite forallb_forall in H.
        specialize (H it K1). apply existsb_exists in H. destruct H as (i & I1 & I2). exists i. split; [exact I1|]. unfold item_in in I2. lia.
    - destruct b; try discriminate H; cbn in Em, H.
      + destruct text as [|? [|]]; discriminate.
      + destruct exclude; discriminate. }
  assert (N : is_or a = false /\ is_or b = false) by (destruct a; try discriminate H; (split; [reflexivity|]); destruct b; try discriminate H; try reflexivity; destruct exclude; discriminate H).
  assert (U : union_ok a b a 0).
  { split; [exact Wa|]. split; [lia|]. split; [apply alt_incl_l; exact I|]. split; [auto| exact S]. }
  split; [exact U| apply union_swap; tauto].
Qed.
Lemma or1_and orr content other reverse : or1 same_items orr (RAnd content) other reverse =
  match match other with RString _ => Some [other] | RAnd c => Some c | _ => None end with
  | None => Ok None
  | Some contentb => if reverse then and_or orr contentb content else and_or orr content contentb
  end.
Proof using All. cbn [or1]. destruct other; try reflexivity; destruct reverse; reflexivity. Qed.
Lemma none_ok a b orr : is_or a = false -> or1 same_items orr a b false = Ok None -> ok_opt a b (or1 same_items orr a b false).
Proof using All. intros I ->. exists None. repeat split; try discriminate; congruence. Qed.
Lemma contents b : wf b -> forall c, match b with RString _ => Some [b] | RAnd c => Some c | _ => None end = Some c ->
  Forall item_ok c /\ c <> [] /\ (wsum c <= weight b)%nat /\ ((wsum c < weight b)%nat \/ exists t, c = [RString t]) /\ same (D b) (Dall e c) /\ is_or b = false.
Proof using All.
  intros W c H. destruct b; try discriminate H; injection H as <-.
  - split; [constructor; [split; [exact W| reflexivity]| constructor]|]. split; [discriminate|]. split; [unfold wsum; cbn; lia|].
    split; [right; eauto|]. split; [apply same_sym, Dall_one| reflexivity].
  - apply wf_And in W. destruct W as [L F]. split; [exact F|]. split; [intros ->; cbn in L; lia|]. rewrite weight_And. split; [lia|]. split; [left; lia|].
    split; [apply same_refl| reflexivity].
Qed.
Lemma or1_false orr n a b : good orr n -> wf a -> wf b -> req same_items a b = false -> (weight a + weight b <= S n)%nat -> ok_opt a b (or1 same_items orr a b false).
Proof using All.
  intros G Wa Wb Nq L. destruct a as [| | | | |ta|ra ex|ca|ca|ra lo hi]; try (apply none_ok; reflexivity).
  - cbn [or1]. destruct (findPrefix (RString ta) b) as [[[p x] y]|] eqn:FP; [|exists None; repeat split; discriminate].
    destruct (findPrefix_spec e _ b p x y Wa Wb FP) as (Wp & Wx & Wy & Pp & P1 & P2 & P3 & P4).
    destruct (bar_ok orr n x y G Wx Wy ltac:(lia)) as (r & E & (R1 & R2 & R3 & _ & R5) & _). rewrite E. cbn [bind].
    eexists. split; [reflexivity|]. split; [|discriminate]. intros q Hq. injection Hq as <-.
    destruct (and_ok p r (proj1 Wp) R1) as (W & _ & Wt & _). split; [exact W|]. split; [lia|]. split.
    + apply (same_trans _ _ _ (and_sem e p r)). apply (same_trans _ _ _ (seq_same _ _ _ _ (same_refl (D p)) R3)).
      destruct P4 as [(c & d & _ & _ & _ & -> & -> & Pd)|[Pa Pb]].
      * apply (same_trans _ (D p)); [|exact Pd]. intros i j. split; [intros (k & K & [<-|<-]); exact K | intros K; exists j; split; [exact K| left; reflexivity]].
      * apply (same_trans _ _ _ (seq_alt_l _ _ _)). apply alt_same; assumption.
    + split; [discriminate|]. intros T. apply and_single in T. destruct T as [T1 T2]. specialize (R5 T2).
      destruct P4 as [(c & d & Ea & Eb & Ep & _ & _ & Pd)|[Pa Pb]].
      * subst p. apply single_two in T1. subst d. rewrite Ea, Eb. apply same_refl.
      * apply (same_trans _ _ _ (same_sym _ _ Pa)). apply (same_trans _ _ _ (seq_same _ _ _ _ (same_refl (D p)) R5)). exact Pb.
  - destruct Wa as (-> & Na & Va). cbn [or1]. cbn [negb].
    assert (RU : forall m, ranges_of b = Some m -> (8 <= weight b)%nat -> ok_opt (RRange ra false) b (Ok (Some (RRange (fold_left rangeAdd m ra) false)))).
    { intros m Hm Lb. eexists. split; [reflexivity|]. split; [|discriminate]. intros r Hr. injection Hr as <-.
      destruct (ranges_of_sem b m Wb Hm) as (Nm & Vm & Sm). destruct (fold_rangeAdd m ra Vm Va) as [F1 F2].
      apply (range_union (RRange ra false) b ra m); cbn; auto. intros E. destruct ra as [|i ra]; [congruence|]. inversion Va as [|? ? Vi _]; subst. unfold item_valid in Vi.
      destruct (proj2 (F2 (cmin i))) as (x & X & _); [left; apply in_ranges_cons; lia|]. rewrite E in X. exact X. }
    destruct b as [| | | | |tb|rb ex|cb|cb|rb lo hi]; try (exists None; repeat split; discriminate).
    + destruct tb as [|c [|]]; try (exists None; repeat split; discriminate). apply (RU [range_char c]); [reflexivity| cbn; lia].
    + destruct Wb as (-> & _). cbn [Bool.eqb]. apply (RU rb); [reflexivity| cbn; lia].
  - rewrite or1_and. destruct (match b with RString _ => Some [b] | RAnd c => Some c | _ => None end) as [cb|] eqn:Ec.
    2:{ exists None. repeat split; discriminate. }
    destruct (contents b Wb cb Ec) as (Fb & Nb & Lb & Tb & Sb & _).
    destruct (contents (RAnd ca) Wa ca eq_refl) as (Fa & Na & La & Ta & Sa & _).
    destruct (and_or_ok orr n ca cb (RAnd ca) b G Fa Fb Na Nb La Lb L) as (o & E & P); auto.
    { destruct Tb as [Tb|Tb]; [|auto]. destruct Ta as [Ta|Ta]; auto. }
    exists o. split; [exact E|]. split; [exact P|]. discriminate.
  - apply wf_Or in Wa as Wa'. destruct Wa' as [La Fa]. rewrite weight_Or in L. cbn [or1].
    destruct b as [| | | | |tb|rb ex|cb|cb|rb lo hi].
    1-8,10: match goal with |- ok_opt _ ?b _ =>
      destruct (or_item_ok orr n b ca [] G Wb (Forall_nil _) Fa ltac:(lia)) as (o & E & P); rewrite E; cbn [bind]; cbn [app] in P;
      destruct o as [c|];
      [ destruct (P c eq_refl) as (P1 & P2 & P3 & P4); eexists; split; [reflexivity|]; split; [|discriminate]; intros r Hr; injection Hr as <-;
        split; [apply wf_Or; split; [lia| exact P1]|]; split; [rewrite !weight_Or; lia|]; split; [exact P4|]; split; [reflexivity| discriminate]
      | eexists; split; [reflexivity|]; split; [|discriminate]; intros r Hr; injection Hr as <-;
        split; [apply wf_Or; split; [rewrite app_length; lia| apply Forall_app; auto]|];
        split; [rewrite !weight_Or, wsum_app, wsum_cons; change (wsum []) with 0%nat; lia|];
        split; [apply (same_trans _ _ _ (Dany_app e ca [b])); apply alt_same; [apply same_refl| apply Dany_one]|]; split; [reflexivity| discriminate] ] end.
    apply wf_Or in Wb as Wb'. destruct Wb' as [Lb Fb]. rewrite weight_Or in L.
    destruct (bars_ok orr n cb (ROr ca) G Wa eq_refl Fb ltac:(rewrite weight_Or; lia)) as (r & E & R1 & R2 & R3 & R4). rewrite E. cbn [bind].
    eexists. split; [reflexivity|]. split; [|discriminate]. intros q Hq. injection Hq as <-.
    split; [exact R1|]. split; [rewrite (weight_Or cb); lia|]. split; [exact R4|]. split; [auto|]. intros T. destruct r; discriminate.
Qed.
(** The other order: the result matches other|self *)
Lemma or1_true orr n a b : good orr n -> wf a -> wf b -> same_class a b = false -> is_or b = false -> (weight a + weight b <= S n)%nat ->
  exists o, or1 same_items orr a b true = Ok o /\ (forall r, o = Some r -> union_ok b a r 0).
Proof using All.
  intros G Wa Wb Nc Ib L. destruct a as [| | | | |ta|ra ex|ca|ca|ra lo hi]; try (exists None; split; [reflexivity| discriminate]).
  - exists None. split; [|discriminate]. destruct b; try discriminate Nc; reflexivity.
  - assert (Nq : req same_items (RRange ra ex) b = false) by (destruct b; try discriminate Nc; reflexivity).
    destruct (or1_false orr n (RRange ra ex) b G Wa Wb Nq L) as (o & E & P & _). exists o. split; [exact E|].
    intros r Hr. apply union_swap; auto.
  - rewrite or1_and. destruct (match b with RString _ => Some [b] | RAnd c => Some c | _ => None end) as [cb|] eqn:Ec.
    2:{ exists None. split; [reflexivity| discriminate]. }
    destruct (contents b Wb cb Ec) as (Fb & Nb & Lb & Tb & Sb & _).
    destruct (contents (RAnd ca) Wa ca eq_refl) as (Fa & Na & La & Ta & Sa & _).
    destruct (and_or_ok orr n cb ca b (RAnd ca) G Fb Fa Nb Na Lb La) as (o & E & P); auto; [lia| |].
    { destruct Tb as [Tb|Tb]; [|auto]. destruct Ta as [Ta|Ta]; auto. }
    exists o. auto.
  - apply wf_Or in Wa as Wa'. destruct Wa' as [La Fa]. rewrite weight_Or in L. cbn [or1].
    destruct b as [| | | | |tb|rb ex|cb|cb|rb lo hi]; try discriminate Ib.
    all: match goal with |- exists o, _ /\ (forall r, _ -> union_ok ?b _ _ _) =>
      destruct (or_item_ok orr n b ca [] G Wb (Forall_nil _) Fa ltac:(lia)) as (o & E & P); rewrite E; cbn [bind]; cbn [app] in P;
      destruct o as [c|];
      [ destruct (P c eq_refl) as (P1 & P2 & P3 & P4); eexists; split; [reflexivity|]; intros r Hr; injection Hr as <-;
        split; [apply wf_Or; split; [lia| exact P1]|]; split; [rewrite !weight_Or; lia|]; split; [apply (same_trans _ _ _ P4), alt_comm|]; split; [reflexivity| discriminate]
      | eexists; split; [reflexivity|]; intros r Hr; injection Hr as <-;
        split; [apply wf_Or; split; [cbn; lia| constructor; auto]|];
        split; [rewrite !weight_Or, wsum_cons; lia|];
        split; [apply same_refl|]; split; [reflexivity| discriminate] ] end.
Qed.
Theorem or_good n : good (or_f same_items n) n.
Proof using All.
  induction n as [|n IH]; intros a b Wa Wb L; [pose proof (weight_pos a); lia|]. cbn [or_f].
  destruct (req same_items a b) eqn:Eq.
  { apply req_eq in Eq. subst b. eexists. split; [reflexivity|]. split; [|discriminate]. intros r Hr. injection Hr as <-.
    split; [exact Wa|]. split; [lia|]. split; [apply alt_incl_l; intros i j H; exact H|]. split; [auto|]. intros _. apply same_refl. }
  destruct (rmatch a b) eqn:M1.
  { eexists. split; [reflexivity|]. split; [|discriminate]. intros r Hr. injection Hr as <-. apply rmatch_union; assumption. }
  destruct (rmatch b a) eqn:M2.
  { eexists. split; [reflexivity|]. split; [|discriminate]. intros r Hr. injection Hr as <-. apply rmatch_union; assumption. }
  pose proof (or1_false _ n a b IH Wa Wb Eq L) as F.
  destruct (same_class a b) eqn:Ec; cbn [negb]; [exact F|].
  destruct F as (o & E & P & N). rewrite E. cbn [bind]. destruct o as [r|].
  { exists (Some r). auto. }
  destruct (is_or a) eqn:Ia; [exfalso; apply N; reflexivity|].
  assert (Nc : same_class b a = false) by (clear -Ec; destruct a, b; try reflexivity; discriminate Ec).
  destruct (or1_true _ n b a IH Wb Wa Nc Ia ltac:(lia)) as (o & E' & P'). exists o. split; [exact E'|]. split; [exact P'|]. congruence.
Qed.
Theorem bar_sem a b : wf a -> wf b -> exists r, bar same_items a b = Ok r /\ wf r /\ same (D r) (s_alt (D a) (D b)).
Proof using All.
  intros Wa Wb. destruct (bar_ok (or_f same_items (weight a + weight b)) _ a b (or_good _) Wa Wb (Nat.le_refl _)) as (r & E & (R1 & _ & R3 & _) & _).
  exists r. auto.
Qed.
Lemma bars_sem l : forall a, wf a -> Forall wf l -> exists r, bars (or_ same_items) a l = Ok r /\ wf r /\ same (D r) (s_alt (D a) (Dany e l)).
Proof using All.
  induction l as [|x l IH]; intros a Wa Wl; cbn [bars].
  - exists a. split; [reflexivity|]. split; [exact Wa|]. apply same_sym, alt_false_r.
  - inversion Wl as [|? ? Wx Wl']; subst. destruct (bar_sem a x Wa Wx) as (t & E & T1 & T2). unfold bar in E. rewrite E. cbn [bind].
    destruct (IH t T1 Wl') as (r & F & R1 & R2). exists r. split; [exact F|]. split; [exact R1|].
    apply (same_trans _ _ _ R2). apply (same_trans _ (s_alt (s_alt (D a) (D x)) (Dany e l))); [apply alt_same; [exact T2| apply same_refl]|].
    apply same_sym. apply alt_assoc.
Qed.
Lemma or_join_sem l : Forall wf l -> exists r, or_join same_items l = Ok r /\ wf r /\ (l <> [] -> same (D r) (Dany e l)) /\ (l = [] -> r = REmpty).
Proof using All.
  intros W. destruct l as [|x l]; [exists REmpty; repeat split; congruence|]. inversion W as [|? ? Wx Wl]; subst. cbn [or_join].
  destruct (bars_sem l x Wx Wl) as (r & E & R1 & R2). exists r. repeat split; auto; try apply R2; discriminate.
Qed.
End Or.

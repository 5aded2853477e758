(** Spans, concatenation, and equality of regexes. *)
From Verif Require Import Base DictModel RegexModel RegexSpec.
Ltac Zify.zify_post_hook ::= Z.div_mod_to_equations.

(** ** Induction *)
Fixpoint regex_ind' (P : regex -> Prop)
  (He : P REmpty) (Hw : P RWord) (Hs : P RStart) (Hn : P REnd) (Hd : P RDot)
  (Ht : forall t, P (RString t)) (Hr : forall l ex, P (RRange l ex))
  (Ha : forall l, Forall P l -> P (RAnd l)) (Ho : forall l, Forall P l -> P (ROr l))
  (Hp : forall r lo hi, P r -> P (RRepeat r lo hi)) (r : regex) : P r :=
  let rec := regex_ind' P He Hw Hs Hn Hd Ht Hr Ha Ho Hp in
  let all := fix all (l : list regex) : Forall P l := match l with [] => Forall_nil _ | x :: l => Forall_cons _ (rec x) (all l) end in
  match r with
  | REmpty => He | RWord => Hw | RStart => Hs | REnd => Hn | RDot => Hd
  | RString t => Ht t | RRange l ex => Hr l ex
  | RAnd l => Ha l (all l) | ROr l => Ho l (all l)
  | RRepeat r lo hi => Hp r lo hi (rec r)
  end.

(** ** Spans *)
Definition incl_s (R S : span) : Prop := forall i j, R i j -> S i j.
Lemma same_refl R : same R R. Proof. intros i j. reflexivity. Qed.
Lemma same_sym R S : same R S -> same S R. Proof. intros H i j. symmetry. apply H. Qed.
Lemma same_trans R S T : same R S -> same S T -> same R T. Proof. intros H K i j. rewrite (H i j). apply K. Qed.
Lemma seq_same R R' S S' : same R R' -> same S S' -> same (s_seq R S) (s_seq R' S').
Proof. intros H K i j. split; intros (k & A & B); exists k; split; [apply H| apply K | apply H | apply K]; assumption. Qed.
Lemma alt_same R R' S S' : same R R' -> same S S' -> same (s_alt R S) (s_alt R' S').
Proof. intros H K i j. unfold s_alt. rewrite (H i j), (K i j). reflexivity. Qed.
Lemma seq_assoc R S T : same (s_seq R (s_seq S T)) (s_seq (s_seq R S) T).
Proof.
  intros i j. split.
  - intros (k & A & l & B & C). exists l. split; [exists k; auto| assumption].
  - intros (l & (k & A & B) & C). exists k. split; [assumption| exists l; auto].
Qed.
Lemma seq_empty_l R : same (s_seq s_empty R) R.
Proof. intros i j. split; [intros (k & -> & A); exact A | intros A; exists i; split; [reflexivity| exact A]]. Qed.
Lemma seq_empty_r R : same (s_seq R s_empty) R.
Proof. intros i j. split; [intros (k & A & <-); exact A | intros A; exists j; split; [exact A| reflexivity]]. Qed.
Lemma seq_alt_l R S T : same (s_seq R (s_alt S T)) (s_alt (s_seq R S) (s_seq R T)).
Proof.
  intros i j. split.
  - intros (k & A & [B|B]); [left|right]; exists k; auto.
  - intros [(k & A & B)|(k & A & B)]; exists k; split; auto; [left|right]; exact B.
Qed.
Lemma alt_comm R S : same (s_alt R S) (s_alt S R). Proof. intros i j. unfold s_alt. tauto. Qed.
Lemma alt_assoc R S T : same (s_alt R (s_alt S T)) (s_alt (s_alt R S) T). Proof. intros i j. unfold s_alt. tauto. Qed.
Lemma alt_incl_l R S : incl_s S R -> same R (s_alt R S).
Proof. intros H i j. unfold s_alt. specialize (H i j). tauto. Qed.
Lemma alt_false_r R : same (s_alt R (fun _ _ => False)) R. Proof. intros i j. unfold s_alt. tauto. Qed.

(** ** Strings *)
Section Engine.
Context (e : engine).
Notation D := (denote e).

Lemma string_nil : same (s_string e []) s_empty.
Proof. intros i j. unfold s_string, s_empty. cbn. split; [intros [-> _]; lia | intros ->; split; [lia|reflexivity]]. Qed.
Lemma firstn_skipn_app (l : str) (i n m : nat) : firstn (n + m) (skipn i l) = firstn n (skipn i l) ++ firstn m (skipn (i + n) l).
Proof.
  revert i l. induction n as [|n IH]; intros i l.
  - cbn [Nat.add]. rewrite Nat.add_0_r. reflexivity.
  - destruct (skipn i l) as [|x s] eqn:E.
    + cbn [Nat.add]. rewrite !firstn_nil. cbn.
      assert (K : skipn (i + S n) l = []).
      { apply skipn_all2. apply (f_equal (@length _)) in E. rewrite skipn_length in E. cbn in E. lia. }
      rewrite K. rewrite firstn_nil. reflexivity.
    + cbn [Nat.add firstn app].
      assert (K : s = skipn (S i) l).
      { change s with (skipn 1 (x :: s)). rewrite <- E. clear. revert l. induction i as [|i IH]; intros [|y l]; try reflexivity. cbn [skipn]. apply IH. }
      rewrite K, IH. replace (i + S n)%nat with (S i + n)%nat by lia. reflexivity.
Qed.
Lemma app_split {A} (a b c d : list A) : length a = length c -> a ++ b = c ++ d -> a = c /\ b = d.
Proof.
  revert c. induction a as [|x a IH]; intros [|y c] L H; cbn in *; try lia; [auto|]. injection H as -> H.
  destruct (IH c ltac:(lia) H) as [-> ->]. auto.
Qed.
Lemma string_app t u : same (s_string e (t ++ u)) (s_seq (s_string e t) (s_string e u)).
Proof.
  intros i j. unfold s_seq, s_string. rewrite app_length, firstn_skipn_app. split.
  - intros [-> H].
    destruct (Nat.le_gt_cases (length t) (length (skipn i (text e)))) as [L|L].
    + assert (E : firstn (length t) (skipn i (text e)) = t /\ firstn (length u) (skipn (i + length t) (text e)) = u).
      { apply app_split; [rewrite firstn_length; lia| exact H]. }
      destruct E as [E1 E2]. exists (i + length t)%nat. repeat split; try assumption; lia.
    + exfalso. apply (f_equal (@length _)) in H. rewrite !app_length, !firstn_length, !skipn_length in H. rewrite skipn_length in L. lia.
  - intros (k & [-> E1] & [-> E2]). split; [lia|]. rewrite E1, E2. reflexivity.
Qed.
Lemma string_cons c : same (s_string e [c]) (s_char e (fun x => x = c)).
Proof.
  intros i j. unfold s_string, s_char. cbn [length].
  destruct (nth_error (text e) i) as [x|] eqn:E.
  - assert (K : firstn 1 (skipn i (text e)) = [x]).
    { clear -E. revert E. generalize (text e). induction i as [|i IH]; intros [|y l] E; cbn in *; try discriminate; [injection E as ->; reflexivity|]. apply IH. exact E. }
    rewrite K. split.
    + intros [-> H]. injection H as ->. exists c. repeat split; lia.
    + intros (y & H & -> & ->). injection H as ->. split; [lia|reflexivity].
  - rewrite (skipn_all2 (text e)) by (apply nth_error_None in E; exact E). cbn. split; [intros [_ H]; discriminate | intros (y & H & _); discriminate].
Qed.

(** ** Contents of RegexAnd and RegexOr *)
Definition Dall (l : list regex) : span := fold_right (fun r S => s_seq (D r) S) s_empty l.
Definition Dany (l : list regex) : span := fold_right (fun r S => s_alt (D r) S) (fun _ _ => False) l.
Lemma Dall_app l m : same (Dall (l ++ m)) (s_seq (Dall l) (Dall m)).
Proof.
  induction l as [|x l IH]; cbn [Dall fold_right app].
  - apply same_sym, seq_empty_l.
  - apply (same_trans _ (s_seq (D x) (s_seq (Dall l) (Dall m)))); [apply seq_same; [apply same_refl|exact IH] | apply seq_assoc].
Qed.
Lemma Dall_one x : same (Dall [x]) (D x). Proof. apply seq_empty_r. Qed.
Lemma Dany_in l i j : Dany l i j <-> exists r, In r l /\ D r i j.
Proof.
  induction l as [|x l IH]; cbn [Dany fold_right].
  - split; [tauto | intros (r & [] & _)].
  - unfold s_alt at 1. split.
    + intros [H|H]; [exists x; split; [left; reflexivity| exact H] | apply IH in H; destruct H as (r & A & B); exists r; split; [right; exact A| exact B]].
    + intros (r & [<-|A] & B); [left; exact B | right; apply IH; exists r; auto].
Qed.
Lemma Dany_app l m : same (Dany (l ++ m)) (s_alt (Dany l) (Dany m)).
Proof.
  intros i j. unfold s_alt. rewrite !Dany_in. split.
  - intros (r & A & B). apply in_app_iff in A. destruct A as [A|A]; [left|right]; eauto.
  - intros [(r & A & B)|(r & A & B)]; exists r; (split; [apply in_app_iff; auto| exact B]).
Qed.
Lemma Dany_one x : same (Dany [x]) (D x). Proof. apply alt_false_r. Qed.

(** ** Concatenation *)
Definition and_last (b : regex) : list regex -> list regex :=
  fix last (l : list regex) : list regex :=
    match l with [] => [b] | [x] => match and1 x b with Some y => [y] | None => [x; b] end | x :: l => x :: last l end.
Lemma and1_And l b : and1 (RAnd l) b = Some (RAnd (and_last b l)). Proof. reflexivity. Qed.
Lemma test_idem P : same (s_test P) (s_seq (s_test P) (s_test P)).
Proof. intros i j. unfold s_seq, s_test. split; [intros [-> H]; exists j; auto | intros (k & [-> H] & [-> _]); auto]. Qed.
Lemma and1_sem a b r : and1 a b = Some r -> same (D r) (s_seq (D a) (D b)).
Proof.
  revert r. induction a using regex_ind'; intros q H0; try discriminate H0; cbn in H0.
  - injection H0 as <-. apply same_sym, seq_empty_l.
  - destruct b; try discriminate. injection H0 as <-. apply test_idem.
  - destruct b; try discriminate. injection H0 as <-. apply test_idem.
  - destruct b; try discriminate. injection H0 as <-. apply test_idem.
  - destruct b; try discriminate. injection H0 as <-. apply string_app.
  - change (Some (RAnd (and_last b l)) = Some q) in H0. injection H0 as <-.
    change (same (Dall (and_last b l)) (s_seq (Dall l) (D b))).
    induction l as [|x l IH]; [apply (same_trans _ (D b)); [apply Dall_one | apply same_sym, seq_empty_l]|].
    inversion H as [|? ? Hx Hl]; subst. specialize (IH Hl).
    destruct l as [|y l].
    + cbn [and_last]. destruct (and1 x b) as [z|] eqn:E.
      * apply (same_trans _ (D z)); [apply Dall_one|]. apply (same_trans _ (s_seq (D x) (D b))); [apply Hx; reflexivity|].
        apply seq_same; [apply same_sym, Dall_one | apply same_refl].
      * change [x; b] with ([x] ++ [b]). apply (same_trans _ _ _ (Dall_app _ _)).
        apply seq_same; [apply same_refl| apply Dall_one].
    + change (and_last b (x :: y :: l)) with (x :: and_last b (y :: l)).
      cbn [Dall fold_right]. apply (same_trans _ (s_seq (D x) (s_seq (Dall (y :: l)) (D b)))); [apply seq_same; [apply same_refl| exact IH] |].
      apply seq_assoc.
Qed.
Lemma pair_sem a b : same (D (RAnd [a; b])) (s_seq (D a) (D b)).
Proof. cbn. apply seq_same; [apply same_refl| apply seq_empty_r]. Qed.
Theorem and_sem a b : same (D (and_ a b)) (s_seq (D a) (D b)).
Proof.
  unfold and_. revert a. induction b using regex_ind'; intros a;
    try (cbn [rand]; destruct (and1 a _) as [r|] eqn:E; [exact (and1_sem _ _ _ E) | apply pair_sem]).
  - cbn [rand]. apply same_sym, seq_empty_r.
  - cbn [rand]. destruct a; try apply pair_sem.
    + apply same_sym, seq_empty_l.
    + change (D (RAnd l)) with (Dall l).
      revert H. generalize (RAnd content). induction l as [|x l IH]; intros a H; cbn [fold_left].
      * apply same_sym, seq_empty_r.
      * inversion H as [|? ? Hx Hl]; subst.
        apply (same_trans _ _ _ (IH _ Hl)).
        apply (same_trans _ (s_seq (s_seq (D a) (D x)) (Dall l))); [apply seq_same; [apply Hx| apply same_refl]|].
        cbn [Dall fold_right]. apply same_sym, seq_assoc.
Qed.
Lemma fold_and_sem l a : same (D (fold_left and_ l a)) (s_seq (D a) (Dall l)).
Proof.
  revert a. induction l as [|x l IH]; intros a; cbn [fold_left].
  - apply same_sym, seq_empty_r.
  - apply (same_trans _ _ _ (IH _)). apply (same_trans _ (s_seq (s_seq (D a) (D x)) (Dall l))).
    + apply seq_same; [apply and_sem| apply same_refl].
    + apply same_sym, seq_assoc.
Qed.
Lemma and_join_sem l : same (D (and_join l)) (Dall l).
Proof. destruct l as [|x l]; [apply same_refl|]. apply fold_and_sem. Qed.
End Engine.

(** ** Well formed regexes: what the constructors accept *)
Definition is_empty (r : regex) : bool := match r with REmpty => true | _ => false end.
Definition item_valid (i : item) : Prop := cmin i <= cmax i.
Fixpoint wf (r : regex) : Prop :=
  match r with
  | RString t => t <> []
  | RRange l ex => ex = false /\ l <> [] /\ Forall item_valid l
  | RAnd l => (2 <= length l)%nat /\ (fix all (l : list regex) : Prop := match l with [] => True | x :: l => (wf x /\ is_empty x = false) /\ all l end) l
  | ROr l => (2 <= length l)%nat /\ (fix all (l : list regex) : Prop := match l with [] => True | x :: l => wf x /\ all l end) l
  | RRepeat r lo hi => wf r /\ 0 <= lo /\ (match hi with Some h => lo <= h /\ 1 <= h | None => True end)
  | _ => True
  end.
Definition item_ok (r : regex) : Prop := wf r /\ is_empty r = false.
Lemma wf_And l : wf (RAnd l) <-> (2 <= length l)%nat /\ Forall item_ok l.
Proof.
  cbn. apply and_iff_compat_l. induction l as [|x l IH]; [split; auto|]. rewrite Forall_cons_iff, IH. reflexivity.
Qed.
Lemma wf_Or l : wf (ROr l) <-> (2 <= length l)%nat /\ Forall wf l.
Proof.
  cbn. apply and_iff_compat_l. induction l as [|x l IH]; [split; auto|]. rewrite Forall_cons_iff, IH. reflexivity.
Qed.

(** Weights *)
Definition wsum (l : list regex) : nat := list_sum (map weight l).
Lemma wsum_cons x l : wsum (x :: l) = (weight x + wsum l)%nat. Proof. reflexivity. Qed.
Lemma wsum_app l m : wsum (l ++ m) = (wsum l + wsum m)%nat.
Proof. unfold wsum. rewrite map_app, list_sum_app. reflexivity. Qed.
Lemma weight_And l : weight (RAnd l) = S (wsum l). Proof. reflexivity. Qed.
Lemma weight_Or l : weight (ROr l) = S (wsum l). Proof. reflexivity. Qed.
Lemma weight_pos r : (1 <= weight r)%nat. Proof. destruct r; cbn; lia. Qed.
Lemma wsum_length l : (length l <= wsum l)%nat.
Proof. induction l as [|x l IH]; [cbn; lia|]. rewrite wsum_cons. cbn [length]. pose proof (weight_pos x). lia. Qed.
Lemma weight_item r : item_ok r -> (3 <= weight r)%nat.
Proof.
  intros [W N]. destruct r; try discriminate N; try (cbn; lia).
  - apply wf_And in W. rewrite weight_And. pose proof (wsum_length content). lia.
  - apply wf_Or in W. rewrite weight_Or. pose proof (wsum_length content). lia.
Qed.

(** Concatenation keeps regexes well formed and does not add weight. *)
Lemma and_last_length b l : (length l <= length (and_last b l))%nat /\ (1 <= length (and_last b l))%nat.
Proof.
  induction l as [|x l IH]; [cbn; lia|]. destruct l as [|y l]; [cbn; destruct (and1 x b); cbn; lia|].
  change (and_last b (x :: y :: l)) with (x :: and_last b (y :: l)). cbn [length] in *. lia.
Qed.
Lemma and1_ok a b r : and1 a b = Some r -> wf a -> item_ok b -> item_ok r /\ (weight r <= weight a + weight b)%nat.
Proof.
  revert r. induction a using regex_ind'; intros q H0 Wa Wb; try discriminate H0; cbn in H0.
  - injection H0 as <-. split; [exact Wb| cbn; lia].
  - destruct b; try discriminate. injection H0 as <-. split; [exact Wb| cbn; lia].
  - destruct b; try discriminate. injection H0 as <-. split; [exact Wb| cbn; lia].
  - destruct b; try discriminate. injection H0 as <-. split; [exact Wb| cbn; lia].
  - destruct b; try discriminate. injection H0 as <-. cbn [wf] in Wa. split.
    + split; [|reflexivity]. cbn [wf]. destruct t; [congruence|discriminate].
    + cbn [weight]. rewrite app_length. lia.
  - change (Some (RAnd (and_last b l)) = Some q) in H0. injection H0 as <-. apply wf_And in Wa. destruct Wa as [L Wl].
    rewrite !weight_And. unfold item_ok. rewrite wf_And.
    assert (K : Forall item_ok (and_last b l) /\ (wsum (and_last b l) <= wsum l + weight b)%nat).
    { clear L. induction l as [|x l IH].
      - cbn. split; [constructor; auto| unfold wsum; cbn; lia].
      - inversion H as [|? ? Hx Hl]; subst. inversion Wl as [|? ? Wx Wl']; subst. specialize (IH Hl Wl').
        destruct l as [|y l].
        + cbn [and_last]. destruct (and1 x b) as [z|] eqn:E.
          * destruct (Hx z eq_refl (proj1 Wx) Wb) as [K1 K2]. split; [constructor; [exact K1| constructor]|]. unfold wsum. cbn. lia.
          * split; [constructor; [exact Wx| constructor; [exact Wb| constructor]] |]. unfold wsum. cbn. lia.
        + change (and_last b (x :: y :: l)) with (x :: and_last b (y :: l)).
          split; [constructor; [exact Wx| apply IH]|]. rewrite (wsum_cons x (y :: l)), (wsum_cons x (and_last _ _)). lia. }
    pose proof (and_last_length b l). repeat split; try apply K; lia.
Qed.
Lemma and1_And_b l b : b <> REmpty -> (forall c, b <> RAnd c) -> and_ (RAnd l) b = RAnd (and_last b l).
Proof. intros H K. destruct b; try reflexivity; [congruence| exfalso; eapply K; reflexivity]. Qed.
Definition is_and (r : regex) : bool := match r with RAnd _ => true | _ => false end.
Lemma pair_ok a b : item_ok a -> item_ok b -> item_ok (RAnd [a; b]) /\ (weight (RAnd [a; b]) <= S (weight a + weight b))%nat.
Proof.
  intros A B. split; [split; [|reflexivity]; apply wf_And; split; [cbn; lia| constructor; [exact A| constructor; [exact B| constructor]] ] |].
  rewrite weight_And. unfold wsum. cbn. lia.
Qed.
Theorem and_ok a b : wf a -> wf b ->
  wf (and_ a b) /\ (is_empty a = false \/ is_empty b = false -> is_empty (and_ a b) = false) /\
  (weight (and_ a b) <= S (weight a + weight b))%nat /\
  (is_and a = true -> is_and (and_ a b) = true /\ (weight (and_ a b) <= weight a + weight b)%nat).
Proof.
  assert (P : forall a b r, wf a -> item_ok b -> and1 a b = Some r ->
     wf r /\ (is_empty a = false \/ is_empty b = false -> is_empty r = false) /\ (weight r <= S (weight a + weight b))%nat /\
     (is_and a = true -> is_and r = true /\ (weight r <= weight a + weight b)%nat)).
  { clear. intros a b r Wa Wb E. destruct (and1_ok a b r E Wa Wb) as [[K1 K2] K3]. repeat split; auto; try lia.
    destruct a; try discriminate. cbn in E. injection E as <-. reflexivity. }
  assert (Q : forall a b, wf a -> item_ok b -> and1 a b = None ->
     wf (RAnd [a; b]) /\ (is_empty a = false \/ is_empty b = false -> is_empty (RAnd [a; b]) = false) /\ (weight (RAnd [a; b]) <= S (weight a + weight b))%nat /\
     (is_and a = true -> is_and (RAnd [a; b]) = true /\ (weight (RAnd [a; b]) <= weight a + weight b)%nat)).
  { clear. intros a b Wa Wb E. assert (A : item_ok a) by (split; [exact Wa| destruct a; try reflexivity; discriminate E]).
    destruct (pair_ok a b A Wb) as [[K1 K2] K3]. split; [exact K1|]. split; [auto|]. split; [exact K3|]. intros I. destruct a; try discriminate I. discriminate E. }
  unfold and_. revert a. induction b using regex_ind'; intros a Wa Wb;
    try (cbn [rand]; destruct (and1 a _) as [q|] eqn:E; [eapply P; eauto; split; [exact Wb|reflexivity] | eapply Q; eauto; split; [exact Wb|reflexivity] ]).
  - cbn [rand]. repeat split; auto; try lia. intros [K|K]; [exact K|discriminate].
  - cbn [rand]. destruct a; try (eapply Q; [exact Wa | split; [exact Wb| reflexivity] | reflexivity]).
    + split; [exact Wb|]. split; [reflexivity|]. split; [rewrite weight_And; cbn; lia| discriminate].
    + apply wf_And in Wb. destruct Wb as [_ Wl].
      assert (G : forall a, wf a -> is_and a = true -> wf (fold_left (fun total i => rand i total) l a) /\
         is_and (fold_left (fun total i => rand i total) l a) = true /\ (weight (fold_left (fun total i => rand i total) l a) <= weight a + wsum l)%nat).
      { clear Wa content. induction l as [|x l IH]; intros a Wa Ia; cbn [fold_left].
        - repeat split; auto. unfold wsum. cbn. lia.
        - inversion H as [|? ? Hx Hl]; subst. inversion Wl as [|? ? Wx Wl']; subst. specialize (IH Hl Wl').
          destruct (Hx a Wa (proj1 Wx)) as (K1 & _ & _ & K4). destruct (K4 Ia) as [K5 K6].
          destruct (IH _ K1 K5) as (M1 & M2 & M3). repeat split; auto. rewrite wsum_cons. lia. }
      destruct (G (RAnd content) Wa eq_refl) as (M1 & M2 & M3). rewrite (weight_And l).
      repeat split; auto; try lia. intros _. destruct (fold_left _ l (RAnd content)); try discriminate M2. reflexivity.
Qed.
Lemma fold_and_ok l a : wf a -> is_and a = true -> Forall item_ok l ->
  wf (fold_left and_ l a) /\ is_and (fold_left and_ l a) = true /\ (weight (fold_left and_ l a) <= weight a + wsum l)%nat.
Proof.
  revert a. induction l as [|x l IH]; intros a Wa Ia H; cbn [fold_left].
  - repeat split; auto. unfold wsum. cbn. lia.
  - inversion H as [|? ? Wx Hl]; subst. destruct (and_ok a x Wa (proj1 Wx)) as (K1 & _ & _ & K4). destruct (K4 Ia) as [K5 K6].
    destruct (IH _ K1 K5 Hl) as (M1 & M2 & M3). repeat split; auto. rewrite wsum_cons. lia.
Qed.
Lemma and_join_ok l : Forall item_ok l -> wf (and_join l) /\ (l <> [] -> is_empty (and_join l) = false) /\ (weight (and_join l) <= S (wsum l))%nat.
Proof.
  intros H. destruct l as [|x l]; [repeat split; [congruence| cbn; lia]|]. inversion H as [|? ? Wx Hl]; subst. cbn [and_join]. rewrite wsum_cons.
  enough (K : forall a, item_ok a -> Forall item_ok l -> wf (fold_left and_ l a) /\ is_empty (fold_left and_ l a) = false /\ (weight (fold_left and_ l a) <= S (weight a + wsum l))%nat).
  { destruct (K x Wx Hl) as (K1 & K2 & K3). repeat split; auto. }
  clear H Hl Wx x. induction l as [|y l IH]; intros a Wa H; cbn [fold_left].
  - destruct Wa. repeat split; auto. unfold wsum. cbn. lia.
  - inversion H as [|? ? Wy Hl]; subst. destruct (and_ok a y (proj1 Wa) (proj1 Wy)) as (K1 & K2 & K3 & K4).
    destruct (is_and (and_ a y)) eqn:E.
    + destruct (fold_and_ok l _ K1 E Hl) as (M1 & M2 & M3). repeat split; auto; [destruct (fold_left and_ l (and_ a y)); try discriminate M2; reflexivity|]. rewrite wsum_cons. lia.
    + destruct (IH (and_ a y)) as (M1 & M2 & M3); [split; [exact K1| apply K2; left; apply Wa] | exact Hl|].
      repeat split; auto. rewrite wsum_cons.
      assert (W : (weight (and_ a y) <= weight a + weight y)%nat); [|lia].
      { assert (I : is_and a = false) by (destruct (is_and a); [destruct (K4 eq_refl) as [K5 _]; congruence | reflexivity]).
        clear -E Wa Wy I. unfold and_ in *. destruct y; cbn [rand] in *; try lia;
          try (destruct (and1 a _) as [q|] eqn:F; [eapply and1_ok; eauto; apply Wa | discriminate E]).
        destruct a; discriminate E || discriminate I. }
Qed.

(** Only regexes for one text give one text when concatenated. *)
Definition single := matchSingleValue.
Lemma single_And l : single (RAnd l) = forallb single l.
Proof. reflexivity. Qed.
Lemma and1_single a b r : and1 a b = Some r -> single r = true -> single a = true /\ single b = true.
Proof.
  revert r. induction a using regex_ind'; intros q H0 S; try discriminate H0; cbn in H0.
  - injection H0 as <-. auto.
  - destruct b; try discriminate. injection H0 as <-. discriminate S.
  - destruct b; try discriminate. auto.
  - destruct b; try discriminate. auto.
  - destruct b; try discriminate. auto.
  - change (Some (RAnd (and_last b l)) = Some q) in H0. injection H0 as <-. rewrite single_And in *.
    induction l as [|x l IH].
    + cbn [and_last forallb] in S. rewrite andb_true_r in S. auto.
    + inversion H as [|? ? Hx Hl]; subst. destruct l as [|y l].
      * cbn [and_last] in S. destruct (and1 x b) as [z|] eqn:E.
        -- cbn [forallb] in *. rewrite andb_true_r in *. apply (Hx z eq_refl S).
        -- cbn [forallb] in *. rewrite andb_true_r in *. apply andb_true_iff in S. tauto.
      * change (and_last b (x :: y :: l)) with (x :: and_last b (y :: l)) in S. cbn [forallb] in *. apply andb_true_iff in S. destruct S as [S1 S2].
        destruct (IH Hl S2) as [I1 I2]. rewrite S1. auto.
Qed.
Lemma and_single a b : single (and_ a b) = true -> single a = true /\ single b = true.
Proof.
  unfold and_. revert a. induction b using regex_ind'; intros a S;
    try (cbn [rand] in S; destruct (and1 a _) as [r|] eqn:E; [exact (and1_single _ _ _ E S) | rewrite single_And in S; cbn [forallb] in S; rewrite !andb_true_iff in S; tauto]).
  - auto.
  - cbn [rand] in S. destruct a; try (rewrite single_And in S; cbn [forallb] in S; rewrite !andb_true_iff in S; tauto).
    + auto.
    + rewrite (single_And l). revert H S. generalize (RAnd content). induction l as [|x l IH]; intros a H S; cbn [fold_left] in S.
      * auto.
      * inversion H as [|? ? Hx Hl]; subst. destruct (IH _ Hl S) as [I1 I2]. destruct (Hx _ I1) as [J1 J2]. cbn [forallb]. rewrite J2. auto.
Qed.

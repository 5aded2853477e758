(** The operations on regexes make no dot and no zero-width test of their own:
    the ones of the result are in the operands. *)
From Verif Require Import Base DictModel RegexModel RegexSpec RegexProofs RegexProofs2 RegexProofs3 RegexProofs4 RegexProofs5.
Ltac Zify.zify_post_hook ::= Z.div_mod_to_equations.

Section Leaves.
Context (P : regex -> Prop).
Fixpoint leaves (r : regex) : Prop :=
  match r with
  | RAnd l | ROr l => (fix all (l : list regex) : Prop := match l with [] => True | x :: l => leaves x /\ all l end) l
  | RRepeat r _ _ => leaves r
  | REmpty | RString _ | RRange _ _ => True
  | _ => P r
  end.
Lemma leaves_And l : leaves (RAnd l) <-> Forall leaves l.
Proof using All. cbn [leaves]. induction l as [|x l IH]; [split; auto|]. rewrite Forall_cons_iff, IH. reflexivity. Qed.
Lemma leaves_Or l : leaves (ROr l) <-> Forall leaves l.
Proof using All. cbn [leaves]. induction l as [|x l IH]; [split; auto|]. rewrite Forall_cons_iff, IH. reflexivity. Qed.
Lemma leaves_and1 a : forall b r, leaves a -> leaves b -> and1 a b = Some r -> leaves r.
Proof using All.
  induction a as [| | | | |t|l ex|l IH|l IH|q lo hi IH] using regex_ind'; intros b r A B H; cbn [and1] in H; try discriminate.
  - injection H as <-. exact B.
  - destruct b; try discriminate. injection H as <-. exact A.
  - destruct b; try discriminate. injection H as <-. exact A.
  - destruct b; try discriminate. injection H as <-. exact A.
  - destruct b; try discriminate. injection H as <-. exact I.
  - injection H as <-. apply leaves_And in A. apply leaves_And. induction l as [|x l IHl]; [auto|].
    inversion IH as [|? ? IHx IHr]; subst. inversion A as [|? ? Ax Ar]; subst. destruct l as [|y l].
    + destruct (and1 x b) eqn:E; [constructor; [exact (IHx b _ Ax B E)| auto]| auto].
    + constructor; [exact Ax|]. apply IHl; assumption.
Qed.
Lemma leaves_rand b : forall a, leaves a -> leaves b -> leaves (rand b a).
Proof using All.
  induction b as [| | | | |t|l ex|l IH|l IH|q lo hi IH] using regex_ind'; intros a A B; cbn [rand];
    try (destruct (and1 a _) eqn:E; [eapply leaves_and1; [exact A| exact B| exact E]| apply leaves_And; auto]).
  - exact A.
  - assert (Two : leaves (RAnd [a; RAnd l])) by (apply leaves_And; auto).
    destruct a; try exact Two; [exact B|]. apply leaves_And in B. clear Two.
    match goal with |- leaves (fold_left _ _ ?x) => generalize dependent x end. induction l as [|y l IHl]; intros x A; [exact A|]. cbn [fold_left].
    inversion IH; subst. inversion B; subst. apply IHl; auto.
Qed.
Lemma leaves_and a b : leaves a -> leaves b -> leaves (and_ a b).
Proof using All. apply leaves_rand || (intros; apply leaves_rand; assumption). Qed.
Lemma leaves_join l : Forall leaves l -> leaves (and_join l).
Proof using All.
  intros H. destruct H as [|x l Hx Hl]; [exact I|]. cbn [and_join]. revert x Hx. induction Hl as [|y l Hy _ IH]; intros x Hx; [exact Hx|]. cbn [fold_left]. apply IH. apply leaves_and; assumption.
Qed.
Lemma leaves_createString t : leaves (createString t). Proof using All. destruct t; exact I. Qed.
Lemma leaves_prefix a b p x y : findPrefix a b = Some (p, x, y) -> leaves p /\ leaves x /\ leaves y.
Proof using All.
  unfold findPrefix. destruct a as [| | | | |t|? ?|?|?|? ? ?]; try discriminate. destruct b as [| | | | |t0|? ?|?|?|? ? ?]; try discriminate. intros H.
  assert (G : forall c, (if Nat.eqb c 0 then None else Some (RString (firstn c t), createString (skipn c t), createString (skipn c t0))) = Some (p, x, y) -> leaves p /\ leaves x /\ leaves y).
  { intros c K. destruct (Nat.eqb c 0); [discriminate|]. injection K as <- <- <-. split; [exact I|]. split; apply leaves_createString. }
  destruct t as [|c1 [|c2 t]]; destruct t0 as [|d1 [|d2 t0]]; try discriminate H; try (exact (G _ H)). injection H as <- <- <-. split; [exact I|]. split; exact I.
Qed.
Lemma leaves_skip n l : Forall leaves l -> Forall leaves (skipn n l).
Proof using All. intros H. rewrite <- (firstn_skipn n l) in H. apply Forall_app in H. apply H. Qed.
Lemma leaves_first n l : Forall leaves l -> Forall leaves (firstn n l).
Proof using All. intros H. rewrite <- (firstn_skipn n l) in H. apply Forall_app in H. apply H. Qed.

Section Or.
Context (same_items : list item -> list item -> bool).
Definition keeps (orr : regex -> regex -> res (option regex)) : Prop := forall a b r, leaves a -> leaves b -> orr a b = Ok (Some r) -> leaves r.
Lemma keeps_bar orr a b r : keeps orr -> leaves a -> leaves b -> bar_ orr a b = Ok r -> leaves r.
Proof using All.
  intros K A B H. unfold bar_ in H. destruct (orr a b) as [[q|]|] eqn:E; cbn [bind] in H; try discriminate; injection H as <-; [exact (K _ _ _ A B E)|]. apply leaves_Or; auto.
Qed.
Lemma keeps_bars orr l : keeps orr -> forall a r, leaves a -> Forall leaves l -> bars orr a l = Ok r -> leaves r.
Proof using All.
  intros K. induction l as [|x l IH]; intros a r A L H; cbn [bars] in H; [injection H as <-; exact A|]. inversion L; subst.
  destruct (bar_ orr a x) eqn:E; cbn [bind] in H; [|discriminate]. eapply IH; [| |exact H]; [|assumption]. eapply keeps_bar; [exact K|exact A| |exact E]. assumption.
Qed.
Lemma keeps_item orr other l : keeps orr -> leaves other -> forall before c, Forall leaves before -> Forall leaves l -> or_item orr other before l = Ok (Some c) -> Forall leaves c.
Proof using All.
  intros K O. induction l as [|x l IH]; intros before c B L H; cbn [or_item] in H; [discriminate|]. inversion L; subst.
  destruct (orr x other) as [[q|]|] eqn:E; cbn [bind] in H; try discriminate.
  - injection H as <-. apply Forall_app. split; [apply Forall_rev; exact B|]. constructor; [eapply K; [| |exact E]; assumption| assumption].
  - eapply IH; [| |exact H]; [|assumption]. constructor; assumption.
Qed.
Lemma keeps_or1 orr : keeps orr -> forall rv a b r, leaves a -> leaves b -> or1 same_items orr a b rv = Ok (Some r) -> leaves r.
Proof using All.
  intros K rv a b r A B H. destruct a as [| | | | |t|l ex|l|l|q lo hi]; cbn [or1] in H; try discriminate.
  - destruct (findPrefix (RString t) b) as [[[p x] y]|] eqn:E; [|discriminate]. destruct (leaves_prefix _ _ _ _ _ E) as (L1 & L2 & L3).
    destruct rv; (destruct (bar_ orr _ _) eqn:F in H; cbn [bind] in H; [|discriminate]; injection H as <-; apply leaves_and; [exact L1| eapply keeps_bar; [exact K| | |exact F]; assumption]).
  - destruct (match b with RString [c] => _ | RRange r' e' => _ | _ => None end) as [m|]; [|discriminate]. injection H as <-. exact I.
  - destruct (match b with RString _ => Some [b] | RAnd c => Some c | _ => None end) as [cb0|] eqn:Eb; [|discriminate].
    assert (Lb : Forall leaves cb0) by (destruct b; try discriminate; injection Eb as <-; [auto| apply leaves_And; exact B]).
    apply leaves_And in A.
    assert (L : forall ca cb, (if rv then (cb0, l) else (l, cb0)) = (ca, cb) -> Forall leaves ca /\ Forall leaves cb) by (intros ca cb E; destruct rv; injection E as <- <-; auto).
    destruct (if rv then (cb0, l) else (l, cb0)) as [ca cb]. destruct (L ca cb eq_refl) as [La Lc]. clear L.
    destruct (negb (Nat.eqb (common_items same_items ca cb) 0)).
    + destruct (bar_ orr _ _) eqn:F in H; cbn [bind] in H; [|discriminate]. injection H as <-. apply leaves_and; [apply leaves_join, leaves_first, La|].
      eapply keeps_bar; [exact K| | |exact F]; apply leaves_join, leaves_skip; assumption.
    + destruct ca as [|a0 ca]; [discriminate|]. destruct cb as [|b0 cb]; [discriminate|]. inversion La; subst. inversion Lc; subst.
      destruct (findPrefix a0 b0) as [[[p x] y]|] eqn:E; [|discriminate]. destruct (leaves_prefix _ _ _ _ _ E) as (L1 & L2 & L3).
      destruct (bar_ orr _ _) eqn:F in H; cbn [bind] in H; [|discriminate]. destruct (matchSingleValue p || _); [|discriminate]. injection H as <-.
      apply leaves_and; [exact L1|]. eapply keeps_bar; [exact K| | |exact F]; apply leaves_and; auto using leaves_join.
  - apply leaves_Or in A as A'.
    assert (G : (do c <- or_item orr b [] l; match c with Some c => Ok (Some (ROr c)) | None => Ok (Some (ROr (if rv then b :: l else l ++ [b]))) end) = Ok (Some r) -> leaves r).
    { clear H. intros H. destruct (or_item orr b [] l) as [[c|]|] eqn:E; cbn [bind] in H; try discriminate; injection H as <-; apply leaves_Or.
      - eapply keeps_item; [exact K|exact B| |exact A'|exact E]. auto.
      - destruct rv; [auto| apply Forall_app; auto]. }
    destruct b; try exact (G H). destruct (bars orr _ _) eqn:F in H; cbn [bind] in H; [|discriminate]. injection H as <-. apply leaves_Or in B. eapply keeps_bars; [exact K|exact A|exact B|exact F].
Qed.
Lemma keeps_or_f fuel : keeps (or_f same_items fuel).
Proof using All.
  induction fuel as [|fuel IH]; intros a b r A B H; cbn [or_f] in H; [discriminate|].
  destruct (req same_items a b); [injection H as <-; exact A|]. destruct (rmatch a b); [injection H as <-; exact A|]. destruct (rmatch b a); [injection H as <-; exact B|].
  destruct (negb (same_class a b)).
  - destruct (or1 same_items (or_f same_items fuel) a b false) as [[q|]|] eqn:E; cbn [bind] in H; try discriminate.
    + injection H as <-. eapply keeps_or1; [exact IH|exact A|exact B|exact E].
    + eapply keeps_or1; [exact IH|exact B|exact A|exact H].
  - eapply keeps_or1; [exact IH|exact A|exact B|exact H].
Qed.
Lemma keeps_or : keeps (or_ same_items).
Proof using All. intros a b r A B H. exact (keeps_or_f _ a b r A B H). Qed.
Lemma leaves_bar a b r : leaves a -> leaves b -> bar same_items a b = Ok r -> leaves r.
Proof using All. apply keeps_bar, keeps_or. Qed.
Lemma leaves_or_join l r : Forall leaves l -> or_join same_items l = Ok r -> leaves r.
Proof using All. intros L H. destruct L as [|x l Lx L]; cbn [or_join] in H; [injection H as <-; exact I|]. eapply keeps_bars; [exact keeps_or|exact Lx|exact L|exact H]. Qed.
Lemma leaves_raw r lo hi q : leaves r -> mk_repeat_raw r lo hi = Ok q -> leaves q.
Proof using All.
  unfold mk_repeat_raw. intros L H. destruct (0 <=? lo); cbn [assert_ bind] in H; [|discriminate]. destruct hi as [m|]; [destruct (_ || _)|]; try discriminate; injection H as <-; exact L.
Qed.
Lemma leaves_items lo hi l : forall m, Forall leaves l -> repeat_items lo hi l = Ok m -> Forall leaves m.
Proof using All.
  induction l as [|x l IH]; intros m L H; cbn [repeat_items] in H; [injection H as <-; constructor|]. inversion L as [|? ? Lx Ll]; subst.
  assert (G : forall i, leaves i -> (do l' <- repeat_items lo hi l; Ok (i :: l')) = Ok m -> Forall leaves m).
  { clear H. intros i Li H. destruct (repeat_items lo hi l) eqn:E; cbn [bind] in H; [|discriminate]. injection H as <-. constructor; [exact Li| apply IH; auto]. }
  destruct x as [| | | | |t|rl ex|al|ol|r n p]; try (apply (G _ Lx H)); [apply IH; assumption|].
  destruct (if n =? 0 then _ else _) as [i|] eqn:E in H; cbn [bind] in H; [|discriminate]. apply (G i); [|exact H]. clear H.
  destruct (n =? 0).
  - destruct ((lo =? 0) || (lo =? 1)); [destruct (is_none hi && is_none p)|]; [injection E as <-; exact Lx| eapply leaves_raw; [|exact E]; exact Lx| injection E as <-; exact Lx].
  - destruct (n =? 1); [destruct (is_none hi && is_none p); injection E as <-; exact Lx|]. destruct (is_none hi && is_none p); [eapply leaves_raw; [|exact E]; exact Lx| injection E as <-; exact Lx].
Qed.
Lemma leaves_repeat r lo hi q : leaves r -> mk_repeat same_items r lo hi = Ok q -> leaves q.
Proof using All.
  intros L H. destruct r as [| | | | |t|rl ex|al|ol|r n p]; cbn [mk_repeat] in H; try (eapply leaves_raw; [exact L|exact H]).
  - apply leaves_Or in L. destruct (repeat_items _ _ _) eqn:E in H; cbn [bind] in H; [|discriminate]. destruct (or_join _ _) eqn:F in H; cbn [bind] in H; [|discriminate].
    eapply leaves_raw; [|exact H]. eapply leaves_or_join; [|exact F]. eapply leaves_items; [exact L|exact E].
  - destruct (negb _); eapply leaves_raw; try exact H; exact L.
Qed.
End Or.
End Leaves.

(** Without a dot, what the dot stands for does not matter *)
Definition no_dot (r : regex) : Prop := leaves (fun l => l <> RDot) r.
Definition with_dot (e : engine) (d : Z -> Prop) : engine := {| text := text e; at_word := at_word e; at_start := at_start e; at_end := at_end e; dot := d |}.
Lemma denote_no_dot e d r : no_dot r -> same (denote e r) (denote (with_dot e d) r).
Proof.
  unfold no_dot. induction r as [| | | | |t|l ex|l IH|l IH|q lo hi IH] using regex_ind'; intros N; try (exact (same_refl _)); try (exfalso; exact (N eq_refl)).
  - apply leaves_And in N. cbn [denote]. induction l as [|x l IHl]; [apply same_refl|]. inversion IH; subst. inversion N; subst. cbn [fold_right]. apply seq_same; auto.
  - apply leaves_Or in N. cbn [denote]. induction l as [|x l IHl]; [apply same_refl|]. inversion IH; subst. inversion N; subst. cbn [fold_right]. apply alt_same; auto.
  - cbn [denote]. apply repeat_same. apply IH. exact N.
Qed.
Fixpoint x_no_dot (x : expr) : Prop := match x with XDot => False | XAnd a b | XOr a b => x_no_dot a /\ x_no_dot b | XRepeat a _ _ => x_no_dot a | _ => True end.
Lemma meaning_no_dot e d x : x_no_dot x -> same (meaning e x) (meaning (with_dot e d) x).
Proof.
  induction x as [t|chars| | | | |a IHa b IHb|a IHa b IHb|a IHa lo hi]; cbn [x_no_dot meaning]; intros N; try (exact (same_refl _)); try contradiction.
  - destruct N. apply seq_same; auto.
  - destruct N. apply alt_same; auto.
  - apply repeat_same. auto.
Qed.
Lemma build_no_dot same_items x : forall r, x_no_dot x -> build same_items x = Ok r -> no_dot r.
Proof.
  unfold no_dot. induction x as [t|chars| | | | |a IHa b IHb|a IHa b IHb|a IHa lo hi]; cbn [x_no_dot build]; intros r N H; try contradiction; try (injection H as <-; try exact I; try (cbn; discriminate)).
  - apply leaves_createString.
  - destruct N. destruct (build same_items a); cbn [bind] in H; [|discriminate]. destruct (build same_items b); cbn [bind] in H; [|discriminate]. injection H as <-. apply leaves_and; auto.
  - destruct N. destruct (build same_items a); cbn [bind] in H; [|discriminate]. destruct (build same_items b); cbn [bind] in H; [|discriminate]. eapply leaves_bar; [| |exact H]; auto.
  - destruct (build same_items a); cbn [bind] in H; [|discriminate]. eapply leaves_repeat; [|exact H]; auto.
Qed.
Theorem build_sem' same_items e x : (forall l m, same_items l m = true -> l = m) -> (forall c, In c (text e) -> dot e c) \/ x_no_dot x ->
  proper x -> exact_repeats same_items x ->
  (exists r, build same_items x = Ok r /\ wf r /\ same (denote e r) (meaning e x)) \/ build same_items x = Err ValueError.
Proof.
  intros SI [DO|N] P X; [apply build_sem; assumption|].
  destruct (build_sem same_items (with_dot e (fun _ => True)) x SI (fun _ _ => I) P X) as [(r & E & W & S)|E]; [|right; exact E].
  left. exists r. split; [exact E|]. split; [exact W|]. apply (same_trans _ _ _ (denote_no_dot e (fun _ => True) r (build_no_dot _ _ _ N E))).
  apply (same_trans _ _ _ S). apply same_sym, meaning_no_dot, N.
Qed.

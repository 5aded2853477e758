(** Whole expressions, and length bounds *)
From Verif Require Import Base DictModel RegexModel RegexSpec RegexProofs RegexProofs2 RegexProofs3 RegexProofs4.
Ltac Zify.zify_post_hook ::= Z.div_mod_to_equations.

Theorem build_sem same_items e x : (forall l m, same_items l m = true -> l = m) -> (forall c, In c (text e) -> dot e c) ->
  proper x -> exact_repeats same_items x ->
  (exists r, build same_items x = Ok r /\ wf r /\ same (denote e r) (meaning e x)) \/ build same_items x = Err ValueError.
Proof.
  intros SI DO. induction x as [t|chars| | | | |a IHa b IHb|a IHa b IHb|a IHa lo hi]; intros P X.
  - left. eexists. split; [reflexivity|]. apply createString_sem.
  - left. eexists. split; [reflexivity|]. apply createRange_sem. exact P.
  - left. exists RDot. split; [reflexivity|]. split; [exact I| apply same_refl].
  - left. exists RStart. split; [reflexivity|]. split; [exact I| apply same_refl].
  - left. exists REnd. split; [reflexivity|]. split; [exact I| apply same_refl].
  - left. exists RWord. split; [reflexivity|]. split; [exact I| apply same_refl].
  - destruct P as [Pa Pb]. destruct X as [Xa Xb]. cbn [build].
    destruct (IHa Pa Xa) as [(ra & Ea & Wa & Sa)|Ea]; rewrite Ea; cbn [bind]; [|auto].
    destruct (IHb Pb Xb) as [(rb & Eb & Wb & Sb)|Eb]; rewrite Eb; cbn [bind]; [|auto].
    left. eexists. split; [reflexivity|]. split; [apply and_ok; assumption|]. apply (same_trans _ _ _ (and_sem e ra rb)). apply seq_same; assumption.
  - destruct P as [Pa Pb]. destruct X as [Xa Xb]. cbn [build].
    destruct (IHa Pa Xa) as [(ra & Ea & Wa & Sa)|Ea]; rewrite Ea; cbn [bind]; [|auto].
    destruct (IHb Pb Xb) as [(rb & Eb & Wb & Sb)|Eb]; rewrite Eb; cbn [bind]; [|auto].
    left. destruct (bar_sem same_items SI e DO ra rb Wa Wb) as (r & E & W & S). exists r. split; [exact E|]. split; [exact W|].
    apply (same_trans _ _ _ S). apply alt_same; assumption.
  - destruct P as [Pa Pb]. destruct X as [Xa Xr]. cbn [build].
    destruct (IHa Pa Xa) as [(ra & Ea & Wa & Sa)|Ea]; rewrite Ea; cbn [bind]; [|auto].
    destruct (mk_repeat_total same_items SI e DO ra lo hi Wa Pb) as [[r E]|E]; [|auto].
    left. exists r. split; [exact E|]. destruct (mk_repeat_sem same_items SI e DO ra lo hi r Wa Pb (Xr ra Ea) E) as [W S]. split; [exact W|].
    apply (same_trans _ _ _ S). apply repeat_same. exact Sa.
Qed.
Lemma no_repeat_exact same_items x : no_repeat x -> exact_repeats same_items x.
Proof. induction x; cbn; tauto. Qed.
Theorem build_total same_items x : (forall l m, same_items l m = true -> l = m) -> proper x -> no_repeat x -> exists r, build same_items x = Ok r /\ wf r.
Proof.
  intros SI. pose (e := {| text := []; at_word := fun _ => True; at_start := fun _ => True; at_end := fun _ => True; dot := fun _ => True |}).
  assert (DO : forall c, In c (text e) -> dot e c) by (intros; exact I).
  induction x as [t|chars| | | | |a IHa b IHb|a IHa b IHb|a IHa lo hi]; intros P N.
  - eexists. split; [reflexivity|]. apply (createString_sem e).
  - eexists. split; [reflexivity|]. apply (createRange_sem e). exact P.
  - exists RDot. repeat split; auto.
  - exists RStart. repeat split; auto.
  - exists REnd. repeat split; auto.
  - exists RWord. repeat split; auto.
  - destruct P as [Pa Pb]. destruct N as [Na Nb]. cbn [build].
    destruct (IHa Pa Na) as (ra & Ea & Wa). rewrite Ea. cbn [bind]. destruct (IHb Pb Nb) as (rb & Eb & Wb). rewrite Eb. cbn [bind].
    eexists. split; [reflexivity|]. apply and_ok; assumption.
  - destruct P as [Pa Pb]. destruct N as [Na Nb]. cbn [build].
    destruct (IHa Pa Na) as (ra & Ea & Wa). rewrite Ea. cbn [bind]. destruct (IHb Pb Nb) as (rb & Eb & Wb). rewrite Eb. cbn [bind].
    destruct (bar_sem same_items SI e DO ra rb Wa Wb) as (r & E & W & S). eauto.
  - destruct N.
Qed.

(** ** Length bounds *)
Lemma well_built_all l : (fix all (l : list regex) : Prop := match l with [] => True | x :: l => well_built x /\ all l end) l <-> Forall well_built l.
Proof. induction l as [|x l IH]; [split; auto|]. rewrite Forall_cons_iff, IH. reflexivity. Qed.
Lemma literal_all l : (fix all (l : list regex) : Prop := match l with [] => True | x :: l => literal x /\ all l end) l <-> Forall literal l.
Proof. induction l as [|x l IH]; [split; auto|]. rewrite Forall_cons_iff, IH. reflexivity. Qed.

Definition add_go := fix go (total : Z) (l : list (res (option Z))) := match l with [] => Ok (Some total) | x :: l => do o <- x; match o with None => Ok None | Some n => go (total + n) l end end.
Definition merge_go (f : Z -> Z -> Z) := fix go (value : option Z) (l : list (res (option Z))) :=
  match l with [] => Ok value | x :: l => do o <- x; match o with None => Ok None | Some n => go (Some (match value with None => n | Some v => f v n end)) l end end.

Theorem minLength_total r : well_built r -> exists m, minLength r = Ok (Some m) /\ 0 <= m.
Proof.
  induction r using regex_ind'; intros W; try (eexists; split; [reflexivity| lia]).
  - eexists. split; [reflexivity|]. unfold zlen. lia.
  - destruct W as [_ W]. apply well_built_all in W. cbn [minLength]. unfold add_lengths. change (exists m, add_go 0 (map minLength l) = Ok (Some m) /\ 0 <= m).
    enough (K : forall a, 0 <= a -> exists m, add_go a (map minLength l) = Ok (Some m) /\ 0 <= m) by (apply K; lia).
    induction l as [|x l IH]; intros a Ha; [exists a; auto|]. inversion H as [|? ? Hx Hl]; subst. inversion W as [|? ? Wx Wl]; subst.
    cbn [map add_go]. destruct (Hx Wx) as (m & E & M). rewrite E. cbn [bind]. apply IH; auto; lia.
  - destruct W as [N W]. apply well_built_all in W. cbn [minLength]. change (exists m, merge_go Z.min None (map minLength l) = Ok (Some m) /\ 0 <= m).
    destruct l as [|x l]; [congruence|]. inversion H as [|? ? Hx Hl]; subst. inversion W as [|? ? Wx Wl]; subst.
    cbn [map merge_go]. destruct (Hx Wx) as (m & E & M). rewrite E. cbn [bind]. clear Hx Wx H W N E x.
    revert m M. induction l as [|x l IH]; intros m M; [exists m; auto|]. inversion Hl as [|? ? Hx Hl']; subst. inversion Wl as [|? ? Wx Wl']; subst.
    cbn [map merge_go]. destruct (Hx Wx) as (m' & E & M'). rewrite E. cbn [bind]. apply IH; auto; lia.
  - destruct W as [W B]. destruct (IHr W) as (m & E & M). cbn [minLength]. rewrite E. cbn [bind times]. eexists. split; [reflexivity|]. destruct B. nia.
Qed.
(** ** The bounds hold *)
Definition within (e : engine) (r : regex) : Prop := forall i j, denote e r i j ->
  (i <= j)%nat /\ (forall m, minLength r = Ok (Some m) -> m <= Z.of_nat j - Z.of_nat i) /\ (forall m, maxLength r = Ok (Some m) -> Z.of_nat j - Z.of_nat i <= m).
Lemma merge_go_inv f g l : (forall a b, g (f a b) a /\ g (f a b) b) -> (forall a b c, g a b -> g b c -> g a c) -> (forall a, g a a) ->
  forall k v m, merge_go f v (map k l) = Ok (Some m) ->
  (match v with Some v => g m v | None => True end) /\ forall x : regex, In x l -> exists n, k x = Ok (Some n) /\ g m n.
Proof.
  intros Hf Ht Hr k. induction l as [|x l IH]; intros v m H; cbn [map merge_go] in H.
  - injection H as ->. split; [apply Hr| intros x []].
  - destruct (k x) as [[n|]|] eqn:E; cbn [bind] in H; try discriminate. destruct (IH _ _ H) as [A B]. split.
    + destruct v as [v|]; [|exact I]. eapply Ht; [exact A| apply Hf].
    + intros y [<-|Hy]; [|apply B; exact Hy]. exists n. split; [exact E|]. destruct v as [v|]; [eapply Ht; [exact A| apply Hf] | exact A].
Qed.
Lemma power_within (R : span) lo hi n : (forall i j, R i j -> (i <= j)%nat /\ lo <= Z.of_nat j - Z.of_nat i /\ (match hi with Some h => Z.of_nat j - Z.of_nat i <= h | None => True end)) ->
  forall i j, s_power n R i j -> (i <= j)%nat /\ Z.of_nat n * lo <= Z.of_nat j - Z.of_nat i /\ (match hi with Some h => Z.of_nat j - Z.of_nat i <= Z.of_nat n * h | None => True end).
Proof.
  intros H. induction n as [|n IH]; intros i j K.
  - unfold s_power, s_empty in K. subst j. destruct hi; lia.
  - destruct K as (k & A & B). destruct (H _ _ A) as (A1 & A2 & A3). destruct (IH _ _ B) as (B1 & B2 & B3). split; [lia|]. split; [nia|]. destruct hi; [nia|exact I].
Qed.
Lemma maxLength_nonneg r : well_built r -> forall m, maxLength r = Ok (Some m) -> 0 <= m.
Proof.
  induction r using regex_ind'; intros W m Hm; try (injection Hm as <-; unfold zlen; lia).
  - destruct W as [_ W]. apply well_built_all in W. cbn [maxLength] in Hm. change (add_go 0 (map maxLength l) = Ok (Some m)) in Hm.
    enough (K : forall a, 0 <= a -> add_go a (map maxLength l) = Ok (Some m) -> 0 <= m) by (apply (K 0); [lia| exact Hm]). clear Hm.
    induction l as [|x l IH]; intros a Ha Hm; [injection Hm as <-; exact Ha|]. inversion H as [|? ? Hx Hl]; subst. inversion W as [|? ? Wx Wl]; subst.
    cbn [map add_go] in Hm. destruct (maxLength x) as [[n|]|]; cbn [bind] in Hm; try discriminate. specialize (Hx Wx n eq_refl). apply (IH Hl Wl (a + n)); [lia| exact Hm].
  - destruct W as [N W]. apply well_built_all in W. cbn [maxLength] in Hm. change (merge_go Z.max None (map maxLength l) = Ok (Some m)) in Hm.
    destruct (merge_go_inv Z.max Z.ge l ltac:(lia) ltac:(lia) ltac:(lia) maxLength None m Hm) as [_ K]. destruct l as [|x l]; [congruence|].
    inversion H as [|? ? Hx Hl]; subst. inversion W as [|? ? Wx Wl]; subst. destruct (K x (or_introl eq_refl)) as (n & En & Ln). specialize (Hx Wx n En). lia.
  - destruct W as [W [B1 B2]]. cbn [maxLength] in Hm. destruct hi as [p|]; [|discriminate]. destruct (maxLength r) as [[n|]|]; cbn [bind times] in Hm; try discriminate.
    injection Hm as <-. specialize (IHr W n eq_refl). nia.
Qed.
Theorem length_within e r : well_built r -> within e r.
Proof.
  induction r using regex_ind'; intros W i j Hd.
  - unfold denote, s_empty in Hd. subst j. split; [lia|]. split; intros m Hm; injection Hm as <-; lia.
  - destruct Hd as [-> _]. split; [lia|]. split; intros m Hm; injection Hm as <-; lia.
  - destruct Hd as [-> _]. split; [lia|]. split; intros m Hm; injection Hm as <-; lia.
  - destruct Hd as [-> _]. split; [lia|]. split; intros m Hm; injection Hm as <-; lia.
  - destruct Hd as (c & _ & _ & ->). split; [lia|]. split; intros m Hm; injection Hm as <-; lia.
  - destruct Hd as [-> _]. split; [lia|]. unfold zlen. split; intros m Hm; injection Hm as <-; unfold zlen; lia.
  - destruct Hd as (c & _ & _ & ->). split; [lia|]. split; intros m Hm; injection Hm as <-; lia.
  - destruct W as [_ W]. apply well_built_all in W. change (Dall e l i j) in Hd. cbn [minLength maxLength].
    change ((i <= j)%nat /\ (forall m, add_go 0 (map minLength l) = Ok (Some m) -> m <= Z.of_nat j - Z.of_nat i) /\ (forall m, add_go 0 (map maxLength l) = Ok (Some m) -> Z.of_nat j - Z.of_nat i <= m)).
    enough (K : (i <= j)%nat /\ (forall a m, add_go a (map minLength l) = Ok (Some m) -> m <= a + (Z.of_nat j - Z.of_nat i)) /\ (forall a m, add_go a (map maxLength l) = Ok (Some m) -> a + (Z.of_nat j - Z.of_nat i) <= m)).
    { destruct K as (K1 & K2 & K3). split; [exact K1|]. split; intros m Hm; [apply (K2 0 m Hm)| apply (K3 0 m Hm)]. }
    revert i Hd. induction l as [|x l IH]; intros i Hd.
    + cbn in Hd. unfold s_empty in Hd. subst j. split; [lia|]. split; intros a m Hm; injection Hm as <-; lia.
    + inversion H as [|? ? Hx Hl]; subst. inversion W as [|? ? Wx Wl]; subst. destruct Hd as (k & A & B).
      destruct (Hx Wx _ _ A) as (A1 & A2 & A3). destruct (IH Hl Wl _ B) as (B1 & B2 & B3). split; [lia|]. cbn [map add_go]. split; intros a m Hm.
      * destruct (minLength x) as [[n|]|]; cbn [bind] in Hm; try discriminate. specialize (A2 n eq_refl). specialize (B2 _ _ Hm). lia.
      * destruct (maxLength x) as [[n|]|]; cbn [bind] in Hm; try discriminate. specialize (A3 n eq_refl). specialize (B3 _ _ Hm). lia.
  - destruct W as [_ W]. apply well_built_all in W. change (Dany e l i j) in Hd. apply Dany_in in Hd. destruct Hd as (x & Ix & Hx).
    rewrite Forall_forall in H, W. destruct (H x Ix (W x Ix) i j Hx) as (A1 & A2 & A3). split; [exact A1|]. cbn [minLength maxLength]. split; intros m Hm.
    + change (merge_go Z.min None (map minLength l) = Ok (Some m)) in Hm.
      destruct (merge_go_inv Z.min Z.le l ltac:(lia) ltac:(lia) ltac:(lia) minLength None m Hm) as [_ K]. destruct (K x Ix) as (n & En & Ln). specialize (A2 n En). lia.
    + change (merge_go Z.max None (map maxLength l) = Ok (Some m)) in Hm.
      destruct (merge_go_inv Z.max Z.ge l ltac:(lia) ltac:(lia) ltac:(lia) maxLength None m Hm) as [_ K]. destruct (K x Ix) as (n & En & Ln). specialize (A3 n En). lia.
  - destruct W as [W B]. destruct Hd as (n & L & U & P). specialize (IHr W).
    destruct (minLength_total r W) as (lo' & Em & Pm).
    assert (K : forall x y, denote e r x y -> (x <= y)%nat /\ lo' <= Z.of_nat y - Z.of_nat x /\ (match maxLength r with Ok (Some h) => Z.of_nat y - Z.of_nat x <= h | _ => True end)).
    { intros x y Hxy. destruct (IHr x y Hxy) as (A1 & A2 & A3). split; [exact A1|]. split; [apply A2; exact Em|]. destruct (maxLength r) as [[h|]|]; auto. }
    cbn [minLength maxLength]. rewrite Em. cbn [bind times].
    pose (h := match maxLength r with Ok (Some h) => Some h | _ => None end).
    destruct (power_within (denote e r) lo' h n) with (i := i) (j := j) as (P1 & P2 & P3); [|exact P|].
    { intros x y Hxy. destruct (K x y Hxy) as (A1 & A2 & A3). split; [exact A1|]. split; [exact A2|]. unfold h. destruct (maxLength r) as [[z|]|]; auto. }
    split; [exact P1|]. split.
    + intros m Hm. injection Hm as <-. nia.
    + intros m Hm. destruct hi as [p|]; [|discriminate]. unfold h in P3. pose proof (maxLength_nonneg r W) as Nn.
      destruct (maxLength r) as [[z|]|]; cbn [bind times] in Hm; try discriminate. specialize (Nn z eq_refl). injection Hm as <-. nia.
Qed.
Theorem maxLength_errors r : well_built r -> (exists o, maxLength r = Ok o) \/ maxLength r = Err TypeError.
Proof.
  induction r using regex_ind'; intros W; try (left; eexists; reflexivity).
  - destruct W as [_ W]. apply well_built_all in W. cbn [maxLength]. change ((exists o, add_go 0 (map maxLength l) = Ok o) \/ add_go 0 (map maxLength l) = Err TypeError).
    generalize 0. induction l as [|x l IH]; intros a; [left; eexists; reflexivity|]. inversion H as [|? ? Hx Hl]; subst. inversion W as [|? ? Wx Wl]; subst.
    cbn [map add_go]. destruct (Hx Wx) as [[[n|] ->]| ->]; cbn [bind]; eauto.
  - destruct W as [_ W]. apply well_built_all in W. cbn [maxLength]. change ((exists o, merge_go Z.max None (map maxLength l) = Ok o) \/ merge_go Z.max None (map maxLength l) = Err TypeError).
    generalize (@None Z). induction l as [|x l IH]; intros a; [left; eexists; reflexivity|]. inversion H as [|? ? Hx Hl]; subst. inversion W as [|? ? Wx Wl]; subst.
    cbn [map merge_go]. destruct (Hx Wx) as [[[n|] ->]| ->]; cbn [bind]; eauto.
  - destruct W as [W B]. cbn [maxLength]. destruct hi as [p|]; [|left; eauto]. destruct (IHr W) as [[[n|] ->]| ->]; cbn [bind times]; eauto.
Qed.

(** ** The bounds are reached *)
Lemma matched_empty : matched_everywhere REmpty [].
Proof. intros e pre post _ _. cbn. unfold s_empty. lia. Qed.
Lemma matched_seq (R S : engine -> span) t u :
  (forall e pre post, text e = pre ++ t ++ post -> (forall c, dot e c) -> R e (length pre) (length pre + length t)%nat) ->
  (forall e pre post, text e = pre ++ u ++ post -> (forall c, dot e c) -> S e (length pre) (length pre + length u)%nat) ->
  forall e pre post, text e = pre ++ (t ++ u) ++ post -> (forall c, dot e c) -> s_seq (R e) (S e) (length pre) (length pre + length (t ++ u))%nat.
Proof.
  intros HR HS e pre post E Hd. exists (length pre + length t)%nat. split.
  - apply (HR e pre (u ++ post)); [rewrite E, <- app_assoc; reflexivity| exact Hd].
  - assert (K := HS e (pre ++ t) post). rewrite app_length in K. rewrite app_length, Nat.add_assoc. apply K; [rewrite E, <- !app_assoc; reflexivity| exact Hd].
Qed.
Lemma matched_char (P : engine -> Z -> Prop) c :
  (forall e, (forall c, dot e c) -> P e c) -> forall e pre post, text e = pre ++ [c] ++ post -> (forall c, dot e c) -> s_char e (P e) (length pre) (length pre + length [c])%nat.
Proof.
  intros HP e pre post E Hd. exists c. split; [rewrite E, nth_error_app2, Nat.sub_diag by lia; reflexivity|]. split; [apply HP; exact Hd| cbn; lia].
Qed.
Lemma matched_string t : matched_everywhere (RString t) t.
Proof.
  intros e pre post E _. cbn. unfold s_string. split; [reflexivity|]. rewrite E, skipn_app, skipn_all, Nat.sub_diag. cbn [app skipn].
  rewrite firstn_app, firstn_all, Nat.sub_diag. cbn. apply app_nil_r.
Qed.
Lemma matched_power (R : engine -> span) t n :
  (forall e pre post, text e = pre ++ t ++ post -> (forall c, dot e c) -> R e (length pre) (length pre + length t)%nat) ->
  exists u, length u = (n * length t)%nat /\ forall e pre post, text e = pre ++ u ++ post -> (forall c, dot e c) -> s_power n (R e) (length pre) (length pre + length u)%nat.
Proof.
  intros H. induction n as [|n (u & L & IH)].
  - exists []. split; [reflexivity|]. intros e pre post _ _. cbn. unfold s_empty. lia.
  - exists (t ++ u). split; [rewrite app_length, L; cbn; lia|]. cbn [s_power]. apply (matched_seq R (fun e => s_power n (R e))); assumption.
Qed.
(** One argument for both bounds: [g] is the length of an item *)
Lemma tight_add f l : Forall (fun x => forall m, f x = Ok (Some m) -> exists t, zlen t = m /\ matched_everywhere x t) l ->
  forall a m, add_go a (map f l) = Ok (Some m) -> exists t, a + zlen t = m /\ matched_everywhere (RAnd l) t.
Proof.
  induction l as [|x l IH]; intros H a m Hm; cbn [map add_go] in Hm.
  - injection Hm as <-. exists []. split; [unfold zlen; cbn; lia|]. apply matched_empty.
  - inversion H as [|? ? Hx Hl]; subst. destruct (f x) as [[n|]|] eqn:E; cbn [bind] in Hm; try discriminate.
    destruct (Hx n eq_refl) as (t & Lt & Mt). destruct (IH Hl _ _ Hm) as (u & Lu & Mu). exists (t ++ u). split; [unfold zlen in *; rewrite app_length; lia|].
    intros e pre post Et Hd. cbn [denote fold_right]. apply (matched_seq (fun e => denote e x) (fun e => denote e (RAnd l))) with post; auto.
Qed.
Lemma tight_merge f g l : (forall a b, g a b = a \/ g a b = b) ->
  Forall (fun x => forall m, f x = Ok (Some m) -> exists t, zlen t = m /\ matched_everywhere x t) l ->
  forall v m, merge_go g v (map f l) = Ok (Some m) -> v = Some m \/ exists t, zlen t = m /\ matched_everywhere (ROr l) t.
Proof.
  intros Hg. induction l as [|x l IH]; intros H v m Hm; cbn [map merge_go] in Hm.
  - injection Hm as ->. auto.
  - inversion H as [|? ? Hx Hl]; subst. destruct (f x) as [[n|]|] eqn:E; cbn [bind] in Hm; try discriminate.
    assert (First : n = m -> exists t, zlen t = m /\ matched_everywhere (ROr (x :: l)) t).
    { intros <-. destruct (Hx n eq_refl) as (t & Lt & Mt). exists t. split; [exact Lt|]. intros e pre post Et Hd. left. exact (Mt e pre post Et Hd). }
    destruct (IH Hl _ _ Hm) as [K|(t & Lt & Mt)].
    + destruct v as [v|]; injection K as K; [|auto]. destruct (Hg v n) as [G|G]; rewrite G in K; [left; congruence| auto].
    + right. exists t. split; [exact Lt|]. intros e pre post Et Hd. right. exact (Mt e pre post Et Hd).
Qed.
Theorem length_tight r : well_built r -> literal r ->
  (forall m, minLength r = Ok (Some m) -> exists t, zlen t = m /\ matched_everywhere r t) /\
  (forall m, maxLength r = Ok (Some m) -> exists t, zlen t = m /\ matched_everywhere r t).
Proof.
  induction r using regex_ind'; intros W L; try (destruct L; fail).
  - split; intros m Hm; injection Hm as <-; exists []; (split; [reflexivity| apply matched_empty]).
  - split; intros m Hm; injection Hm as <-; exists [0]; (split; [reflexivity|]); intros e; apply (matched_char (fun e => dot e)); auto.
  - split; intros m Hm; injection Hm as <-; exists t; (split; [reflexivity| apply matched_string]).
  - destruct L as [-> [c Hc]]. split; intros m Hm; injection Hm as <-; exists [c]; (split; [reflexivity|]); intros e; apply (matched_char (fun _ => in_ranges l)); auto.
  - destruct W as [_ W]. apply well_built_all in W. apply literal_all in L. split; intros m Hm.
    + apply (tight_add minLength l) with (a := 0); [|exact Hm]. rewrite Forall_forall in *. intros x Ix. apply H; auto.
    + apply (tight_add maxLength l) with (a := 0); [|exact Hm]. rewrite Forall_forall in *. intros x Ix. apply H; auto.
  - destruct W as [_ W]. apply well_built_all in W. apply literal_all in L. split; intros m Hm.
    + destruct (tight_merge minLength Z.min l ltac:(lia)) with (v := @None Z) (m := m) as [K|K]; try exact K; try discriminate; [|exact Hm]. rewrite Forall_forall in *. intros x Ix. apply H; auto.
    + destruct (tight_merge maxLength Z.max l ltac:(lia)) with (v := @None Z) (m := m) as [K|K]; try exact K; try discriminate; [|exact Hm]. rewrite Forall_forall in *. intros x Ix. apply H; auto.
  - destruct W as [W [B1 B2]]. cbn in L. destruct (IHr W L) as [I1 I2]. split; intros m Hm.
    + cbn [minLength] in Hm. destruct (minLength r) as [[n|]|]; cbn [bind times] in Hm; try discriminate. injection Hm as <-.
      destruct (I1 n eq_refl) as (t & Lt & Mt). destruct (matched_power (fun e => denote e r) t (Z.to_nat lo) Mt) as (u & Lu & Mu). exists u.
      split; [unfold zlen in *; nia|]. intros e pre post Et Hd. exists (Z.to_nat lo). split; [lia|]. split; [destruct hi; [lia|exact I]| exact (Mu e pre post Et Hd)].
    + cbn [maxLength] in Hm. destruct hi as [p|]; [|discriminate]. destruct (maxLength r) as [[n|]|]; cbn [bind times] in Hm; try discriminate. injection Hm as <-.
      destruct (I2 n eq_refl) as (t & Lt & Mt). destruct (matched_power (fun e => denote e r) t (Z.to_nat p) Mt) as (u & Lu & Mu). exists u.
      split; [unfold zlen in *; nia|]. intros e pre post Et Hd. exists (Z.to_nat p). split; [lia|]. split; [lia| exact (Mu e pre post Et Hd)].
Qed.

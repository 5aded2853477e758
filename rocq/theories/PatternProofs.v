(** The regex PatternMatching compiles is the union of its patterns. *)
From Verif Require Import Base DictModel DictProofs RegexModel RegexSpec RegexProofs RegexProofs2 RegexProofs3 RegexProofs4 RegexProofs5 RegexLeaves PatternModel.
Ltac Zify.zify_post_hook ::= Z.div_mod_to_equations.

(** ** A match inside a text is a match of the part alone *)
Definition no_test (r : regex) : Prop := leaves (fun l => l = RDot) r.
Definition part (e : engine) (i j : nat) : str := firstn (j - i) (skipn i (text e)).
(** An engine on the part, whatever its tests are *)
Definition on_part (e e' : engine) (i j : nat) : Prop := text e' = part e i j /\ (forall c, dot e' c <-> dot e c).
Lemma wf_well r : wf r -> well_built r.
Proof.
  induction r as [| | | | |t|l ex|l IH|l IH|q lo hi IH] using regex_ind'; intros W; try exact I.
  - apply wf_And in W. destruct W as [L W]. split; [destruct l; [cbn in L; lia| discriminate]|]. apply well_built_all. rewrite Forall_forall in *. intros x Hx. apply IH; auto. apply W, Hx.
  - apply wf_Or in W. destruct W as [L W]. split; [destruct l; [cbn in L; lia| discriminate]|]. apply well_built_all. rewrite Forall_forall in *. intros x Hx. apply IH; auto.
  - destruct W as [W B]. split; [apply IH, W| exact B].
Qed.
Lemma nth_firstn {A} n : forall (l : list A) k, (k < n)%nat -> nth_error (firstn n l) k = nth_error l k.
Proof. induction n as [|n IH]; intros l k H; [lia|]. destruct l as [|x l]; [reflexivity|]. destruct k as [|k]; [reflexivity|]. cbn. apply IH. lia. Qed.
Lemma nth_skipn {A} n : forall (l : list A) k, nth_error (skipn n l) k = nth_error l (n + k).
Proof. induction n as [|n IH]; intros l k; [reflexivity|]. destruct l as [|x l]; [destruct k; reflexivity|]. cbn. apply IH. Qed.
Lemma skipn_twice {A} n : forall (l : list A) k, skipn k (skipn n l) = skipn (n + k) l.
Proof. induction n as [|n IH]; intros l k; [reflexivity|]. destruct l as [|x l]; [destruct k; reflexivity|]. cbn. apply IH. Qed.
Lemma nth_part e i j a c : (i <= a < j)%nat -> nth_error (text e) a = Some c -> nth_error (part e i j) (a - i) = Some c.
Proof.
  intros H N. unfold part. rewrite nth_firstn by lia. rewrite nth_skipn. replace (i + (a - i))%nat with a by lia. exact N.
Qed.
Lemma char_part e e' i j (P Q : Z -> Prop) a b : (forall c, P c -> Q c) -> text e' = part e i j -> (i <= a)%nat -> (b <= j)%nat -> s_char e P a b -> s_char e' Q (a - i)%nat (b - i)%nat.
Proof.
  intros PQ E A B (c & N & Pc & ->). exists c. rewrite E. split; [apply nth_part; [lia| exact N]|]. split; [apply PQ, Pc| lia].
Qed.
Lemma mono e r a b : wf r -> denote e r a b -> (a <= b)%nat.
Proof. intros W H. apply (length_within e r (wf_well r W) a b H). Qed.
Lemma match_part e e' i j r : on_part e e' i j -> wf r -> no_test r -> forall a b, (i <= a)%nat -> (b <= j)%nat -> denote e r a b -> denote e' r (a - i)%nat (b - i)%nat.
Proof.
  intros [E Dt]. induction r as [| | | | |t|l ex|l IH|l IH|q lo hi IH] using regex_ind'; intros W N a b A B H; try (cbn in N; discriminate N).
  - cbn [denote] in *. unfold s_empty in *. lia.
  - cbn [denote] in *. eapply char_part; [|exact E|exact A|exact B|exact H]. intros c. apply Dt.
  - destruct H as [-> H]. split; [lia|]. rewrite E. unfold part. rewrite skipn_firstn_comm, skipn_twice. replace (i + (a - i))%nat with a by lia.
    rewrite firstn_firstn. replace (Nat.min (length t) (j - i - (a - i))) with (length t) by lia. exact H.
  - cbn [denote] in *. eapply char_part; [|exact E|exact A|exact B|exact H]. auto.
  - apply wf_And in W. destruct W as [_ W]. apply leaves_And in N. change (Dall e l a b) in H. change (Dall e' l (a - i)%nat (b - i)%nat).
    revert a A H. induction l as [|x l IHl]; intros a A H; cbn [Dall fold_right] in *; [unfold s_empty in *; lia|].
    inversion IH; subst. inversion W as [|? ? [Wx _] Wl]; subst. inversion N; subst. destruct H as (k & K1 & K2). fold (Dall e l) in K2. fold (Dall e' l).
    pose proof (mono e x a k Wx K1) as M1.
    assert (M2 : (k <= b)%nat).
    { clear - Wl K2. revert k K2. induction l as [|y l IHl]; intros k K2; cbn [Dall fold_right] in K2; [unfold s_empty in K2; lia|]. inversion Wl as [|? ? [Wy _] Wl']; subst. destruct K2 as (k' & H3 & H4). fold (Dall e l) in H4.
      pose proof (mono e y k k' Wy H3). specialize (IHl Wl' k' H4). lia. }
    exists (k - i)%nat. split; [|apply IHl; auto; lia]. match goal with K : wf x -> _ |- _ => apply K; auto; lia end.
  - apply wf_Or in W. destruct W as [_ W]. apply leaves_Or in N. change (Dany e l a b) in H. change (Dany e' l (a - i)%nat (b - i)%nat). apply Dany_in in H. destruct H as (x & Ix & Hx). apply Dany_in. exists x. split; [exact Ix|].
    rewrite Forall_forall in *. apply IH; auto. exact (N x Ix).
  - destruct W as [W Bd]. cbn [denote] in *. destruct H as (n & H1 & H2 & H3). exists n. split; [exact H1|]. split; [exact H2|]. clear H1 H2.
    revert a A H3. induction n as [|n IHn]; intros a A H3; cbn [s_power] in *; [unfold s_empty in *; lia|]. destruct H3 as (k & K1 & K2).
    pose proof (mono e q a k W K1) as M1.
    assert (M2 : (k <= b)%nat).
    { clear - W K2. revert k K2. induction n as [|n IHn]; intros k K2; cbn [s_power] in K2; [unfold s_empty in K2; lia|]. destruct K2 as (k' & H3 & H4). pose proof (mono e q k k' W H3). specialize (IHn k' H4). lia. }
    exists (k - i)%nat. split; [apply IH; auto; lia| apply IHn; auto; lia].
Qed.

(** ** The regex of all the patterns *)
Section Commit.
Context (same_items : list item -> list item -> bool) (same_items_ok : forall l m, same_items l m = true -> l = m).
Definition string_match (e : engine) (l : list str) : span := fun i j => exists t, In t l /\ s_string e t i j.
Definition regex_match (e : engine) (l : list regex) : span := fun i j => exists r, In r l /\ denote e r i j.
(** Dots stand for every character of the text, or there are none *)
Definition dots_ok (e : engine) (r : regex) : Prop := (forall c, In c (text e) -> dot e c) \/ no_dot r.
Lemma dots_ok_mono e a b : (no_dot a -> no_dot b) -> dots_ok e a -> dots_ok e b.
Proof using All. intros H [D|N]; [left; exact D| right; auto]. Qed.
Lemma bar_dots e a b : wf a -> wf b -> (forall c, In c (text e) -> dot e c) \/ (no_dot a /\ no_dot b) ->
  exists r, bar same_items a b = Ok r /\ wf r /\ ((no_dot a /\ no_dot b) -> no_dot r) /\ same (denote e r) (s_alt (denote e a) (denote e b)).
Proof using All.
  intros Wa Wb [D|[Na Nb]].
  - destruct (bar_sem same_items same_items_ok e D a b Wa Wb) as (r & E & W & S). exists r. split; [exact E|]. split; [exact W|]. split; [|exact S]. intros [A B]. exact (leaves_bar _ same_items a b r A B E).
  - destruct (bar_sem same_items same_items_ok (with_dot e (fun _ => True)) (fun _ _ => I) a b Wa Wb) as (r & E & W & S). exists r. split; [exact E|]. split; [exact W|].
    assert (Nr : no_dot r) by exact (leaves_bar _ same_items a b r Na Nb E). split; [intros _; exact Nr|].
    apply (same_trans _ _ _ (denote_no_dot e (fun _ => True) r Nr)). apply (same_trans _ _ _ S). apply same_sym, alt_same; apply denote_no_dot; assumption.
Qed.
Definition opt_wf (o : option regex) : Prop := match o with Some r => wf r | None => True end.
Definition opt_no_dot (o : option regex) : Prop := match o with Some r => no_dot r | None => True end.
Definition opt_denote (e : engine) (o : option regex) : span := match o with Some r => denote e r | None => fun _ _ => False end.
Lemma or_opt_ok e o b : opt_wf o -> wf b -> (forall c, In c (text e) -> dot e c) \/ (opt_no_dot o /\ no_dot b) ->
  exists r, or_opt same_items o b = Ok r /\ wf r /\ ((opt_no_dot o /\ no_dot b) -> no_dot r) /\ same (denote e r) (s_alt (opt_denote e o) (denote e b)).
Proof using All.
  intros Wo Wb H. destruct o as [a|]; cbn [or_opt opt_denote opt_no_dot] in *; [apply bar_dots; assumption|].
  exists b. split; [reflexivity|]. split; [exact Wb|]. split; [tauto|]. intros i j. unfold s_alt. tauto.
Qed.
Lemma strings_ok e l : forall o n, opt_wf o -> (forall c, In c (text e) -> dot e c) \/ opt_no_dot o ->
  exists o' n', commit_strings same_items o n l = Ok (o', n') /\ opt_wf o' /\ (opt_no_dot o -> opt_no_dot o') /\ same (opt_denote e o') (s_alt (opt_denote e o) (string_match e l)) /\
    n <= n' /\ (forall t, In t l -> zlen t <= n') /\ (o' = None -> o = None /\ l = []) /\ (n' = n \/ exists t, In t l /\ n' = zlen t).
Proof using All.
  induction l as [|t l IH]; intros o n Wo Hd; cbn [commit_strings].
  - exists o, n. split; [reflexivity|]. split; [exact Wo|]. split; [auto|]. split; [intros i j; unfold s_alt, string_match; split; [auto|intros [H|(t & [] & _)]; exact H]|]. split; [lia|]. split; [intros t []|]. auto.
  - assert (Wt : wf (createString t)) by (destruct t; [exact I| discriminate]).
    assert (Nt : no_dot (createString t)) by apply leaves_createString.
    destruct (or_opt_ok e o (createString t) Wo Wt) as (r & E & Wr & Nr & Sr); [tauto|]. rewrite E. cbn [bind].
    destruct (IH (Some r) (Z.max n (zlen t))) as (o' & n' & E' & W' & N' & S' & L1 & L2 & L3 & L4); [exact Wr| cbn [opt_no_dot]; tauto|].
    exists o', n'. split; [exact E'|]. split; [exact W'|]. split; [cbn [opt_no_dot] in N'; tauto|]. split.
    + intros i j. rewrite (S' i j). cbn [opt_denote]. unfold s_alt at 1. rewrite (Sr i j). unfold s_alt, string_match.
      assert (C : denote e (createString t) i j <-> s_string e t i j) by (destruct (createString_sem e t) as [_ Cs]; apply Cs). rewrite C.
      split; [intros [[H|H]|(u & Iu & Hu)]; [left; exact H| right; exists t; split; [left; reflexivity| exact H] | right; exists u; split; [right; exact Iu| exact Hu]]|].
      intros [H|(u & [<-|Iu] & Hu)]; [left; left; exact H| left; right; exact Hu| right; exists u; auto].
    + split; [lia|]. split; [intros u [<-|Iu]; [lia| apply L2, Iu]|]. split; [intros K; destruct (L3 K); discriminate|].
      destruct L4 as [->|(u & Iu & ->)]; [destruct (Z.max_spec n (zlen t)) as [[_ ->]|[_ ->]]; [right; exists t; split; [left; reflexivity| reflexivity]| left; reflexivity]|right; exists u; split; [right; exact Iu| reflexivity]].
Qed.
Lemma regexes_ok e l : forall o n, opt_wf o -> Forall wf l -> Forall (fun r => exists m, maxLength r = Ok (Some m)) l -> (forall c, In c (text e) -> dot e c) \/ (opt_no_dot o /\ Forall no_dot l) ->
  exists o' n', commit_regexes same_items o n l = Ok (o', n') /\ opt_wf o' /\ same (opt_denote e o') (s_alt (opt_denote e o) (regex_match e l)) /\
    n <= n' /\ (forall r m, In r l -> maxLength r = Ok (Some m) -> m <= n') /\ (o' = None -> o = None /\ l = []) /\ (n' = n \/ exists r, In r l /\ maxLength r = Ok (Some n')).
Proof using All.
  induction l as [|x l IH]; intros o n Wo Wl Ml Hd; cbn [commit_regexes].
  - exists o, n. split; [reflexivity|]. split; [exact Wo|]. split; [intros i j; unfold s_alt, regex_match; split; [auto|intros [H|(t & [] & _)]; exact H]|]. split; [lia|]. split; [intros r m []|]. auto.
  - inversion Wl as [|? ? Wx Wl']; subst. inversion Ml as [|? ? [m Mx] Ml']; subst.
    assert (Hd' : (forall c, In c (text e) -> dot e c) \/ (opt_no_dot o /\ no_dot x)) by (destruct Hd as [H|[H K]]; [auto| inversion K; auto]).
    destruct (or_opt_ok e o x Wo Wx Hd') as (r & E & Wr & Nr & Sr). rewrite E. cbn [bind]. rewrite Mx. cbn [bind].
    destruct (IH (Some r) (Z.max n m)) as (o' & n' & E' & W' & S' & L1 & L2 & L3 & L4); [exact Wr| exact Wl'| exact Ml'| destruct Hd as [H|[H K]]; [auto| inversion K; subst; right; cbn [opt_no_dot]; auto]|].
    exists o', n'. split; [exact E'|]. split; [exact W'|]. split.
    + intros i j. rewrite (S' i j). cbn [opt_denote]. unfold s_alt at 1. rewrite (Sr i j). unfold s_alt, regex_match.
      split; [intros [[H|H]|(u & Iu & Hu)]; [left; exact H| right; exists x; split; [left; reflexivity| exact H] | right; exists u; split; [right; exact Iu| exact Hu]]|].
      intros [H|(u & [<-|Iu] & Hu)]; [left; left; exact H| left; right; exact Hu| right; exists u; auto].
    + split; [lia|]. split; [intros u k [<-|Iu] Hu; [rewrite Mx in Hu; injection Hu as ->; lia| apply (L2 u k Iu Hu)]|]. split; [intros K; destruct (L3 K); discriminate|].
      destruct L4 as [->|(u & Iu & Hu)]; [destruct (Z.max_spec n m) as [[_ ->]|[_ ->]]; [right; exists x; split; [left; reflexivity| exact Mx]| left; reflexivity]|right; exists u; split; [right; exact Iu| exact Hu]].
Qed.

(** What a user may add: well formed regexes *)
Definition call_ok (c : pcall) : Prop := match c with CString _ => True | CRegex r => wf r end.
Definition kept (ps : patterns) : Prop := Forall wf (p_regexes ps) /\ Forall (fun r => exists m, maxLength r = Ok (Some m)) (p_regexes ps).
Lemma add_all_kept l : forall ps qs, Forall call_ok l -> kept ps -> add_all ps l = Ok qs ->
  kept qs /\ (forall t, In t (p_strings qs) <-> In t (p_strings ps) \/ In (CString t) l) /\ (forall r, In r (p_regexes qs) <-> In r (p_regexes ps) \/ In (CRegex r) l).
Proof using All.
  induction l as [|c l IH]; intros ps qs C K H; cbn [add_all] in H.
  - injection H as <-. split; [exact K|]. split; intros x; (split; [auto|intros [A|[]]; exact A]).
  - inversion C as [|? ? Cc Cl]; subst. destruct c as [t|r].
    + assert (K' : kept (addString ps t)) by (unfold addString; destruct (existsb _ _); exact K).
      destruct (IH _ _ Cl K' H) as (A & B & D). split; [exact A|]. split.
      * intros x. rewrite B. unfold addString. destruct (existsb (str_eqb t) (p_strings ps)) eqn:E; cbn [p_strings].
        -- apply existsb_exists in E. destruct E as (u & Iu & Eu). apply str_eqb_eq in Eu. subst u. cbn [In]. split; [intros [X|X]; auto|intros [X|[X|X]]; auto]. injection X as <-. auto.
        -- rewrite in_app_iff. cbn [In]. split; [intros [[X|[X|[]]]|X]; auto; right; left; congruence|intros [X|[X|X]]; auto]. injection X as <-. auto.
      * intros x. rewrite D. unfold addString. destruct (existsb _ _); cbn [p_regexes In]; (split; [intros [X|X]; auto|intros [X|[X|X]]; auto; discriminate X]).
    + unfold addRegex in H. destruct (maxLength r) as [[m|]|] eqn:E; cbn [bind] in H; try discriminate.
      destruct (fun K' => IH {| p_strings := p_strings ps; p_regexes := p_regexes ps ++ [r] |} qs Cl K' H) as (A & B & D).
      { split; cbn [p_regexes]; apply Forall_app; (split; [apply K|]); constructor; auto. exists m. exact E. }
      split; [exact A|]. split; intros x; [rewrite B|rewrite D]; cbn [p_strings p_regexes In].
      * split; [intros [X|X]; auto|intros [X|[X|X]]; auto; discriminate X].
      * rewrite in_app_iff. cbn [In]. split; [intros [[X|[X|[]]]|X]; auto; right; left; congruence|intros [X|[X|X]]; auto]. injection X as <-. auto.
Qed.
Theorem commit_ok e ps : kept ps -> (forall c, In c (text e) -> dot e c) \/ Forall no_dot (p_regexes ps) ->
  exists r n, commit same_items ps = Ok (r, n) /\ wf r /\
    (p_strings ps <> [] \/ p_regexes ps <> [] -> forall i j, denote e r i j <-> string_match e (p_strings ps) i j \/ regex_match e (p_regexes ps) i j) /\
    (p_strings ps = [] /\ p_regexes ps = [] -> r = REmpty /\ n = 0) /\
    0 <= n /\ (forall t, In t (p_strings ps) -> zlen t <= n) /\ (forall x m, In x (p_regexes ps) -> maxLength x = Ok (Some m) -> m <= n) /\
    (n = 0 \/ (exists t, In t (p_strings ps) /\ n = zlen t) \/ exists x, In x (p_regexes ps) /\ maxLength x = Ok (Some n)).
Proof using All.
  intros [K1 K2] Hd. unfold commit.
  destruct (strings_ok e (p_strings ps) None 0 I (or_intror I)) as (o1 & n1 & E1 & W1 & N1 & S1 & A1 & A2 & A3 & A4). rewrite E1. cbn [bind fst snd].
  destruct (regexes_ok e (p_regexes ps) o1 n1 W1 K1 K2) as (o2 & n2 & E2 & W2 & S2 & B1 & B2 & B3 & B4).
  { destruct Hd as [H|H]; [left; exact H| right; split; [apply N1; exact I| exact H]]. }
  rewrite E2. cbn [bind fst snd]. exists (match o2 with Some r => r | None => REmpty end), n2. split; [reflexivity|]. split; [destruct o2; [exact W2| exact I]|].
  split.
  - intros Ne i j. destruct o2 as [r|]; [|destruct (B3 eq_refl) as [X Y]; destruct (A3 X) as [_ Z']; destruct Ne; congruence].
    change (denote e r i j) with (opt_denote e (Some r) i j). rewrite (S2 i j). unfold s_alt at 1. rewrite (S1 i j). unfold s_alt. cbn [opt_denote]. tauto.
  - split; [intros [Ea Eb]; rewrite Ea, Eb in *; cbn in E1, E2; injection E1 as <- <-; injection E2 as <- <-; auto|].
    split; [lia|]. split; [intros t It; specialize (A2 t It); lia|]. split; [exact B2|].
    destruct B4 as [->|B4]; [destruct A4 as [->|A4]; auto| auto].
Qed.
Theorem match_length e ps r n i j : kept ps -> (forall c, In c (text e) -> dot e c) \/ Forall no_dot (p_regexes ps) ->
  commit same_items ps = Ok (r, n) -> denote e r i j -> (i <= j)%nat /\ Z.of_nat j - Z.of_nat i <= n.
Proof using All.
  intros K Hd E H. destruct (commit_ok e ps K Hd) as (r' & n' & E' & W & S & Z0 & N0 & L1 & L2 & _). rewrite E in E'. injection E' as <- <-.
  split; [apply (mono e r); assumption|].
  destruct (p_strings ps) as [|s ss] eqn:Es; [destruct (p_regexes ps) as [|x xs] eqn:Ex|].
  - destruct (Z0 (conj eq_refl eq_refl)) as [-> ->]. cbn in H. unfold s_empty in H. lia.
  - rewrite <- Ex in *. apply S in H; [|right; congruence]. destruct H as [(t & [] & _)|(q & Iq & Hq)]. destruct K as [K1 K2]. rewrite Forall_forall in K1, K2. destruct (K2 q Iq) as [m Hm].
    specialize (L2 q m Iq Hm). destruct (length_within e q (wf_well q (K1 q Iq)) i j Hq) as (_ & _ & X). specialize (X m Hm). lia.
  - rewrite <- Es in *. apply S in H; [|left; congruence]. destruct H as [(t & It & Ht)|(q & Iq & Hq)].
    + specialize (L1 t It). destruct Ht as [-> _]. unfold zlen in L1. lia.
    + destruct K as [K1 K2]. rewrite Forall_forall in K1, K2. destruct (K2 q Iq) as [m Hm].
      specialize (L2 q m Iq Hm). destruct (length_within e q (wf_well q (K1 q Iq)) i j Hq) as (_ & _ & X). specialize (X m Hm). lia.
Qed.
(** getPattern finds a pattern for every match *)
Theorem getPattern_ok matches e ps r n i j : kept ps -> Forall no_test (p_regexes ps) -> (forall c, In c (text e) -> dot e c) \/ Forall no_dot (p_regexes ps) ->
  (forall q s, matches q s = true <-> exists e' k, text e' = s /\ (forall c, dot e' c <-> dot e c) /\ denote e' q 0%nat k) ->
  p_strings ps <> [] \/ p_regexes ps <> [] ->
  commit same_items ps = Ok (r, n) -> denote e r i j ->
  (exists t, getPattern matches ps (part e i j) = Ok (PString t) /\ t = part e i j /\ In t (p_strings ps)) \/
  (exists q, getPattern matches ps (part e i j) = Ok (PRegex q) /\ In q (p_regexes ps) /\ matches q (part e i j) = true).
Proof using All.
  intros K Nt Hd Hm Ne E H. destruct (commit_ok e ps K Hd) as (r' & n' & E' & W & S & _). rewrite E in E'. injection E' as <- <-.
  unfold getPattern. destruct (existsb (str_eqb (part e i j)) (p_strings ps)) eqn:Ex.
  - left. exists (part e i j). split; [reflexivity|]. split; [reflexivity|]. apply existsb_exists in Ex. destruct Ex as (u & Iu & Eu). apply str_eqb_eq in Eu. congruence.
  - right. pose proof (mono e r i j W H) as Mij. apply (S Ne) in H. destruct H as [(t & It & Ht)|(q & Iq & Hq)].
    + exfalso. destruct Ht as [-> Ht]. assert (Et : part e i (i + length t) = t) by (unfold part; replace (i + length t - i)%nat with (length t) by lia; exact Ht).
      rewrite Et in Ex. rewrite <- not_true_iff_false in Ex. apply Ex. apply existsb_exists. exists t. split; [exact It| apply str_eqb_eq; reflexivity].
    + destruct (find (fun r => matches r (part e i j)) (p_regexes ps)) as [x|] eqn:F.
      * apply find_some in F. exists x. split; [reflexivity|]. exact F.
      * exfalso. pose proof (find_none _ _ F q Iq) as X. cbn in X. rewrite <- not_true_iff_false in X. apply X. apply Hm.
        destruct K as [K1 _]. rewrite Forall_forall in K1, Nt.
        exists {| text := part e i j; at_word := at_word e; at_start := at_start e; at_end := at_end e; dot := dot e |}, (j - i)%nat. split; [reflexivity|]. split; [reflexivity|].
        replace 0%nat with (i - i)%nat by lia. apply (match_part e _ i j q); auto; [|lia..]. split; [reflexivity| cbn [dot]; reflexivity].
Qed.
End Commit.

(** Proofs about the choice of a parser. *)
From Coq Require Import String Permutation.
From Verif Require Import Lit.
From Verif Require Import Base BaseProofs DictModel DictProofs GuessModel GuessSpec GuessProofs.
Ltac Zify.zify_post_hook ::= Z.div_mod_to_equations.
Open Scope Z_scope.

(** ** Order of lists *)
Lemma before_cons {A} (a : A) l x y : before (a :: l) x y <-> (a = x /\ In y l) \/ before l x y.
Proof.
  unfold before. split.
  - intros (u & b & c & E). destruct u as [|z u]; injection E as -> ->; [left; split; [reflexivity|apply in_or_app; right; left; reflexivity]|right; eauto].
  - intros [[-> I]|(u & b & c & ->)]; [|exists (a :: u), b, c; reflexivity]. apply in_split in I. destruct I as (b & c & ->). exists [], b, c. reflexivity.
Qed.
Lemma before_nil {A} (x y : A) : ~ before [] x y.
Proof. intros (a & b & c & E). destruct a; discriminate. Qed.
Lemma before_app {A} (l m : list A) x y : before (l ++ m) x y <-> before l x y \/ before m x y \/ (In x l /\ In y m).
Proof.
  induction l as [|a l IH]; cbn [app In].
  - split; [auto|]. intros [H|[H|[[] _]]]; [destruct (before_nil _ _ H)|exact H].
  - rewrite !before_cons, IH, in_app_iff. intuition.
Qed.
Lemma before_in {A} (l : list A) x y : before l x y -> In x l /\ In y l.
Proof. intros (a & b & c & ->). rewrite !in_app_iff. cbn. rewrite !in_app_iff. cbn. intuition. Qed.
Lemma sublist_before {A} (l m : list A) x y : sublist l m -> before l x y -> before m x y.
Proof.
  induction 1 as [|a l m H IH|a l m H IH]; intros B; [exact B|apply before_cons; auto|].
  apply before_cons in B. apply before_cons. destruct B as [[-> I]|B]; [left; split; [reflexivity|exact (sublist_in l m y H I)]|auto].
Qed.
Lemma nodup_before {A} (l : list A) x y : NoDup l -> before l x y -> x <> y.
Proof.
  intros D (a & b & c & ->) ->. apply NoDup_remove_2 in D. apply D. rewrite !in_app_iff. cbn. auto.
Qed.
Lemma repeat_in (p q : Z) n : In q (repeat p n) <-> q = p /\ n <> O.
Proof. induction n; cbn; [intuition|]. rewrite IHn. intuition. Qed.
Lemma before_repeat (p x y : Z) n : before (repeat p n) x y -> x = y.
Proof. intros B. apply before_in in B. destruct B as [B1 B2]. apply repeat_in in B1, B2. intuition congruence. Qed.
Lemma before_flat (k : Z * tagdict -> nat) kept x y : x <> y -> before (flat_map (fun c => repeat (fst c) (k c)) kept) x y -> before (map fst kept) x y.
Proof.
  intros N. induction kept as [|c kept IH]; cbn [flat_map map]; intros B; [exact B|].
  apply before_app in B. apply before_cons. destruct B as [B|[B|[I J]]]; [apply before_repeat in B; congruence|auto|].
  left. apply repeat_in in I. split; [intuition|]. apply in_flat_map in J. destruct J as (d & J1 & J2). apply repeat_in in J2. destruct J2 as [-> _]. apply in_map, J1.
Qed.

(** ** Sets *)
Lemma mem_in p l : mem p l = true <-> In p l.
Proof. induction l as [|x l IH]; cbn [mem In]; [intuition discriminate|]. rewrite orb_true_iff, IH, Z.eqb_eq. intuition. Qed.
Lemma remove_in p x l : In x (remove p l) <-> In x l /\ x <> p.
Proof. unfold remove. rewrite filter_In, negb_true_iff, Z.eqb_neq. reflexivity. Qed.
Lemma remove_nodup p l : NoDup l -> NoDup (remove p l). Proof. apply NoDup_filter. Qed.
Lemma removes_in f : forall x l, In x (fold_left (fun s p => remove p s) f l) <-> In x l /\ ~ In x f.
Proof. induction f as [|p f IH]; intros x l; cbn [fold_left In]; [tauto|]. rewrite IH, remove_in. intuition. Qed.
Lemma removes_nodup f : forall l, NoDup l -> NoDup (fold_left (fun s p => remove p s) f l).
Proof. induction f as [|p f IH]; intros l D; cbn [fold_left]; [exact D|]. apply IH, remove_nodup, D. Qed.
Lemma take_all_spec l : forall S f s, take_all l S = (f, s) -> NoDup S ->
  NoDup f /\ NoDup s /\ sublist f l /\ (forall x, In x f <-> In x S /\ In x l) /\ (forall x, In x s <-> In x S /\ ~ In x l).
Proof.
  induction l as [|p l IH]; intros S f s E D; cbn [take_all] in E.
  - injection E as <- <-. repeat split; try constructor; auto; cbn in *; intuition.
  - destruct (mem p S) eqn:M.
    + destruct (take_all l (remove p S)) as [f' s'] eqn:T. injection E as <- <-. apply mem_in in M.
      destruct (IH _ _ _ T (remove_nodup p S D)) as (F1 & F2 & F3 & F4 & F5).
      split; [constructor; [rewrite F4, remove_in; intuition|exact F1]|]. split; [exact F2|]. split; [apply sub_keep, F3|].
      split; intros x; cbn [In]; [rewrite F4|rewrite F5]; rewrite remove_in; destruct (Z.eq_dec x p) as [->|N]; intuition congruence.
    + assert (N : ~ In p S) by (rewrite <- mem_in, M; discriminate).
      destruct (IH _ _ _ E D) as (F1 & F2 & F3 & F4 & F5). split; [exact F1|]. split; [exact F2|]. split; [apply sub_skip, F3|].
      split; intros x; cbn [In]; [rewrite F4|rewrite F5]; (split; [intros [A B]|intros [A B]]); split; auto.
      * destruct B as [->|B]; [contradiction|exact B].
      * intros [->|C]; auto.
Qed.

(** ** Ranks *)
Lemma rank_fun m l p a b : rank m l p a -> rank m l p b -> a = b.
Proof.
  intros A. revert b. induction A as [p|t l p M|t l p n N A IH]; intros b B; inversion B; subst; try reflexivity; try contradiction.
  f_equal. apply IH. assumption.
Qed.
Lemma rank_le m l p n : rank m l p n -> (n <= length l)%nat.
Proof. induction 1; cbn; lia. Qed.
Lemma rank_exists (m : qtag -> Z -> Prop) l p : (forall t, m t p \/ ~ m t p) -> exists n, rank m l p n.
Proof.
  intros D. induction l as [|t l [n IH]]; [exists O; constructor|]. destruct (D t) as [M|M]; [exists O; apply rank_here, M|exists (S n); apply rank_later; assumption].
Qed.
Lemma matches_dec lower tags t p : matches lower tags t p \/ ~ matches lower tags t p.
Proof.
  destruct t as [|f|q|a|name value]; cbn [matches]; try tauto.
  - destruct (f p); [left|right]; congruence.
  - destruct (q_translate lower name value) as [[n [v|]]|]; [| |tauto].
    + rewrite count_in. destruct (count (AStr v) (declares (tags p) n)); [right; tauto|left; discriminate].
    + destruct (declares (tags p) n); [right; tauto|left; discriminate].
Qed.

(** ** Tags of the accepted classes *)
Lemma tags_of_in kept p t : NoDup (map fst kept) -> In (p, t) kept -> tags_of kept p = t.
Proof.
  induction kept as [|[q u] kept IH]; intros D I; [destruct I|]. inversion D as [|? ? N D']; subst. cbn [tags_of]. destruct (p =? q) eqn:E.
  - apply Z.eqb_eq in E. subst q. destruct I as [I|I]; [congruence|]. destruct N. exact (in_map fst _ _ I).
  - destruct I as [I|I]; [injection I as -> ->; rewrite Z.eqb_refl in E; discriminate|exact (IH D' I)].
Qed.
Lemma in_tags_of kept p : In p (map fst kept) -> In (p, tags_of kept p) kept.
Proof.
  induction kept as [|[q u] kept IH]; intros I; [destruct I|]. cbn [tags_of]. destruct (p =? q) eqn:E; [apply Z.eqb_eq in E; subst; left; reflexivity|].
  right. apply IH. destruct I as [I|I]; [cbn in I; subst; rewrite Z.eqb_refl in E; discriminate|exact I].
Qed.
Lemma tags_of_sublist kept classes p : NoDup (map fst classes) -> sublist kept classes -> In p (map fst kept) -> tags_of classes p = tags_of kept p.
Proof. intros D S I. apply tags_of_in; [exact D|]. apply (sublist_in kept classes _ S), in_tags_of, I. Qed.

(** ** One tag *)
Section Steps.
Context (lower : str -> str) (order : nat -> list Z -> list Z) (perm : forall i l, Permutation (order i l) l).
Context (db : database) (kept : list (Z * tagdict)) (K : kept_db db kept) (D : NoDup (map fst kept)).
Let m := matches lower (tags_of kept).
Definition plain (t : qtag) : Prop := exists name v, t = TTag name (Some v).
Definition step_spec (t : qtag) (S found set : list Z) : Prop :=
  NoDup found /\ NoDup set /\ (forall p, In p found <-> In p S /\ m t p) /\ (forall p, In p set <-> In p S /\ ~ m t p) /\
  (plain t -> forall x y, before found x y -> before (parser_list db) x y).

Lemma look_in n v p : In p (map fst kept) -> In p (lookup db n v) <-> In v (declares (tags_of kept p) n).
Proof using K D.
  intros I. rewrite (k_look _ _ K). rewrite in_flat_map, count_in. split.
  - intros ([q t] & J & R). apply repeat_in in R. cbn [fst snd] in R. destruct R as [-> R]. rewrite (tags_of_in kept q t D J). exact R.
  - intros C. exists (p, tags_of kept p). split; [apply in_tags_of, I|]. apply repeat_in. cbn [fst snd]. auto.
Qed.
Lemma getByTag_step i t st found st' : t <> TNone -> (forall p, t <> TClass p) -> NoDup (s_set st) -> (forall p, In p (s_set st) -> In p (map fst kept)) ->
  getByTag lower order db i t st = Ok (found, st') ->
  step_spec t (s_set st) found (s_set st') /\ s_parsers st' = s_parsers st.
Proof using perm K D.
  intros N1 N2 ND SUB E. destruct t as [|f|q|a|name value]; cbn [getByTag] in E.
  - congruence.
  - injection E as <- <-. cbn [s_set s_parsers]. split; [|reflexivity].
    assert (IN : forall p, In p (filter f (order i (s_set st))) <-> In p (s_set st) /\ f p = true).
    { intros p. rewrite filter_In. split; intros [A B]; (split; [|exact B]); [exact (Permutation_in _ (perm i _) A)|exact (Permutation_in _ (Permutation_sym (perm i _)) A)]. }
    split; [apply NoDup_filter, (Permutation_NoDup (Permutation_sym (perm i _))), ND|]. split; [apply removes_nodup, ND|].
    split; [exact IN|]. split; [|intros (? & ? & ?); discriminate]. intros p. rewrite removes_in, IN. unfold m. cbn [matches]. tauto.
  - destruct (N2 q eq_refl).
  - injection E as <- <-. cbn [s_set s_parsers]. split; [|reflexivity]. unfold step_spec, m. cbn [matches].
    split; [constructor|]. split; [exact ND|]. split; [cbn; tauto|]. split; [tauto|]. intros (? & ? & ?); discriminate.
  - destruct (q_translate lower name value) as [[n v]|] eqn:T; [|discriminate]. cbn [bind fst snd] in E.
    match type of E with (let (_, _) := take_all ?l ?s in _) = _ => set (L := l) in *; destruct (take_all L s) as [f s'] eqn:TA end.
    injection E as <- <-. cbn [s_set s_parsers]. split; [|reflexivity].
    destruct (take_all_spec L _ _ _ TA ND) as (F1 & F2 & F3 & F4 & F5).
    assert (IN : forall p, In p (s_set st) -> In p L <-> m (TTag name value) p).
    { intros p Hp. specialize (SUB p Hp). unfold m. cbn [matches]. rewrite T. destruct v as [v|]; unfold L.
      - cbn [List.concat]. rewrite app_nil_r. rewrite <- (look_in n (AStr v) p SUB). unfold lookup. destruct (assoc n (bytag db)); reflexivity.
      - rewrite (k_all _ _ K n p). split.
        + intros (t & J & X). rewrite (tags_of_in kept p t D J). exact X.
        + intros X. exists (tags_of kept p). split; [apply in_tags_of, SUB|exact X]. }
    split; [exact F1|]. split; [exact F2|]. split; [intros p; rewrite F4; split; intros [A B]; (split; [exact A|]); apply (IN p A), B|].
    split; [intros p; rewrite F5; split; intros [A B]; (split; [exact A|]); intros C; apply B, (IN p A), C|].
    intros (name' & v' & E). injection E as <- ->. intros x y B. pose proof (nodup_before _ _ _ F1 B) as NE. apply (sublist_before _ _ _ _ F3) in B.
    assert (V : exists v', v = Some v') by (unfold q_translate in T; destruct (str_eqb name (lit "filename")); injection T as _ <-; eauto).
    destruct V as [w ->]. unfold L in B. cbn [List.concat] in B. rewrite app_nil_r in B.
    assert (B' : before (lookup db n (AStr w)) x y) by (unfold lookup; destruct (assoc n (bytag db)); exact B).
    rewrite (k_look _ _ K) in B'. rewrite (k_list _ _ K). exact (before_flat (fun c => count (AStr w) (declares (snd c) n)) kept x y NE B').
Qed.

Definition sorted (tags : list qtag) (out : list Z) : Prop :=
  forall x y a b, before out x y -> rank m tags x a -> rank m tags y b ->
    (a <= b)%nat /\ (a = b -> forall name v, nth_error tags a = Some (TTag name (Some v)) -> before (parser_list db) x y).
Record loop_spec (tags : list qtag) (S out rest : list Z) : Prop := {
  l_out : NoDup out; l_rest : NoDup rest;
  l_in : forall p, In p out <-> In p S /\ exists n, rank m (active tags) p n /\ (n < length (active tags))%nat;
  l_left : forall p, In p rest <-> In p S /\ ~ In p out /\ ~ closed tags;
  l_sorted : sorted (active tags) out }.

Lemma loop_empty (tags : list qtag) : loop_spec tags [] [] [].
Proof using. split; try constructor; cbn; try tauto; intros; try tauto; destruct (before_nil _ _ H). Qed.
Lemma loop_cons t tags S found set out rest : t <> TNone -> step_spec t S found set -> loop_spec tags set out rest -> loop_spec (t :: tags) S (found ++ out) rest.
Proof using perm.
  intros NT (F1 & F2 & F3 & F4 & F5) [OU R I L SO]. assert (ACT : active (t :: tags) = t :: active tags) by (destruct t; congruence || reflexivity).
  split; rewrite ?ACT.
  - assert (X : forall p, In p found -> ~ In p out). { intros p A B. apply I in B. apply F3 in A. destruct B as [B _]. apply F4 in B. tauto. }
    clear -F1 OU X. induction found as [|p f IH]; [exact OU|]. inversion F1; subst. cbn. constructor; [|apply IH; [assumption|intros; apply X; right; assumption]].
    rewrite in_app_iff. intros [Y|Y]; [contradiction|]. exact (X p (or_introl eq_refl) Y).
  - exact R.
  - intros p. rewrite in_app_iff, F3, I. rewrite F4. cbn [length]. split.
    + intros [[A B]|[[A B] (n & RK & LT)]]; (split; [exact A|]); [exists 0%nat; split; [apply rank_here, B|lia]|exists (Datatypes.S n); split; [apply rank_later; assumption|lia]].
    + intros [A (n & RK & LT)]. inversion RK; subst; [auto|]. right. split; [auto|]. exists n0. split; [assumption|lia].
  - intros p. rewrite L, in_app_iff, F3, F4. unfold closed. cbn [In]. destruct (matches_dec lower (tags_of kept) t p) as [M|M]; fold m in M; intuition congruence.
  - intros x y a b B RA RB. apply before_app in B. destruct B as [B|[B|[A C]]].
    + destruct (before_in _ _ _ B) as [X Y]. apply F3 in X, Y. destruct X as [_ X], Y as [_ Y].
      inversion RA; subst; [|contradiction]. inversion RB; subst; [|contradiction]. split; [lia|]. intros _ name v E. cbn in E. injection E as ->.
      apply F5; [exists name, v; reflexivity|exact B].
    + destruct (before_in _ _ _ B) as [X Y]. apply I in X, Y. destruct X as [X _], Y as [Y _]. apply F4 in X, Y. destruct X as [_ X], Y as [_ Y].
      inversion RA; subst; [contradiction|]. inversion RB; subst; [contradiction|]. destruct (SO x y n n0 B ltac:(assumption) ltac:(assumption)) as [L1 L2]. split; [lia|].
      intros E. injection E as E. cbn [nth_error]. exact (L2 E).
    + apply F3 in A. apply I in C. destruct A as [_ A], C as [C _]. apply F4 in C. destruct C as [_ C].
      inversion RA; subst; [|contradiction]. inversion RB; subst; [contradiction|]. split; [lia|discriminate].
Qed.
Lemma q_loop_empty i tags st : s_set st = [] -> q_loop lower order db i tags st = Ok st.
Proof using. intros E. destruct tags; cbn [q_loop]; [reflexivity|]. rewrite E. reflexivity. Qed.
Lemma q_loop_spec tags : forall i st st', Forall (fun t => forall p, t <> TClass p) tags -> NoDup (s_set st) -> (forall p, In p (s_set st) -> In p (map fst kept)) ->
  q_loop lower order db i tags st = Ok st' -> exists out, s_parsers st' = s_parsers st ++ out /\ loop_spec tags (s_set st) out (s_set st').
Proof using perm K D.
  induction tags as [|t tags IH]; intros i st st' F ND SUB E.
  - cbn [q_loop] in E. injection E as <-. exists []. rewrite app_nil_r. split; [reflexivity|]. split; [constructor|exact ND| | |].
    + intros p. cbn. split; [intros []|]. intros [_ (n & _ & L)]. lia.
    + intros p. unfold closed. cbn. tauto.
    + intros x y a b B. destruct (before_nil _ _ B).
  - inversion F as [|? ? NC F']; subst. cbn [q_loop] in E. destruct (s_set st) as [|s0 S0] eqn:S.
    { injection E as <-. exists []. rewrite app_nil_r, S. split; [reflexivity|apply loop_empty]. }
    rewrite <- S in ND, SUB |- *. destruct (getByTag lower order db i t st) as [[found st1]|] eqn:G; [|discriminate]. cbn [bind] in E.
    assert (TN : t = TNone \/ t <> TNone) by (destruct t; (left; reflexivity) || (right; discriminate)). destruct TN as [->|TN].
    + cbn [getByTag] in G. injection G as <- <-. rewrite q_loop_empty in E by reflexivity. injection E as <-. cbn [s_set s_parsers]. exists [].
      split; [reflexivity|]. split; try constructor.
      * intros []. * intros [_ (n & _ & L)]. cbn in L. lia. * intros []. * intros (_ & _ & C). destruct C. left; reflexivity.
      * destruct (before_nil _ _ H). * destruct (before_nil _ _ H).
    + destruct (getByTag_step i t st found st1 TN NC ND SUB G) as [SP P]. pose proof SP as (F1 & F2 & F3 & F4 & F5).
      apply IH in E; [|exact F'|exact F2|intros p Hp; cbn [s_set] in Hp; apply F4 in Hp; apply SUB; tauto].
      cbn [s_set s_parsers] in E. destruct E as (out & E & LS). exists (found ++ out). rewrite E, P, app_assoc. split; [reflexivity|].
      exact (loop_cons t tags _ found (s_set st1) out _ TN SP LS).
Qed.
End Steps.

(** ** The validation flag *)
Definition wants_id (lower : str -> str) (t : qtag) : Prop := match t with TTag name v => exists w, q_translate lower name v = Ok (lit "id", w) | TClass _ => True | _ => False end.
Lemma q_loop_validate lower order db tags : forall i st st', q_loop lower order db i tags st = Ok st' -> s_validate st = true ->
  Forall (fun t => ~ wants_id lower t) (active tags) -> s_validate st' = true.
Proof.
  induction tags as [|t tags IH]; intros i st st' E V F; cbn [q_loop] in E; [injection E as <-; exact V|].
  destruct (s_set st) eqn:S; [injection E as <-; exact V|]. destruct t as [|f|q|a|name value]; cbn [getByTag] in E.
  - cbn [bind] in E. rewrite q_loop_empty in E by reflexivity. injection E as <-. exact V.
  - cbn [bind] in E. inversion F; subst. exact (IH _ _ _ E V ltac:(assumption)).
  - inversion F as [|? ? X]; subst. destruct X. exact I.
  - cbn [bind] in E. inversion F; subst. exact (IH _ _ _ E V ltac:(assumption)).
  - inversion F as [|? ? X F']; subst. destruct (q_translate lower name value) as [[n v]|] eqn:T; [|discriminate]. cbn [bind fst snd] in E.
    match type of E with context[take_all ?l ?s] => destruct (take_all l s) as [f s'] end. cbn [bind] in E. refine (IH _ _ _ E _ F').
    cbn [s_validate]. rewrite V. destruct (str_eqb n (lit "id")) eqn:Q; [|reflexivity]. apply str_eqb_eq in Q. subst n. destruct X. exists v. exact T.
Qed.

(** ** Trying the parsers *)
Lemma doparse_loop_good make v qf l : forall fb r o, doparse_loop make v qf l fb r = (o, snd (doparse_loop make v qf l fb r)) ->
  match o with
  | Some p => exists a b, l = a ++ p :: b /\ make p v = Good /\ (forall x, In x a -> make x v <> Good)
  | None => forall x, In x l -> make x v <> Good
  end.
Proof.
  induction l as [|p l IH]; intros fb r o E; cbn [doparse_loop] in E; [injection E as <-; intros x []|].
  destruct (make p v) eqn:M.
  - injection E as <-. exists [], l. split; [reflexivity|]. split; [exact M|]. intros x [].
  - apply IH in E. destruct o as [q|]; [|intros x [<-|H]; [congruence|exact (E x H)]]. destruct E as (a & b & -> & G & N).
    exists (p :: a), b. split; [reflexivity|]. split; [exact G|]. intros x [<-|H]; [congruence|exact (N x H)].
  - apply IH in E. destruct o as [q|]; [|intros x [<-|H]; [congruence|exact (E x H)]]. destruct E as (a & b & -> & G & N).
    exists (p :: a), b. split; [reflexivity|]. split; [exact G|]. intros x [<-|H]; [congruence|exact (N x H)].
Qed.
Lemma doparse_loop_fb make v qf l : forall fb r, snd (doparse_loop make v qf l fb r) =
  match l with p :: _ => match make p v with Invalid => if fb && qf then Some p else r | _ => r end | [] => r end.
Proof.
  assert (X : forall l r, snd (doparse_loop make v qf l false r) = r).
  { intros m. induction m as [|p m IH]; intros r; cbn [doparse_loop]; [reflexivity|]. destruct (make p v); cbn [snd]; rewrite ?IH; reflexivity. }
  intros fb r. destruct l as [|p l]; [reflexivity|]. cbn [doparse_loop]. destruct (make p v); cbn [snd]; rewrite ?X; reflexivity.
Qed.
Lemma doparse_spec make uf q fb :
  (forall a p b, q_parsers q = a ++ p :: b -> make p (q_validate q) = Good -> (forall x, In x a -> make x (q_validate q) <> Good) -> doparse make uf q fb = Some (p, q_validate q)) /\
  ((forall x, In x (q_parsers q) -> make x (q_validate q) <> Good) -> forall r, doparse make uf q fb = Some r <->
     uf = true /\ fb = true /\ q_fallback q = Some true /\ snd r = false /\ hd_error (q_parsers q) = Some (fst r) /\ make (fst r) (q_validate q) = Invalid).
Proof.
  unfold doparse. set (qf := match q_fallback q with Some true => true | _ => false end).
  destruct (doparse_loop make (q_validate q) qf (q_parsers q) fb None) as [o f] eqn:E.
  pose proof (doparse_loop_good make (q_validate q) qf (q_parsers q) fb None o) as G. rewrite E in G. specialize (G eq_refl).
  pose proof (doparse_loop_fb make (q_validate q) qf (q_parsers q) fb None) as FB. rewrite E in FB. cbn [snd] in FB. split.
  - intros a p b L M N. destruct o as [p'|].
    + destruct G as (a' & b' & L' & M' & N'). enough (p' = p) by (subst; reflexivity). rewrite L in L'. clear -L' M N M' N'. revert a' L' N'.
      induction a as [|x a IH]; intros [|x' a'] L' N'; injection L' as -> L'; [reflexivity| | |].
      * destruct (N' x' (or_introl eq_refl) M). * destruct (N p' (or_introl eq_refl) M'). * apply (IH ltac:(intros; apply N; right; assumption) a' L'). intros; apply N'; right; assumption.
    + destruct (G p); [rewrite L; apply in_or_app; right; left; reflexivity|exact M].
  - intros N r. destruct o as [p'|]; [destruct G as (a & b & L & M & _); destruct (N p'); [rewrite L; apply in_or_app; right; left; reflexivity|exact M]|].
    assert (QF : qf = true <-> q_fallback q = Some true) by (unfold qf; destruct (q_fallback q) as [[|]|]; split; congruence).
    destruct (q_parsers q) as [|p l]; [subst f; split; [discriminate|intros (_ & _ & _ & _ & X & _); discriminate]|].
    cbn [hd_error]. destruct r as [p' v]. cbn [fst snd]. destruct (make p (q_validate q)) eqn:M; subst f.
    + split; [discriminate|]. intros (_ & _ & _ & _ & X & Y). congruence.
    + destruct fb; cbn [andb]; [|split; [discriminate|intros (_ & X & _); discriminate]]. destruct qf.
      * destruct uf; [|split; [discriminate|intros (X & _); discriminate]]. split; [intros X; injection X as <- <-; rewrite <- QF; auto 10|]. intros (_ & _ & _ & -> & X & _). congruence.
      * split; [discriminate|]. intros (_ & _ & X & _). apply QF in X. discriminate.
    + split; [discriminate|]. intros (_ & _ & _ & _ & X & Y). congruence.
Qed.

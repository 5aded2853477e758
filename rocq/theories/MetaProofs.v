From Coq Require Import String.
From Verif Require Import Base BaseProofs DictModel DictProofs MetaModel MetaSpec HumanModel HumanSpec HumanProofs3 TextModel.
From Coq Require Import Sorted Permutation.
Open Scope Z_scope.
Ltac Zify.zify_post_hook ::= Z.div_mod_to_equations.

(** ** Texts *)
Lemma is_prefix_sw t s : is_prefix t s = true <-> starts_with s t.
Proof.
  revert s; induction t as [|x t IH]; intros s; cbn [is_prefix].
  - split; [intros _; exists s; reflexivity|destruct s; reflexivity].
  - destruct s as [|y s].
    + split; [discriminate|intros (u & H); discriminate].
    + rewrite andb_true_iff, Z.eqb_eq, IH. split.
      * intros [-> (u & ->)]. exists u. reflexivity.
      * intros (u & H). injection H as -> ->. split; [reflexivity|exists u; reflexivity].
Qed.
Lemma sw_refl s : starts_with s s.
Proof. exists []. symmetry. apply app_nil_r. Qed.
Lemma sw_trans a b c : starts_with a b -> starts_with b c -> starts_with a c.
Proof. intros (u & ->) (v & ->). exists (v ++ u). symmetry. apply app_assoc. Qed.
Lemma sw_comparable s a b : starts_with s a -> starts_with s b -> starts_with a b \/ starts_with b a.
Proof.
  revert a b; induction s as [|c s IH]; intros a b (u & Ha) (v & Hb).
  - symmetry in Ha, Hb. apply app_eq_nil in Ha, Hb. destruct Ha as [-> _], Hb as [-> _]. left. exists []. reflexivity.
  - destruct a as [|x a]; [right; exists b; reflexivity|]. destruct b as [|y b]; [left; exists (x :: a); reflexivity|].
    cbn [app] in Ha, Hb. injection Ha as <- Ha. injection Hb as <- Hb.
    destruct (IH a b) as [(w & ->)|(w & ->)]; [exists u; assumption|exists v; assumption|left; exists w; reflexivity|right; exists w; reflexivity].
Qed.

(** ** Python's == is symmetric *)
Lemma fl_eq_sym a b : fl_eq a b = fl_eq b a.
Proof. destruct a as [|x|n d], b as [|y|n' d']; cbn [fl_eq]; try reflexivity; [destruct x, y; reflexivity|apply Z.eqb_sym]. Qed.
Lemma mval_eq_sym a b : mval_eq a b = mval_eq b a.
Proof.
  destruct a as [|a|a|a|a|a|a|a|a [p|]|a|a], b as [|b|b|b|b|b|b|b|b [q|]|b|b]; unfold mval_eq; cbn [number];
    try reflexivity; try apply fl_eq_sym; try apply str_eqb_sym; try apply Z.eqb_sym.
Qed.

(** ** Minimal lists *)
Definition unrel (a b : mval) : Prop :=
  mval_eq a b = false /\ (forall s t, a = MStr s -> b = MStr t -> ~ starts_with s t /\ ~ starts_with t s).
Lemma unrel_sym a b : unrel a b -> unrel b a.
Proof. intros [H1 H2]. split; [rewrite mval_eq_sym; exact H1|]. intros s t -> ->. destruct (H2 t s eq_refl eq_refl). split; assumption. Qed.
Lemma fop_middle (a : list mval) x b : ForallOrdPairs unrel (a ++ x :: b) <-> ForallOrdPairs unrel (a ++ b) /\ Forall (unrel x) (a ++ b).
Proof.
  induction a as [|y a IH]; cbn [app].
  - split; [intros H; inversion H; subst; split; assumption|intros [H1 H2]; constructor; assumption].
  - split.
    + intros H. inversion H as [|? ? H1 H2]; subst. apply IH in H2. destruct H2 as [H2 H3]. rewrite Forall_app in H1. destruct H1 as [H1 H4]. inversion H4 as [|? ? H5 H6]; subst.
      split; constructor; try assumption; [apply Forall_app; split; assumption|apply unrel_sym; assumption].
    + intros [H1 H2]. inversion H1 as [|? ? H3 H4]; subst. inversion H2 as [|? ? H5 H6]; subst. constructor; [|apply IH; split; assumption].
      rewrite Forall_app in H3. destruct H3 as [H3 H7]. apply Forall_app. split; [assumption|constructor; [apply unrel_sym; assumption|assumption]].
Qed.
Lemma fop_minimal l : ForallOrdPairs unrel l -> minimal l.
Proof.
  induction 1 as [|x l H1 H2 IH]; intros i j a b Hij Ha Hb; [destruct i; discriminate|].
  destruct i as [|i], j as [|j]; [congruence| | |].
  - cbn [nth_error] in Ha, Hb. injection Ha as <-. apply nth_error_In in Hb. rewrite Forall_forall in H1. destruct (H1 _ Hb) as [H3 H4].
    split; [assumption|]. intros s t E1 E2. apply (H4 s t E1 E2).
  - cbn [nth_error] in Ha, Hb. injection Hb as <-. apply nth_error_In in Ha. rewrite Forall_forall in H1. destruct (H1 _ Ha) as [H3 H4].
    split; [rewrite mval_eq_sym; assumption|]. intros s t E1 E2. apply (H4 t s E2 E1).
  - apply (IH i j); [congruence|exact Ha|exact Hb].
Qed.
Lemma minimal_fop l : minimal l -> ForallOrdPairs unrel l.
Proof.
  induction l as [|x l IH]; intros H; constructor.
  - apply Forall_forall. intros y Hy. destruct (In_nth_error _ _ Hy) as (n & Hn).
    destruct (H 0%nat (Datatypes.S n) x y) as [H1 H2]; [discriminate|reflexivity|exact Hn|]. split; [exact H1|]. intros s t E1 E2. split; [apply (H2 s t E1 E2)|].
    destruct (H (Datatypes.S n) 0%nat y x) as [_ H3]; [discriminate|exact Hn|reflexivity|]. apply (H3 t s E2 E1).
  - apply IH. intros i j a b Hij Ha Hb. apply (H (Datatypes.S i) (Datatypes.S j)); [congruence|exact Ha|exact Hb].
Qed.

(** ** One insertion *)
Definition unrelated_text (s : str) (it : item) : Prop := forall t, fst it = MStr t -> ~ starts_with s t /\ ~ starts_with t s.
Lemma place_some s it l l' : place s it l = Some l' ->
  exists a t x b, l = a ++ (MStr t, x) :: b /\ ((starts_with s t /\ l' = a ++ it :: b) \/ (starts_with t s /\ l' = l)).
Proof.
  revert l'; induction l as [|[v x] l IH]; intros l' H; [discriminate|]. cbn [place] in H.
  assert (G : forall y, option_map (cons y) (place s it l) = Some l' ->
    exists a t x b, y :: l = a ++ (MStr t, x) :: b /\ ((starts_with s t /\ l' = a ++ it :: b) \/ (starts_with t s /\ l' = y :: l))).
  { intros y Hy. destruct (place s it l) as [l0|]; [|discriminate]. injection Hy as <-. destruct (IH l0 eq_refl) as (a & t & x0 & b & -> & Hc).
    exists (y :: a), t, x0, b. split; [reflexivity|]. destruct Hc as [[H1 ->]|[H1 ->]]; [left|right]; split; auto. }
  destruct v as [|t| | | | | | | | |]; try (apply G; exact H).
  destruct (is_prefix t s) eqn:E1.
  - injection H as <-. apply is_prefix_sw in E1. exists [], t, x, l. split; [reflexivity|left; split; [exact E1|reflexivity]].
  - destruct (is_prefix s t) eqn:E2.
    + injection H as <-. apply is_prefix_sw in E2. exists [], t, x, l. split; [reflexivity|right; split; [exact E2|reflexivity]].
    + apply G. exact H.
Qed.
Lemma place_none s it l : place s it l = None -> Forall (unrelated_text s) l.
Proof.
  induction l as [|[v x] l IH]; intros H; [constructor|]. cbn [place] in H.
  assert (G : option_map (cons (v, x)) (place s it l) = None -> Forall (unrelated_text s) l).
  { intros Hy. apply IH. destruct (place s it l); [discriminate|reflexivity]. }
  destruct v as [|t| | | | | | | | |]; try (constructor; [intros t Ht; discriminate|apply G; exact H]).
  destruct (is_prefix t s) eqn:E1; [discriminate|]. destruct (is_prefix s t) eqn:E2; [discriminate|].
  constructor; [|apply G; exact H]. intros t0 Ht. injection Ht as <-.
  split; intros Hs; apply is_prefix_sw in Hs; congruence.
Qed.
Lemma contains_false l v : contains l v = false -> Forall (fun it => mval_eq v (fst it) = false) l.
Proof.
  induction l as [|x l IH]; intros H; constructor; unfold contains in H; cbn [existsb] in H; apply orb_false_iff in H; [apply H|apply IH; apply H].
Qed.

(** What an insertion of the value [v] does. *)
Definition put_value (v : mval) (l l' : list item) : Prop :=
  (exists it, fst it = v /\ contains l v = false /\ (forall s, v = MStr s -> Forall (unrelated_text s) l) /\ l' = l ++ [it]) \/
  (exists s t x it a b, v = MStr s /\ fst it = v /\ contains l v = false /\ l = a ++ (MStr t, x) :: b /\ starts_with s t /\ l' = a ++ it :: b) \/
  (l' = l /\ (contains l v = true \/ exists s t x, v = MStr s /\ In (MStr t, x) l /\ starts_with t s)).
(** The value that is stored for the value [v]; a text is normalised. *)
Definition final (e : env) (v w : mval) : Prop :=
  match v with
  | MStr s => exists c, c <> [] /\ normalizeString e s = c /\
      w = MStr (let s := normalizeNewline c in
                if negb (e_max_str_length e =? 0) && (e_max_str_length e <? zlen s) then py_upto s (e_max_str_length e) ++ lit "(...)" else s)
  | v => w = v
  end.
Definition type_ok (d : data) (v : mval) : bool :=
  match d_type d with Some ((_ :: _) as ts) => existsb (isinstance v) ts | _ => true end.
Definition filter_okb (d : data) (v : mval) : bool := match d_filter d with Some f => filter_ok f v | None => true end.

Lemma createItem_fst e d v text it : createItem e d v text = Ok it -> fst it = v.
Proof.
  unfold createItem. destruct text; [intros H; injection H as <-; reflexivity|].
  destruct v; try (intros H; injection H as <-; reflexivity); destruct (d_handler d) as [h|]; intros H; try (injection H as <-; reflexivity);
  destruct (e_handler e h _); [injection H as <-; reflexivity|discriminate|injection H as <-; reflexivity|discriminate
  |injection H as <-; reflexivity|discriminate|injection H as <-; reflexivity|discriminate|injection H as <-; reflexivity|discriminate
  |injection H as <-; reflexivity|discriminate|injection H as <-; reflexivity|discriminate|injection H as <-; reflexivity|discriminate
  |injection H as <-; reflexivity|discriminate|injection H as <-; reflexivity|discriminate].
Qed.
Lemma isinstance_str s s' t : isinstance (MStr s) t = isinstance (MStr s') t.
Proof. reflexivity. Qed.
Lemma existsb_isinstance_str s s' ts : existsb (isinstance (MStr s)) ts = existsb (isinstance (MStr s')) ts.
Proof. induction ts as [|t ts IH]; [reflexivity|]. cbn [existsb]. rewrite IH. reflexivity. Qed.
Lemma filter_ok_str f s : filter_ok f (MStr s) = true.
Proof. destruct f; reflexivity. Qed.

(** The outcome of [store]. *)
Lemma store_cases e d v text l' : store e d v text = Ok l' ->
  (l' = d_values d /\ (forall w, final e v w -> type_ok d w = true -> filter_okb d w = true -> put_value w (d_values d) l')) \/
  (exists w, final e v w /\ type_ok d w = true /\ filter_okb d w = true /\ put_value w (d_values d) l').
Proof.
  set (l := d_values d).
  assert (Hc : forall v w, w = match v with
               | MStr s => MStr (if negb (e_max_str_length e =? 0) && (e_max_str_length e <? zlen (normalizeNewline s))
                         then py_upto (normalizeNewline s) (e_max_str_length e) ++ lit "(...)" else normalizeNewline s)
               | v => v end ->
    store_checked e d v text = Ok l' -> (l' = l /\ (type_ok d w = true -> filter_okb d w = true -> put_value w l l')) \/
                         (type_ok d w = true /\ filter_okb d w = true /\ put_value w l l')).
  { intros v0 w Hw H. unfold store_checked in H. cbv zeta in H. rewrite <- Hw in H. fold l in H.
    assert (Ht : type_ok d w = type_ok d v0).
    { unfold type_ok. destruct (d_type d) as [[|t ts]|]; try reflexivity. subst w. destruct v0; reflexivity. }
    match type of H with (if ?b then _ else _) = _ => destruct b eqn:E1 end.
    { injection H as <-. left. split; [reflexivity|]. intros Hx. exfalso. rewrite Ht in Hx. unfold type_ok in Hx.
      destruct (d_type d) as [[|t ts]|]; try discriminate. rewrite Hx in E1. discriminate. }
    assert (T : type_ok d w = true).
    { rewrite Ht. unfold type_ok. destruct (d_type d) as [[|t ts]|]; try reflexivity. apply negb_false_iff in E1. exact E1. }
    match type of H with (if ?b then _ else _) = _ => change b with (contains l w) in H; destruct (contains l w) eqn:E2 end.
    { injection H as <-. left. split; [reflexivity|]. intros _ _. right. right. split; [reflexivity|left; exact E2]. }
    match type of H with (if ?b then _ else _) = _ => destruct b eqn:E3 end.
    { injection H as <-. left. split; [reflexivity|]. intros _ Hx. exfalso. unfold filter_okb in Hx. destruct (d_filter d); [rewrite Hx in E3|]; discriminate. }
    assert (F : filter_okb d w = true).
    { unfold filter_okb. destruct (d_filter d); [apply negb_false_iff in E3; exact E3|reflexivity]. }
    right. split; [exact T|]. split; [exact F|].
    destruct (createItem e d w text) as [it|] eqn:Ei; [|discriminate]. cbn [bind] in H.
    assert (G : @Ok (list item) (l ++ [it]) = Ok l' -> (forall s, w = MStr s -> Forall (unrelated_text s) l) -> put_value w l l').
    { intros H0 Hs. injection H0 as <-.
      left. exists it. split; [exact (createItem_fst _ _ _ _ _ Ei)|]. split; [exact E2|]. split; [exact Hs|reflexivity]. }
    destruct w as [|s| | | | | | | | |]; try (apply G; [exact H|intros s0 Hs0; discriminate]).
    injection H as H.
    pose proof (createItem_fst _ _ _ _ _ Ei) as Hf.
    destruct (place s it l) as [l0|] eqn:Ep.
    - subst l0. destruct (place_some _ _ _ _ Ep) as (a & t & x & b & El & [[Hs ->]|[Hs ->]]).
      + right. left. exists s, t, x, it, a, b. repeat split; assumption.
      + right. right. split; [reflexivity|]. right. exists s, t, x. split; [reflexivity|]. split; [rewrite El; apply in_or_app; right; left; reflexivity|exact Hs].
    - left. exists it. split; [exact Hf|]. split; [exact E2|]. split; [|symmetry; exact H]. intros s0 Hs0. injection Hs0 as <-. exact (place_none _ _ _ Ep). }
  unfold store. fold l. intros H.
  assert (G : forall v, store_checked e d v text = Ok l' -> (forall s, v <> MStr s) -> final e v v -> (forall w, final e v w -> w = v) ->
    (l' = l /\ (forall w, final e v w -> type_ok d w = true -> filter_okb d w = true -> put_value w l l')) \/
    (exists w, final e v w /\ type_ok d w = true /\ filter_okb d w = true /\ put_value w l l')).
  { intros v0 H0 Hs Hf Hu. destruct (Hc v0 v0) as [[H1 H2]|H1].
    - destruct v0; try reflexivity. exfalso. eapply Hs. reflexivity.
    - exact H0.
    - left. split; [exact H1|]. intros w Hw. rewrite (Hu w Hw). exact H2.
    - right. exists v0. split; assumption. }
  destruct v as [|s| | | | | | | | |]; try (apply G; [exact H|discriminate|reflexivity|intros w Hw; exact Hw]).
  destruct (normalizeString e s) as [|c0 c] eqn:En.
  - injection H as <-. left. split; [reflexivity|]. intros w (c & Hc1 & Hc2 & _). congruence.
  - destruct (Hc (MStr (c0 :: c)) _ eq_refl H) as [[H1 H2]|H1].
    + left. split; [exact H1|]. intros w (c' & Hc1 & Hc2 & ->). rewrite En in Hc2. subst c'. exact H2.
    + right. eexists. split; [|exact H1]. exists (c0 :: c). split; [discriminate|]. split; [exact En|reflexivity].
Qed.

Lemma map_fst_mid (a : list item) x b : map fst (a ++ x :: b) = map fst a ++ fst x :: map fst b.
Proof. rewrite map_app. reflexivity. Qed.
Lemma put_minimal v l l' : put_value v l l' -> ForallOrdPairs unrel (map fst l) -> ForallOrdPairs unrel (map fst l').
Proof.
  intros [(it & Hv & Hc & Hu & ->)|[(s & t & x & it & a & b & -> & Hv & Hc & -> & Hs & ->)|[-> _]]] H; [| |assumption].
  - rewrite map_app. cbn [map]. apply fop_middle. rewrite app_nil_r. split; [assumption|]. rewrite Hv.
    apply Forall_forall. intros y Hy. apply in_map_iff in Hy. destruct Hy as (i & <- & Hi).
    apply contains_false in Hc. rewrite Forall_forall in Hc. split; [apply Hc; assumption|].
    intros s t -> Ht. specialize (Hu s eq_refl). rewrite Forall_forall in Hu. apply (Hu i Hi t Ht).
  - rewrite map_fst_mid in H |- *. apply fop_middle in H. destruct H as [H1 H2]. apply fop_middle. split; [assumption|]. rewrite Hv.
    apply contains_false in Hc. cbn [fst] in H2. rewrite Forall_app in Hc. destruct Hc as [Hc1 Hc2]. inversion Hc2 as [|? ? _ Hc3]; subst.
    assert (Hc : Forall (fun w => mval_eq (MStr s) w = false) (map fst a ++ map fst b)).
    { apply Forall_app. split; apply Forall_map; assumption. }
    rewrite Forall_forall in H2, Hc |- *. intros w Hw. split; [apply Hc; exact Hw|].
    intros s0 u E1 ->. injection E1 as <-. destruct (H2 _ Hw) as [_ H3]. destruct (H3 t u eq_refl eq_refl) as [H4 H5]. split.
    + intros Hsu. destruct (sw_comparable _ _ _ Hs Hsu) as [G|G]; contradiction.
    + intros Hus. apply H5. exact (sw_trans _ _ _ Hus Hs).
Qed.
Lemma extends_refl v : extends v v. Proof. left. reflexivity. Qed.
Lemma extends_trans a b c : extends a b -> extends b c -> extends a c.
Proof.
  intros [Ha|(s & t & Ha & Hb & H)] [Hb'|(s' & t' & E & Hc & H')]; subst.
  - left. reflexivity.
  - right. exists s', t'. auto.
  - right. exists s, t. auto.
  - injection E as ->. right. exists s, t'. repeat split; try reflexivity. exact (sw_trans _ _ _ H H').
Qed.
Lemma grows_refl l : grows l l.
Proof. intros i v H. exists v. split; [exact H|apply extends_refl]. Qed.
Lemma grows_trans a b c : grows a b -> grows b c -> grows a c.
Proof.
  intros H1 H2 i v H. destruct (H1 i v H) as (w & Hw & E1). destruct (H2 i w Hw) as (x & Hx & E2).
  exists x. split; [exact Hx|exact (extends_trans _ _ _ E2 E1)].
Qed.
Lemma put_grows v l l' : put_value v l l' -> grows (map fst l) (map fst l').
Proof.
  intros [(it & Hv & Hc & Hu & ->)|[(s & t & x & it & a & b & -> & Hv & Hc & -> & Hs & ->)|[-> _]]]; [| |apply grows_refl].
  - intros i w H. exists w. split; [|apply extends_refl]. rewrite map_app. rewrite nth_error_app1; [exact H|]. apply nth_error_Some. intros C. pose proof (eq_trans (eq_sym H) C) as X. discriminate X.
  - rewrite !map_fst_mid. rewrite Hv. cbn [fst]. intros i w H. destruct (Nat.lt_trichotomy i (length (map fst a))) as [Hi|[Hi|Hi]].
    + rewrite nth_error_app1 in * by assumption. exists w. split; [exact H|apply extends_refl].
    + subst i. rewrite nth_error_app2 in * by lia. rewrite Nat.sub_diag in *. cbn [nth_error] in *. injection H as <-.
      exists (MStr s). split; [reflexivity|]. right. exists s, t. auto.
    + rewrite nth_error_app2 in * by lia. destruct (i - length (map fst a))%nat as [|k] eqn:Ek; [lia|]. cbn [nth_error] in *. exists w. split; [exact H|apply extends_refl].
Qed.
(** the inserted value is there *)
Lemma put_there v l l' : put_value v l l' -> exists w, In w (map fst l') /\ (extends w v \/ mval_eq v w = true).
Proof.
  intros [(it & Hv & Hc & Hu & ->)|[(s & t & x & it & a & b & -> & Hv & Hc & -> & Hs & ->)|[-> [Hc|(s & t & x & -> & Hin & Hs)]]]].
  - exists v. split; [rewrite map_app; apply in_or_app; right; left; exact Hv|left; apply extends_refl].
  - exists (MStr s). split; [rewrite map_fst_mid, Hv; apply in_or_app; right; left; reflexivity|left; apply extends_refl].
  - unfold contains in Hc. apply existsb_exists in Hc. destruct Hc as (y & Hy & E). exists (fst y). split; [apply in_map; exact Hy|right; exact E].
  - exists (MStr t). split; [apply in_map_iff; exists (MStr t, x); split; [reflexivity|exact Hin]|]. left. right. exists t, s. auto.
Qed.
(** nothing else is there *)
Lemma put_only v l l' w : put_value v l l' -> In w (map fst l') -> In w (map fst l) \/ w = v.
Proof.
  intros [(it & Hv & Hc & Hu & ->)|[(s & t & x & it & a & b & -> & Hv & Hc & -> & Hs & ->)|[-> _]]] H; [| |left; assumption].
  - rewrite map_app in H. apply in_app_or in H. destruct H as [H|[H|[]]]; [left; exact H|right; congruence].
  - rewrite map_fst_mid in *. apply in_app_or in H. destruct H as [H|[H|H]]; [left; apply in_or_app; left; exact H|right; congruence|left; apply in_or_app; right; right; exact H].
Qed.

From Coq Require Import String.
From Verif Require Import Base BaseProofs DictModel DictProofs MetaModel MetaSpec MetaProofs MetaProofs2.
From Coq Require Import Sorted Permutation.
Open Scope Z_scope.
Ltac Zify.zify_post_hook ::= Z.div_mod_to_equations.

(** ** Histories of assignments *)
Lemma getValues_find m key vs : getValues m key = Ok vs <-> exists d, find_data m key = Some d /\ vs = map fst (d_values d).
Proof.
  unfold getValues, getItems. destruct (find_data m key) as [d|]; cbn [bind]; split.
  - intros H. injection H as <-. exists d. auto.
  - intros (d' & H & ->). injection H as <-. reflexivity.
  - discriminate.
  - intros (d' & H & _). discriminate.
Qed.
Lemma store_R e d l v text l' (R : list item -> list item -> Prop) : (forall l, R l l) -> (forall w l l', put_value w l l' -> R l l') ->
  store e (set_values d l) v text = Ok l' -> R l l'.
Proof.
  intros Rr Rp H. destruct (store_cases _ _ _ _ _ H) as [[H1 _]|(w & _ & _ & _ & H1)]; cbn [set_values d_values] in *; [subst l'; apply Rr|exact (Rp w l l' H1)].
Qed.
Lemma minimal_lemma e m L key vs ws : getValues m key = Ok vs -> minimal vs -> getValues (set_all e m L) key = Ok ws -> minimal ws.
Proof.
  intros H1 H2 H3. apply getValues_find in H1. destruct H1 as (d & Hd & ->).
  destruct (set_all_find e (fun l l' => ForallOrdPairs unrel (map fst l) -> ForallOrdPairs unrel (map fst l')) L) with (m := m) (key := key) (d := d) as (l' & Hf & HR); try assumption; try (intros; tauto).
  - intros l ka v text l' _ _ Hs. apply (store_R e d l v text l' (fun l l' => ForallOrdPairs unrel (map fst l) -> ForallOrdPairs unrel (map fst l'))); [tauto| |exact Hs].
    intros w l0 l1 Hp. exact (put_minimal w l0 l1 Hp).
  - apply getValues_find in H3. destruct H3 as (d' & Hd' & ->). rewrite Hf in Hd'. injection Hd' as <-. cbn [set_values d_values].
    apply fop_minimal, HR, minimal_fop, H2.
Qed.
Lemma grows_lemma e m L key vs : getValues m key = Ok vs -> exists ws, getValues (set_all e m L) key = Ok ws /\ grows vs ws.
Proof.
  intros H1. apply getValues_find in H1. destruct H1 as (d & Hd & ->).
  destruct (set_all_find e (fun l l' => grows (map fst l) (map fst l')) L) with (m := m) (key := key) (d := d) as (l' & Hf & HR); try assumption.
  - intros l. apply grows_refl.
  - intros a b c. apply grows_trans.
  - intros l ka v text l' _ _ Hs. apply (store_R e d l v text l' (fun l l' => grows (map fst l) (map fst l'))); [intros; apply grows_refl| |exact Hs].
    intros w l0 l1 Hp. exact (put_grows w l0 l1 Hp).
  - exists (map fst l'). split; [|exact HR]. apply getValues_find. exists (set_values d l'). auto.
Qed.
(** Every stored value has the type of the key and passes its filter. *)
Lemma typed_lemma e m L key d ws : find_data m key = Some d -> d_values d = [] -> getValues (set_all e m L) key = Ok ws ->
  forall w, In w ws -> type_ok d w = true /\ filter_okb d w = true.
Proof.
  intros Hd Hn H3. set (good := fun w => type_ok d w = true /\ filter_okb d w = true).
  destruct (set_all_find e (fun l l' => Forall good (map fst l) -> Forall good (map fst l')) L) with (m := m) (key := key) (d := d) as (l' & Hf & HR); try assumption; try (intros; tauto).
  - intros l ka v text l' _ _ Hs Hl. destruct (store_cases _ _ _ _ _ Hs) as [[H1 _]|(w & _ & Ht & Hfi & H1)]; cbn [set_values d_values] in *; [subst l'; exact Hl|].
    rewrite Forall_forall in *. intros x Hx. destruct (put_only _ _ _ _ H1 Hx) as [G|G]; [apply Hl; exact G|subst x; split; assumption].
  - apply getValues_find in H3. destruct H3 as (d' & Hd' & ->). rewrite Hf in Hd'. injection Hd' as <-. cbn [set_values d_values].
    apply Forall_forall. apply HR. rewrite Hn. constructor.
Qed.
(** Every stored value was assigned. *)
Lemma sound_lemma e m L key d ws : find_data m key = Some d -> d_values d = [] -> d_conv d = None -> key <> lit "track_total" ->
  getValues (set_all e m L) key = Ok ws -> forall w, In w ws -> exists a v, In (key, a) L /\ carried a v /\ v <> MNone /\ final e (decode v) w.
Proof.
  intros Hd Hn Hc Hk H3. set (good := fun w => exists a v, In (key, a) L /\ carried a v /\ v <> MNone /\ final e (decode v) w).
  destruct (set_all_find e (fun l l' => Forall good (map fst l) -> Forall good (map fst l')) L) with (m := m) (key := key) (d := d) as (l' & Hf & HR); try assumption; try (intros; tauto).
  - intros l ka v text l' Hin Hso Hs Hl. destruct (store_cases _ _ _ _ _ Hs) as [[H1 _]|(w & Hfin & Ht & Hfi & H1)]; cbn [set_values d_values] in *; [subst l'; exact Hl|].
    destruct (Hso Hc Hk) as (Hka & v0 & Hv0 & Hv0n & ->). destruct ka as [k a]. cbn [fst snd] in *. subst k.
    rewrite Forall_forall in *. intros x Hx. destruct (put_only _ _ _ _ H1 Hx) as [G|G]; [apply Hl; exact G|subst x; exists a, v0; auto].
  - apply getValues_find in H3. destruct H3 as (d' & Hd' & ->). rewrite Hf in Hd'. injection Hd' as <-. cbn [set_values d_values].
    apply Forall_forall. apply HR. rewrite Hn. constructor.
Qed.
Lemma final_unique e v w w' : final e v w -> final e v w' -> w = w'.
Proof.
  destruct v; cbn [final]; try (intros -> ->; reflexivity). intros (c & _ & E & ->) (c' & _ & E' & ->). subst c c'. reflexivity.
Qed.
(** An assigned text is kept. *)
Lemma kept_lemma e m L key d a s t : 0 <= e_max_str_length e -> find_data m key = Some d -> d_conv d = None ->
  (d_type d = None \/ exists ts, d_type d = Some ts /\ In TStr ts) ->
  carried a (MStr s) \/ carried a (MBytes s) -> normal e s t ->
  exists ws u, getValues (set_all e m ((key, a) :: L)) key = Ok ws /\ In (MStr u) ws /\ starts_with u t.
Proof.
  intros Hm Hd Hc Hty Ha Hn.
  assert (Hfin : final e (MStr s) (MStr t)) by (apply final_normal; [exact Hm|exists t; auto]).
  assert (S1 : exists l1, setattr e m key a = Ok (with_values m key l1) /\ put_value (MStr t) (d_values d) l1).
  { assert (Hadd : exists text, data_add e d a = Ok (None, store e d (MStr s) text)).
    { unfold data_add. rewrite Hc. destruct Ha as [[->|[t0 ->]]|[->|[t0 ->]]]; eexists; reflexivity. }
    destruct Hadd as (text & Hadd). unfold setattr. rewrite Hd, Hadd. cbn [bind fst snd].
    assert (Hst : exists l1, store e d (MStr s) text = Ok l1).
    { unfold store. destruct (normalizeString e s) as [|c0 c]; [eexists; reflexivity|]. unfold store_checked. cbv zeta.
      match goal with |- exists l1, (if ?b then _ else _) = _ => destruct b end; [eexists; reflexivity|].
      match goal with |- exists l1, (if ?b then _ else _) = _ => destruct b end; [eexists; reflexivity|].
      match goal with |- exists l1, (if ?b then _ else _) = _ => destruct b end; [eexists; reflexivity|].
      unfold createItem. destruct text; cbn [bind]; eexists; reflexivity. }
    destruct Hst as (l1 & Hst). exists l1. rewrite Hst. split; [reflexivity|].
    assert (Ht : type_ok d (MStr t) = true).
    { unfold type_ok. destruct Hty as [->|(ts & -> & Hin)]; [reflexivity|]. destruct ts as [|t0 ts]; [reflexivity|]. apply existsb_exists. exists TStr. split; [exact Hin|reflexivity]. }
    assert (Hf : filter_okb d (MStr t) = true) by (unfold filter_okb; destruct (d_filter d); [apply filter_ok_str|reflexivity]).
    destruct (store_cases _ _ _ _ _ Hst) as [[_ H]|(w & Hw & _ & _ & H)]; [exact (H (MStr t) Hfin Ht Hf)|].
    rewrite (final_unique _ _ _ _ Hfin Hw). exact H. }
  destruct S1 as (l1 & S1 & Hp). cbn [set_all fold_left]. unfold set_or_keep at 2. cbn [fst snd]. rewrite S1. fold (set_all e (with_values m key l1) L).
  destruct (put_there _ _ _ Hp) as (w & Hin & Hw).
  assert (Hu : exists u, w = MStr u /\ starts_with u t).
  { destruct Hw as [[->|(u & t' & -> & E & Hs)]|Hw].
    - exists t. split; [reflexivity|apply sw_refl].
    - injection E as <-. exists u. auto.
    - destruct w as [|u| | | | | | |? [?|]| |]; cbn in Hw; try discriminate. apply str_eqb_eq in Hw. subst u. exists t. split; [reflexivity|apply sw_refl]. }
  destruct Hu as (u & -> & Hu).
  destruct (grows_lemma e (with_values m key l1) L key (map fst l1)) as (ws & Hws & Hg).
  { apply getValues_find. exists (set_values d l1). split; [apply find_with_values_same; exact Hd|reflexivity]. }
  destruct (In_nth_error _ _ Hin) as (i & Hi). destruct (Hg i _ Hi) as (w & Hw2 & He). exists ws.
  destruct He as [->|(u' & t' & -> & E & Hs)].
  - exists u. split; [exact Hws|]. split; [eapply nth_error_In; exact Hw2|exact Hu].
  - injection E as <-. exists u'. split; [exact Hws|]. split; [eapply nth_error_In; exact Hw2|exact (sw_trans _ _ _ Hs Hu)].
Qed.
Lemma between_filter d lo hi ld hd w : d_filter d = Some (NumberFilter (FNum lo ld) (FNum hi hd)) -> filter_okb d w = true -> number w <> None ->
  w = MFloat FNan \/ between (lo, ld) (hi, hd) w.
Proof.
  intros Hf Ho Hn. unfold filter_okb in Ho. rewrite Hf in Ho. cbn [filter_ok] in Ho.
  destruct w as [| | |z|b|f| | | | |]; cbn [number] in *; try congruence.
  - right. exists (z, 1%positive). unfold frac_le. cbn [fst snd fl_lt] in *. split; [lia|]. split; [lia|]. right. split; [reflexivity|left; reflexivity].
  - right. exists (if b then 1 else 0, 1%positive). unfold frac_le. cbn [fst snd fl_lt] in *. split; [destruct b; lia|]. split; [destruct b; lia|]. right. split; [reflexivity|]. right. destruct b; [right|left]; split; reflexivity.
  - destruct f as [|neg|n p]; [left; reflexivity| |].
    + exfalso. cbn [fl_lt] in Ho. destruct neg; discriminate.
    + right. exists (n, p). unfold frac_le. cbn [fst snd fl_lt] in *. split; [lia|]. split; [lia|]. left. reflexivity.
Qed.

(** ** Export *)
Lemma insert_sorted d l : StronglySorted (fun a b => d_priority a <= d_priority b) l -> StronglySorted (fun a b => d_priority a <= d_priority b) (insert_data d l).
Proof.
  induction 1 as [|x l H IH Hx]; cbn [insert_data]; [repeat constructor|].
  destruct (d_priority x <? d_priority d) eqn:E.
  - constructor; [exact IH|]. assert (G : forall y, In y (insert_data d l) -> y = d \/ In y l).
    { clear. induction l as [|z l IH]; intros y; cbn [insert_data]; [intros [<-|[]]; left; reflexivity|].
      destruct (d_priority z <? d_priority d); [intros [<-|H]; [right; left; reflexivity|destruct (IH y H); [left; assumption|right; right; assumption]]|].
      intros [<-|H]; [left; reflexivity|right; exact H]. }
    apply Forall_forall. intros y Hy. destruct (G y Hy) as [->|Hy']; [lia|]. rewrite Forall_forall in Hx. apply Hx. exact Hy'.
  - constructor; [constructor; assumption|]. constructor; [lia|]. eapply Forall_impl; [|exact Hx]. cbn. intros a Ha. lia.
Qed.
Lemma insert_filter q d l : StronglySorted (fun a b => d_priority a <= d_priority b) l ->
  filter (fun x => d_priority x =? q) (insert_data d l) = filter (fun x => d_priority x =? q) (d :: l).
Proof.
  induction 1 as [|x l H IH Hx]; cbn [insert_data]; [reflexivity|].
  destruct (d_priority x <? d_priority d) eqn:E; [|reflexivity]. cbn [filter] in *. rewrite IH.
  destruct (d_priority x =? q) eqn:E1, (d_priority d =? q) eqn:E2; try reflexivity. lia.
Qed.
Lemma sorted_sorted l : StronglySorted (fun a b => d_priority a <= d_priority b) (sorted l).
Proof. induction l as [|d l IH]; cbn [sorted fold_right]; [constructor|apply insert_sorted; exact IH]. Qed.
Lemma sorted_filter q l : filter (fun x => d_priority x =? q) (sorted l) = filter (fun x => d_priority x =? q) l.
Proof.
  induction l as [|d l IH]; [reflexivity|]. cbn [sorted fold_right]. fold (sorted l). rewrite insert_filter by apply sorted_sorted. cbn [filter]. rewrite IH. reflexivity.
Qed.
(** the data of priority at most [p], even those without value *)
Definition upto (p : Z) (l : list data) : list data := filter (fun d => d_priority d <=? p) (sorted l).
Lemma filter_sorted f l : StronglySorted (fun a b => d_priority a <= d_priority b) l -> StronglySorted (fun a b => d_priority a <= d_priority b) (filter f l).
Proof.
  induction 1 as [|x l H IH Hx]; cbn [filter]; [constructor|]. destruct (f x); [|exact IH]. constructor; [exact IH|].
  rewrite Forall_forall in *. intros y Hy. apply filter_In in Hy. apply Hx. apply Hy.
Qed.
Lemma filter_filter {A} (f g : A -> bool) l : filter f (filter g l) = filter (fun x => f x && g x) l.
Proof. induction l as [|x l IH]; [reflexivity|]. cbn [filter]. destruct (g x); cbn [filter]; rewrite IH; destruct (f x); reflexivity. Qed.
Lemma upto_order p l : in_priority_order p l (upto p l).
Proof.
  split; [apply filter_sorted, sorted_sorted|]. intros q. unfold upto. rewrite filter_filter.
  transitivity (if q <=? p then filter (fun d => d_priority d =? q) (sorted l) else []).
  - destruct (q <=? p) eqn:E.
    + apply filter_ext_in. intros d _. destruct (d_priority d =? q) eqn:E1; [|reflexivity]. lia.
    + apply (eq_trans (y := filter (fun _ => false) (sorted l))); [|induction (sorted l); [reflexivity|assumption]].
      apply filter_ext_in. intros d _. destruct (d_priority d =? q) eqn:E1; [|reflexivity]. lia.
  - rewrite sorted_filter. destruct (q <=? p) eqn:E.
    + apply filter_ext_in. intros d _. rewrite andb_true_r. reflexivity.
    + induction l as [|d l IH]; [reflexivity|]. cbn [filter]. rewrite andb_false_r. exact IH.
Qed.
Lemma visited_upto p l : StronglySorted (fun a b => d_priority a <= d_priority b) l ->
  visited p l = filter (fun d => match d_values d with [] => false | _ => true end) (filter (fun d => d_priority d <=? p) l).
Proof.
  induction 1 as [|x l H IH Hx]; [reflexivity|]. cbn [visited filter]. destruct (p <? d_priority x) eqn:E.
  - replace (d_priority x <=? p) with false by lia. assert (G : filter (fun d => d_priority d <=? p) l = []).
    { clear IH H. induction Hx as [|y l Hy _ IH]; [reflexivity|]. cbn [filter]. replace (d_priority y <=? p) with false by lia. exact IH. }
    rewrite G. reflexivity.
  - replace (d_priority x <=? p) with true by lia. cbn [filter]. rewrite IH. destruct (d_values x); reflexivity.
Qed.
Lemma flat_map_visited {B} (f : data -> item -> B) ds : flat_map (fun d => map (f d) (d_values d)) (filter (fun d => match d_values d with [] => false | _ => true end) ds) =
  flat_map (fun d => map (f d) (d_values d)) ds.
Proof.
  induction ds as [|d ds IH]; [reflexivity|]. cbn [filter flat_map]. destruct (d_values d) as [|it l] eqn:E; [exact IH|]. cbn [flat_map]. rewrite E, IH. reflexivity.
Qed.
(** The order leaves no choice. *)
Lemma order_unique p l ds ds' : in_priority_order p l ds -> in_priority_order p l ds' -> ds = ds'.
Proof.
  intros [S1 F1] [S2 F2]. assert (F : forall q, filter (fun d => d_priority d =? q) ds = filter (fun d => d_priority d =? q) ds') by (intros q; rewrite F1, F2; reflexivity).
  clear F1 F2 l p. revert ds' S2 F. induction S1 as [|x l H IH Hx]; intros ds' S2 F.
  - destruct ds' as [|y ds']; [reflexivity|]. specialize (F (d_priority y)). cbn [filter] in F. rewrite Z.eqb_refl in F. discriminate.
  - destruct ds' as [|y ds'].
    + specialize (F (d_priority x)). cbn [filter] in F. rewrite Z.eqb_refl in F. discriminate.
    + inversion S2 as [|? ? S3 Hy]; subst.
      assert (E : d_priority x = d_priority y).
      { assert (X : In x (y :: ds')).
        { assert (In x (filter (fun d => d_priority d =? d_priority x) (y :: ds'))) by (rewrite <- F; cbn [filter]; rewrite Z.eqb_refl; left; reflexivity). apply filter_In in H0. apply H0. }
        assert (Y : In y (x :: l)).
        { assert (In y (filter (fun d => d_priority d =? d_priority y) (x :: l))) by (rewrite F; cbn [filter]; rewrite Z.eqb_refl; left; reflexivity). apply filter_In in H0. apply H0. }
        rewrite Forall_forall in Hx, Hy. destruct X as [->|X]; [reflexivity|]. destruct Y as [->|Y]; [reflexivity|]. specialize (Hx y Y). specialize (Hy x X). lia. }
      pose proof (F (d_priority x)) as F0. cbn [filter] in F0. rewrite <- E, Z.eqb_refl in F0. injection F0 as <- _. f_equal.
      apply IH; [exact S3|]. intros q. specialize (F q). cbn [filter] in F. destruct (d_priority x =? q); [injection F as F|]; exact F.
Qed.
Lemma export_text e m priority human prefix title : exists ds, in_priority_order (clamp priority) (m_data m) ds /\
  exportPlaintext e m priority human prefix title =
    match flat_map (fun d => map (line_of e human prefix d) (d_values d)) ds with
    | [] => None
    | lines => Some ((export_title m title ++ lit ":") :: lines)
    end.
Proof.
  exists (upto (clamp priority) (m_data m)). split; [apply upto_order|]. unfold exportPlaintext. cbv zeta.
  rewrite visited_upto by apply sorted_sorted. fold (upto (clamp priority) (m_data m)).
  rewrite (flat_map_visited (fun d it => prefix ++ data_title human d ++ lit ": " ++ item_text e human it)).
  unfold line_of. destruct (flat_map _ _) as [|x l]; [reflexivity|]. rewrite !zlen_cons. pose proof (zlen_nonneg l). replace (1 <? _) with true by lia. reflexivity.
Qed.

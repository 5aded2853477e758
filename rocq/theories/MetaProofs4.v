From Coq Require Import String.
From Verif Require Import Base BaseProofs DictModel DictSpec DictProofs FieldModel FieldNames MetaModel MetaSpec MetaProofs MetaProofs2 MetaProofs3.
From Coq Require Import Sorted Permutation.
Open Scope Z_scope.
Ltac Zify.zify_post_hook ::= Z.div_mod_to_equations.

(** ** Dictionaries *)
Lemma dget_dput {V} (l : list (str * V)) k v k' : dget (dput l k v) k' = if str_eqb k' k then Some v else dget l k'.
Proof.
  induction l as [|[k0 v0] l IH]; cbn [dput dget]; [reflexivity|].
  destruct (str_eqb k k0) eqn:E; cbn [dget].
  - apply str_eqb_eq in E. subst k0. destruct (str_eqb k' k); reflexivity.
  - destruct (str_eqb k' k0) eqn:E1; [|exact IH]. apply str_eqb_eq in E1. subst k0. rewrite (str_eqb_sym k' k), E. reflexivity.
Qed.
Lemma last_rev {A} (l : list A) x y r : rev l = x :: r -> last l y = x.
Proof. intros H. rewrite <- (rev_involutive l), H. cbn [rev]. apply last_last. Qed.
Definition dict_step_ e human := fun (t : list (str * str)) d => match d_values d with
                          | [] => t
                          | it :: l => dput t (data_title human d) (item_text e human (last (it :: l) it))
                          end.
Lemma dict_step_get e human t d k : dget (dict_step_ e human t d) k =
  match last_text e human d with Some x => if str_eqb k (data_title human d) then Some x else dget t k | None => dget t k end.
Proof.
  unfold dict_step_, last_text. destruct (d_values d) as [|it l] eqn:E; [reflexivity|].
  destruct (rev (it :: l)) as [|x r] eqn:Er; [apply (f_equal (@rev _)) in Er; rewrite rev_involutive in Er; discriminate|].
  rewrite dget_dput, (last_rev _ _ _ _ Er). reflexivity.
Qed.
Lemma dict_fold_other e human ds : forall t k, ~ In k (map (data_title human) ds) -> dget (fold_left (dict_step_ e human) ds t) k = dget t k.
Proof.
  induction ds as [|d ds IH]; intros t k H; [reflexivity|]. cbn [fold_left]. rewrite IH by (intros C; apply H; right; exact C).
  rewrite dict_step_get. destruct (last_text e human d); [|reflexivity]. replace (str_eqb k (data_title human d)) with false; [reflexivity|].
  symmetry. apply str_eqb_neq. intros ->. apply H. left. reflexivity.
Qed.
Lemma dict_fold_in e human ds : NoDup (map (data_title human) ds) -> forall t d, In d ds -> dget t (data_title human d) = None ->
  dget (fold_left (dict_step_ e human) ds t) (data_title human d) = last_text e human d.
Proof.
  induction ds as [|d0 ds IH]; intros Hn t d Hin Ht; [destruct Hin|]. cbn [map] in Hn. inversion Hn as [|? ? H1 H2]; subst. cbn [fold_left].
  destruct Hin as [->|Hin].
  - rewrite dict_fold_other by exact H1. rewrite dict_step_get. rewrite str_eqb_refl. destruct (last_text e human d); [reflexivity|exact Ht].
  - apply IH; [exact H2|exact Hin|]. rewrite dict_step_get. destruct (last_text e human d0); [|exact Ht].
    replace (str_eqb (data_title human d) (data_title human d0)) with false; [exact Ht|]. symmetry. apply str_eqb_neq. intros C. apply H1. rewrite <- C. apply in_map. exact Hin.
Qed.
Lemma visited_fold e human p l t : StronglySorted (fun a b => d_priority a <= d_priority b) l ->
  fold_left (dict_step_ e human) (visited p l) t = fold_left (dict_step_ e human) (filter (fun d => d_priority d <=? p) l) t.
Proof.
  intros H. rewrite visited_upto by exact H. generalize (filter (fun d => d_priority d <=? p) l). clear. intros ds. revert t.
  induction ds as [|d ds IH]; intros t; [reflexivity|]. cbn [filter fold_left]. unfold dict_step_ at 3. destruct (d_values d) eqn:E; [apply IH|]. cbn [fold_left]. rewrite IH. unfold dict_step_ at 2. rewrite E. reflexivity.
Qed.
Lemma insert_perm d l : Permutation (insert_data d l) (d :: l).
Proof.
  induction l as [|x l IH]; cbn [insert_data]; [reflexivity|]. destruct (d_priority x <? d_priority d); [|reflexivity].
  rewrite IH. apply perm_swap.
Qed.
Lemma sorted_perm l : Permutation (sorted l) l.
Proof. induction l as [|d l IH]; [reflexivity|]. cbn [sorted fold_right]. fold (sorted l). rewrite insert_perm. apply perm_skip. exact IH. Qed.
Lemma dictionary_lemma e m priority human title : NoDup (map (data_title human) (m_data m)) ->
  exists fields, exportDictionary e m priority human title = [(export_title m title, fields)] /\
    (forall d, In d (m_data m) -> dget fields (data_title human d) = if d_priority d <=? clamp priority then last_text e human d else None) /\
    (forall k, ~ In k (map (data_title human) (m_data m)) -> dget fields k = None).
Proof.
  intros Hn. unfold exportDictionary. eexists. split; [reflexivity|]. fold (dict_step_ e human).
  rewrite visited_fold by apply sorted_sorted. fold (upto (clamp priority) (m_data m)).
  assert (Hin : forall d, In d (upto (clamp priority) (m_data m)) <-> In d (m_data m) /\ d_priority d <= clamp priority).
  { intros d. unfold upto. rewrite filter_In. split; intros [H1 H2]; (split; [|lia]).
    - apply (Permutation_in d (sorted_perm (m_data m))). exact H1.
    - apply (Permutation_in d (Permutation_sym (sorted_perm (m_data m)))). exact H1. }
  assert (Hn' : NoDup (map (data_title human) (upto (clamp priority) (m_data m)))).
  { unfold upto. assert (N : NoDup (map (data_title human) (sorted (m_data m)))).
    { apply (Permutation_NoDup (l := map (data_title human) (m_data m))); [apply Permutation_map, Permutation_sym, sorted_perm|exact Hn]. }
    clear - N. induction (sorted (m_data m)) as [|x l IH]; [constructor|]. cbn [map] in N. inversion N as [|? ? H1 H2]; subst. cbn [filter].
    destruct (d_priority x <=? clamp priority); [|apply IH; exact H2]. cbn [map]. constructor; [|apply IH; exact H2].
    intros C. apply H1. apply in_map_iff in C. destruct C as (y & E & Hy). apply filter_In in Hy. apply in_map_iff. exists y. split; [exact E|apply Hy]. }
  split.
  - intros d Hd. destruct (d_priority d <=? clamp priority) eqn:E.
    + apply dict_fold_in; [exact Hn'|apply Hin; split; [exact Hd|lia]|reflexivity].
    + rewrite dict_fold_other; [reflexivity|]. intros C. apply in_map_iff in C. destruct C as (d' & E' & Hd'). apply Hin in Hd'. destruct Hd' as [Hd' Hp].
      assert (d' = d).
      { clear - Hn Hd Hd' E'. induction (m_data m) as [|x l IH]; [destruct Hd|]. cbn [map] in Hn. inversion Hn as [|? ? H1 H2]; subst.
        destruct Hd as [->|Hd], Hd' as [->|Hd']; [reflexivity| | |auto].
        - exfalso. apply H1. rewrite <- E'. apply in_map. exact Hd'.
        - exfalso. apply H1. rewrite E'. apply in_map. exact Hd. }
      subst d'. lia.
  - intros k Hk. rewrite dict_fold_other; [reflexivity|]. intros C. apply Hk. apply in_map_iff in C. destruct C as (d & <- & Hd). apply Hin in Hd. apply in_map. apply Hd.
Qed.
(** ** The registrations stay *)
Lemma with_values_titles human m k l : map (data_title human) (m_data (with_values m k l)) = map (data_title human) (m_data m).
Proof.
  cbn [with_values m_data]. rewrite map_map. apply map_ext. intros d. destruct (str_eqb k (d_key d)); reflexivity.
Qed.
Lemma set_all_titles human e L : forall m, map (data_title human) (m_data (set_all e m L)) = map (data_title human) (m_data m).
Proof.
  induction L as [|[k a] L IH]; intros m; [reflexivity|]. cbn [set_all fold_left]. fold (set_all e (set_or_keep e m (k, a)) L). rewrite IH.
  unfold set_or_keep. cbn [fst snd]. destruct (setattr e m k a) as [m'|] eqn:Es; [|reflexivity]. unfold setattr in Es. destruct (find_data m k) as [dk|]; [|discriminate].
  destruct (data_add e dk a) as [[o r]|]; [|discriminate]. cbn [bind fst snd] in Es. destruct o as [total|].
  - destruct (set_plain e m (lit "track_total") (AVal total)) as [m1|] eqn:Ep; [|injection Es as <-; reflexivity].
    destruct r as [l|]; [|discriminate]. injection Es as <-. rewrite with_values_titles. unfold set_plain in Ep.
    destruct (find_data m (lit "track_total")) as [dt|]; [|discriminate]. destruct (data_add e dt (AVal total)) as [[o1 [l1|]]|]; try discriminate.
    injection Ep as <-. apply with_values_titles.
  - destruct r as [l|]; [|discriminate]. injection Es as <-. apply with_values_titles.
Qed.
Fixpoint nodupb (l : list str) : bool := match l with [] => true | x :: l => negb (existsb (str_eqb x) l) && nodupb l end.
Lemma nodupb_NoDup l : nodupb l = true -> NoDup l.
Proof.
  induction l as [|x l IH]; [constructor|]. cbn [nodupb]. intros H. apply andb_true_iff in H. destruct H as [H1 H2]. constructor; [|apply IH; exact H2].
  intros C. apply negb_true_iff in H1. assert (existsb (str_eqb x) l = true) by (apply existsb_exists; exists x; split; [exact C|apply str_eqb_refl]). congruence.
Qed.
Lemma root_titles human : NoDup (map (data_title human) (m_data root)).
Proof. apply nodupb_NoDup. destruct human; vm_compute; reflexivity. Qed.

(** ** Groups *)
Lemma pd_get_set d k v k' : pd_get (pd_set d k v) k' = if str_eqb k' k then Some v else pd_get d k'.
Proof.
  induction d as [|[k0 v0] d IH]; cbn [pd_set pd_get]; [reflexivity|].
  destruct (str_eqb k k0) eqn:E; cbn [pd_get].
  - apply str_eqb_eq in E. subst k0. destruct (str_eqb k' k); reflexivity.
  - destruct (str_eqb k' k0) eqn:E1; [|exact IH]. apply str_eqb_eq in E1. subst k0. rewrite (str_eqb_sym k' k), E. reflexivity.
Qed.
Lemma py_slice_sub {A} (l : list A) a b a' b' : py_norm (zlen l) a = a' -> py_norm (zlen l) b = b' -> py_slice l a b = firstn (Z.to_nat (b' - a')) (skipn (Z.to_nat a') l).
Proof. intros <- <-. reflexivity. Qed.
Lemma is_array_app k : is_array (k ++ lit "[]") = true /\ py_upto (k ++ lit "[]") (-2) = k.
Proof.
  assert (L : zlen (k ++ lit "[]") = zlen k + 2) by (rewrite zlen_app; reflexivity). pose proof (zlen_nonneg k) as Hk.
  split.
  - unfold is_array, py_from. rewrite (py_slice_sub _ _ _ (zlen k) (zlen k + 2)); [|rewrite L; unfold py_norm; match goal with |- (if ?b then _ else _) = _ => destruct b eqn:Eb end; lia|rewrite L; unfold py_norm; match goal with |- (if ?b then _ else _) = _ => destruct b eqn:Eb end; lia].
    unfold zlen. rewrite Nat2Z.id. rewrite skipn_app, skipn_all, Nat.sub_diag. cbn [app skipn].
    replace (Z.to_nat (Z.of_nat (length k) + 2 - Z.of_nat (length k))) with 2%nat by lia. reflexivity.
  - unfold py_upto. rewrite (py_slice_sub _ _ _ 0 (zlen k)); [|rewrite L; unfold py_norm; match goal with |- (if ?b then _ else _) = _ => destruct b eqn:Eb end; lia|rewrite L; unfold py_norm; match goal with |- (if ?b then _ else _) = _ => destruct b eqn:Eb end; lia]. cbn [Z.to_nat skipn]. rewrite Z.sub_0_r.
    unfold zlen. rewrite Nat2Z.id, firstn_app, firstn_all, Nat.sub_diag. cbn [firstn]. apply app_nil_r.
Qed.
Lemma occurrences_nonneg k l : 0 <= occurrences k l.
Proof. induction l as [|x l IH]; cbn [occurrences]; [lia|]. destruct (str_eqb k x); lia. Qed.
Lemma pos_of_absent {V} (l : list (str * V)) k : ~ In k (map fst l) -> pos_of l k = None.
Proof. intros H. apply pos_of_None. exact H. Qed.
Definition counts (c : pydict) (seen : list str) : Prop := forall k, pd_get c k = if occurrences k seen =? 0 then None else Some (occurrences k seen).
Definition used (names : list str) (seen : list str) : Prop := forall n, In n names -> exists k i, n = array_name k i /\ 1 <= i <= occurrences k seen.
Lemma add_group_step mm l seen k m h : represents (mm_groups mm) l -> counts (mm_counter mm) seen -> used (map fst l) seen -> meta_bool m = true ->
  let mm' := fst (addGroup mm (k ++ lit "[]") m h) in
  snd (addGroup mm (k ++ lit "[]") m h) = Ok true /\ mm_common mm' = mm_common mm /\
  represents (mm_groups mm') (l ++ [(array_name k (1 + occurrences k seen), headed m h)]) /\ counts (mm_counter mm') (k :: seen) /\
  used (map fst (l ++ [(array_name k (1 + occurrences k seen), headed m h)])) (k :: seen).
Proof.
  intros Hr Hc Hu Hm. destruct (is_array_app k) as [H1 H2]. unfold addGroup. rewrite Hm. cbn [negb]. rewrite H1, H2.
  assert (N : match pd_get (mm_counter mm) k with Some n => n + 1 | None => 1 end = 1 + occurrences k seen).
  { rewrite (Hc k). destruct (occurrences k seen =? 0) eqn:E; lia. }
  rewrite N. change (k ++ lit "[" ++ dec (1 + occurrences k seen) ++ lit "]") with (array_name k (1 + occurrences k seen)).
  pose proof (occurrences_nonneg k seen) as Hp.
  assert (Ha : pos_of l (array_name k (1 + occurrences k seen)) = None).
  { apply pos_of_absent. intros C. destruct (Hu _ C) as (k' & i & E & Hi). apply array_name_inj in E; [|lia|lia]. destruct E as [<- <-]. lia. }
  unfold dict_append. rewrite (contains_has _ _ _ Hr). unfold DictSpec.has. rewrite Ha. cbn [fst snd mm_common mm_groups mm_counter].
  split; [reflexivity|]. split; [reflexivity|]. split; [exact (represents_append _ _ _ (headed m h) Hr Ha)|]. split.
  - intros k'. rewrite pd_get_set. cbn [occurrences]. destruct (str_eqb k' k) eqn:E.
    + apply str_eqb_eq in E. subst k'. replace (1 + occurrences k seen =? 0) with false by lia. reflexivity.
    + rewrite (Hc k'). reflexivity.
  - intros n Hn. rewrite map_app in Hn. apply in_app_or in Hn. cbn [occurrences]. destruct Hn as [Hn|[<-|[]]].
    + destruct (Hu n Hn) as (k' & i & -> & Hi). exists k', i. split; [reflexivity|]. destruct (str_eqb k' k); lia.
    + exists k, (1 + occurrences k seen). split; [reflexivity|]. rewrite str_eqb_refl. lia.
Qed.
Lemma add_groups_from l : forall mm rs d seen, represents (mm_groups mm) d -> counts (mm_counter mm) seen -> used (map fst d) seen ->
  let st := fold_left (fun st g => let '(k, m, h) := g in let '(mm, r) := addGroup (fst st) (k ++ lit "[]") m h in (mm, snd st ++ [r])) l (mm, rs) in
  mm_common (fst st) = mm_common mm /\ represents (mm_groups (fst st)) (d ++ numbered seen (filter has_values l)) /\ snd st = rs ++ map (fun g => Ok (has_values g)) l.
Proof.
  induction l as [|[[k m] h] l IH]; intros mm rs d seen Hr Hc Hu; cbn [fold_left filter map numbered].
  - cbn [fst snd]. rewrite !app_nil_r. auto.
  - cbn [fst snd has_values]. destruct (meta_bool m) eqn:Hm.
    + pose proof (add_group_step mm d seen k m h Hr Hc Hu Hm) as S. cbv zeta in S. destruct (addGroup mm (k ++ lit "[]") m h) as [mm' r]. cbn [fst snd] in S.
      destruct S as (-> & Hco & Hr' & Hc' & Hu'). specialize (IH mm' (rs ++ [Ok true]) _ _ Hr' Hc' Hu'). cbv zeta in IH. destruct IH as (I1 & I2 & I3).
      split; [congruence|]. rewrite <- app_assoc in I2, I3. cbn [numbered]. split; [exact I2|exact I3].
    + unfold addGroup. rewrite Hm. cbn [negb]. specialize (IH mm (rs ++ [Ok false]) d seen Hr Hc Hu). cbv zeta in IH. destruct IH as (I1 & I2 & I3).
      rewrite <- app_assoc in I3. auto.
Qed.
Lemma groups_lemma common l : let st := add_groups {| mm_common := common; mm_groups := dict_empty; mm_counter := [] |} l in
  mm_common (fst st) = common /\ dict_items (mm_groups (fst st)) = numbered [] (filter has_values l) /\ snd st = map (fun g => Ok (has_values g)) l.
Proof.
  destruct (add_groups_from l {| mm_common := common; mm_groups := dict_empty; mm_counter := [] |} [] [] []) as (H1 & H2 & H3).
  - apply represents_empty.
  - intros k. reflexivity.
  - intros n [].
  - split; [exact H1|]. split; [|exact H3]. destruct H2 as (Hk & Hv & _). unfold dict_items. unfold add_groups. rewrite Hk, Hv. cbn [app]. apply combine_fst_snd.
Qed.

(** ** The number of a track, "3/10" *)
Lemma split_slash_app a b : ~ In 47 a -> split_slash (a ++ 47 :: b) = Some (a, b).
Proof.
  induction a as [|c a IH]; intros H; cbn [app split_slash]; [reflexivity|].
  replace (c =? 47) with false by (symmetry; apply Z.eqb_neq; intros ->; apply H; left; reflexivity).
  rewrite IH by (intros C; apply H; right; exact C). reflexivity.
Qed.
Lemma stored_for_final e v w : 0 <= e_max_str_length e -> final e (decode v) w -> stored_for e v w.
Proof.
  intros Hm. destruct v; cbn [decode stored_for]; try (intros H; exact H); intros H; apply final_normal; assumption.
Qed.
Definition track_data : data := mk_data (lit "track_number") 205 (lit "Track number") None (Some [TInt]) (Some (NumberFilter (FNum 1 1) (FNum 999 1))) (Some CTrackNumber).
Definition total_data : data := mk_data (lit "track_total") 206 (lit "Track total") None (Some [TInt]) (Some (NumberFilter (FNum 1 1) (FNum 999 1))) (Some CTrackTotal).
Lemma store_track e d x : d_values d = [] -> d_type d = Some [TInt] -> d_filter d = Some (NumberFilter (FNum 1 1) (FNum 999 1)) -> d_handler d = None -> 1 <= x <= 999 ->
  exists t, store e d (MInt x) None = Ok [(MInt x, t)].
Proof.
  intros H1 H2 H3 H4 Hx. unfold store, store_checked. rewrite H1, H2, H3. cbn [existsb isinstance orb negb contains filter_ok number fl_lt].
  replace (x * 1 <? 1 * 1) with false by lia. replace (999 * 1 <? x * 1) with false by lia. cbn [negb andb]. unfold createItem. rewrite H4. eexists. reflexivity.
Qed.
Lemma track_lemma e a b x y : ~ In 47 a -> e_int e a = Some x -> e_int e b = Some y -> 1 <= x <= 999 -> 1 <= y <= 999 ->
  exists m, setattr e root (lit "track_number") (AVal (MStr (a ++ lit "/" ++ b))) = Ok m /\
    getValues m (lit "track_number") = Ok [MInt x] /\ getValues m (lit "track_total") = Ok [MInt y].
Proof.
  intros Ha Ea Eb Hx Hy.
  assert (F1 : find_data root (lit "track_number") = Some track_data) by reflexivity.
  assert (F2 : find_data root (lit "track_total") = Some total_data) by reflexivity.
  destruct (store_track e track_data x) as (t1 & S1); try reflexivity; try assumption.
  destruct (store_track e total_data y) as (t2 & S2); try reflexivity; try assumption.
  assert (D1 : data_add e track_data (AVal (MStr (a ++ lit "/" ++ b))) = Ok (Some (MStr b), Ok [(MInt x, t1)])).
  { unfold data_add. cbn [track_data mk_data d_conv convert]. change (a ++ lit "/" ++ b) with (a ++ 47 :: b). rewrite split_slash_app by exact Ha.
    cbn [py_int]. rewrite Ea. cbn [option_map int_result converted bind]. fold track_data. rewrite S1. reflexivity. }
  assert (D2 : data_add e total_data (AVal (MStr b)) = Ok (None, Ok [(MInt y, t2)])).
  { unfold data_add. cbn [total_data mk_data d_conv convert py_int]. rewrite Eb. cbn [option_map int_result converted bind]. fold total_data. rewrite S2. reflexivity. }
  eexists. unfold setattr. rewrite F1, D1. cbn [bind fst snd]. unfold set_plain. rewrite F2, D2. cbn [bind snd]. split; [reflexivity|]. split; apply getValues_find.
  - eexists. split; [apply find_with_values_same; rewrite find_with_values_other by discriminate; exact F1|]. reflexivity.
  - eexists. split; [rewrite find_with_values_other by discriminate; apply find_with_values_same; exact F2|]. reflexivity.
Qed.

From Verif Require Import Base BaseProofs DictModel DictProofs FieldModel FieldSpec FieldNames FieldProofs.
Ltac Zify.zify_post_hook ::= Z.div_mod_to_equations.

Definition opt {A} (o : option A) : list A := match o with Some x => [x] | None => [] end.
Lemma has_name_in l n : has_name l n = true <-> In n (map f_name l).
Proof.
  unfold has_name. rewrite existsb_exists, in_map_iff. split.
  - intros (f & H1 & H2). apply str_eqb_eq in H2. exists f. auto.
  - intros (f & <- & H). exists f. rewrite str_eqb_refl. auto.
Qed.
Lemma has_name_false l n : has_name l n = false <-> ~ In n (map f_name l).
Proof. rewrite <- has_name_in. destruct (has_name l n); split; congruence. Qed.
Lemma in_use_raw_notin ct l : Forall (in_use ct) (map f_name l) -> ~ In raw_name (map f_name l).
Proof. rewrite Forall_forall. intros H Hin. apply (in_use_not_raw ct raw_name); auto. Qed.

Lemma delete_none z l c : c <= z -> delete_too_big z l c = Ok (l, c).
Proof. intros H. destruct l; cbn [delete_too_big]; replace (z <? c) with false by lia; reflexivity. Qed.

Lemma fix_last_ok z s : pre s -> fsize s = Some z ->
  exists s' o, fix_last z s = (s', Ok o) /\ goods s' /\ resume s' = None /\ fsize s' = Some z /\
    fields s' = fields s ++ opt o /\ (forall f, o = Some f -> f = FLeaf raw_name (cur s) (z - cur s)).
Proof.
  intros [H1 H2 H3 H4 H5 H6] Hz. unfold fix_last. rewrite Hz in H6. rewrite delete_none by assumption.
  rewrite rev_involutive. destruct (z - cur s =? 0) eqn:E.
  - eexists _, None. split; [reflexivity|]. rewrite Hz. cbn [resume fsize fields opt]. rewrite app_nil_r.
    assert (cur s = z) by lia. split; [|repeat split; auto; discriminate].
    constructor; try assumption; try discriminate; try lia; [eapply in_use_rawlast; eassumption|]. intros _. congruence.
  - replace (z - cur s <=? 0) with false by lia.
    replace (has_name (fields s) raw_name) with false by (symmetry; apply has_name_false; eapply in_use_raw_notin; eassumption).
    eexists _, (Some _). split; [reflexivity|]. rewrite Hz. cbn [resume fsize fields opt].
    split; [|repeat split; auto; congruence].
    constructor.
    + apply (tiles_snoc _ (FLeaf raw_name (cur s) (z - cur s))); [assumption|constructor; lia|reflexivity].
    + rewrite map_app. apply NoDup_snoc; [assumption|]. eapply in_use_raw_notin; eassumption.
    + intros l1 f l2 Hx Hn. destruct l2 as [|y l2]; [reflexivity|]. exfalso.
      assert (Hin : In f (fields s)).
      { destruct (exists_last (l := y :: l2)) as (m & last & Hm); [discriminate|]. rewrite Hm in Hx.
        rewrite app_comm_cons, app_assoc in Hx. apply app_inj_tail in Hx. destruct Hx as [-> _]. apply in_or_app. right. left. reflexivity. }
      apply (in_use_raw_notin _ _ H4). rewrite <- Hn. apply in_map. assumption.
    + apply Forall_app. split; [assumption|]. constructor; [constructor; lia|constructor].
    + discriminate.
    + lia.
    + intros _. f_equal. lia.
Qed.

Lemma stop_feeding_ok autofix hasp s k : pre s -> resume s = Some k -> (forall v, gen_ok (k v)) ->
  (fsize s = None -> hasp = true) ->
  let '(s', r) := stop_feeding autofix hasp s in
  goods s' /\ (forall z, fsize s = Some z -> fsize s' = Some z) /\
  match r with
  | Ok o => resume s' = None /\ fields s' = fields s ++ opt o
  | Err e => autofix = false /\ s' = s /\ e = ParserError /\ fsize s <> None
  end.
Proof.
  intros Hp Hr Hk Hh. unfold stop_feeding. pose proof Hp as [H1 H2 H3 H4 H5 H6]. destruct (fsize s) as [z|] eqn:Ez.
  - destruct (negb (z =? cur s)) eqn:En.
    + destruct autofix.
      * destruct (fix_last_ok z s Hp Ez) as (s' & o & -> & G1 & G2 & G3 & G4 & _). split; [assumption|]. split; [congruence|auto].
      * split; [eapply pre_goods; eassumption|]. split; [congruence|]. repeat split; congruence.
    + split; [|split; [|split]].
      * constructor; try assumption; try discriminate; [eapply in_use_rawlast; eassumption|rewrite Ez; assumption|]. intros _. rewrite Ez. f_equal. lia.
      * intros z' E. cbn. congruence.
      * reflexivity.
      * cbn. rewrite app_nil_r. reflexivity.
  - rewrite Hh by reflexivity. split; [|split; [congruence|split; [reflexivity|cbn; rewrite app_nil_r; reflexivity]]].
    constructor; try assumption; try discriminate; try lia; [eapply in_use_rawlast; eassumption|reflexivity].
Qed.
Lemma fix_feed_error_ok autofix s k e : pre s -> resume s = Some k -> (forall v, gen_ok (k v)) ->
  let '(s', r) := fix_feed_error autofix s e in
  goods s' /\ (forall z, fsize s = Some z -> fsize s' = Some z) /\
  match r with
  | Ok o => resume s' = None /\ fields s' = fields s ++ opt o
  | Err e' => s' = s /\ e' = e /\ (autofix = true -> fsize s = None)
  end.
Proof.
  intros Hp Hr Hk. unfold fix_feed_error. destruct (fsize s) as [z|] eqn:Ez.
  - destruct autofix.
    + destruct (fix_last_ok z s Hp Ez) as (s' & o & -> & G1 & G2 & G3 & G4 & _). split; [assumption|]. split; [congruence|auto].
    + split; [eapply pre_goods; eassumption|]. split; [congruence|]. repeat split; congruence.
  - split; [eapply pre_goods; eassumption|]. split; [congruence|]. auto.
Qed.

(** ** Adding a field *)
Definition new_name (s : fset) (n : str) : Prop :=
  (ends_brackets n = false /\ ~ array_like n) \/ (in_use (counts s) n /\ ~ In n (map f_name (fields s))).
Definition nearly (f : field) : Prop :=
  match f with
  | FLeaf _ _ z => 0 <= z
  | FSet _ _ x => goods x /\ exists z, fsize x = Some z
  end.
Lemma add_append_ok s f ask : pre s -> goodf f -> f_addr f = cur s -> new_name s (f_name f) ->
  (match fsize s with Some z => cur s + f_size f <= z | None => True end) ->
  exists s' f', add_append s f ask = (s', if ask then AddStop else AddOk f') /\ pre s' /\
    resume s' = resume s /\ fsize s' = fsize s /\ fields s' = fields s ++ [f'].
Proof.
  intros [H1 H2 H3 H4 H5 H6] Hf Ha Hn Hb. unfold add_append.
  destruct (has_name (fields s) (f_name f)) eqn:Eh.
  - destruct Hn as [[Hn1 Hn2]|[_ Hn]]; [|apply has_name_in in Eh; contradiction].
    destruct (unique_name (counts s) (f_name f ++ brackets)) as [n ct] eqn:Eu.
    destruct (unique_fresh _ _ _ _ H5 Eu) as (G1 & G2 & G3).
    assert (Hnot : ~ In n (map f_name (fields s))).
    { intros Hin. rewrite Forall_forall in H4. destruct (G2 n (H4 n Hin)) as [_ E]. congruence. }
    set (f' := match f with FLeaf _ a z => FLeaf n a z | FSet _ a x => FSet n a x end).
    assert (Hf' : goodf f' /\ f_addr f' = f_addr f /\ f_size f' = f_size f /\ f_name f' = n).
    { destruct Hf; cbn; repeat split; [constructor; assumption|econstructor; eassumption]. }
    destruct Hf' as (F1 & F2 & F3 & F4).
    replace (has_name (fields s) n) with false by (symmetry; apply has_name_false; assumption).
    eexists _, f'. split; [reflexivity|]. cbn [resume fsize fields]. split; [|auto].
    constructor; cbn [fields fsize cur counts].
    + rewrite <- F3. apply tiles_snoc; [assumption|assumption|congruence].
    + rewrite map_app. cbn [map]. rewrite F4. apply NoDup_snoc; assumption.
    + apply Forall_app. split; [assumption|]. constructor; [assumption|constructor].
    + rewrite map_app. cbn [map]. rewrite F4. apply Forall_app. split; [|constructor; [assumption|constructor]].
      eapply Forall_impl; [|exact H4]. intros m Hm. apply (G2 m Hm).
    + assumption.
    + assumption.
  - eexists _, f. split; [reflexivity|]. cbn [resume fsize fields]. split; [|auto].
    apply has_name_false in Eh.
    constructor; cbn [fields fsize cur counts]; try assumption.
    + apply tiles_snoc; assumption.
    + rewrite map_app. apply NoDup_snoc; assumption.
    + apply Forall_app. split; [assumption|]. constructor; [assumption|constructor].
    + rewrite map_app. apply Forall_app. split; [assumption|]. constructor; [|constructor].
      destruct Hn as [[Hn1 Hn2]|[Hn _]]; [left; auto|assumption].
Qed.

Definition add_post (autofix : bool) (s s' : fset) (r : add_res) : Prop :=
  pre s' /\ resume s' = resume s /\ (forall z, fsize s = Some z -> fsize s' = Some z) /\
  (autofix = false -> fsize s' = fsize s) /\
  match r with
  | AddOk f => fields s' = fields s ++ [f] /\ fsize s' = fsize s
  | AddStop => exists m, fields s' = fields s ++ m
  | AddErr e => fields s' = fields s /\ fsize s' = fsize s /\ cur s' = cur s
  end.

Lemma add_check_ok autofix room s f ask : pre s -> nearly f -> f_addr f = cur s -> new_name s (f_name f) ->
  let '(s', r) := add_check autofix room s f ask in add_post autofix s s' r.
Proof.
  intros Hp Hf Ha Hn. unfold add_check. set (is_set := match f with FSet _ _ _ => true | _ => false end).
  set (dsize := avail room s - (f_addr f + f_size f)).
  assert (Happ : forall g, goodf g -> f_addr g = f_addr f -> f_name g = f_name f -> 0 <= avail room s - (f_addr g + f_size g) ->
     let '(s', r) := add_append s g ask in add_post autofix s s' r).
  { intros g Hg Hga Hgn Hd.
    destruct (add_append_ok s g ask Hp Hg) as (s' & f' & -> & G1 & G2 & G3 & G4); try congruence.
    - unfold avail in Hd. destruct (fsize s); [lia|exact I].
    - unfold add_post. rewrite G2, G3. destruct ask; (split; [assumption|]; split; [reflexivity|]; split; [auto|]; split; [auto|]; eauto). }
  assert (Hsize : forall n, 0 < n -> add_post autofix s (MkSet (fields s) (match fsize s with None => Some (cur s + n) | z => z end)
                   (cur s) (counts s) (resume s)) AddStop \/ autofix = false).
  { intros n Hn0. destruct autofix; [left|right; reflexivity]. destruct Hp as [H1 H2 H3 H4 H5 H6].
    split; [|split; [reflexivity|split; [|split; [discriminate|]]]].
    - constructor; cbn [fields fsize cur counts]; try assumption. destruct (fsize s); [assumption|lia].
    - cbn. intros z E. rewrite E. reflexivity.
    - exists []. cbn. rewrite app_nil_r. reflexivity. }
  destruct ((dsize <? 0) || (is_set && (f_size f <=? 0))) eqn:E.
  - destruct (autofix && negb (cur s =? 0)) eqn:Ea.
    + apply andb_true_iff in Ea. destruct Ea as [-> _].
      destruct (0 <? f_size f + dsize) eqn:En.
      * assert (Hs : let '(s', r) := (MkSet (fields s) (match fsize s with None => Some (cur s + (f_size f + dsize)) | z => z end)
                   (cur s) (counts s) (resume s), AddStop) in add_post true s s' r).
        { destruct (Hsize (f_size f + dsize) ltac:(lia)) as [Hs|Hs]; [exact Hs|discriminate]. }
        destruct f as [n a z|n a x]; [exact Hs|].
        destruct (0 <? f_size (FSet n a x)) eqn:E0; [|exact Hs].
        cbn [nearly] in Hf. destruct Hf as (Hg & z & Hz). cbn [f_size f_addr] in *. rewrite Hz in *.
        destruct (truncate_ok x z (z + dsize) Hz ltac:(subst is_set; lia) Hg) as (x' & -> & G1 & G2).
        apply Happ; try reflexivity.
        -- econstructor; [eassumption|lia|assumption].
        -- cbn [f_addr f_size]. rewrite G2. subst dsize. cbn [f_addr f_size]. rewrite ?Hz. lia.
      * unfold add_post. split; [assumption|]. repeat split; auto. exists []. rewrite app_nil_r. reflexivity.
    + unfold add_post. split; [assumption|]. repeat split; auto.
  - apply Happ; try reflexivity; [|subst dsize; lia].
    destruct f as [n a z|n a x]; [constructor; assumption|]. destruct Hf as (Hg & z & Hz). cbn [f_size] in *. rewrite Hz in *.
    econstructor; [eassumption|subst is_set; lia|assumption].
Qed.

(** ** Feeding *)
Definition feed_post (autofix : bool) (p : field -> bool) (s s' : fset) (r : feed_res) : Prop :=
  goods s' /\ (forall z, fsize s = Some z -> fsize s' = Some z) /\ prefix (fields s) (fields s') /\
  match r with
  | FEnd _ => resume s' = None
  | FFound f => p f = true /\ exists l, fields s' = l ++ [f]
  | FRaised e => resume s' <> None /\ (autofix = true -> fsize s = None)
  end.
Lemma prefix_refl {A} (l : list A) : prefix l l.
Proof. exists []. rewrite app_nil_r. reflexivity. Qed.
Lemma prefix_trans {A} (a b c : list A) : prefix a b -> prefix b c -> prefix a c.
Proof. intros (x & ->) (y & ->). exists (x ++ y). rewrite app_assoc. reflexivity. Qed.
Lemma prefix_app {A} (a b : list A) : prefix a (a ++ b).
Proof. exists b. reflexivity. Qed.

Lemma stop_post autofix hasp p s0 s k : pre s -> resume s = Some k -> (forall v, gen_ok (k v)) ->
  (fsize s = None -> hasp = true) -> prefix (fields s0) (fields s) -> (forall z, fsize s0 = Some z -> fsize s = Some z) ->
  let '(s', r) := feed_end (stop_feeding autofix hasp s) in feed_post autofix p s0 s' r.
Proof.
  intros Hp Hr Hk Hh Hpre Hsz. pose proof (stop_feeding_ok autofix hasp s k Hp Hr Hk Hh) as H.
  destruct (stop_feeding autofix hasp s) as [s' [o|e]]; cbn [feed_end]; destruct H as (G1 & G2 & G3).
  - destruct G3 as [G3 G4]. split; [assumption|]. split; [auto|]. split; [|assumption]. rewrite G4. eapply prefix_trans; [eassumption|apply prefix_app].
  - destruct G3 as (-> & -> & _ & _). split; [assumption|]. split; [auto|]. split; [auto|]. split; [congruence|discriminate].
Qed.
Lemma error_post autofix p s0 s k e : pre s -> resume s = Some k -> (forall v, gen_ok (k v)) ->
  prefix (fields s0) (fields s) -> (forall z, fsize s0 = Some z -> fsize s = Some z) ->
  let '(s', r) := feed_end (fix_feed_error autofix s e) in feed_post autofix p s0 s' r.
Proof.
  intros Hp Hr Hk Hpre Hsz. pose proof (fix_feed_error_ok autofix s k e Hp Hr Hk) as H.
  destruct (fix_feed_error autofix s e) as [s' [o|e']]; cbn [feed_end]; destruct H as (G1 & G2 & G3).
  - destruct G3 as [G3 G4]. split; [assumption|]. split; [auto|]. split; [|assumption]. rewrite G4. eapply prefix_trans; [eassumption|apply prefix_app].
  - destruct G3 as (-> & _ & G3). split; [assumption|]. split; [auto|]. split; [auto|]. split; [congruence|]. intros E. specialize (G3 E). destruct (fsize s0); [|reflexivity].
    rewrite (Hsz _ eq_refl) in G3. discriminate.
Qed.

Lemma named_ok s n : pre s -> name_ok n ->
  let '(n', ct) := if ends_brackets n then unique_name (counts s) n else (n, counts s) in
  pre (with_counts s ct) /\ new_name (with_counts s ct) n'.
Proof.
  intros Hp Hn. pose proof Hp as [H1 H2 H3 H4 H5 H6]. destruct (ends_brackets n) eqn:E.
  - destruct (unique_name (counts s) n) as [n' ct] eqn:Eu. destruct (unique_fresh _ _ _ _ H5 Eu) as (G1 & G2 & G3). split.
    + constructor; cbn [with_counts fields fsize cur counts]; try assumption.
      eapply Forall_impl; [|exact H4]. intros m Hm. apply (G2 m Hm).
    + right. cbn [with_counts fields counts]. split; [assumption|]. intros Hin. rewrite Forall_forall in H4.
      destruct (G2 n' (H4 n' Hin)) as [_ Hne]. congruence.
  - split; [eapply pre_ext; [eassumption|reflexivity..]|]. left. split; [assumption|]. destruct Hn as [Hn|Hn]; [congruence|assumption].
Qed.
Lemma add_post_counts autofix s ct s' r : add_post autofix (with_counts s ct) s' r -> add_post autofix s s' r.
Proof. exact (fun H => H). Qed.
Lemma empty_pre z r : match z with Some z => 0 <= z | None => True end -> pre (MkSet [] z 0 [] r).
Proof. intros H. constructor; cbn; try constructor; try assumption. intros k c E. discriminate. Qed.

Lemma feed_ok :
  (forall g, gen_ok g -> forall autofix p hasp room s, pre s -> (fsize s = None -> hasp = true) ->
     let '(s', r) := feed autofix p hasp room g s in feed_post autofix p s s' r) /\
  (forall x, spec_ok x -> forall autofix room s, pre s ->
     let '(s', r) := add_field autofix room x s in add_post autofix s s' r).
Proof.
  apply gen_spec_ind.
  - intros _ autofix p hasp room s Hp Hh. cbn [feed].
    apply (stop_post _ _ _ _ _ (fun _ => GStop)); cbn [with_resume resume fields fsize]; auto; [|cbn; auto|apply prefix_refl].
    eapply pre_ext; [eassumption|reflexivity..].
  - intros e _ autofix p hasp room s Hp Hh. cbn [feed].
    apply (error_post _ _ _ _ (fun _ => GStop)); cbn [with_resume resume fields fsize]; auto; [|cbn; auto|apply prefix_refl].
    eapply pre_ext; [eassumption|reflexivity..].
  - intros x IHx k IHk [Hx Hk] autofix p hasp room s Hp Hh. cbn [feed].
    assert (Hp' : pre (with_resume s (Some k))) by (eapply pre_ext; [eassumption|reflexivity..]).
    pose proof (IHx Hx autofix room _ Hp') as Ha.
    destruct (add_field autofix room x (with_resume s (Some k))) as [s1 [f| |e]]; destruct Ha as (A1 & A2 & A3 & A4 & A5);
      cbn [with_resume resume fsize fields] in A2, A3, A4, A5.
    + destruct A5 as [A5 A6]. destruct (p f) eqn:Epf.
      * split; [eapply pre_goods; eassumption|]. split; [assumption|]. split; [rewrite A5; apply prefix_app|]. eauto.
      * pose proof (IHk (view_of room s1) (Hk _) autofix p hasp room s1 A1) as Hf. rewrite A6 in Hf. specialize (Hf Hh).
        destruct (feed autofix p hasp room (k (view_of room s1)) s1) as [s2 r]. destruct Hf as (F1 & F2 & F3 & F4).
        split; [assumption|]. split; [intros z Ez; apply F2; congruence|].
        split; [eapply prefix_trans; [|eassumption]; rewrite A5; apply prefix_app|].
        destruct r; auto. rewrite A6 in F4. assumption.
    + destruct A5 as (m & A5). apply (stop_post _ _ _ _ _ k); auto.
      * intros E. apply Hh. destruct (fsize s) as [z|]; [|reflexivity]. rewrite (A3 _ eq_refl) in E. discriminate.
      * rewrite A5. apply prefix_app.
    + destruct A5 as (A5 & A6 & _). apply (error_post _ _ _ _ k); auto. rewrite A5. apply prefix_refl.
  - intros n z [Hn Hz] autofix room s Hp. cbn [add_field s_name]. pose proof (named_ok s n Hp Hn) as Hnm.
    destruct (if ends_brackets n then unique_name (counts s) n else (n, counts s)) as [n' ct]. destruct Hnm as [Hp1 Hn1].
    apply (add_check_ok autofix room (with_counts s ct) (FLeaf n' (cur (with_counts s ct)) z) false); auto.
  - intros n z g IHg (Hn & Hz & Hg) autofix room s Hp. cbn [add_field s_name]. pose proof (named_ok s n Hp Hn) as Hnm.
    destruct (if ends_brackets n then unique_name (counts s) n else (n, counts s)) as [n' ct]. destruct Hnm as [Hp1 Hn1].
    destruct z as [z|].
    + apply (add_check_ok autofix room (with_counts s ct) (FSet n' (cur (with_counts s ct)) (MkSet [] (Some z) 0 [] (Some (fun _ => g)))) false); auto.
      cbn [nearly]. split; [|exists z; reflexivity]. apply (pre_goods _ (fun _ => g)); auto. apply empty_pre. lia.
    + set (room' := avail room (with_counts s ct) - cur (with_counts s ct)).
      pose proof (IHg Hg autofix (fun _ => false) true room' (MkSet [] None 0 [] (Some (fun _ => g))) (empty_pre None _ I) (fun _ => eq_refl)) as Hf.
      destruct (feed autofix (fun _ : field => false) true room' g (MkSet [] None 0 [] (Some (fun _ : view => g)))) as [c r].
      destruct Hf as (F1 & F2 & F3 & F4).
      assert (Hdone : forall c ask, goods c -> resume c = None ->
        let '(s', r) := add_check autofix room (with_counts s ct) (FSet n' (cur (with_counts s ct)) c) ask in add_post autofix s s' r).
      { intros c0 ask G1 G2. apply (add_check_ok autofix room (with_counts s ct) (FSet n' (cur (with_counts s ct)) c0) ask); auto. cbn [nearly]. split; [assumption|].
        inversion G1; subst. cbn in G2. exists c1. cbn [fsize]. auto. }
      assert (Herr : forall e, add_post autofix s (with_counts s ct) (AddErr e)).
      { intros e. split; [assumption|]. cbn [with_counts resume fsize fields cur]. repeat split; auto. }
      destruct r as [f|o|e].
      * destruct F4; discriminate.
      * apply Hdone; assumption.
      * destruct (negb (zlen (fields c) =? 0) && (avail room' c - (cur c + 1) <? 0)); [|apply Herr].
        destruct F4 as [F4 _]. destruct (resume c) as [k|] eqn:Ek; [|congruence].
        destruct (goods_pre _ _ F1 Ek) as [Hpc Hgk].
        pose proof (stop_feeding_ok autofix true c k Hpc Ek Hgk (fun _ => eq_refl)) as Hs.
        destruct (stop_feeding autofix true c) as [c' [o|e']]; [|apply Herr].
        destruct Hs as (S1 & S2 & S3 & S4). apply Hdone; assumption.
Qed.

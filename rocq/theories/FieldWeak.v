From Verif Require Import Base BaseProofs DictModel DictProofs FieldModel FieldSpec FieldNames FieldProofs FieldProofs2 FieldHist.
Ltac Zify.zify_post_hook ::= Z.div_mod_to_equations.

(** ** What holds of every parser, whatever names and sizes it gives *)
Definition unbracketed (n : str) : Prop := ends_brackets n = false.
Inductive wfield : field -> Prop :=
| wf_leaf n a z : wfield (FLeaf n a z)
| wf_set n a s z : fsize s = Some z -> 0 < z -> wset s -> wfield (FSet n a s)
with wset : fset -> Prop :=
| ws_intro l z c ct r :
    NoDup (map f_name l) -> Forall wfield l ->
    (r <> None -> Forall unbracketed (map f_name l) /\ counts_ok ct) ->
    (match z with Some z => c <= z | None => True end) ->
    (r = None -> z = Some c) -> wset (MkSet l z c ct r).

Record wpre (s : fset) : Prop := {
  wpre_nodup : NoDup (map f_name (fields s));
  wpre_good : Forall wfield (fields s);
  wpre_names : Forall unbracketed (map f_name (fields s));
  wpre_ct : counts_ok (counts s);
  wpre_bound : match fsize s with Some z => cur s <= z | None => True end }.
Lemma wpre_wset s k : wpre s -> resume s = Some k -> wset s.
Proof.
  intros [H2 H3 H4 H5 H6] Hr. destruct s as [l z c ct r]. cbn in *. subst r. constructor; try assumption; [auto|discriminate].
Qed.
Lemma wset_wpre s k : wset s -> resume s = Some k -> wpre s.
Proof. intros H E. destruct H as [l z c ct r H1 H2 H3 H4 H5]. cbn in E. destruct H3 as [A B]; [congruence|]. constructor; assumption. Qed.
Lemma wpre_ext s s' : wpre s -> fields s' = fields s -> fsize s' = fsize s -> cur s' = cur s -> counts s' = counts s -> wpre s'.
Proof. intros [H2 H3 H4 H5 H6] E1 E2 E3 E4. constructor; rewrite ?E1, ?E2, ?E3, ?E4; assumption. Qed.
Lemma raw_notin l : Forall unbracketed (map f_name l) -> ~ In raw_name (map f_name l).
Proof. rewrite Forall_forall. intros H Hin. specialize (H _ Hin). discriminate. Qed.

(** Truncation *)
Definition wtrunc (s : fset) : Prop := wset s -> forall size s', truncate s size = Ok s' -> (exists z, fsize s = Some z) ->
  wset s' /\ fsize s' = Some size /\ 0 < size.
Lemma wcut size : forall l seen l', cut size seen l = Ok (Some l') -> Forall wfield l -> NoDup (map f_name l) ->
  (forall n a x, In (FSet n a x) l -> wtrunc x) ->
  Forall wfield l' /\ NoDup (map f_name l') /\
  (forall n, In n (map f_name l') -> In n (map f_name l) \/ (n = raw_name /\ seen = false)).
Proof.
  induction l as [|f l IH]; intros seen l' E Hw Hn Ht; cbn [cut] in E; [discriminate|].
  destruct (cut size (seen || str_eqb raw_name (f_name f)) l) as [o|e] eqn:Ec; cbn [bind] in E; [|discriminate].
  inversion Hw; subst. cbn [map] in Hn. inversion Hn; subst. destruct o as [l2|].
  - injection E as <-. destruct (IH _ _ Ec H2 H4) as (I1 & I2 & I3); [intros; eapply Ht; right; eassumption|].
    split; [constructor; assumption|]. split.
    + cbn [map]. constructor; [|assumption]. intros Hin. destruct (I3 _ Hin) as [I4|[I4 I5]]; [contradiction|].
      rewrite I4, str_eqb_refl in I5. destruct seen; discriminate.
    + intros n [<-|Hin]; [left; left; reflexivity|]. destruct (I3 _ Hin) as [I4|[I4 I5]]; [left; right; assumption|].
      right. split; [assumption|]. destruct seen; [discriminate|reflexivity].
  - destruct (f_addr f <? size) eqn:E1; [|discriminate]. destruct (size - f_addr f <? f_size f) eqn:E2.
    + destruct f as [fn fa fz|fn fa x].
      * destruct seen; [discriminate|]. injection E as <-. split; [constructor; [constructor|constructor]|].
        split; [constructor; [intros []|constructor]|]. intros n [<-|[]]. right. auto.
      * destruct (truncate x (size - f_addr (FSet fn fa x))) as [x'|e] eqn:Et; cbn [bind] in E; [|discriminate]. injection E as <-.
        inversion H1; subst. destruct (Ht fn fa x (or_introl eq_refl) ltac:(assumption) _ _ Et ltac:(eauto)) as (T1 & T2 & T3).
        split; [constructor; [econstructor; eassumption|constructor]|].
        split; [constructor; [intros []|constructor]|]. intros n [<-|[]]. left. left. reflexivity.
    + injection E as <-. split; [constructor; [assumption|constructor]|]. split; [constructor; [intros []|constructor]|].
      intros n [<-|[]]. left. left. reflexivity.
Qed.
Lemma truncate_weak s : wtrunc s.
Proof.
  induction s as [l z c ct r IH] using fset_ind'. intros Hw size s' E Hz. rewrite truncate_eq in E. cbn [fields fsize cur counts resume] in *.
  destruct (0 <? size) eqn:E0; cbn [negb] in E; [|discriminate]. inversion Hw as [? ? ? ? ? H1 H2 H3 H4 H5]; subst.
  destruct (size <? c) eqn:E1.
  - destruct (cut size false l) as [[l'|]|e] eqn:Ec; cbn [bind] in E; try discriminate. injection E as <-.
    destruct (wcut size l false l' Ec H2 H1 IH) as (W1 & W2 & _). split; [|split; [reflexivity|lia]].
    constructor; try assumption; [congruence|lia|reflexivity].
  - destruct Hz as (z' & ->). destruct (size <? z') eqn:E2; cbn [assert_ bind] in E; [|discriminate]. injection E as <-.
    split; [|split; [reflexivity|lia]]. constructor; try assumption.
    + intros Hr. apply H3. destruct (size =? c); congruence.
    + lia.
    + destruct (size =? c) eqn:E3; [intros _; f_equal; lia|]. intros Hr. specialize (H5 Hr). injection H5 as ->. lia.
Qed.

(** The end of feeding *)
Lemma wfix_last z s : wpre s -> fsize s = Some z ->
  exists s' o, fix_last z s = (s', Ok o) /\ wset s' /\ resume s' = None /\ fsize s' = Some z /\ fields s' = fields s ++ opt o.
Proof.
  intros [H2 H3 H4 H5 H6] Hz. unfold fix_last. rewrite Hz in H6. rewrite delete_none by assumption.
  rewrite rev_involutive. destruct (z - cur s =? 0) eqn:E.
  - eexists _, None. split; [reflexivity|]. rewrite Hz. cbn [resume fsize fields opt]. rewrite app_nil_r.
    assert (cur s = z) by lia. split; [|auto].
    constructor; try assumption; [congruence|]. intros _. congruence.
  - replace (z - cur s <=? 0) with false by lia.
    replace (has_name (fields s) raw_name) with false by (symmetry; apply has_name_false; apply raw_notin; assumption).
    eexists _, (Some _). split; [reflexivity|]. rewrite Hz. cbn [resume fsize fields opt]. split; [|auto].
    constructor.
    + rewrite map_app. apply NoDup_snoc; [assumption|]. apply raw_notin; assumption.
    + apply Forall_app. split; [assumption|]. constructor; [constructor|constructor].
    + congruence.
    + lia.
    + intros _. f_equal. lia.
Qed.
Lemma wstop autofix hasp s k : wpre s -> resume s = Some k -> (fsize s = None -> hasp = true) ->
  let '(s', r) := stop_feeding autofix hasp s in
  wset s' /\ (forall z, fsize s = Some z -> fsize s' = Some z) /\
  match r with
  | Ok o => resume s' = None /\ fields s' = fields s ++ opt o
  | Err e => autofix = false /\ s' = s /\ fsize s <> None
  end.
Proof.
  intros Hp Hr Hh. unfold stop_feeding. pose proof Hp as [H2 H3 H4 H5 H6]. destruct (fsize s) as [z|] eqn:Ez.
  - destruct (negb (z =? cur s)) eqn:En.
    + destruct autofix.
      * destruct (wfix_last z s Hp Ez) as (s' & o & -> & G1 & G2 & G3 & G4). split; [assumption|]. split; [congruence|auto].
      * split; [eapply wpre_wset; eassumption|]. split; [congruence|]. repeat split; congruence.
    + split; [|split; [|split]].
      * constructor; try assumption; [congruence|rewrite Ez; assumption|]. intros _. rewrite Ez. f_equal. lia.
      * intros z' E. cbn. congruence.
      * reflexivity.
      * cbn. rewrite app_nil_r. reflexivity.
  - rewrite Hh by reflexivity. split; [|split; [congruence|split; [reflexivity|cbn; rewrite app_nil_r; reflexivity]]].
    constructor; try assumption; [congruence|lia|reflexivity].
Qed.
Lemma werror autofix s k e : wpre s -> resume s = Some k ->
  let '(s', r) := fix_feed_error autofix s e in
  wset s' /\ (forall z, fsize s = Some z -> fsize s' = Some z) /\
  match r with
  | Ok o => resume s' = None /\ fields s' = fields s ++ opt o
  | Err e' => s' = s /\ e' = e /\ (autofix = true -> fsize s = None)
  end.
Proof.
  intros Hp Hr. unfold fix_feed_error. destruct (fsize s) as [z|] eqn:Ez.
  - destruct autofix.
    + destruct (wfix_last z s Hp Ez) as (s' & o & -> & G1 & G2 & G3 & G4). split; [assumption|]. split; [congruence|auto].
    + split; [eapply wpre_wset; eassumption|]. split; [congruence|]. repeat split; congruence.
  - split; [eapply wpre_wset; eassumption|]. split; [congruence|]. auto.
Qed.

(** Adding a field *)
Definition wnearly (f : field) : Prop := match f with FLeaf _ _ _ => True | FSet _ _ x => wset x /\ exists z, fsize x = Some z end.
Definition wadd_post (autofix : bool) (s s' : fset) (r : add_res) : Prop :=
  wpre s' /\ resume s' = resume s /\ (forall z, fsize s = Some z -> fsize s' = Some z) /\
  match r with
  | AddOk f => fields s' = fields s ++ [f] /\ fsize s' = fsize s
  | AddStop => exists m, fields s' = fields s ++ m
  | AddErr e => fields s' = fields s /\ fsize s' = fsize s
  end.
Lemma unique_weak ct n : counts_ok ct -> unbracketed (fst (unique_name ct n)) /\ counts_ok (snd (unique_name ct n)).
Proof.
  intros Hc. rewrite unique_name_eq. cbn [fst snd]. set (i := match pd_get ct (key_of n) with Some c => c + 1 | None => 0 end).
  assert (Hi : 0 <= i) by (unfold i; destruct (pd_get ct (key_of n)) as [c|] eqn:E; [specialize (Hc _ _ E)|]; lia).
  split; [apply array_name_brackets; assumption|]. intros k c. rewrite pd_get_set. destruct (str_eqb k (key_of n)); [|apply Hc].
  intros E. injection E as <-. assumption.
Qed.
Lemma wadd_append autofix s f ask : wpre s -> wfield f -> unbracketed (f_name f) ->
  (match fsize s with Some z => cur s + f_size f <= z | None => True end) ->
  let '(s', r) := add_append s f ask in wadd_post autofix s s' r.
Proof.
  intros [H2 H3 H4 H5 H6] Hf Hn Hb. unfold add_append.
  destruct (has_name (fields s) (f_name f)) eqn:Eh.
  - pose proof (unique_weak (counts s) (f_name f ++ brackets) H5) as Hu.
    destruct (unique_name (counts s) (f_name f ++ brackets)) as [n ct]. destruct Hu as [U1 U2]. cbn [fst snd] in *.
    set (f' := match f with FLeaf _ a z => FLeaf n a z | FSet _ a x => FSet n a x end).
    assert (Hf' : wfield f' /\ f_size f' = f_size f /\ f_name f' = n).
    { destruct Hf; cbn; repeat split; [constructor|econstructor; eassumption]. }
    destruct Hf' as (F1 & F3 & F4).
    destruct (has_name (fields s) n) eqn:Eh2.
    + split; [constructor; cbn [fields fsize cur counts]; assumption|]. cbn [resume fields fsize]. auto.
    + apply has_name_false in Eh2.
      assert (Hw : wpre (MkSet (fields s ++ [f']) (fsize s) (cur s + f_size f) ct (resume s))).
      { constructor; cbn [fields fsize cur counts]; try assumption.
        - rewrite map_app. cbn [map]. rewrite F4. apply NoDup_snoc; assumption.
        - apply Forall_app. split; [assumption|]. constructor; [assumption|constructor].
        - rewrite map_app. cbn [map]. rewrite F4. apply Forall_app. split; [assumption|]. constructor; [assumption|constructor]. }
      destruct ask; (split; [assumption|]; cbn [resume fields fsize]; eauto).
  - apply has_name_false in Eh.
    assert (Hw : wpre (MkSet (fields s ++ [f]) (fsize s) (cur s + f_size f) (counts s) (resume s))).
    { constructor; cbn [fields fsize cur counts]; try assumption.
      - rewrite map_app. cbn [map]. apply NoDup_snoc; assumption.
      - apply Forall_app. split; [assumption|]. constructor; [assumption|constructor].
      - rewrite map_app. cbn [map]. apply Forall_app. split; [assumption|]. constructor; [assumption|constructor]. }
    destruct ask; (split; [assumption|]; cbn [resume fields fsize]; eauto).
Qed.
Lemma wadd_check autofix room s f ask : wpre s -> wnearly f -> f_addr f = cur s -> unbracketed (f_name f) ->
  let '(s', r) := add_check autofix room s f ask in wadd_post autofix s s' r.
Proof.
  intros Hp Hf Ha Hn. unfold add_check. set (is_set := match f with FSet _ _ _ => true | _ => false end).
  set (dsize := avail room s - (f_addr f + f_size f)).
  assert (Happ : forall g, wfield g -> f_name g = f_name f -> cur s + f_size g <= avail room s ->
     let '(s', r) := add_append s g ask in wadd_post autofix s s' r).
  { intros g Hg Hgn Hd. apply wadd_append; try assumption; [congruence|]. unfold avail in Hd. destruct (fsize s); [lia|exact I]. }
  assert (Hsize : forall n, 0 < n -> wadd_post autofix s (MkSet (fields s) (match fsize s with None => Some (cur s + n) | z => z end)
                   (cur s) (counts s) (resume s)) AddStop).
  { intros n Hn0. destruct Hp as [H2 H3 H4 H5 H6].
    split; [|split; [reflexivity|split; [|]]].
    - constructor; cbn [fields fsize cur counts]; try assumption. destruct (fsize s); [assumption|lia].
    - cbn. intros z E. rewrite E. reflexivity.
    - exists []. cbn. rewrite app_nil_r. reflexivity. }
  assert (Hsame : wadd_post autofix s s AddStop) by (split; [assumption|]; repeat split; auto; exists []; rewrite app_nil_r; reflexivity).
  assert (Herr : forall e, wadd_post autofix s s (AddErr e)) by (intros e; split; [assumption|]; repeat split; auto).
  destruct ((dsize <? 0) || (is_set && (f_size f <=? 0))) eqn:E.
  - destruct (autofix && negb (cur s =? 0)) eqn:Ea; [|apply Herr].
    destruct (0 <? f_size f + dsize) eqn:En; [|apply Hsame].
    pose proof (Hsize (f_size f + dsize) ltac:(lia)) as Hs.
    destruct f as [n a z|n a x]; [exact Hs|].
    destruct (0 <? f_size (FSet n a x)) eqn:E0; [|exact Hs].
    cbn [wnearly] in Hf. destruct Hf as (Hg & z & Hz).
    destruct (truncate x (f_size (FSet n a x) + dsize)) as [x'|e] eqn:Et; [|apply Herr].
    destruct (truncate_weak x Hg _ _ Et ltac:(eauto)) as (T1 & T2 & T3).
    apply Happ; [econstructor; eassumption|reflexivity|]. cbn [f_size]. rewrite T2. subst dsize. cbn [f_addr f_size] in *. rewrite Hz in *. lia.
  - apply Happ; [|reflexivity|subst dsize; lia].
    destruct f as [n a z|n a x]; [constructor|]. destruct Hf as (Hg & z & Hz). cbn [f_size] in *. rewrite Hz in *.
    econstructor; [eassumption|subst is_set; lia|assumption].
Qed.

(** Feeding *)
Definition wfeed_post (autofix : bool) (p : field -> bool) (s s' : fset) (r : feed_res) : Prop :=
  wset s' /\ (forall z, fsize s = Some z -> fsize s' = Some z) /\ prefix (fields s) (fields s') /\
  match r with
  | FEnd _ => resume s' = None
  | FFound f => p f = true /\ exists l, fields s' = l ++ [f]
  | FRaised e => resume s' <> None /\ (autofix = true -> fsize s = None)
  end.
Lemma wstop_post autofix hasp p s0 s k : wpre s -> resume s = Some k ->
  (fsize s = None -> hasp = true) -> prefix (fields s0) (fields s) -> (forall z, fsize s0 = Some z -> fsize s = Some z) ->
  let '(s', r) := feed_end (stop_feeding autofix hasp s) in wfeed_post autofix p s0 s' r.
Proof.
  intros Hp Hr Hh Hpre Hsz. pose proof (wstop autofix hasp s k Hp Hr Hh) as H.
  destruct (stop_feeding autofix hasp s) as [s' [o|e]]; cbn [feed_end]; destruct H as (G1 & G2 & G3).
  - destruct G3 as [G3 G4]. split; [assumption|]. split; [auto|]. split; [|assumption]. rewrite G4. eapply prefix_trans; [eassumption|apply prefix_app].
  - destruct G3 as (-> & -> & _). split; [assumption|]. split; [auto|]. split; [auto|]. split; [congruence|discriminate].
Qed.
Lemma werror_post autofix p s0 s k e : wpre s -> resume s = Some k ->
  prefix (fields s0) (fields s) -> (forall z, fsize s0 = Some z -> fsize s = Some z) ->
  let '(s', r) := feed_end (fix_feed_error autofix s e) in wfeed_post autofix p s0 s' r.
Proof.
  intros Hp Hr Hpre Hsz. pose proof (werror autofix s k e Hp Hr) as H.
  destruct (fix_feed_error autofix s e) as [s' [o|e']]; cbn [feed_end]; destruct H as (G1 & G2 & G3).
  - destruct G3 as [G3 G4]. split; [assumption|]. split; [auto|]. split; [|assumption]. rewrite G4. eapply prefix_trans; [eassumption|apply prefix_app].
  - destruct G3 as (-> & _ & G3). split; [assumption|]. split; [auto|]. split; [auto|]. split; [congruence|]. intros E. specialize (G3 E). destruct (fsize s0); [|reflexivity].
    rewrite (Hsz _ eq_refl) in G3. discriminate.
Qed.
Lemma wnamed s n : wpre s ->
  let '(n', ct) := if ends_brackets n then unique_name (counts s) n else (n, counts s) in
  wpre (with_counts s ct) /\ unbracketed n'.
Proof.
  intros Hp. pose proof Hp as [H2 H3 H4 H5 H6]. destruct (ends_brackets n) eqn:E.
  - pose proof (unique_weak (counts s) n H5) as Hu. destruct (unique_name (counts s) n) as [n' ct]. destruct Hu as [U1 U2].
    split; [|assumption]. constructor; cbn [with_counts fields fsize cur counts]; assumption.
  - split; [|exact E]. eapply wpre_ext; [eassumption|reflexivity..].
Qed.
Lemma empty_wpre z r : match z with Some z => 0 <= z | None => True end -> wpre (MkSet [] z 0 [] r).
Proof. intros H. constructor; cbn; try constructor; try assumption. intros k c E. discriminate. Qed.

Lemma wfeed :
  (forall g autofix p hasp room s, wpre s -> (fsize s = None -> hasp = true) ->
     let '(s', r) := feed autofix p hasp room g s in wfeed_post autofix p s s' r) /\
  (forall x autofix room s, wpre s ->
     let '(s', r) := add_field autofix room x s in wadd_post autofix s s' r).
Proof.
  apply gen_spec_ind.
  - intros autofix p hasp room s Hp Hh. cbn [feed].
    apply (wstop_post _ _ _ _ _ (fun _ => GStop)); cbn [with_resume resume fields fsize]; auto; [|apply prefix_refl].
    eapply wpre_ext; [eassumption|reflexivity..].
  - intros e autofix p hasp room s Hp Hh. cbn [feed].
    apply (werror_post _ _ _ _ (fun _ => GStop)); cbn [with_resume resume fields fsize]; auto; [|apply prefix_refl].
    eapply wpre_ext; [eassumption|reflexivity..].
  - intros x IHx k IHk autofix p hasp room s Hp Hh. cbn [feed].
    assert (Hp' : wpre (with_resume s (Some k))) by (eapply wpre_ext; [eassumption|reflexivity..]).
    pose proof (IHx autofix room _ Hp') as Ha.
    destruct (add_field autofix room x (with_resume s (Some k))) as [s1 [f| |e]]; destruct Ha as (A1 & A2 & A3 & A5);
      cbn [with_resume resume fsize fields] in A2, A3, A5.
    + destruct A5 as [A5 A6]. destruct (p f) eqn:Epf.
      * split; [eapply wpre_wset; eassumption|]. split; [assumption|]. split; [rewrite A5; apply prefix_app|]. eauto.
      * pose proof (IHk (view_of room s1) autofix p hasp room s1 A1) as Hf. rewrite A6 in Hf. specialize (Hf Hh).
        destruct (feed autofix p hasp room (k (view_of room s1)) s1) as [s2 r]. destruct Hf as (F1 & F2 & F3 & F4).
        split; [assumption|]. split; [intros z Ez; apply F2; congruence|].
        split; [eapply prefix_trans; [|eassumption]; rewrite A5; apply prefix_app|].
        destruct r; auto. rewrite A6 in F4. assumption.
    + destruct A5 as (m & A5). apply (wstop_post _ _ _ _ _ k); auto.
      * intros E. apply Hh. destruct (fsize s) as [z|]; [|reflexivity]. rewrite (A3 _ eq_refl) in E. discriminate.
      * rewrite A5. apply prefix_app.
    + destruct A5 as (A5 & A6). apply (werror_post _ _ _ _ k); auto. rewrite A5. apply prefix_refl.
  - intros n z autofix room s Hp. cbn [add_field s_name]. pose proof (wnamed s n Hp) as Hnm.
    destruct (if ends_brackets n then unique_name (counts s) n else (n, counts s)) as [n' ct]. destruct Hnm as [Hp1 Hn1].
    apply (wadd_check autofix room (with_counts s ct) (FLeaf n' (cur (with_counts s ct)) z) false); auto. exact I.
  - intros n z g IHg autofix room s Hp. cbn [add_field s_name]. pose proof (wnamed s n Hp) as Hnm.
    destruct (if ends_brackets n then unique_name (counts s) n else (n, counts s)) as [n' ct]. destruct Hnm as [Hp1 Hn1].
    destruct z as [z|].
    + destruct (Z_le_gt_dec 0 z) as [Hz|Hz].
      * apply (wadd_check autofix room (with_counts s ct) (FSet n' (cur (with_counts s ct)) (MkSet [] (Some z) 0 [] (Some (fun _ => g)))) false); auto.
        cbn [wnearly]. split; [|exists z; reflexivity]. apply (wpre_wset _ (fun _ => g)); auto. apply empty_wpre. lia.
      * (* refused by the constructor (basic_field_set.py:66-68); the checks of _addField refuse it too *)
        assert (Herr : forall e, wadd_post autofix s (with_counts s ct) (AddErr e)).
        { intros e. split; [assumption|]. cbn [with_counts resume fsize fields cur]. repeat split; auto. }
        assert (Hst : wadd_post autofix s (with_counts s ct) AddStop).
        { split; [assumption|]. cbn [with_counts resume fsize fields cur]. repeat split; auto. exists []. rewrite app_nil_r. reflexivity. }
        unfold add_check. cbn [f_size fsize f_addr]. replace (z <=? 0) with true by lia. cbn [andb]. rewrite orb_true_r.
        destruct (autofix && negb (cur (with_counts s ct) =? 0)); [|apply Herr].
        set (new := z + _). destruct (0 <? new) eqn:En; [|exact Hst]. replace (0 <? z) with false by lia.
        split; [|split; [reflexivity|split; [|]]].
        -- destruct Hp1 as [H2 H3 H4 H5 H6]. constructor; cbn [fields fsize cur counts]; try assumption. destruct (fsize (with_counts s ct)); [assumption|lia].
        -- cbn. intros z' E. rewrite E. reflexivity.
        -- exists []. cbn. rewrite app_nil_r. reflexivity.
    + set (room' := avail room (with_counts s ct) - cur (with_counts s ct)).
      pose proof (IHg autofix (fun _ => false) true room' (MkSet [] None 0 [] (Some (fun _ => g))) (empty_wpre None _ I) (fun _ => eq_refl)) as Hf.
      destruct (feed autofix (fun _ : field => false) true room' g (MkSet [] None 0 [] (Some (fun _ : view => g)))) as [c r].
      destruct Hf as (F1 & F2 & F3 & F4).
      assert (Hdone : forall c ask, wset c -> resume c = None ->
        let '(s', r) := add_check autofix room (with_counts s ct) (FSet n' (cur (with_counts s ct)) c) ask in wadd_post autofix s s' r).
      { intros c0 ask G1 G2. apply (wadd_check autofix room (with_counts s ct) (FSet n' (cur (with_counts s ct)) c0) ask); auto. cbn [wnearly]. split; [assumption|].
        destruct G1 as [l z c1 ct1 r1 W1 W2 W3 W4 W5]. cbn in *. eauto. }
      assert (Herr : forall e, wadd_post autofix s (with_counts s ct) (AddErr e)).
      { intros e. split; [assumption|]. cbn [with_counts resume fsize fields cur]. repeat split; auto. }
      destruct r as [f|o|e].
      * destruct F4; discriminate.
      * apply Hdone; assumption.
      * destruct (negb (zlen (fields c) =? 0) && (avail room' c - (cur c + 1) <? 0)); [|apply Herr].
        destruct F4 as [F4 _]. destruct (resume c) as [k|] eqn:Ek; [|congruence].
        pose proof (wset_wpre _ _ F1 Ek) as Hpc.
        pose proof (wstop autofix true c k Hpc Ek (fun _ => eq_refl)) as Hs.
        destruct (stop_feeding autofix true c) as [c' [o|e']]; [|apply Herr].
        destruct Hs as (S1 & S2 & S3 & S4). apply Hdone; assumption.
Qed.

(** ** Histories *)
Definition sane (z : Z) (s : fset) : Prop := wset s /\ fsize s = Some z.
Lemma sane_feed autofix p hasp s z : sane z s ->
  let '(s', r) := feed_from autofix p hasp s in
  sane z s' /\ prefix (fields s) (fields s') /\
  match r with
  | FEnd _ => resume s' = None
  | FFound f => p f = true /\ exists l, fields s' = l ++ [f]
  | FRaised e => resume s' <> None /\ autofix = false
  end.
Proof.
  intros [Hg Hz]. unfold feed_from. destruct (resume s) as [k|] eqn:Ek.
  - pose proof (wset_wpre _ _ Hg Ek) as Hp.
    pose proof (proj1 wfeed (k (view_of 0 s)) autofix p hasp 0 s Hp ltac:(congruence)) as H.
    destruct (feed autofix p hasp 0 (k (view_of 0 s)) s) as [s' r]. destruct H as (F1 & F2 & F3 & F4).
    split; [split; auto|]. split; [assumption|]. destruct r; auto. destruct F4 as [F4 F5]. split; [assumption|].
    destruct autofix; [|reflexivity]. rewrite F5 in Hz by reflexivity. discriminate.
  - split; [split; assumption|]. split; [apply prefix_refl|assumption].
Qed.
Lemma sane_size z s : sane z s -> fsize s = Some z.
Proof. intros [_ H]. exact H. Qed.
Lemma okf_wfield f : okf sane f -> wfield f.
Proof. destruct f as [n a z|n a x]; [constructor|]. intros (z & Hz & Hx1 & Hx2). econstructor; eassumption. Qed.
Lemma wfield_okf f : wfield f -> okf sane f.
Proof. intros Hf. destruct Hf as [n a z|n a s z E Hz Hs]; cbn [okf]; [exact I|]. exists z. split; [assumption|]. split; assumption. Qed.
Lemma sane_fields z s : sane z s -> Forall (okf sane) (fields s).
Proof.
  intros [Hg _]. destruct Hg as [l z0 c ct r H1 H2 H3 H4 H5]. eapply Forall_impl; [|exact H2]. exact wfield_okf.
Qed.
Lemma sane_put z s l : sane z s -> Forall (okf sane) l -> layout l = layout (fields s) -> sane z (set_fields s l).
Proof.
  intros [Hg Hz] Hl El. split; [|assumption]. destruct Hg as [l0 z0 c ct r H1 H2 H3 H4 H5].
  cbn [fields fsize cur counts resume set_fields] in *. assert (En : map f_name l = map f_name l0) by (rewrite !names_layout; congruence).
  constructor; try assumption; try (rewrite En; assumption). eapply Forall_impl; [|exact Hl]. exact okf_wfield.
Qed.
Definition sane_access := hist_access sane sane_size sane_fields sane_put sane_feed.
Definition sane_accesses := hist_accesses sane sane_size sane_fields sane_put sane_feed.
Definition sane_set_at := hist_set_at sane sane_fields.
Lemma root_sane g size : 0 < size -> sane size (root_set g size).
Proof. intros Hs. split; [|reflexivity]. apply (wpre_wset _ (fun _ => g)); [|reflexivity]. apply empty_wpre. lia. Qed.
Lemma history_sane g size autofix ops path s' : 0 < size ->
  set_at path (fst (do_accesses autofix ops (root_set g size))) = Some s' -> exists z, sane z s' /\ (path = [] -> z = size).
Proof.
  intros Hs Hat. pose proof (sane_accesses autofix ops _ _ (root_sane g size Hs)) as H.
  destruct (do_accesses autofix ops (root_set g size)) as [s rs]. destruct H as (H1 & _). cbn [fst] in Hat.
  destruct (sane_set_at path s size H1 s' Hat) as (z' & Hz'). exists z'. split; [assumption|].
  intros ->. cbn in Hat. injection Hat as <-. destruct H1, Hz'. congruence.
Qed.
Theorem sizes_lemma g size autofix ops path s' : 0 < size ->
  set_at path (fst (do_accesses autofix ops (root_set g size))) = Some s' ->
  NoDup (names (layout (fields s'))) /\
  exists z, fsize s' = Some z /\ cur s' <= z /\ (path = [] -> z = size) /\ (done s' -> cur s' = z).
Proof.
  intros Hs Hat. destruct (history_sane g size autofix ops path s' Hs Hat) as (z & [Hg Hz] & Hp).
  destruct Hg as [l z0 c ct r H1 H2 H3 H4 H5]. cbn [fields cur fsize resume] in *.
  split; [rewrite <- names_layout; assumption|]. exists z. subst z0. split; [reflexivity|]. split; [assumption|].
  split; [assumption|]. intros Hd. unfold done in Hd. cbn in Hd. specialize (H5 Hd). congruence.
Qed.

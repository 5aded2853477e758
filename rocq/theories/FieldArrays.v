From Verif Require Import Base BaseProofs DictModel DictProofs ToolsModel ToolsProofs FieldModel FieldSpec FieldSpec2 FieldNames FieldProofs
  FieldProofs2 FieldHist FieldProofs3 FieldWeak FieldLazy FieldAnswers FieldEdit.
Ltac Zify.zify_post_hook ::= Z.div_mod_to_equations.

(** ** Array names *)
Definition counted (before : list str) (ct : pydict) : Prop := forall key,
  pd_get ct key = if count_before key before =? 0 then None else Some (count_before key before - 1).
Lemma count_nonneg key l : 0 <= count_before key l.
Proof. unfold count_before, zlen. lia. Qed.
Lemma count_snoc key l n : count_before key (l ++ [n]) =
  count_before key l + (if ends_brackets n && str_eqb (key_of n) key then 1 else 0).
Proof.
  unfold count_before, zlen. rewrite filter_app, app_length. cbn [filter]. destruct (ends_brackets n && str_eqb (key_of n) key); cbn; lia.
Qed.
Lemma unique_counted before ct n : counted before ct -> ends_brackets n = true ->
  fst (unique_name ct n) = array_name (key_of n) (count_before (key_of n) before) /\
  counted (before ++ [n]) (snd (unique_name ct n)).
Proof.
  intros Hc Hn. rewrite unique_name_eq. cbn [fst snd].
  assert (E : (match pd_get ct (key_of n) with Some c => c + 1 | None => 0 end) = count_before (key_of n) before).
  { rewrite (Hc (key_of n)). destruct (count_before (key_of n) before =? 0) eqn:E0; lia. }
  rewrite E. split; [reflexivity|]. intros key. rewrite pd_get_set, count_snoc, Hn. cbn [andb].
  destruct (str_eqb key (key_of n)) eqn:Ek.
  - apply str_eqb_eq in Ek. subst key. rewrite str_eqb_refl. pose proof (count_nonneg (key_of n) before).
    replace (count_before (key_of n) before + 1 =? 0) with false by lia. f_equal. lia.
  - replace (str_eqb (key_of n) key) with false.
    + rewrite Z.add_0_r. apply Hc.
    + destruct (str_eqb (key_of n) key) eqn:E2; [|reflexivity]. apply str_eqb_eq in E2. subst key. rewrite str_eqb_refl in Ek. discriminate.
Qed.
Lemma counted_plain before ct n : counted before ct -> ends_brackets n = false -> counted (before ++ [n]) ct.
Proof. intros Hc Hn key. rewrite count_snoc, Hn. cbn [andb]. rewrite Z.add_0_r. apply Hc. Qed.

(** Calls to setUniqueFieldName, one per name. *)
Fixpoint give_names (ct : pydict) (l : list str) : list str :=
  match l with
  | [] => []
  | n :: l => if ends_brackets n then let '(m, ct) := unique_name ct n in m :: give_names ct l else n :: give_names ct l
  end.
Lemma give_names_numbered : forall l before ct, counted before ct -> give_names ct l = numbered before l.
Proof.
  induction l as [|n l IH]; intros before ct Hc; cbn [give_names numbered]; [reflexivity|].
  destruct (ends_brackets n) eqn:E.
  - destruct (unique_counted before ct n Hc E) as [H1 H2]. destruct (unique_name ct n) as [m ct']. cbn in *. subst m. f_equal. auto.
  - f_equal. apply IH. apply counted_plain; assumption.
Qed.

Lemma numbered_app : forall l1 before l2, numbered before (l1 ++ l2) = numbered before l1 ++ numbered (before ++ l1) l2.
Proof.
  induction l1 as [|n l1 IH]; intros before l2; cbn [numbered app]; [rewrite app_nil_r; reflexivity|].
  f_equal. rewrite IH, <- app_assoc. reflexivity.
Qed.
Lemma array_like_name key i : 0 <= i -> array_like (array_name key i).
Proof. intros H. exists key, i. auto. Qed.
Lemma numbered_in : forall l before m, In m (numbered before l) ->
  In m (plain l) \/ (exists key i, m = array_name key i /\ 0 <= i).
Proof.
  induction l as [|n l IH]; intros before m; cbn [numbered In]; [tauto|]. unfold plain in *. cbn [filter].
  destruct (ends_brackets n) eqn:E; cbn [negb].
  - intros [<-|H]; [right; eexists _, _; split; [reflexivity|apply count_nonneg]|]. apply IH in H. destruct H; auto.
  - intros [<-|H]; [left; left; reflexivity|]. apply IH in H. destruct H; [left; right; assumption|auto].
Qed.

Lemma feed_list autofix hasp z : forall l before s,
  pre s -> fsize s = Some z -> cur s + sum_sizes l = z -> counted before (counts s) ->
  map f_name (fields s) = numbered [] before ->
  Forall (fun x => name_ok (fst x) /\ 0 <= snd x) l -> NoDup (plain (before ++ map fst l)) ->
  exists s', feed autofix (fun _ => false) hasp 0 (gen_of_list l) s = (s', FEnd None) /\
    map f_name (fields s') = numbered [] (before ++ map fst l) /\ map f_size (fields s') = map f_size (fields s) ++ map snd l.
Proof.
  induction l as [|[n size] l IH]; intros before s Hp Hz Hsum Hc Hn Hl Hd; cbn [gen_of_list feed].
  - unfold stop_feeding. cbn [with_resume fsize cur fields counts]. rewrite Hz. cbn in Hsum. replace (z =? cur s) with true by lia.
    cbn [negb feed_end]. eexists. split; [reflexivity|]. cbn [with_resume fields map]. rewrite !app_nil_r. auto.
  - set (s1 := with_resume s (Some (fun _ => gen_of_list l))). destruct (Forall_inv Hl) as [Hx1 Hx2]. pose proof (Forall_inv_tail Hl) as Hl'.
    cbn [fst snd] in *. cbn [sum_sizes fold_right snd] in Hsum. fold (sum_sizes l) in Hsum.
    assert (Hpos : 0 <= sum_sizes l).
    { clear -Hl'. induction Hl' as [|[a b] l [_ H] _ IH]; cbn [sum_sizes fold_right snd] in *; [lia|]. fold (sum_sizes l). cbn in H. lia. }
    assert (Hp1 : pre s1) by (eapply pre_ext; [eassumption|reflexivity..]).
    cbn [add_field s_name]. pose proof (named_ok s1 n Hp1 Hx1) as Hnm.
    pose proof (unique_counted before (counts s) n Hc) as Hu.
    assert (Hgoal : forall n' ct, (if ends_brackets n then unique_name (counts s1) n else (n, counts s1)) = (n', ct) ->
       counted (before ++ [n]) ct /\ n' = (if ends_brackets n then array_name (key_of n) (count_before (key_of n) before) else n)).
    { intros n' ct. change (counts s1) with (counts s). destruct (ends_brackets n) eqn:E.
      - destruct (Hu eq_refl) as [U1 U2]. intros Eu. rewrite Eu in *. cbn in *. auto.
      - intros Eu. injection Eu as <- <-. split; [apply counted_plain; assumption|reflexivity]. }
    destruct (if ends_brackets n then unique_name (counts s1) n else (n, counts s1)) as [n' ct].
    destruct (Hgoal n' ct eq_refl) as [Hc' Hn']. destruct Hnm as [Hp2 Hnew].
    set (s2 := with_counts s1 ct) in *.
    assert (Hnot : ~ In n' (map f_name (fields s2))).
    { change (fields s2) with (fields s). rewrite Hn. subst n'. intros Hin. destruct (ends_brackets n) eqn:E.
      - destruct Hnew as [[_ Hnew]|[_ Hnew]]; [apply Hnew; apply array_like_name; apply count_nonneg|].
        apply Hnew. change (fields s2) with (fields s). rewrite Hn. assumption.
      - apply numbered_in in Hin. destruct Hin as [Hin|(key & i & -> & Hi)].
        + unfold plain in Hd, Hin. rewrite filter_app in Hd. cbn [map filter fst] in Hd. rewrite E in Hd. cbn [negb] in Hd.
          apply NoDup_remove_2 in Hd. apply Hd. apply in_or_app. auto.
        + destruct Hx1 as [Hx1|Hx1]; [congruence|]. apply Hx1. apply array_like_name. assumption. }
    unfold add_check. cbn [f_addr f_size f_name orb andb].
    change (avail 0 s2) with (avail 0 s). change (cur s2) with (cur s). unfold avail. rewrite Hz.
    replace (z - (cur s + size) <? 0) with false by lia. cbn [orb].
    unfold add_append. cbn [f_name f_size]. replace (has_name (fields s2) n') with false by (symmetry; apply has_name_false; assumption).
    set (s3 := MkSet (fields s2 ++ [FLeaf n' (cur s) size]) (fsize s2) (cur s2 + size) (counts s2) (resume s2)).
    assert (Hp3 : pre s3).
    { destruct (add_append_ok s2 (FLeaf n' (cur s) size) false Hp2) as (s' & f' & Ea & G1 & _).
      - constructor. assumption.
      - reflexivity.
      - exact Hnew.
      - change (fsize s2) with (fsize s). rewrite Hz. cbn [f_size]. change (cur s2) with (cur s). lia.
      - unfold add_append in Ea. cbn [f_name f_size] in Ea.
        replace (has_name (fields s2) n') with false in Ea by (symmetry; apply has_name_false; assumption).
        injection Ea as <- <-. exact G1. }
    destruct (IH (before ++ [n]) s3 Hp3 Hz) as (s' & F1 & F2 & F3).
    + cbn [s3 cur]. change (cur s2) with (cur s). lia.
    + exact Hc'.
    + cbn [s3 fields]. rewrite map_app. change (fields s2) with (fields s). rewrite Hn, numbered_app. cbn [map f_name numbered app].
      f_equal. f_equal. exact Hn'.
    + assumption.
    + rewrite <- app_assoc. exact Hd.
    + exists s'. split; [exact F1|]. split; [rewrite F2, <- app_assoc; reflexivity|].
      rewrite F3. cbn [s3 fields]. change (fields s2) with (fields s). rewrite map_app, <- app_assoc. reflexivity.
Qed.
Lemma array_names_lemma autofix (l : list (str * Z)) size : 0 < size -> sum_sizes l = size ->
  Forall (fun x => name_ok (fst x) /\ 0 <= snd x) l -> NoDup (plain (map fst l)) ->
  let '(s, r) := do_access autofix false AAll (root_set (gen_of_list l) size) in
  r = RUnit /\ names (layout (fields s)) = numbered [] (map fst l) /\ map f_size (fields s) = map snd l.
Proof.
  intros Hs Hsum Hl Hd. cbn [do_access]. unfold feed_from. cbn [root_set resume].
  destruct (feed_list autofix false size l [] (root_set (gen_of_list l) size)) as (s' & -> & F2 & F3).
  - apply empty_pre. lia.
  - reflexivity.
  - cbn. lia.
  - intros key. reflexivity.
  - reflexivity.
  - assumption.
  - assumption.
  - cbn [answer_feed]. split; [reflexivity|]. rewrite <- names_layout. auto.
Qed.

(** ** Lookup by address *)
Lemma tiles_bounds l : forall a e i f, tiles a (layout l) e -> nth_error l i = Some f ->
  a <= f_addr f /\ 0 <= f_size f /\ f_addr f + f_size f <= e.
Proof.
  induction l as [|g l IH]; intros a e i f H Hi; [destruct i; discriminate|]. cbn [layout map tiles] in H. destruct H as (Ha & Hz & H).
  destruct i as [|i]; cbn in Hi.
  - injection Hi as <-. apply tiles_le in H. lia.
  - destruct (IH _ _ _ _ H Hi). lia.
Qed.
Lemma tiles_mono l : forall a e i j f g, tiles a (layout l) e -> (i < j)%nat -> nth_error l i = Some f -> nth_error l j = Some g ->
  f_addr f + f_size f <= f_addr g.
Proof.
  induction l as [|x l IH]; intros a e i j f g H Hij Hi Hj; [destruct i; discriminate|]. cbn [layout map tiles] in H. destruct H as (Ha & Hz & H).
  destruct j as [|j]; [lia|]. cbn in Hj. destruct i as [|i]; cbn in Hi.
  - injection Hi as <-. destruct (tiles_bounds l _ _ _ _ H Hj). lia.
  - apply (IH _ _ i j f g H); [lia|assumption|assumption].
Qed.
Lemma tiles_cover l : forall c e a, tiles c (layout l) e -> c <= a < e ->
  exists i f, nth_error l i = Some f /\ f_addr f <= a < f_addr f + f_size f.
Proof.
  induction l as [|x l IH]; intros c e a H Ha; cbn [layout map tiles] in H; [lia|]. destruct H as (Hx & Hz & H).
  destruct (Z_lt_ge_dec a (c + f_size x)) as [Hlt|Hge].
  - exists O, x. split; [reflexivity|lia].
  - destruct (IH _ _ a H ltac:(lia)) as (i & f & Hi & Hf). exists (S i), f. auto.
Qed.
Lemma lookup_address l e a : tiles 0 (layout l) e -> 0 <= a < e ->
  exists i f, lowerBound l (fun x => f_addr x + f_size x <=? a) = Ok i /\ py_nth l i = Ok f /\ In f l /\ f_addr f <= a < f_addr f + f_size f.
Proof.
  intros Ht Ha.
  destruct (lowerBound_spec l (fun x => f_addr x + f_size x <=? a)) as (r & Hr & Hb & H1 & H2).
  { intros i j x y Hij Hx Hy Hp. destruct (Nat.eq_dec i j) as [->|Hne]; [congruence|].
    pose proof (tiles_mono l 0 e i j x y Ht ltac:(lia) Hx Hy). pose proof (tiles_bounds l 0 e j y Ht Hy). lia. }
  destruct (tiles_cover l 0 e a Ht Ha) as (i & f & Hi & Hf). cbv beta in H1, H2.
  assert (Hlen : (i < length l)%nat) by (apply nth_error_Some; congruence).
  assert (Z.of_nat i = r).
  { destruct (Z_lt_ge_dec (Z.of_nat i) r) as [Hlt|Hge]; [specialize (H1 i f Hi Hlt); lia|].
    destruct (Z.eq_dec (Z.of_nat i) r) as [E|E]; [assumption|].
    destruct (nth_error l (Z.to_nat r)) as [g|] eqn:Eg; [|apply nth_error_None in Eg; lia].
    specialize (H2 _ g Eg ltac:(lia)). pose proof (tiles_mono l 0 e (Z.to_nat r) i g f Ht ltac:(lia) Eg Hi). lia. }
  subst r. exists (Z.of_nat i), f. split; [assumption|]. destruct (py_nth_ok l (Z.of_nat i) ltac:(unfold zlen; lia)) as (g & Hg & Hn).
  rewrite Nat2Z.id in Hn. split; [congruence|]. split; [eapply nth_error_In; eassumption|assumption].
Qed.
Lemma by_address_lemma g size autofix ops path s' feed a : gen_ok g -> 0 < size ->
  set_at path (fst (do_accesses autofix ops (root_set g size))) = Some s' -> 0 <= a ->
  let '(s2, r) := get_by_address autofix true feed a s' in
  (feed = false -> s2 = s') /\
  match r with
  | Ok (Some f) => In f (fields s2) /\ f_addr f <= a < f_addr f + f_size f
  | Ok None => cur s2 <= a /\ (feed = true -> done s2)
  | Err _ => feed = true /\ autofix = false
  end.
Proof.
  intros Hg Hs Hat Ha. destruct (history_neat g size autofix ops path s' Hg Hs Hat) as (z & Hz & _). unfold get_by_address.
  assert (Hrest : forall t, neat z t ->
    match (if a <? cur t then do i <- lowerBound (fields t) (fun x => f_addr x + f_size x <=? a); do f <- py_nth (fields t) i; Ok (Some f) else Ok None) with
    | Ok (Some f) => In f (fields t) /\ f_addr f <= a < f_addr f + f_size f
    | Ok None => cur t <= a
    | Err _ => False
    end).
  { intros t [Hgt _]. destruct (a <? cur t) eqn:E; [|lia]. destruct Hgt as [l z0 c ct r G1 G2 G3 G4 G5 G6 G7]. cbn [cur fields] in *.
    destruct (lookup_address l c a G1 ltac:(lia)) as (i & f & E1 & E2 & E3 & E4). rewrite E1. cbn [bind]. rewrite E2. cbn [bind]. auto. }
  destruct feed.
  - pose proof (neat_feed autofix (fun _ => false) true s' z Hz) as H.
    destruct (feed_from autofix (fun _ => false) true s') as [s2 [f|o|e]]; destruct H as (F1 & F2 & F3).
    + destruct F3; discriminate.
    + specialize (Hrest s2 F1). destruct (a <? cur s2).
      * split; [discriminate|]. destruct (do i <- _; _) as [[f|]|e]; [assumption| |contradiction]. split; [assumption|]. intros _. exact F3.
      * split; [discriminate|]. split; [assumption|]. intros _. exact F3.
    + split; [discriminate|]. destruct F3. auto.
  - specialize (Hrest s' Hz). destruct (a <? cur s').
    + split; [reflexivity|]. destruct (do i <- _; _) as [[f|]|e]; [assumption| |contradiction]. split; [assumption|discriminate].
    + split; [reflexivity|]. split; [assumption|discriminate].
Qed.

(** ** Replacement *)
Lemma set_addr_props f a : f_name (set_addr f a) = f_name f /\ f_size (set_addr f a) = f_size f /\ f_addr (set_addr f a) = a.
Proof. destruct f; auto. Qed.
Lemma give_name_props ct f f' ct' a : give_name ct f = (f', ct') -> renamed f (set_addr f' a) /\ f_size f' = f_size f.
Proof.
  unfold give_name. destruct (ends_brackets (f_name f)) eqn:E.
  - destruct (unique_name ct (f_name f)) as [n c]. intros H. injection H as <- <-. split.
    + exists n, a. split; [reflexivity|congruence].
    + destruct f; reflexivity.
  - intros H. injection H as <- <-. split; [|reflexivity]. exists (f_name f), a. split; [destruct f; reflexivity|auto].
Qed.
Lemma insert_at_app l1 l2 f : insert_at (length l1) f (l1 ++ l2) = l1 ++ f :: l2.
Proof. unfold insert_at. rewrite firstn_app, skipn_app, Nat.sub_diag, firstn_all, skipn_all. cbn. rewrite app_nil_r. reflexivity. Qed.
Lemma NoDup_mid {A} (l1 l2 : list A) x : NoDup (l1 ++ l2) -> ~ In x (l1 ++ l2) -> NoDup (l1 ++ x :: l2).
Proof.
  induction l1 as [|y l1 IH]; cbn [app]; intros Hn Hx; [constructor; assumption|].
  inversion Hn; subst. constructor.
  - intros Hin. apply in_app_or in Hin. destruct Hin as [Hin|[Hin|Hin]]; [apply H1, in_or_app; auto| |apply H1, in_or_app; auto].
    apply Hx. left. auto.
  - apply IH; [assumption|]. intros Hin. apply Hx. right. assumption.
Qed.
Lemma insert_loop_ok : forall news ct l1 l2 address l ct' , NoDup (map f_name (l1 ++ l2)) -> Forall (fun f => 0 <= f_size f) news ->
  insert_loop ct (l1 ++ l2) (length l1) address news = (l, ct', None) ->
  exists news', l = l1 ++ news' ++ l2 /\ Forall2 renamed news news' /\ map f_size news' = map f_size news /\
    tiles address (layout news') (address + total_size news) /\ NoDup (map f_name l).
Proof.
  induction news as [|f news IH]; intros ct l1 l2 address l ct' Hn Hz; cbn [insert_loop].
  - intros E. injection E as <- <-. exists []. cbn. split; [reflexivity|]. split; [constructor|]. split; [reflexivity|]. split; [lia|assumption].
  - destruct (give_name ct f) as [f' ct1] eqn:Eg. destruct (give_name_props ct f f' ct1 address Eg) as [Hr Hsz].
    destruct (set_addr_props f' address) as (P1 & P2 & P3).
    destruct (has_name (l1 ++ l2) (f_name (set_addr f' address))) eqn:Eh; [discriminate|]. apply has_name_false in Eh.
    rewrite insert_at_app. replace (S (length l1)) with (length (l1 ++ [set_addr f' address])) by (rewrite app_length; cbn; lia).
    replace (l1 ++ set_addr f' address :: l2) with ((l1 ++ [set_addr f' address]) ++ l2) by (rewrite <- app_assoc; reflexivity).
    intros E. inversion Hz; subst. apply IH in E; [|rewrite <- app_assoc, map_app; cbn [app map]; rewrite map_app in Hn, Eh; apply NoDup_mid; assumption|assumption].
    destruct E as (news' & E1 & E2 & E3 & E4 & E5). exists (set_addr f' address :: news').
    split; [rewrite E1, <- app_assoc; reflexivity|]. split; [constructor; assumption|]. split; [cbn [map]; congruence|].
    split; [|assumption]. cbn [layout map tiles total_size fold_right]. fold (total_size news).
    rewrite P2, Hsz in *. split; [exact P3|]. split; [assumption|]. unfold layout in E4. rewrite Z.add_assoc. exact E4.
Qed.
Lemma find_name_split l n f : find_name l n = Some f -> exists l1 l2, l = l1 ++ f :: l2 /\ f_name f = n /\ ~ In n (map f_name l1).
Proof.
  unfold find_name. induction l as [|g l IH]; cbn [find]; [discriminate|]. destruct (str_eqb n (f_name g)) eqn:E.
  - intros H. injection H as ->. apply str_eqb_eq in E. exists [], l. cbn. auto.
  - intros H. destruct (IH H) as (l1 & l2 & -> & Hn & Hi). exists (g :: l1), l2. split; [reflexivity|]. split; [assumption|].
    cbn. intros [Hg|Hg]; [|contradiction]. rewrite Hg, str_eqb_refl in E. discriminate.
Qed.
Lemma replace_at_app n f : forall l1 g l2, f_name g = n -> ~ In n (map f_name l1) -> replace_at n f (l1 ++ g :: l2) = l1 ++ f :: l2.
Proof.
  induction l1 as [|x l1 IH]; intros g l2 Hg Hn; cbn [replace_at app].
  - rewrite Hg, str_eqb_refl. reflexivity.
  - cbn in Hn. destruct (str_eqb n (f_name x)) eqn:E; [apply str_eqb_eq in E; exfalso; apply Hn; auto|]. f_equal. apply IH; auto.
Qed.
Lemma index_of_app f : forall l1 l2, ~ In (f_name f) (map f_name l1) -> index_of (f_name f) (l1 ++ f :: l2) = length l1.
Proof.
  induction l1 as [|x l1 IH]; intros l2 Hn; cbn [index_of app length].
  - rewrite str_eqb_refl. reflexivity.
  - cbn in Hn. destruct (str_eqb (f_name f) (f_name x)) eqn:E; [apply str_eqb_eq in E; exfalso; apply Hn; auto|]. f_equal. apply IH; auto.
Qed.
Lemma total_size_nonneg l : Forall (fun f => 0 <= f_size f) l -> 0 <= total_size l.
Proof. induction 1; cbn; [lia|]. fold (total_size l). lia. Qed.

Lemma replace_ok name news s s' : tiles 0 (layout (fields s)) (cur s) -> NoDup (map f_name (fields s)) ->
  Forall (fun f => 0 <= f_size f) news -> replace_field name news s = (s', None) ->
  exists old l1 l2 news', f_name old = name /\ put s s' old l1 news' l2 /\ Forall2 renamed news news' /\ map f_size news' = map f_size news.
Proof.
  intros Ht Hn Hz. unfold replace_field. destruct (find_name (fields s) name) as [old|] eqn:Ef; [|discriminate].
  destruct news as [|f rest]; [discriminate|]. destruct (negb (f_size old =? total_size (f :: rest))) eqn:Es; [discriminate|].
  destruct (give_name (counts s) f) as [f' ct] eqn:Eg. destruct (give_name_props _ f f' ct (f_addr old) Eg) as [Hr Hsz].
  destruct (set_addr_props f' (f_addr old)) as (P1 & P2 & P3). set (g := set_addr f' (f_addr old)) in *.
  destruct (negb (str_eqb (f_name g) name) && has_name (fields s) (f_name g)) eqn:Ec; [discriminate|].
  destruct (find_name_split _ _ _ Ef) as (l1 & l2 & El & Eo & Hni). rewrite El, replace_at_app by assumption.
  rewrite El, map_app in Hn. cbn [map] in Hn. pose proof (NoDup_remove_1 _ _ _ Hn) as Hn1. pose proof (NoDup_remove_2 _ _ _ Hn) as Hn2.
  assert (Hg : ~ In (f_name g) (map f_name l1 ++ map f_name l2)).
  { destruct (str_eqb (f_name g) name) eqn:Eq; [apply str_eqb_eq in Eq; rewrite Eq, <- Eo; assumption|].
    cbn [negb andb] in Ec. apply has_name_false in Ec. rewrite El, map_app in Ec. cbn [map] in Ec. intros Hin. apply Ec.
    apply in_app_or in Hin. apply in_or_app. destruct Hin; [auto|right; right; assumption]. }
  rewrite index_of_app by (intros Hin; apply Hg; apply in_or_app; auto).
  destruct (insert_loop ct (l1 ++ g :: l2) (S (length l1)) (f_addr g + f_size g) rest) as [[l ct'] e] eqn:Ei.
  intros E. injection E as <- ->. inversion Hz; subst x l0.
  replace (l1 ++ g :: l2) with ((l1 ++ [g]) ++ l2) in Ei by (rewrite <- app_assoc; reflexivity).
  replace (S (length l1)) with (length (l1 ++ [g])) in Ei by (rewrite app_length; cbn; lia).
  apply insert_loop_ok in Ei; [|rewrite <- app_assoc, map_app; cbn [app map]; apply NoDup_mid; assumption|assumption].
  destruct Ei as (news' & E1 & E2 & E3 & E4 & E5).
  assert (Hl : l = l1 ++ (g :: news') ++ l2) by (rewrite E1, <- app_assoc; reflexivity).
  assert (Htn : tiles (f_addr old) (layout (g :: news')) (f_addr old + f_size old)).
  { cbn [layout map tiles]. split; [assumption|]. rewrite P2, Hsz. split; [assumption|]. fold (layout news').
    rewrite P3, P2, Hsz in E4. cbn [total_size fold_right] in Es. fold (total_size rest) in Es.
    replace (f_addr old + f_size old) with (f_addr old + f_size f + total_size rest) by lia. exact E4. }
  exists old, l1, l2, (g :: news'). split; [assumption|]. split.
  - unfold put. cbn [fields fsize cur resume]. split; [assumption|]. split; [assumption|]. repeat (split; [reflexivity|]).
    split; [assumption|]. split; [|assumption]. rewrite Hl, !layout_app. rewrite El, layout_app in Ht. apply tiles_app in Ht.
    destruct Ht as (m & T1 & T2). cbn [layout map tiles] in T2. destruct T2 as (T2 & T3 & T4).
    apply tiles_app. exists m. split; [assumption|]. apply tiles_app. exists (m + f_size old). rewrite <- T2 in *. split; assumption.
  - split; [constructor; assumption|]. cbn [map]. congruence.
Qed.
Lemma replace_single_rejected name f s s' e : replace_field name [f] s = (s', Some e) ->
  fields s' = fields s /\ fsize s' = fsize s /\ cur s' = cur s /\ resume s' = resume s.
Proof.
  unfold replace_field. destruct (find_name (fields s) name) as [old|]; [|intros E; injection E as <- _; auto].
  destruct (negb (f_size old =? total_size [f])); [intros E; injection E as <- _; auto|].
  destruct (give_name (counts s) f) as [f' ct].
  destruct (negb (str_eqb (f_name (set_addr f' (f_addr old))) name) && has_name (fields s) (f_name (set_addr f' (f_addr old))));
    [intros E; injection E as <- _; auto|]. cbn [insert_loop]. discriminate.
Qed.
Lemma insert_loop_accepts : forall news ct l i address, Forall (fun f => ends_brackets (f_name f) = false) news ->
  NoDup (map f_name news) -> (forall n, In n (map f_name news) -> ~ In n (map f_name l)) ->
  snd (insert_loop ct l i address news) = None.
Proof.
  induction news as [|f news IH]; intros ct l i address Hb Hd Hn; cbn [insert_loop]; [reflexivity|].
  inversion Hb; subst. inversion Hd; subst. unfold give_name. rewrite H1.
  destruct (set_addr_props f address) as (P1 & P2 & P3). rewrite P1.
  replace (has_name l (f_name f)) with false by (symmetry; apply has_name_false; apply Hn; left; reflexivity).
  apply IH; [assumption|assumption|]. intros n Hin. unfold insert_at. rewrite map_app. cbn [map]. rewrite P1.
  intros Hx. apply in_app_or in Hx. assert (Hl : ~ In n (map f_name l)) by (apply Hn; right; assumption).
  destruct Hx as [Hx|[Hx|Hx]].
  - apply Hl. rewrite <- (firstn_skipn i l), map_app. apply in_or_app. auto.
  - subst n. contradiction.
  - apply Hl. rewrite <- (firstn_skipn i l), map_app. apply in_or_app. auto.
Qed.
Lemma replace_accepts old news s l1 l2 : fields s = l1 ++ old :: l2 -> NoDup (map f_name (fields s)) -> news <> [] ->
  f_size old = total_size news -> Forall (fun f => ends_brackets (f_name f) = false) news -> NoDup (map f_name news) ->
  (forall n, In n (map f_name news) -> ~ In n (map f_name (l1 ++ l2))) ->
  snd (replace_field (f_name old) news s) = None.
Proof.
  intros El Hn Hne Hs Hb Hd Hnot. unfold replace_field.
  rewrite El, map_app in Hn. cbn [map] in Hn. pose proof (NoDup_remove_2 _ _ _ Hn) as Hn2.
  assert (Hni : ~ In (f_name old) (map f_name l1)) by (intros Hin; apply Hn2; apply in_or_app; auto).
  assert (Ef : find_name (fields s) (f_name old) = Some old).
  { rewrite El. clear -Hni. unfold find_name. induction l1 as [|x l1 IH]; cbn [find app]; [rewrite str_eqb_refl; reflexivity|].
    cbn in Hni. destruct (str_eqb (f_name old) (f_name x)) eqn:E; [apply str_eqb_eq in E; exfalso; apply Hni; auto|]. apply IH. auto. }
  rewrite Ef. destruct news as [|f rest]; [congruence|]. replace (f_size old =? total_size (f :: rest)) with true by lia. cbn [negb].
  inversion Hb; subst. inversion Hd; subst. unfold give_name. rewrite H1.
  destruct (set_addr_props f (f_addr old)) as (P1 & P2 & P3). rewrite P1.
  assert (Hnf : ~ In (f_name f) (map f_name (l1 ++ l2))) by (apply Hnot; left; reflexivity).
  assert (Ec : negb (str_eqb (f_name f) (f_name old)) && has_name (fields s) (f_name f) = false).
  { destruct (str_eqb (f_name f) (f_name old)) eqn:E; [reflexivity|]. cbn [negb andb]. apply has_name_false. rewrite El, map_app. cbn [map].
    intros Hin. apply in_app_or in Hin. rewrite map_app in Hnf. destruct Hin as [Hin|[Hin|Hin]]; [apply Hnf, in_or_app; auto| |apply Hnf, in_or_app; auto].
    rewrite Hin, str_eqb_refl in E. discriminate. }
  rewrite Ec. rewrite El, replace_at_app by auto.
  match goal with |- context [insert_loop ?a ?b ?c ?d rest] => pose proof (insert_loop_accepts rest a b c d H2 H4) as Hi; destruct (insert_loop a b c d rest) as [[l' ct'] e] end.
  cbn [snd] in *. apply Hi. intros n Hin. rewrite map_app. cbn [map]. rewrite P1. intros Hx.
  assert (Hl : ~ In n (map f_name (l1 ++ l2))) by (apply Hnot; right; assumption). rewrite map_app in Hl.
  apply in_app_or in Hx. destruct Hx as [Hx|[Hx|Hx]]; [apply Hl, in_or_app; auto| |apply Hl, in_or_app; auto]. subst n. contradiction.
Qed.

Lemma set_addrs_sizes : forall l a, map f_size (set_addrs a l) = map f_size l /\ total_size (set_addrs a l) = total_size l.
Proof.
  induction l as [|f l IH]; intros a; cbn [set_addrs map]; [auto|]. destruct (set_addr_props f a) as (_ & P & _).
  destruct (IH (a + f_size f)) as [I1 I2]. split; [congruence|]. cbn [total_size fold_right]. fold (total_size l) (total_size (set_addrs (a + f_size f) l)). lia.
Qed.
Lemma total_size_app l1 l2 : total_size (l1 ++ l2) = total_size l1 + total_size l2.
Proof. unfold total_size. induction l1 as [|f l1 IH]; cbn [app fold_right]; lia. Qed.
Lemma tiles_total l : forall a e, tiles a (layout l) e -> e = a + total_size l.
Proof.
  induction l as [|f l IH]; intros a e H; cbn [layout map tiles total_size fold_right] in *; [lia|]. destruct H as (_ & _ & H).
  apply IH in H. fold (total_size l). lia.
Qed.
Lemma total_map l l' : map f_size l = map f_size l' -> total_size l = total_size l'.
Proof.
  revert l'; induction l as [|f l IH]; intros [|g l'] E; try discriminate; [reflexivity|]. cbn in E. injection E as E1 E2.
  cbn [total_size fold_right]. fold (total_size l) (total_size l'). rewrite (IH l' E2). lia.
Qed.
Lemma write_ok old address news s s' : In old (fields s) -> tiles 0 (layout (fields s)) (cur s) -> NoDup (map f_name (fields s)) ->
  Forall (fun f => 0 <= f_size f) news -> write_fields_in old address news s = (s', None) ->
  exists l1 l2 before w after, put s s' old l1 (before ++ w ++ after) l2 /\
    Forall2 renamed news w /\ tiles address (layout w) (address + total_size news) /\ pads before /\ pads after.
Proof.
  intros Hin Ht Hn Hz. unfold write_fields_in. destruct (f_size old <? total_size news) eqn:E1; [discriminate|].
  destruct (address - f_addr old <? 0) eqn:E2; [discriminate|].
  destruct (f_addr old + f_size old - (address + total_size news) <? 0) eqn:E3; [discriminate|].
  set (before := if 0 <? address - f_addr old then _ else _). set (after := if 0 <? f_addr old + f_size old - (address + total_size news) then _ else _).
  intros E.
  assert (Hb : pads before /\ total_size before = address - f_addr old /\ Forall (fun f => 0 <= f_size f) before).
  { unfold before, pads. destruct (0 <? address - f_addr old) eqn:Eb.
    - split; [right; eexists; split; [reflexivity|cbn; lia]|]. split; [cbn; lia|]. constructor; [cbn; lia|constructor].
    - split; [auto|]. split; [cbn; lia|constructor]. }
  assert (Ha : pads after /\ total_size after = f_addr old + f_size old - (address + total_size news) /\ Forall (fun f => 0 <= f_size f) after).
  { unfold after, pads. destruct (0 <? f_addr old + f_size old - (address + total_size news)) eqn:Eb.
    - split; [right; eexists; split; [reflexivity|cbn; lia]|]. split; [cbn; lia|]. constructor; [cbn; lia|constructor].
    - split; [auto|]. split; [cbn; lia|constructor]. }
  destruct Hb as (B1 & B2 & B3), Ha as (A1 & A2 & A3).
  assert (Hsz : Forall (fun f => 0 <= f_size f) (set_addrs address news)).
  { clear -Hz. revert address. induction Hz as [|f l Hf Hz IH]; intros a; cbn [set_addrs]; constructor; [|auto].
    destruct (set_addr_props f a) as (_ & -> & _). assumption. }
  apply replace_ok in E; [|assumption|assumption|apply Forall_app; split; [assumption|apply Forall_app; split; assumption]].
  destruct E as (old' & l1 & l2 & news' & N1 & Hput & Hr & Hm).
  assert (old' = old).
  { destruct Hput as (El & _). rewrite El in Hn, Hin. clear -Hn Hin N1. induction l1 as [|x l1 IH]; cbn [app map] in *.
    - inversion Hn; subst. destruct Hin as [Hin|Hin]; [assumption|]. exfalso. apply H1. rewrite N1. apply in_map. assumption.
    - inversion Hn; subst. destruct Hin as [Hin|Hin]; [|auto]. exfalso. apply H1. subst x. rewrite <- N1. apply in_map, in_or_app. right. left. reflexivity. }
  subst old'. apply Forall2_app_inv_l in Hr. destruct Hr as (nb & nr & Rb & Rr & ->).
  apply Forall2_app_inv_l in Rr. destruct Rr as (w & na & Rw & Ra & ->).
  exists l1, l2, nb, w, na. split; [assumption|].
  assert (Hsame : forall x y, renamed x y -> f_size y = f_size x) by (intros [n a z|n a z] y (n' & a' & -> & _); reflexivity).
  assert (Hmap : forall x y, Forall2 renamed x y -> map f_size y = map f_size x).
  { induction 1; cbn [map]; [reflexivity|]. f_equal; auto. }
  assert (Hpads : forall x y, Forall2 renamed x y -> pads x -> pads y).
  { intros x y Hxy [->|(f & -> & Hf)].
    - inversion Hxy. left. reflexivity.
    - inversion Hxy as [|? g ? ? Hfg Hnil]; subst. inversion Hnil; subst. right. exists g. split; [reflexivity|]. rewrite (Hsame _ _ Hfg). assumption. }
  split; [|split; [|split; [eapply Hpads; eassumption|eapply Hpads; eassumption]]].
  - clear -Rw Hsame. revert address w Rw. induction news as [|f news IH]; intros a w Rw; cbn [set_addrs] in Rw; inversion Rw; subst; constructor.
    + destruct H1 as (n & a' & -> & Hn). exists n, a'. destruct f; split; auto.
    + eapply IH. eassumption.
  - destruct Hput as (_ & _ & _ & _ & _ & Tp & _). rewrite layout_app, layout_app in Tp. apply tiles_app in Tp. destruct Tp as (m & T1 & T2).
    apply tiles_app in T2. destruct T2 as (m' & T2 & T3).
    pose proof (tiles_total _ _ _ T1) as M1. pose proof (tiles_total _ _ _ T2) as M2.
    rewrite (total_map _ _ (Hmap _ _ Rb)) in M1. rewrite (total_map _ _ (Hmap _ _ Rw)), (proj2 (set_addrs_sizes news address)) in M2.
    replace address with m at 1 by lia. replace (address + total_size news) with m' by lia. assumption.
Qed.

From Coq Require Import Permutation.
From Verif Require Import Base BaseProofs BitsModel BitsSpec StreamModel StreamSpec DictModel DictProofs OutputModel EditModel EditSpec EditProofs.
Ltac Zify.zify_post_hook ::= Z.div_mod_to_equations.

(** ** Lists *)
Lemma flat_map_app' {X Y} (f : X -> list Y) a b : flat_map f (a ++ b) = flat_map f a ++ flat_map f b.
Proof. apply flat_map_app. Qed.
Lemma flat_map_flat_map {X Y W} (h : Y -> list W) (g : X -> list Y) l : flat_map h (flat_map g l) = flat_map (fun x => flat_map h (g x)) l.
Proof. induction l as [|x l IH]; cbn [flat_map]; [reflexivity|]. rewrite flat_map_app, IH. reflexivity. Qed.
Lemma flat_map_single {X} (h : X -> list X) l : (forall x, In x l -> h x = [x]) -> flat_map h l = l.
Proof.
  induction l as [|x l IH]; cbn [flat_map]; intros H; [reflexivity|].
  rewrite (H x) by (left; reflexivity). rewrite IH by (intros; apply H; right; assumption). reflexivity.
Qed.
Lemma filter_flat_map {X} (p : X -> bool) l : filter p l = flat_map (fun x => if p x then [x] else []) l.
Proof. induction l as [|x l IH]; cbn [filter flat_map]; [reflexivity|]. rewrite IH. destruct (p x); reflexivity. Qed.
Lemma map_as_flat_map {X Y} (f : X -> Y) l : map f l = flat_map (fun x => [f x]) l.
Proof. induction l as [|x l IH]; cbn; [reflexivity|]. rewrite IH. reflexivity. Qed.

(** The groups of inserted entries. *)
Definition group {X} (ins : list (option str * list X)) (k : option str) : list X := opt_list (inserted_at k ins).
Lemma flat_map_iterate {X} (h : X -> list X) i deleted e ins :
  flat_map h (iterate i deleted e ins) =
  flat_map (fun c => flat_map h (group ins (Some (i_name c))) ++ (if mem (i_name c) deleted then [] else h (e c))) (i_children i)
  ++ flat_map h (group ins None).
Proof.
  unfold iterate, group. rewrite flat_map_app, flat_map_flat_map. f_equal. apply flat_map_ext_in. intros c _.
  rewrite flat_map_app. f_equal. destruct (mem _ _); cbn [flat_map]; rewrite ?app_nil_r; reflexivity.
Qed.
Lemma group_in {X} (ins : list (option str * list X)) k x : In x (group ins k) -> exists kv, In kv ins /\ In x (snd kv).
Proof.
  unfold group. destruct (inserted_at k ins) as [l|] eqn:E; [|contradiction]. apply inserted_at_in in E.
  intros H. exists (k, l). split; assumption.
Qed.
Lemma inserted_at_set {X} k k2 (v : list X) ins : inserted_at k2 (set_inserted k v ins) = if key_eqb k k2 then Some v else inserted_at k2 ins.
Proof.
  induction ins as [|[k' w] l IH]; cbn [set_inserted inserted_at]; [reflexivity|].
  destruct (key_eqb k' k) eqn:E; cbn [inserted_at].
  - apply key_eqb_eq in E. subst. destruct (key_eqb k k2); reflexivity.
  - destruct (key_eqb k' k2) eqn:E2; [|assumption]. apply key_eqb_eq in E2. subst.
    destruct (key_eqb k k2) eqn:E3; [|reflexivity]. apply key_eqb_eq in E3. subst. rewrite key_eqb_refl in E. discriminate.
Qed.
Lemma set_inserted_new {X} k (v : list X) ins : inserted_at k ins = None -> set_inserted k v ins = ins ++ [(k, v)].
Proof.
  induction ins as [|[k' w] l IH]; cbn [set_inserted inserted_at app]; [reflexivity|].
  destruct (key_eqb k' k); [discriminate|]. intros H. rewrite IH by assumption. reflexivity.
Qed.
Lemma set_inserted_old {X} k (v w : list X) ins : inserted_at k ins = Some w ->
  exists l1 l2, ins = l1 ++ (k, w) :: l2 /\ set_inserted k v ins = l1 ++ (k, v) :: l2.
Proof.
  induction ins as [|[k' w'] l IH]; cbn [set_inserted inserted_at]; [discriminate|].
  destruct (key_eqb k' k) eqn:E; intros H.
  - injection H as ->. apply key_eqb_eq in E. subst. exists [], l. split; reflexivity.
  - destruct (IH H) as (l1 & l2 & -> & E2). exists ((k', w') :: l1), l2. rewrite E2. split; reflexivity.
Qed.
Lemma inserted_names_app a b : inserted_names (a ++ b) = inserted_names a ++ inserted_names b.
Proof. apply flat_map_app. Qed.
Lemma keys_of_app {X} (a b : list (option str * X)) : keys_of (a ++ b) = keys_of a ++ keys_of b.
Proof. apply map_app. Qed.
Lemma distinct_NoDup l : distinct l = true -> NoDup l.
Proof.
  induction l as [|x l IH]; cbn [distinct]; intros H; constructor; apply andb_true_iff in H as [H1 H2].
  - apply negb_true_iff, mem_not_in in H1. assumption.
  - apply IH; assumption.
Qed.
Lemma index_name_spec l k : forall pos,
  match index_name l k pos with
  | Some q => exists a m b, l = a ++ m :: b /\ e_name m = k /\ q = (pos + List.length a)%nat
  | None => ~ In k (map e_name l)
  end.
Proof.
  induction l as [|m l IH]; intros pos; cbn [index_name map]; [intros []|].
  destruct (str_eqb (e_name m) k) eqn:E.
  - apply str_eqb_eq in E. exists [], m, l. cbn. repeat split; auto.
  - specialize (IH (S pos)). destruct (index_name l k (S pos)) as [q|].
    + destruct IH as (a & x & b & -> & H & ->). exists (m :: a), x, b. cbn. repeat split; auto.
    + intros [H|H]; [apply str_eqb_neq in E; contradiction|contradiction].
Qed.
Lemma insert_inside_spec k new next ins :
  match insert_inside k new next ins with
  | Some ins' => exists l1 key a m b l2, ins = l1 ++ (key, a ++ m :: b) :: l2 /\ e_name m = k /\
                   ins' = l1 ++ (key, if next then a ++ m :: new ++ b else a ++ new ++ m :: b) :: l2
  | None => ~ In k (inserted_names ins)
  end.
Proof.
  induction ins as [|[key fields] l IH]; cbn [insert_inside]; [intros []|].
  pose proof (index_name_spec fields k 0) as H. destruct (index_name fields k 0) as [q|].
  - destruct H as (a & m & b & -> & Hm & ->). exists [], key, a, m, b, l. cbn [app]. split; [reflexivity|]. split; [assumption|].
    cbn [Nat.add]. do 2 f_equal. destruct next.
    + replace (S (List.length a)) with (List.length (a ++ [m])) by (rewrite app_length; cbn; lia).
      replace (a ++ m :: b) with ((a ++ [m]) ++ b) by (rewrite <- app_assoc; reflexivity).
      rewrite firstn_app, firstn_all, Nat.sub_diag, skipn_app, skipn_all, Nat.sub_diag. cbn [firstn skipn app].
      rewrite app_nil_r, <- app_assoc. reflexivity.
    + rewrite firstn_app, firstn_all, Nat.sub_diag, skipn_app, skipn_all, Nat.sub_diag. cbn [firstn skipn app].
      rewrite app_nil_r. reflexivity.
  - destruct (insert_inside k new next l) as [ins'|].
    + destruct IH as (l1 & key' & a & m & b & l2 & -> & Hm & ->).
      exists ((key, fields) :: l1), key', a, m, b, l2. repeat split; auto.
    + unfold inserted_names in *. cbn [flat_map snd]. rewrite in_app_iff. tauto.
Qed.
Lemma after_name_in l k k' : after_name l k = Ok k' -> In k' (map i_name l).
Proof.
  induction l as [|c l IH]; cbn [after_name map]; [discriminate|]. destruct (str_eqb (i_name c) k).
  - destruct l as [|d l]; [discriminate|]. intros H. injection H as <-. right. left. reflexivity.
  - intros H. right. apply IH; assumption.
Qed.

(** Placing new entries at the head of the group of [k'] is placing them right
    after [k], when [k'] is the name after [k] and has no group. *)
Lemma after_flat {X} (G : str -> list X) (own : inode -> list X) new l k k' :
  NoDup (map i_name l) -> after_name l k = Ok k' -> G k' = [] ->
  flat_map (fun c => (if str_eqb k' (i_name c) then new else G (i_name c)) ++ own c) l =
  flat_map (fun c => G (i_name c) ++ own c ++ (if str_eqb (i_name c) k then new else [])) l.
Proof.
  intros ND HA HG. revert ND HA. induction l as [|c l IH]; intros ND HA; [discriminate|].
  cbn [map] in ND. inversion ND as [|x y Nc ND']; subst. cbn [after_name] in HA. cbn [flat_map].
  destruct (str_eqb (i_name c) k) eqn:Ec.
  - apply str_eqb_eq in Ec. destruct l as [|d l]; [discriminate|]. injection HA as <-.
    cbn [map] in Nc, ND'. inversion ND' as [|x y Nd ND'']; subst x y.
    replace (str_eqb (i_name d) (i_name c)) with false
      by (symmetry; apply str_eqb_neq; intros E; apply Nc; left; assumption).
    cbn [flat_map]. rewrite str_eqb_refl, HG. cbn [app].
    replace (str_eqb (i_name d) k) with false by (symmetry; apply str_eqb_neq; rewrite <- Ec; intros E; apply Nc; left; assumption).
    rewrite app_nil_r, <- !app_assoc. do 2 f_equal. f_equal. f_equal.
    apply flat_map_ext_in. intros z Hz.
    replace (str_eqb (i_name d) (i_name z)) with false
      by (symmetry; apply str_eqb_neq; intros E; apply Nd; rewrite E; apply in_map; assumption).
    replace (str_eqb (i_name z) k) with false
      by (symmetry; apply str_eqb_neq; rewrite <- Ec; intros E; apply Nc; right; rewrite <- E; apply in_map; assumption).
    rewrite app_nil_r. reflexivity.
  - replace (str_eqb k' (i_name c)) with false
      by (symmetry; apply str_eqb_neq; intros E; apply Nc; rewrite <- E; apply (after_name_in _ _ _ HA)).
    rewrite app_nil_r. f_equal. apply IH; assumption.
Qed.

Section Edit.
Context {A : Type} (range : Z -> Z -> Prop) (good_endian : endian -> Prop) (fits' : kind -> Z -> fvalue -> Prop).
Context (orig : Z -> Z -> list A) (enc : endian -> kind -> Z -> fvalue -> list A).
Notation edoc := (edoc orig enc).
Notation good := (good range good_endian fits').
Notation parsed := (parsed range good_endian).

Lemma fresh_matches c : matches c (fresh c).
Proof. destruct c; cbn; [eexists; reflexivity|reflexivity]. Qed.
Lemma set_good p i : parsed i -> (exists n e a s l, i = ISet n e a s l) -> good p (ESet i [] [] []).
Proof.
  intros P IS. apply good_set; auto; try (constructor; fail); try (intros ? []). 
Qed.
Lemma fresh_good i c : parsed i -> (exists n e a s l, i = ISet n e a s l) -> In c (i_children i) -> good i (fresh c).
Proof.
  intros P IS Hc. destruct (parsed_set_inv _ _ i P IS) as (Ra & Ge & ND & NE & T & F).
  rewrite Forall_forall in F. pose proof (F _ Hc) as Pc. destruct c as [n k a s|n e a s l]; cbn [fresh].
  - apply (good_leaf _ _ _ _ _ a); auto; [apply (find_child_in _ _ ND Hc)|apply (parsed_range _ _ _ Pc)].
  - apply set_good; eauto 10.
Qed.
Lemma fresh_doc i c : NoDup (map i_name (i_children i)) -> In c (i_children i) -> edoc i (fresh c) = idoc orig c.
Proof.
  intros ND Hc. destruct c as [n k a s|n e a s l]; cbn [fresh edoc ef_value].
  - cbn [ef_name ef_size]. unfold child. pose proof (find_child_in _ _ ND Hc) as E. cbn [i_name] in E. rewrite E. reflexivity.
  - cbn [map]. rewrite iterate_plain. reflexivity.
Qed.
Lemma root_doc p i : (exists n e a s l, i = ISet n e a s l) -> edoc p (createEditor i) = idoc orig i.
Proof. intros (n & e & a & s & l & ->). cbn [createEditor edoc map]. rewrite iterate_plain. reflexivity. Qed.

Lemma get_item_good p n k x : good p n -> get_item n k = Ok x ->
  exists i fields deleted inserted c, n = ESet i fields deleted inserted /\ mem k deleted = false /\
    child i k = Some c /\ matches c x /\ good i x /\ x = match assoc k fields with Some x => x | None => fresh c end.
Proof.
  intros G H. destruct n as [f|i fields deleted inserted]; [discriminate|]. cbn [get_item] in H.
  inversion G as [| |p' i' fields' deleted' inserted' P IS Ff Fi NK HK ND HD NI HI]; subst.
  destruct (mem k deleted) eqn:Em; [discriminate|]. destruct (child i k) as [c|] eqn:C; [|discriminate]. injection H as H.
  exists i, fields, deleted, inserted, c. split; [reflexivity|]. split; [assumption|]. split; [assumption|].
  destruct (assoc k fields) as [y|] eqn:Ea.
  - subst y. apply assoc_in in Ea. rewrite Forall_forall in Ff. destruct (Ff _ Ea) as (c' & C' & M & Gx). cbn [fst snd] in *.
    rewrite C in C'. injection C' as <-. auto.
  - subst x. apply find_child_name in C as [_ Hc]. split; [apply fresh_matches|]. split; [|reflexivity]. apply fresh_good; assumption.
Qed.

Lemma group_names_not {X} (nm : X -> str) (inserted : list (option str * list X)) k i (deleted : list str) :
  (forall x, In x (flat_map (fun kv => map nm (snd kv)) inserted) -> has_child i x = true -> In x deleted) ->
  has_child i k = true -> mem k deleted = false ->
  forall key m, In m (group inserted key) -> nm m <> k.
Proof.
  intros HI Hk Hd key m Hm E. apply group_in in Hm as (kv & Hkv & Hm). apply mem_not_in in Hd. apply Hd.
  apply HI; [|assumption]. apply in_flat_map. exists kv. split; [assumption|]. rewrite <- E. apply in_map; assumption.
Qed.

Lemma edit_at_ok f g path : forall p c n n',
  matches c n -> good p n -> edit_at path f n = Ok n' ->
  (forall c' m m', get_path n path = Ok m -> field_at c path = Some c' -> matches c' m ->
     good (parent_at p c path) m -> f m = Ok m' ->
     good (parent_at p c path) m' /\ matches c' m' /\ edoc (parent_at p c path) m' = g (edoc (parent_at p c path) m)) ->
  good p n' /\ matches c n' /\ edoc p n' = doc_at path g (edoc p n).
Proof.
  induction path as [|k path IH]; intros p c n n' M G H Hf.
  - cbn [edit_at] in H. apply (Hf c n n'); auto.
  - cbn [edit_at] in H. destruct (get_item n k) as [x|] eqn:Ex; cbn [bind] in H; [|discriminate].
    destruct (edit_at path f x) as [x'|] eqn:Ex'; cbn [bind] in H; [|discriminate].
    destruct (get_item_good p n k x G Ex) as (i & fields & deleted & inserted & d & -> & Em & C & Md & Gx & Hx).
    injection H as <-. cbn [matches] in M. subst c.
    inversion G as [| |p' i' fields' deleted' inserted' P IS Ff Fi NK HK ND HD NI HI]; subst p' i' fields' deleted' inserted'.
    destruct (parsed_set_inv _ _ i P IS) as (Ra & Ge & NDc & NE & T & Fc).
    assert (Hd : In d (i_children i) /\ i_name d = k) by (apply find_child_name in C; tauto). destruct Hd as [Hd Nd].
    assert (Hk : has_child i k = true) by (unfold has_child; rewrite C; reflexivity).
    cbn [field_at parent_at get_path] in Hf. rewrite Ex, C in Hf. cbn [bind] in Hf.
    destruct (IH i d x x' Md Gx Ex' Hf) as (Gx' & Md' & Dx').
    split; [|split; [reflexivity|]].
    + apply good_set; auto. apply Forall_forall. intros [k2 y] Hin. apply set_assoc_in in Hin as [E|Hin].
      * injection E as -> ->. cbn [fst snd]. exists d. auto.
      * rewrite Forall_forall in Ff. apply (Ff _ Hin).
    + cbn [edoc doc_at]. f_equal. rewrite iterate_map.
      set (F := fun kv : str * doc A => if str_eqb (fst kv) k then (fst kv, doc_at path g (snd kv)) else kv).
      replace (map (fun kv => (fst kv, map F (snd kv))) (map (fun kv => (fst kv, map (fun m => (e_name m, edoc i m)) (snd kv))) inserted))
        with (map (fun kv => (fst kv, map (fun m => (e_name m, edoc i m)) (snd kv))) inserted).
      2: { rewrite map_map. apply map_ext_in. intros [key l] Hkv. cbn [fst snd]. f_equal. rewrite map_map. apply map_ext_in.
           intros m Hm. unfold F. cbn [fst snd]. destruct (str_eqb (e_name m) k) eqn:E; [|reflexivity]. exfalso.
           apply str_eqb_eq in E. apply mem_not_in in Em. apply Em. apply HI; [|assumption]. rewrite <- E.
           apply in_flat_map. exists (key, l). split; [assumption|]. apply in_map. assumption. }
      apply iterate_ext. intros c2 Hc2 Hm2. unfold F. cbn [fst snd]. rewrite !assoc_map.
      destruct (str_eqb (i_name c2) k) eqn:E.
      * apply str_eqb_eq in E. rewrite E, assoc_set_same. f_equal. rewrite Dx'. f_equal. rewrite Hx.
        assert (c2 = d). { pose proof (find_child_in _ _ NDc Hc2) as E2. rewrite E in E2. unfold child in C. rewrite C in E2. injection E2; auto. }
        subst c2. destruct (assoc k fields); [reflexivity|]. apply fresh_doc; assumption.
      * apply str_eqb_neq in E. rewrite assoc_set_other by assumption. reflexivity.
Qed.
End Edit.

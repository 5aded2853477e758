From Coq Require Import Permutation.
From Verif Require Import Base BaseProofs BitsModel BitsSpec StreamModel StreamSpec DictModel DictProofs OutputModel EditModel EditSpec EditProofs EditProofs2.
Ltac Zify.zify_post_hook ::= Z.div_mod_to_equations.

Section Edit.
Context {A : Type} (range : Z -> Z -> Prop) (good_endian : endian -> Prop) (fits' : kind -> Z -> fvalue -> Prop).
Context (orig : Z -> Z -> list A) (enc : endian -> kind -> Z -> fvalue -> list A).
Notation edoc := (edoc orig enc).
Notation good := (good range good_endian fits').
Notation parsed := (parsed range good_endian).

Lemma NoDup_app_disjoint {X} (a b : list X) : NoDup a -> NoDup b -> (forall x, In x a -> ~ In x b) -> NoDup (a ++ b).
Proof.
  intros Na Nb D. induction Na as [|x a Hx Na IH]; cbn [app]; [assumption|]. constructor.
  - rewrite in_app_iff. intros [H|H]; [contradiction|]. apply (D x); [left; reflexivity|assumption].
  - apply IH. intros y Hy. apply D. right; assumption.
Qed.
Lemma NoDup_app_inv {X} (a b : list X) : NoDup (a ++ b) -> NoDup a /\ NoDup b /\ (forall x, In x a -> ~ In x b).
Proof.
  induction a as [|x a IH]; cbn [app]; intros H; [repeat split; auto; constructor|].
  inversion H as [|y z Hx H']; subst. destruct (IH H') as (Na & Nb & D). split; [|split].
  - constructor; [|assumption]. intros Hy. apply Hx. apply in_or_app; left; assumption.
  - assumption.
  - intros y [<-|Hy]; [intros Hb; apply Hx; apply in_or_app; right; assumption|apply D; assumption].
Qed.

Lemma NoDup_flat_map_unique {X Y} (f : X -> list Y) l x y n :
  NoDup (flat_map f l) -> In x l -> In y l -> In n (f x) -> In n (f y) -> x = y.
Proof.
  induction l as [|z l IH]; cbn [flat_map]; intros N Hx Hy Nx Ny; [contradiction|].
  apply NoDup_app_inv in N as (N1 & N2 & D).
  destruct Hx as [->|Hx], Hy as [->|Hy]; auto.
  - exfalso. apply (D n Nx). apply in_flat_map. exists y; auto.
  - exfalso. apply (D n Ny). apply in_flat_map. exists x; auto.
Qed.
Lemma perm_mid {X} (l1 a new b l2 : list X) : Permutation (l1 ++ (a ++ new ++ b) ++ l2) (new ++ l1 ++ (a ++ b) ++ l2).
Proof.
  replace (l1 ++ (a ++ new ++ b) ++ l2) with (((l1 ++ a) ++ new) ++ (b ++ l2)) by (rewrite <- !app_assoc; reflexivity).
  replace (new ++ l1 ++ (a ++ b) ++ l2) with ((new ++ (l1 ++ a)) ++ (b ++ l2)) by (rewrite <- !app_assoc; reflexivity).
  apply Permutation_app_tail. apply Permutation_app_comm.
Qed.

Definition entries (D : enode -> str * doc A) (ins : list (option str * list enode)) : list (option str * list (str * doc A)) :=
  map (fun kv => (fst kv, map D (snd kv))) ins.
Lemma group_entries D ins k : group (entries D ins) k = map D (group ins k).
Proof. unfold group, entries. rewrite inserted_at_map, opt_list_map. reflexivity. Qed.
Lemma iterate_groups i deleted (e : inode -> str * doc A) ins1 ins2 :
  (forall k, group ins1 k = group ins2 k) -> iterate i deleted e ins1 = iterate i deleted e ins2.
Proof.
  intros H. unfold iterate. fold (group ins1 None). fold (group ins2 None). rewrite H. f_equal. apply flat_map_ext_in. intros c _.
  fold (group ins1 (Some (i_name c))). fold (group ins2 (Some (i_name c))). rewrite H. reflexivity.
Qed.

(** ** Deleting *)
Lemma del_item_ok q c name m m' :
  (forall i fields deleted inserted, m = ESet i fields deleted inserted -> has_child i name = true) ->
  matches c m -> good q m -> del_item name m = Ok m' ->
  good q m' /\ matches c m' /\ edoc q m' = doc_remove name (edoc q m).
Proof.
  intros Hn M G H. destruct m as [f|i fields deleted inserted]; [discriminate|]. cbn [del_item] in H.
  specialize (Hn _ _ _ _ eq_refl). destruct (mem name deleted) eqn:Em; [discriminate|]. injection H as <-.
  inversion G as [| |p' i' fields' deleted' inserted' P IS Ff Fi NK HK ND HD NI HI]; subst p' i' fields' deleted' inserted'.
  split; [|split; [exact M|]].
  - apply good_set; auto.
    + rewrite Forall_forall in *. intros kv Hkv. apply filter_In in Hkv as [Hkv _]. apply Ff; assumption.
    + apply Permutation_NoDup with (l := name :: deleted); [apply Permutation_cons_append|]. constructor; [|assumption].
      apply mem_not_in; assumption.
    + intros x Hx. apply in_app_or in Hx as [Hx|[<-|[]]]; [apply HD; assumption|assumption].
    + intros x Hx Hc. apply in_or_app. left. apply HI; assumption.
  - set (D := fun x => (e_name x, edoc i x)).
    assert (Hg : forall k, flat_map (fun x : str * doc A => if negb (str_eqb (fst x) name) then [x] else []) (map D (group inserted k)) = map D (group inserted k)).
    { intros k. apply flat_map_single. intros x Hx. apply in_map_iff in Hx as (y & <- & Hy). unfold D. cbn [fst].
      pose proof (group_names_not e_name inserted name i deleted HI Hn Em k y Hy) as N. apply str_eqb_neq in N. rewrite N. reflexivity. }
    change (edoc q (ESet i fields deleted inserted)) with
      (Node (iterate i deleted (fun c => (i_name c, match assoc (i_name c) (map (fun kv => (fst kv, edoc i (snd kv))) fields) with Some d => d | None => idoc orig c end)) (entries D inserted))).
    change (edoc q (ESet i (del_assoc name fields) (deleted ++ [name]) inserted)) with
      (Node (iterate i (deleted ++ [name]) (fun c => (i_name c, match assoc (i_name c) (map (fun kv => (fst kv, edoc i (snd kv))) (del_assoc name fields)) with Some d => d | None => idoc orig c end)) (entries D inserted))).
    cbn [doc_remove]. f_equal. rewrite filter_flat_map, flat_map_iterate. unfold iterate.
    fold (group (entries D inserted) None). rewrite group_entries, Hg. f_equal.
    apply flat_map_ext_in. intros c2 Hc2. fold (group (entries D inserted) (Some (i_name c2))). rewrite group_entries, Hg. f_equal.
    unfold mem. rewrite existsb_app. cbn [existsb]. fold (mem (i_name c2) deleted). rewrite orb_false_r.
    destruct (mem (i_name c2) deleted); cbn [orb]; [reflexivity|]. cbn [fst].
    rewrite (str_eqb_sym name). destruct (str_eqb (i_name c2) name) eqn:E; cbn [negb]; [reflexivity|].
    rewrite !assoc_map, assoc_del_other by (apply str_eqb_neq; assumption). reflexivity.
Qed.

(** ** Assigning *)
Lemma assign_ok q c v m m' :
  (forall f, m = EField f -> fits' (ef_kind f) (ef_size f) v) ->
  matches c m -> good q m -> assign v m = Ok m' ->
  good q m' /\ matches c m' /\
  exists n k a s, c = ILeaf n k a s /\ edoc q m' = Leaf (enc (i_endian q) k s v).
Proof.
  intros Hv M G H. destruct m as [f|]; [|discriminate]. cbn [assign] in H. specialize (Hv f eq_refl). unfold set_value in H.
  destruct (check_value _ _ _); cbn [bind] in H; [|discriminate]. injection H as <-.
  assert (Ge : good_endian (i_endian q)) by (inversion G; subst; assumption).
  split; [|split].
  - apply good_val; [assumption|]. split; [reflexivity|]. exists v. split; [reflexivity|assumption].
  - cbn [matches ef_name ef_kind ef_size] in *. assumption.
  - destruct M as (a0 & ->). do 4 eexists. split; [reflexivity|]. reflexivity.
Qed.

(** ** Inserting *)
(** The result of a successful and expected insertion, as a change of the inserted
    fields. *)
Definition place_entry {X} (nm : X -> str) (key : str) (next : bool) (new : list X) (x : X) : list X :=
  if str_eqb (nm x) key then (if next then x :: new else new ++ [x]) else [x].
Lemma group_change {X} l1 (key : option str) (w w' : list X) l2 k2 : NoDup (keys_of (l1 ++ (key, w) :: l2)) ->
  group (l1 ++ (key, w') :: l2) k2 = if key_eqb key k2 then w' else group (l1 ++ (key, w) :: l2) k2.
Proof.
  intros ND. unfold group. induction l1 as [|[k x] l1 IH]; cbn [app inserted_at].
  - destruct (key_eqb key k2); reflexivity.
  - cbn [app keys_of map fst] in ND. inversion ND as [|y z Hk ND']; subst. destruct (key_eqb k k2) eqn:E.
    + destruct (key_eqb key k2) eqn:E2; [|reflexivity]. exfalso. apply key_eqb_eq in E, E2. subst. apply Hk.
      rewrite map_app. apply in_or_app. right. left. reflexivity.
    + apply IH; assumption.
Qed.

Lemma insert_ok q c key next new m m' :
  (forall i fields deleted inserted, m = ESet i fields deleted inserted ->
     Forall (new_ok fits') new /\
     match key with
     | None => next = true /\ (inserted_at None inserted = None \/ zlen new <= 1)
     | Some k => k <> [] /\ inserted_at (Some k) inserted = None /\
         (In k (inserted_names inserted) \/
          has_child i k = true /\ mem k deleted = false /\
          (next = true -> forall k', after_name (i_children i) k = Ok k' -> inserted_at (Some k') inserted = None))
     end) ->
  matches c m -> good q m -> insert key next (map EField new) m = Ok m' ->
  good q m' /\ matches c m' /\
  edoc q m' = doc_place key next (map (new_entry enc (i_endian c)) new) (edoc q m).
Proof.
  intros Hx M G H. destruct m as [f|i fields deleted inserted]; [discriminate|]. cbn [insert] in H.
  destruct (Hx _ _ _ _ eq_refl) as (Hnew & Hkey). clear Hx. cbn [matches] in M. subst c.
  inversion G as [| |p' i' fields' deleted' inserted' P IS Ff Fi NK HK ND HD NI HI]; subst p' i' fields' deleted' inserted'.
  destruct (parsed_set_inv _ _ i P IS) as (Ra & Ge & NDc & NE & T & Fc).
  set (names := map e_name (map EField new)) in *.
  destruct (distinct names) eqn:Edist; cbn [negb] in H; [|discriminate]. apply distinct_NoDup in Edist.
  destruct (existsb (fun x => has_child i x && negb (mem x deleted)) names) eqn:Ein; [discriminate|].
  destruct (existsb (fun kv => existsb (fun m => mem (e_name m) names) (snd kv)) inserted) eqn:Eins; [discriminate|].
  assert (Hdel : forall x, In x names -> has_child i x = true -> In x deleted).
  { intros x Hn Hc. destruct (mem x deleted) eqn:E; [apply mem_in; assumption|]. exfalso.
    assert (existsb (fun x => has_child i x && negb (mem x deleted)) names = true); [|congruence].
    apply existsb_exists. exists x. rewrite Hc, E. auto. }
  assert (Hins : forall x, In x names -> ~ In x (inserted_names inserted)).
  { intros x Hn Hc. unfold inserted_names in Hc. apply in_flat_map in Hc as (kv & Hkv & Hc). apply in_map_iff in Hc as (y & <- & Hy).
    assert (existsb (fun kv => existsb (fun m => mem (e_name m) names) (snd kv)) inserted = true); [|congruence].
    apply existsb_exists. exists kv. split; [assumption|]. apply existsb_exists. exists y. split; [assumption|]. apply mem_in; assumption. }
  set (D := fun x => (e_name x, edoc i x)).
  set (ed := fun c => (i_name c, match assoc (i_name c) (map (fun kv => (fst kv, edoc i (snd kv))) fields) with Some d => d | None => idoc orig c end)).
  assert (Hdoc : forall ins, edoc q (ESet i fields deleted ins) = Node (iterate i deleted ed (entries D ins))) by reflexivity.
  assert (Hnewd : map (new_entry enc (i_endian i)) new = map D (map EField new)).
  { rewrite map_map. apply map_ext_in. intros f Hf. unfold new_entry, D. cbn [e_name edoc].
    rewrite Forall_forall in Hnew. destruct (Hnew _ Hf) as (_ & v & V & _). rewrite V. reflexivity. }
  rewrite Hnewd. clear Hnewd. set (newd := map D (map EField new)).
  (* what is needed of the new inserted fields *)
  assert (Hok : forall ins', Permutation (flat_map snd ins') (map EField new ++ flat_map snd inserted) -> NoDup (keys_of ins') ->
            (forall k, In (Some k) (keys_of ins') -> has_child i k = true) ->
            iterate i deleted ed (entries D ins') = match doc_place key next newd (edoc q (ESet i fields deleted inserted)) with Node l => l | Leaf _ => [] end ->
            m' = ESet i fields deleted ins' ->
            good q m' /\ i = i /\ edoc q m' = doc_place key next newd (edoc q (ESet i fields deleted inserted))).
  { intros ins' Pm NK' HK' Hit ->.
    assert (Pn : Permutation (inserted_names ins') (names ++ inserted_names inserted)).
    { unfold names. assert (E : forall l, inserted_names l = map e_name (flat_map snd l)).
      { intros l. unfold inserted_names. rewrite map_flat_map. reflexivity. }
      rewrite !E, <- map_app. apply Permutation_map. assumption. }
    split; [|split; [reflexivity|rewrite Hdoc, Hit, (Hdoc inserted); reflexivity]].
    apply good_set; auto.
    - apply Forall_forall. intros kv Hkv. apply Forall_forall. intros y Hy.
      assert (Hy2 : In y (flat_map snd ins')) by (apply in_flat_map; exists kv; auto).
      apply (Permutation_in _ Pm) in Hy2. apply in_app_or in Hy2 as [Hy2|Hy2].
      + apply in_map_iff in Hy2 as (f & <- & Hf). exists f. split; [reflexivity|]. rewrite Forall_forall in Hnew. auto.
      + apply in_flat_map in Hy2 as (kv2 & H1 & H2). rewrite Forall_forall in Fi. pose proof (Fi _ H1) as F2. rewrite Forall_forall in F2. auto.
    - apply (Permutation_NoDup (l := names ++ inserted_names inserted)); [symmetry; assumption|].
      apply NoDup_app_disjoint; auto.
    - intros x Hx Hc. apply (Permutation_in _ Pn) in Hx. apply in_app_or in Hx as [Hx|Hx]; auto. }
  cbn [matches].
  destruct key as [k|].
  - destruct Hkey as (Hk0 & Hk1 & Hk2). rewrite Hk1 in H. rename k into k0. destruct k0 as [|ch k] eqn:Ek0; [congruence|]. rewrite <- Ek0 in *. clear Ek0 ch k.
    assert (Hplace : forall ins', (forall key2, map D (group ins' key2) = flat_map (place_entry fst k0 next newd) (map D (group inserted key2))) ->
              (forall c, In c (i_children i) -> mem (i_name c) deleted = false -> i_name c <> k0) ->
              iterate i deleted ed (entries D ins') = match doc_place (Some k0) next newd (edoc q (ESet i fields deleted inserted)) with Node l => l | Leaf _ => [] end).
    { intros ins' Hg Hc. rewrite Hdoc. cbn [doc_place]. rewrite flat_map_iterate. unfold iterate.
      fold (group (entries D ins') None). rewrite !group_entries, Hg. f_equal. apply flat_map_ext_in. intros c Hcc.
      fold (group (entries D ins') (Some (i_name c))). rewrite !group_entries, Hg. f_equal.
      destruct (mem (i_name c) deleted) eqn:Em; [reflexivity|]. unfold ed. cbn [fst].
      replace (str_eqb (i_name c) k0) with false by (symmetry; apply str_eqb_neq; apply Hc; assumption). reflexivity. }
    pose proof (insert_inside_spec k0 (map EField new) next inserted) as Hs.
    destruct (insert_inside k0 (map EField new) next inserted) as [ins'|].
    + injection H as <-. destruct Hs as (l1 & key & a & x & b & l2 & E1 & E2 & E3).
      apply (Hok ins'); [| | | |reflexivity].
      * rewrite E1, E3, !flat_map_app. cbn [flat_map snd]. destruct next; [|apply perm_mid].
        replace (a ++ x :: map EField new ++ b) with ((a ++ [x]) ++ map EField new ++ b) by (rewrite <- app_assoc; reflexivity).
        replace (a ++ x :: b) with ((a ++ [x]) ++ b) by (rewrite <- app_assoc; reflexivity). apply perm_mid.
      * rewrite E3, keys_of_app. rewrite E1, keys_of_app in NK. exact NK.
      * rewrite E3, keys_of_app. rewrite E1, keys_of_app in HK. exact HK.
      * apply Hplace.
        -- assert (Hone : forall l, ~ In k0 (map e_name l) -> flat_map (place_entry fst k0 next newd) (map D l) = map D l).
           { intros l Hl. apply flat_map_single. intros y Hy. apply in_map_iff in Hy as (z & <- & Hz). unfold place_entry, D. cbn [fst].
             replace (str_eqb (e_name z) k0) with false; [reflexivity|]. symmetry. apply str_eqb_neq. intros E. apply Hl.
             rewrite <- E. apply in_map; assumption. }
           assert (NI2 := NI). rewrite E1, inserted_names_app in NI2. unfold inserted_names in NI2. cbn [flat_map snd] in NI2.
           rewrite map_app in NI2. cbn [map] in NI2. rewrite E2 in NI2.
           apply NoDup_app_inv in NI2 as (N1 & N2 & D1). rewrite <- app_assoc in N2, D1. apply NoDup_app_inv in N2 as (Na & N2 & D2).
           cbn [app] in N2, D1, D2. inversion N2 as [|y z Nk N2' Ey]; subst y z.
           intros key2. rewrite E3. rewrite (group_change l1 key (a ++ x :: b)) by (rewrite <- E1; assumption).
           rewrite <- E1. destruct (key_eqb key key2) eqn:Ekey.
           ++ apply key_eqb_eq in Ekey. subst key2.
              assert (Eg : group inserted key = a ++ x :: b).
              { rewrite E1. rewrite (group_change l1 key (a ++ x :: b) (a ++ x :: b)) by (rewrite <- E1; assumption). rewrite key_eqb_refl. reflexivity. }
              rewrite Eg, map_app, flat_map_app. cbn [map flat_map].
              rewrite (Hone a) by (intros Ha; apply (D2 k0 Ha); left; reflexivity).
              rewrite (Hone b) by (intros Hb; apply Nk; apply in_or_app; left; assumption).
              unfold place_entry. cbn [fst D]. rewrite E2, str_eqb_refl. unfold newd.
              destruct next; cbn [app]; rewrite ?map_app; cbn [map app]; rewrite ?map_app; cbn [map]; rewrite <- ?app_assoc; reflexivity.
           ++ symmetry. apply Hone. intros Hg. apply in_map_iff in Hg as (z & Ez & Hz).
              unfold group in Hz. destruct (inserted_at key2 inserted) as [l3|] eqn:E4; [|contradiction]. apply inserted_at_in in E4. cbn [opt_list] in Hz.
              assert (E5 : (key, a ++ x :: b) = (key2, l3)).
              { apply (NoDup_flat_map_unique (fun kv : option str * list enode => map e_name (snd kv)) inserted _ _ k0 NI).
                - rewrite E1. apply in_or_app. right. left. reflexivity.
                - assumption.
                - cbn [snd]. rewrite map_app. apply in_or_app. right. left. assumption.
                - cbn [snd]. rewrite <- Ez. apply in_map; assumption. }
              injection E5 as -> _. rewrite key_eqb_refl in Ekey. discriminate.
        -- intros c Hc Hm En. apply mem_not_in in Hm. apply Hm. rewrite En. apply HI; [|apply has_child_in; rewrite <- En; apply in_map; assumption].
           rewrite E1, inserted_names_app. apply in_or_app. right. unfold inserted_names. cbn [flat_map snd]. apply in_or_app. left.
           rewrite map_app. apply in_or_app. right. left. exact E2.
    + (* a field of the parsed file *)
      destruct Hk2 as [Hk2|(Hc & Hm & Hk2)]; [contradiction|].
      assert (Hnot : forall key2 y, In y (group inserted key2) -> e_name y <> k0) by (apply (group_names_not e_name inserted k0 i deleted HI Hc Hm)).
      assert (Hkeep : forall key2, flat_map (place_entry fst k0 next newd) (map D (group inserted key2)) = map D (group inserted key2)).
      { intros key2. apply flat_map_single. intros x Hx. apply in_map_iff in Hx as (y & <- & Hy). unfold place_entry, D. cbn [fst].
        pose proof (Hnot _ _ Hy) as N. apply str_eqb_neq in N. rewrite N. reflexivity. }
      destruct next.
      * destruct (after_name (i_children i) k0) as [k'|] eqn:Ea; cbn [bind] in H; [|discriminate].
        specialize (Hk2 eq_refl k' eq_refl). destruct (has_child i k') eqn:Hc'; [|discriminate]. injection H as <-.
        apply (Hok (set_inserted (Some k') (map EField new) inserted)); [| | | |reflexivity]; rewrite ?(set_inserted_new _ _ _ Hk2).
        -- rewrite flat_map_app. cbn [flat_map snd]. rewrite app_nil_r. apply Permutation_app_comm.
        -- rewrite keys_of_app. apply NoDup_app_disjoint; auto; [repeat constructor; intros []|]. intros x Hx [<-|[]].
           apply inserted_at_none in Hk2. contradiction.
        -- rewrite keys_of_app. intros k1 Hin. apply in_app_or in Hin as [Hin|[E|[]]]; [auto|]. injection E as <-. assumption.
        -- rewrite Hdoc. cbn [doc_place].
           change (fun kv : str * doc A => if str_eqb (fst kv) k0 then kv :: newd else [kv]) with (place_entry (@fst str (doc A)) k0 true newd).
           rewrite flat_map_iterate. unfold iterate.
           change (opt_list (inserted_at None ?l)) with (group l None).
           rewrite group_entries. rewrite group_entries, Hkeep.
           assert (Hg : forall k1, group (inserted ++ [(Some k', map EField new)]) k1 = if key_eqb (Some k') k1 then map EField new else group inserted k1).
           { intros k1. unfold group. rewrite <- (set_inserted_new _ _ _ Hk2), inserted_at_set. destruct (key_eqb (Some k') k1); reflexivity. }
           rewrite Hg. cbn [key_eqb]. f_equal.
           transitivity (flat_map (fun c => (if str_eqb k' (i_name c) then newd else map D (group inserted (Some (i_name c)))) ++ (if mem (i_name c) deleted then [] else [ed c])) (i_children i)).
           { apply flat_map_ext_in. intros c _. f_equal. change (opt_list (inserted_at (Some (i_name c)) ?l)) with (group l (Some (i_name c))).
             rewrite group_entries, Hg. cbn [key_eqb]. destruct (str_eqb k' (i_name c)); reflexivity. }
           rewrite (after_flat (fun n => map D (group inserted (Some n))) (fun c => if mem (i_name c) deleted then [] else [ed c]) newd _ k0 k' NDc Ea)
             by (unfold group; rewrite Hk2; reflexivity).
           apply flat_map_ext_in. intros c _. rewrite group_entries, Hkeep. f_equal.
           unfold place_entry, ed. cbn [fst]. destruct (str_eqb (i_name c) k0) eqn:Ec.
           ++ apply str_eqb_eq in Ec. rewrite Ec, Hm. reflexivity.
           ++ rewrite app_nil_r. reflexivity.
      * cbn [bind] in H. rewrite Hc in H. injection H as <-.
        apply (Hok (set_inserted (Some k0) (map EField new) inserted)); [| | | |reflexivity]; rewrite ?(set_inserted_new _ _ _ Hk1).
        -- rewrite flat_map_app. cbn [flat_map snd]. rewrite app_nil_r. apply Permutation_app_comm.
        -- rewrite keys_of_app. apply NoDup_app_disjoint; auto; [repeat constructor; intros []|]. intros x Hx [<-|[]].
           apply inserted_at_none in Hk1. contradiction.
        -- rewrite keys_of_app. intros k1 Hin. apply in_app_or in Hin as [Hin|[E|[]]]; [auto|]. injection E as <-. assumption.
        -- rewrite Hdoc. cbn [doc_place].
           change (fun kv : str * doc A => if str_eqb (fst kv) k0 then newd ++ [kv] else [kv]) with (place_entry (@fst str (doc A)) k0 false newd).
           rewrite flat_map_iterate. unfold iterate.
           change (opt_list (inserted_at None ?l)) with (group l None).
           rewrite group_entries. rewrite group_entries, Hkeep.
           assert (Hg : forall k1, group (inserted ++ [(Some k0, map EField new)]) k1 = if key_eqb (Some k0) k1 then map EField new else group inserted k1).
           { intros k1. unfold group. rewrite <- (set_inserted_new _ _ _ Hk1), inserted_at_set. destruct (key_eqb (Some k0) k1); reflexivity. }
           rewrite Hg. cbn [key_eqb]. f_equal.
           apply flat_map_ext_in. intros c _. change (opt_list (inserted_at (Some (i_name c)) ?l)) with (group l (Some (i_name c))).
           rewrite group_entries, Hg. rewrite group_entries, Hkeep. cbn [key_eqb].
           unfold place_entry, ed. cbn [fst]. rewrite (str_eqb_sym k0). destruct (str_eqb (i_name c) k0) eqn:Ec; [|reflexivity].
           apply str_eqb_eq in Ec. rewrite Ec, Hm.
           match goal with |- _ = map D ?g ++ _ => assert (Eg : g = []) by exact (f_equal opt_list Hk1); rewrite Eg end. reflexivity.
  - destruct Hkey as (-> & Hkey).
    assert (Hend : forall ins' l, (forall k, inserted_at (Some k) ins' = inserted_at (Some k) inserted) -> inserted_at None ins' = Some l ->
              map D l = map D (group inserted None) ++ newd ->
              iterate i deleted ed (entries D ins') = match doc_place None true newd (edoc q (ESet i fields deleted inserted)) with Node l => l | Leaf _ => [] end).
    { intros ins' l H1 H2 H3. rewrite Hdoc. cbn [doc_place]. unfold iterate.
      fold (group (entries D ins') None). fold (group (entries D inserted) None). rewrite !group_entries.
      assert (E : group ins' None = l) by (unfold group; rewrite H2; reflexivity). rewrite E, H3, app_assoc.
      apply (f_equal (fun z => (z ++ map D (group inserted None)) ++ newd)).
      apply flat_map_ext_in. intros c _. apply (f_equal (fun z => z ++ _)). fold (group (entries D ins') (Some (i_name c))). fold (group (entries D inserted) (Some (i_name c))).
      rewrite !group_entries. unfold group. rewrite H1. reflexivity. }
    assert (Hs : forall v k, inserted_at (Some k) (set_inserted None v inserted) = inserted_at (Some k) inserted).
    { intros v k. rewrite inserted_at_set. reflexivity. }
    assert (Hn : forall v, inserted_at None (set_inserted None v inserted) = Some v).
    { intros v. rewrite inserted_at_set. reflexivity. }
    destruct (inserted_at None inserted) as [w|] eqn:Ew.
    + destruct Hkey as [Hkey|Hkey]; [discriminate|].
      match type of H with (match ?x with _ => _ end) = _ => replace x with (Some w) in H by (symmetry; exact Ew) end.
      assert (Erev : rev (map EField new) = map EField new).
      { destruct new as [|f [|g new]]; [reflexivity|reflexivity|]. exfalso. rewrite !zlen_cons in Hkey. pose proof (zlen_nonneg new). lia. }
      rewrite Erev in H. injection H as <-.
      apply (Hok (set_inserted None (w ++ map EField new) inserted)); [| | | |reflexivity].
      * destruct (set_inserted_old None (w ++ map EField new) w inserted Ew) as (l1 & l2 & -> & ->).
        rewrite !flat_map_app. cbn [flat_map snd].
        pose proof (perm_mid (flat_map snd l1) w (map EField new) [] (flat_map snd l2)) as Pm. rewrite !app_nil_r in Pm. exact Pm.
      * destruct (set_inserted_old None (w ++ map EField new) w inserted Ew) as (l1 & l2 & E1 & ->).
        rewrite E1, keys_of_app in NK. rewrite keys_of_app. exact NK.
      * destruct (set_inserted_old None (w ++ map EField new) w inserted Ew) as (l1 & l2 & E1 & ->).
        rewrite E1, keys_of_app in HK. rewrite keys_of_app. exact HK.
      * apply (Hend _ (w ++ map EField new)); [apply Hs|apply Hn|]. rewrite map_app. unfold group. rewrite Ew. reflexivity.
    + match type of H with (match ?x with _ => _ end) = _ => replace x with (@None (list enode)) in H by (symmetry; exact Ew) end. injection H as <-.
      apply (Hok (set_inserted None (map EField new) inserted)); [| | | |reflexivity].
      * rewrite (set_inserted_new _ _ _ Ew). rewrite flat_map_app. cbn [flat_map snd]. rewrite app_nil_r. apply Permutation_app_comm.
      * rewrite (set_inserted_new _ _ _ Ew). rewrite keys_of_app. apply NoDup_app_disjoint; auto; [repeat constructor; intros []|].
        intros x Hx [<-|[]]. apply inserted_at_none in Ew. contradiction.
      * rewrite (set_inserted_new _ _ _ Ew). rewrite keys_of_app. intros k1 Hin. apply in_app_or in Hin as [Hin|[E|[]]]; [auto|discriminate].
      * apply (Hend _ (map EField new)); [apply Hs|apply Hn|]. unfold group. rewrite Ew. reflexivity.
Qed.

End Edit.

From Coq Require Import Permutation.
From Verif Require Import Base BaseProofs BitsModel BitsSpec StreamModel StreamSpec DictModel DictProofs OutputModel EditModel EditSpec EditProofs EditProofs2 EditProofs3.
Ltac Zify.zify_post_hook ::= Z.div_mod_to_equations.

(** ** Counting fields *)
Lemma Forall2_zlen {X Y} (P : X -> Y -> Prop) l m : Forall2 P l m -> zlen l = zlen m.
Proof. induction 1 as [|x y l m H F IH]; [reflexivity|]. rewrite !zlen_cons, IH. reflexivity. Qed.
Definition zsum (l : list Z) : Z := fold_right Z.add 0 l.
Lemma zlen_flat_map {X Y} (f : X -> list Y) l : zlen (flat_map f l) = zsum (map (fun x => zlen (f x)) l).
Proof. induction l as [|x l IH]; cbn [flat_map map zsum fold_right]; [reflexivity|]. rewrite zlen_app, IH. reflexivity. Qed.
Lemma zsum_add {X} (f g : X -> Z) l : zsum (map (fun x => f x + g x) l) = zsum (map f l) + zsum (map g l).
Proof. induction l as [|x l IH]; cbn [map zsum fold_right]; [reflexivity|]. unfold zsum in IH. rewrite IH. lia. Qed.
Lemma zsum_one {X} (nm : X -> str) (G : X -> Z) n w l : NoDup (map nm l) -> In n (map nm l) -> (forall x, In x l -> nm x = n -> G x = 0) ->
  zsum (map (fun x => if str_eqb n (nm x) then w else G x) l) = zsum (map G l) + w.
Proof.
  induction l as [|x l IH]; cbn [map zsum fold_right]; intros ND Hin HG; [contradiction|].
  inversion ND as [|y z Hx ND']; subst. destruct (str_eqb n (nm x)) eqn:E.
  - apply str_eqb_eq in E. rewrite (HG x (or_introl eq_refl) (eq_sym E)).
    replace (map (fun x0 => if str_eqb n (nm x0) then w else G x0) l) with (map G l); [unfold zsum; lia|].
    apply map_ext_in. intros y Hy. replace (str_eqb n (nm y)) with false; [reflexivity|]. symmetry. apply str_eqb_neq.
    intros E2. apply Hx. rewrite <- E, E2. apply in_map; assumption.
  - apply str_eqb_neq in E. destruct Hin as [Hin|Hin]; [congruence|]. unfold zsum in IH. rewrite IH; [lia|assumption|assumption|]. intros y Hy. apply HG. right; assumption.
Qed.
Lemma iterate_len {X} i deleted (e : inode -> X) inserted :
  NoDup (map i_name (i_children i)) -> NoDup (keys_of inserted) ->
  (forall k, In (Some k) (keys_of inserted) -> has_child i k = true) ->
  NoDup deleted -> (forall x, In x deleted -> has_child i x = true) ->
  zlen (iterate i deleted e inserted) =
  zlen (i_children i) - zlen deleted + fold_right (fun kv acc => zlen (snd kv) + acc) 0 inserted.
Proof.
  intros NDc NK HK ND HD. unfold iterate. rewrite zlen_app, zlen_flat_map.
  rewrite (map_ext _ (fun c => zlen (group inserted (Some (i_name c))) + (if mem (i_name c) deleted then 0 else 1))).
  2: { intros c. rewrite zlen_app. fold (group inserted (Some (i_name c))). f_equal. destruct (mem _ _); reflexivity. }
  rewrite zsum_add. fold (group inserted None).
  assert (E1 : zsum (map (fun c => if mem (i_name c) deleted then 0 else 1) (i_children i)) = zlen (i_children i) - zlen deleted).
  { assert (Pm : Permutation deleted (filter (fun x => mem x deleted) (map i_name (i_children i)))).
    { apply NoDup_Permutation; [assumption|apply NoDup_filter; assumption|]. intros x. rewrite filter_In, mem_in.
      split; [|tauto]. intros Hx. split; [|assumption]. apply has_child_in. auto. }
    assert (E : zlen deleted = zlen (filter (fun x => mem x deleted) (map i_name (i_children i)))).
    { unfold zlen. f_equal. apply Permutation_length. assumption. }
    rewrite E. clear. induction (i_children i) as [|c l IH]; cbn [map filter zsum fold_right]; [reflexivity|].
    unfold zsum in IH. rewrite IH, zlen_cons. destruct (mem (i_name c) deleted); rewrite ?zlen_cons; lia. }
  rewrite E1. clear E1 ND HD.
  assert (E2 : zsum (map (fun c => zlen (group inserted (Some (i_name c)))) (i_children i)) + zlen (group inserted None) =
               fold_right (fun kv acc => zlen (snd kv) + acc) 0 inserted).
  { induction inserted as [|[k w] ins IH].
    - unfold group. cbn [inserted_at opt_list fold_right]. clear. induction (i_children i) as [|c l IHl]; [reflexivity|].
      cbn [map zsum fold_right]. exact IHl.
    - cbn [keys_of map fst] in NK. inversion NK as [|y z Hk NK']; subst.
      assert (IH' := IH NK' ltac:(intros k' Hk'; apply HK; right; assumption)). clear IH.
      cbn [fold_right snd]. rewrite <- IH'.
      assert (G : forall k2, group ((k, w) :: ins) k2 = if key_eqb k k2 then w else group ins k2).
      { intros k2. unfold group. cbn [inserted_at]. destruct (key_eqb k k2); reflexivity. }
      rewrite G. rewrite (map_ext _ (fun c => if key_eqb k (Some (i_name c)) then zlen w else zlen (group ins (Some (i_name c))))).
      2: { intros c. rewrite G. destruct (key_eqb _ _); reflexivity. }
      assert (Gk : group ins k = []). { unfold group. apply inserted_at_none in Hk. rewrite Hk. reflexivity. }
      destruct k as [n|]; cbn [key_eqb].
      + rewrite (zsum_one i_name (fun c => zlen (group ins (Some (i_name c)))) n (zlen w)); auto.
        * lia.
        * apply has_child_in. apply HK. left. reflexivity.
        * intros c _ E. rewrite E, Gk. reflexivity.
      + rewrite Gk, zlen_nil. lia. }
  lia.
Qed.

Section Edit.
Context {A : Type} (u : Z) (input : read_fun).
Context (R : ostream -> ostream -> list A -> Prop).
Context (range : Z -> Z -> Prop) (good_endian : endian -> Prop) (fits' : kind -> Z -> fvalue -> Prop).
Context (orig : Z -> Z -> list A) (enc : endian -> kind -> Z -> fvalue -> list A).
Notation edoc := (edoc orig enc).
Notation good := (good range good_endian fits').
Notation parsed := (parsed range good_endian).

Lemma get_path_good path : forall p c n m, matches c n -> good p n -> get_path n path = Ok m ->
  exists c', field_at c path = Some c' /\ matches c' m /\ good (parent_at p c path) m.
Proof using.
  clear. induction path as [|k path IH]; intros p c n m M G H.
  - cbn [get_path] in H. injection H as <-. exists c. auto.
  - cbn [get_path] in H. destruct (get_item n k) as [x|] eqn:Ex; cbn [bind] in H; [|discriminate].
    destruct (get_item_good _ _ _ p n k x G Ex) as (i & fields & deleted & inserted & d & -> & Em & C & Md & Gx & Hx).
    cbn [matches] in M. subst c. cbn [field_at parent_at]. rewrite C. apply (IH i d x m); assumption.
Qed.
Lemma edit_at_path f path : forall n n', edit_at path f n = Ok n' -> exists m m', get_path n path = Ok m /\ f m = Ok m'.
Proof using.
  clear. induction path as [|k path IH]; intros n n' H; cbn [edit_at get_path] in *; [eauto|].
  destruct (get_item n k) as [x|]; cbn [bind] in *; [|discriminate].
  destruct (edit_at path f x) as [x'|] eqn:E; cbn [bind] in H; [|discriminate]. apply (IH x x'). assumption.
Qed.

Lemma apply_edit_ok p c n n' x : matches c n -> good p n -> expected fits' n x -> apply_edit n x = Ok n' ->
  good p n' /\ matches c n' /\ edoc p n' = doc_edit enc p c x (edoc p n).
Proof using.
  clear. intros M G E H. destruct x as [path name|path v|path key next new]; cbn [apply_edit] in H; cbn [expected doc_edit] in *.
  - apply (edit_at_ok range good_endian fits' orig enc (del_item name) (doc_remove name) path p c n n' M G H).
    intros c' m m' Hg Hf Mm Gm Hm. rewrite Hg in E. apply del_item_ok; auto. intros i fields deleted inserted ->. exact E.
  - destruct (edit_at_path _ _ _ _ H) as (m & m' & Hg & Hm).
    destruct (get_path_good path p c n m M G Hg) as (c' & Hf & Mm & Gm). rewrite Hg in E.
    assert (Hfit : forall f, m = EField f -> fits' (ef_kind f) (ef_size f) v) by (intros f ->; exact E).
    destruct (assign_ok range good_endian fits' orig enc _ _ v m m' Hfit Mm Gm Hm) as (_ & _ & nm & k & a & s & -> & _).
    rewrite Hf.
    apply (edit_at_ok range good_endian fits' orig enc (assign v) (fun _ => Leaf (enc (i_endian (parent_at p c path)) k s v)) path p c n n' M G H).
    intros c2 m2 m2' Hg2 Hf2 Mm2 Gm2 Hm2. rewrite Hg in Hg2. injection Hg2 as <-. rewrite Hf in Hf2. injection Hf2 as <-.
    destruct (assign_ok range good_endian fits' orig enc _ _ v m m2' Hfit Mm2 Gm2 Hm2) as (G2 & M2 & nm' & k' & a' & s' & E2 & D2).
    injection E2 as <- <- <- <-. auto.
  - destruct (edit_at_path _ _ _ _ H) as (m & m' & Hg & Hm).
    destruct (get_path_good path p c n m M G Hg) as (c' & Hf & Mm & Gm). rewrite Hg in E. rewrite Hf.
    apply (edit_at_ok range good_endian fits' orig enc (insert key next (map EField new)) (doc_place key next (map (new_entry enc (i_endian c')) new)) path p c n n' M G H).
    intros c2 m2 m2' Hg2 Hf2 Mm2 Gm2 Hm2. rewrite Hg in Hg2. injection Hg2 as <-. rewrite Hf in Hf2. injection Hf2 as <-.
    apply (insert_ok range good_endian fits' orig enc (parent_at p c path) c' key next new m m2'); auto.
    intros i fields deleted inserted ->. exact E.
Qed.
Lemma edited_ok p c n l n' : edited fits' n l n' -> matches c n -> good p n ->
  good p n' /\ matches c n' /\ edoc p n' = fold_left (fun d x => doc_edit enc p c x d) l (edoc p n).
Proof using.
  clear. induction 1 as [n|n x n1 l n2 E H Hl IH]; intros M G; [auto|]. cbn [fold_left].
  destruct (apply_edit_ok p c n n1 x M G E H) as (G1 & M1 & D1). destruct (IH M1 G1) as (G2 & M2 & D2).
  rewrite D1 in D2. auto.
Qed.

Lemma address_shows vs ds name : Forall2 (shows u R) vs ds -> forall a0 a,
  address_loop vs name a0 = Ok a <->
  exists l1 d l2, ds = l1 ++ (name, d) :: l2 /\ ~ In name (map fst l1) /\ a = a0 + u * zlen (flatten (Node l1)).
Proof using All.
  induction 1 as [|v kd vs ds (N & Sz & _) F IH]; intros a0 a; cbn [address_loop].
  - split; [discriminate|]. intros ([|? ?] & d & l2 & E & _); discriminate.
  - destruct (str_eqb (v_name v) name) eqn:En.
    + apply str_eqb_eq in En. split.
      * intros H. injection H as <-. exists [], (snd kd), ds. cbn [app map flatten flat_map]. rewrite zlen_nil.
        split; [|split; [intros []|lia]]. rewrite <- En, N. destruct kd; reflexivity.
      * intros ([|x l1] & d & l2 & E & Hn & Ha).
        { cbn [app flatten flat_map] in *. rewrite zlen_nil in Ha. f_equal. lia. }
        exfalso. cbn [app] in E. injection E as E1 E2. apply Hn. left. rewrite <- E1, <- N. assumption.
    + rewrite IH. split.
      * intros (l1 & d & l2 & -> & Hn & ->). exists (kd :: l1), d, l2. cbn [app map flatten flat_map]. rewrite zlen_app.
        split; [reflexivity|]. split; [|cbn [flatten] in *; lia]. intros [E|E]; [|contradiction]. apply str_eqb_neq in En. congruence.
      * intros ([|x l1] & d & l2 & E & Hn & Ha); cbn [app] in E; injection E as E1 E2.
        { apply str_eqb_neq in En. rewrite E1 in N. cbn in N. contradiction. }
        subst x. exists l1, d, l2. split; [assumption|]. cbn [map flatten flat_map] in *. rewrite zlen_app in Ha.
        split; [|lia]. intros Hin. apply Hn. right. assumption.
Qed.

Context (R_refl : forall st, R st st []).
Context (R_trans : forall st1 st2 st3 a b, R st1 st2 a -> R st2 st3 b -> R st1 st3 (a ++ b)).
Context (range_size : forall a n, range a n -> 0 <= n).
Context (range_tail : forall a n m, range a (n + m) -> range a n -> 0 <= m -> range (a + n) m).
Context (orig_zero : forall a, orig a 0 = []).
Context (orig_split : forall a n m, range a n -> range (a + n) m -> orig a n ++ orig (a + n) m = orig a (n + m)).
Context (orig_len : forall a n, range a n -> u * zlen (orig a n) = n).
Context (copy_bits : forall st st' a n e, good_endian e -> range a n ->
  copyBitsFrom st input a n e = Ok st' -> R st st' (orig a n)).
Context (copy_bytes : forall st st' a n, range a n -> n mod 8 = 0 ->
  copyBytesFrom st input a (n / 8) = Ok st' -> R st st' (orig a n)).
Context (write_value : forall st st' e f v, good_endian e -> ef_value f = Some v -> fits' (ef_kind f) (ef_size f) v ->
  field_write_value e f st = Ok st' -> R st st' (enc e (ef_kind f) (ef_size f) v)).
Context (enc_len : forall e f v, good_endian e -> ef_value f = Some v -> fits' (ef_kind f) (ef_size f) v ->
  field_size f = u * zlen (enc e (ef_kind f) (ef_size f) v)).

Definition root : inode := ISet [] BIG_ENDIAN 0 0 [].
Definition final_doc (i : inode) (l : list edit) : doc A :=
  fold_left (fun d x => doc_edit enc root i x d) l (idoc orig i).

Lemma iter_shows p n : good p n -> forall i fields deleted inserted, n = ESet i fields deleted inserted ->
  exists ds, edoc p n = Node ds /\ Forall2 (shows u R) (iter_views input n) ds.
Proof using All.
  intros G i fields deleted inserted ->. eexists. split; [reflexivity|].
  inversion G as [| |p' i' fields' deleted' inserted' P IS Ff Fi NK HK ND HD NI HI]; subst p' i' fields' deleted' inserted'.
  destruct (parsed_set_inv _ _ i P IS) as (Ra & Ge & NDc & NE & T & Fc).
  assert (Snd : forall q m, good q m -> shows u R (view_of input q m) (e_name m, edoc q m)).
  { intros q m Gm. apply (sound u input R range good_endian fits' orig enc); assumption. }
  cbn [iter_views]. unfold set_iter. apply iterate_Forall2.
  - intros c Hc. unfold child_view. rewrite !assoc_map. destruct (assoc (i_name c) fields) as [x|] eqn:E.
    + apply assoc_in in E. rewrite Forall_forall in Ff. destruct (Ff _ E) as (c' & C & M & Gx). cbn [fst snd] in *.
      rewrite <- (child_matches_name _ _ _ _ C M). apply Snd; assumption.
    + apply (plain_sound u input R range good_endian fits' orig enc); assumption.
  - apply Forall2_map_both. apply Forall_forall. intros [k l] Hkv. cbn [fst snd]. split; [reflexivity|].
    apply Forall2_map_both. apply Forall_forall. intros m Hm. rewrite Forall_forall in Fi. pose proof (Fi _ Hkv) as Fm. cbn [snd] in Fm.
    rewrite Forall_forall in Fm. destruct (Fm _ Hm) as (f & -> & Nf). apply Snd. apply good_val; assumption.
Qed.

Theorem editor_ok i l n : parsed i -> (exists nm e a s ch, i = ISet nm e a s ch) -> edited fits' (createEditor i) l n ->
  (forall st st', writeInto input n st = Ok st' -> R st st' (flatten (final_doc i l))) /\
  editor_size input n = u * zlen (flatten (final_doc i l)) /\
  exists ds, final_doc i l = Node ds /\ map v_name (iter_views input n) = map fst ds /\
    editor_len n = zlen ds /\
    forall name a, editor_address input n name = Ok a <->
      exists l1 d l2, ds = l1 ++ (name, d) :: l2 /\ ~ In name (map fst l1) /\ a = u * zlen (flatten (Node l1)).
Proof using All.
  intros P IS E.
  destruct (edited_ok root i _ l n E eq_refl (set_good range good_endian fits' root i P IS)) as (G & M & D).
  rewrite (root_doc orig enc root i IS) in D. fold (final_doc i l) in D.
  destruct (sound u input R range good_endian fits' orig enc R_refl R_trans range_size range_tail orig_zero orig_split orig_len
              copy_bits copy_bytes write_value enc_len n root G) as (S0 & _).
  destruct S0 as (_ & S1 & S2). cbn [snd] in S1, S2. rewrite D in S1, S2.
  split; [exact S2|]. split; [exact S1|].
  destruct n as [f|i0 fields deleted inserted].
  { cbn [matches] in M. destruct M as (a0 & ->). destruct IS as (? & ? & ? & ? & ? & ?). discriminate. }
  cbn [matches] in M. subst i0.
  destruct (iter_shows root _ G _ _ _ _ eq_refl) as (ds & Ed & F). rewrite D in Ed. exists ds. split; [assumption|].
  split; [|split].
  - clear - F. induction F as [|v kd vs ds (N & _) F IH]; cbn [map]; [reflexivity|]. rewrite N, IH. reflexivity.
  - cbn [editor_len]. inversion G as [| |p' i' fields' deleted' inserted' P' IS' Ff Fi NK HK ND HD NI HI]; subst p' i' fields' deleted' inserted'.
    destruct (parsed_set_inv _ _ i P IS) as (Ra & Ge & NDc & NE & T & Fc).
    rewrite <- (Forall2_zlen _ _ _ F).
    cbn [iter_views]. unfold set_iter. rewrite iterate_len; auto.
    + f_equal. clear. induction inserted as [|[k w] ins IH]; cbn [map fold_right fst snd]; [reflexivity|]. rewrite IH, zlen_map. reflexivity.
    + unfold keys_of. rewrite map_map. exact NK.
    + unfold keys_of. rewrite map_map. exact HK.
  - intros name a. unfold editor_address. rewrite (address_shows _ _ name F). reflexivity.
Qed.
End Edit.

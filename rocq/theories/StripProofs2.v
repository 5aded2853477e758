From Coq Require Import String.
From Verif Require Import Base BaseProofs BitsModel BitsSpec BitsProofs StreamModel StreamSpec StreamProofs DictModel DictProofs Lit OutputModel OutputProofs
  EditModel EditSpec EditProofs EditProofs2 EditProofs3 EditProofs4 EditProofs5 EditProofs6 ValueProofs StripModel StripSpec StripProofs.
Open Scope Z_scope.
Ltac Zify.zify_post_hook ::= Z.div_mod_to_equations.

Lemma tiles_app_le32 v : le_bytes 4 v = le32 v.
Proof.
  cbn [le_bytes]. unfold le32. rewrite !Z.div_div by lia. reflexivity.
Qed.
Lemma contains_junk tag : zlen tag = 4 -> contains (lit "JUNK") tag = str_eqb tag (lit "JUNK").
Proof.
  intros H. destruct tag as [|a [|b [|c [|d [|e tag]]]]]; try (exfalso; cbn in H; rewrite ?zlen_cons in H; pose proof (zlen_nonneg tag); lia); [discriminate..|].
  cbn [contains is_prefix lit]. vm_compute (lit "JUNK"). cbn [contains is_prefix str_eqb]. rewrite !orb_false_r, !andb_false_r, !orb_false_r, andb_true_r.
  reflexivity.
Qed.

Section Sub.
Context (data : list Z) (Hd : is_bytes data) (input : read_fun) (Hs : serves input data).

(** The editable version [n] of [c], a field of [p], holds the bytes [b]. *)
Definition holds (p c : inode) (n : enode) (b : list Z) : Prop :=
  let v := view_of input p n in
  v_size v = 8 * zlen b /\ (v_altered v = false -> b = orig_bytes data (i_addr c) (i_size c)) /\
  forall st, byte_aligned st -> exists st', v_write v st = Ok st' /\ byte_aligned st' /\ out st' = out st ++ b.

Definition set_ok (i : inode) : Prop :=
  (exists n e a s l, i = ISet n e a s l) /\ bytes_range data (i_addr i) (i_size i) /\ NoDup (map i_name (i_children i)) /\
  tiles (i_addr i) (i_size i) (i_children i) /\ Forall (fun c => bytes_range data (i_addr c) (i_size c)) (i_children i).

Lemma fresh_view p c : plain_view input p c = view_of input p (fresh c).
Proof using. destruct c; reflexivity. Qed.
Lemma orig_len a n : bytes_range data a n -> 8 * zlen (orig_bytes data a n) = n.
Proof using. intros (H1 & H2 & H3 & H4 & H5). unfold orig_bytes. rewrite zlen_sub_exact by lia. lia. Qed.
Lemma fresh_holds i c : set_ok i -> In c (i_children i) -> holds i c (fresh c) (orig_bytes data (i_addr c) (i_size c)).
Proof using Hd Hs.
  intros (IS & Ra & ND & T & F) Hc. rewrite Forall_forall in F. pose proof (F c Hc) as Rc. split; [|split].
  - rewrite orig_len by assumption. destruct c as [n [] a s|]; reflexivity.
  - reflexivity.
  - intros st A. destruct c as [n k a s|n e a s l].
    + cbn [fresh view_of field_view v_write ef_altered]. unfold fake_write. cbn [ef_name].
      pose proof (find_child_in _ _ ND Hc) as C. cbn [i_name] in C. unfold child. rewrite C. cbn [i_addr] in *. cbn [i_size] in *.
      replace (field_size _) with s by (unfold field_size; cbn; destruct k; reflexivity).
      replace (s mod 8) with 0 by (symmetry; apply Rc). replace (a mod 8) with 0 by (symmetry; apply Rc). cbn [Z.eqb negb orb].
      apply bytes_copy_total; assumption.
    + cbn [fresh view_of set_view v_write map set_altered existsb]. unfold set_copy. cbn [i_size i_addr] in *.
      replace (s mod 8) with 0 by (symmetry; apply Rc). cbn [Z.eqb negb]. apply bytes_copy_total; assumption.
Qed.
Lemma tiles_bytes l : forall a s, Forall (fun c => bytes_range data (i_addr c) (i_size c)) l -> bytes_range data a s -> tiles a s l ->
  flat_map (fun c => orig_bytes data (i_addr c) (i_size c)) l = orig_bytes data a s.
Proof using.
  clear. induction l as [|c l IH]; intros a s F R T.
  - cbn [tiles] in T. subst s. cbn [flat_map]. unfold orig_bytes. rewrite sub_0. reflexivity.
  - cbn [tiles] in T. destruct T as [E T]. pose proof (Forall_inv F) as Rc. cbn beta in Rc. apply Forall_inv_tail in F. cbn [flat_map].
    assert (0 <= s - i_size c).
    { clear - T F. revert T. generalize (a + i_size c) (s - i_size c). induction l as [|d l IH]; intros x y T; cbn [tiles] in T; [lia|].
      destruct T as [_ T]. pose proof (Forall_inv F) as (? & ? & ?). apply Forall_inv_tail in F. specialize (IH F _ _ T). lia. }
    destruct R as (R1 & R2 & R3 & R4 & R5), Rc as (C1 & C2 & C3 & C4 & C5). rewrite E in *.
    rewrite (IH (a + i_size c) (s - i_size c)); [|assumption| unfold bytes_range; repeat split; lia|assumption].
    unfold orig_bytes. replace ((a + i_size c) / 8) with (a / 8 + i_size c / 8) by lia. replace (s / 8) with (i_size c / 8 + (s - i_size c) / 8) by lia.
    symmetry. apply sub_app_split; lia.
Qed.

Lemma set_holds p i fields deleted (content : inode -> list Z) : set_ok i ->
  (forall c, In c (i_children i) -> mem (i_name c) deleted = false -> holds i c (the_item i fields c) (content c)) ->
  holds p i (ESet i fields deleted []) (flat_map (fun c => if mem (i_name c) deleted then [] else content c) (i_children i)).
Proof using Hd Hs.
  intros SO Hh. destruct SO as (IS & Ra & ND & T & F). unfold holds. cbn [view_of map].
  set (fvs := map (fun kv => (fst kv, view_of input i (snd kv))) fields).
  assert (CV : forall c, child_view input i fvs c = view_of input i (the_item i fields c)).
  { intros c. unfold child_view, fvs, the_item. rewrite assoc_map. destruct (assoc (i_name c) fields); [reflexivity|apply fresh_view]. }
  assert (ST : set_iter input i deleted fvs [] = flat_map (fun c => if mem (i_name c) deleted then [] else [view_of input i (the_item i fields c)]) (i_children i)).
  { unfold set_iter, iterate. cbn [inserted_at opt_list app]. rewrite app_nil_r. apply flat_map_ext_in. intros c _. rewrite CV. reflexivity. }
  assert (SUM : forall l, (forall c, In c l -> In c (i_children i)) ->
     sum_sizes (flat_map (fun c => if mem (i_name c) deleted then [] else [view_of input i (the_item i fields c)]) l) = 8 * zlen (flat_map (fun c => if mem (i_name c) deleted then [] else content c) l)).
  { induction l as [|c l IH]; intros Hl; [reflexivity|]. cbn [flat_map]. rewrite zlen_app.
    specialize (IH (fun x Hx => Hl x (or_intror Hx))). destruct (mem (i_name c) deleted) eqn:E; cbn [app].
    - rewrite IH. change (zlen (@nil Z)) with 0. lia.
    - unfold sum_sizes in *. cbn [fold_right]. rewrite IH. destruct (Hh c (Hl c (or_introl eq_refl)) E) as (S1 & _). cbn zeta in S1. rewrite S1. lia. }
  assert (WR : forall l, (forall c, In c l -> In c (i_children i)) -> forall st, byte_aligned st ->
     exists st', write_all (flat_map (fun c => if mem (i_name c) deleted then [] else [view_of input i (the_item i fields c)]) l) st = Ok st' /\ byte_aligned st' /\
       out st' = out st ++ flat_map (fun c => if mem (i_name c) deleted then [] else content c) l).
  { induction l as [|c l IH]; intros Hl st A; [exists st; cbn [flat_map write_all]; rewrite app_nil_r; auto|]. cbn [flat_map].
    specialize (IH (fun x Hx => Hl x (or_intror Hx))). destruct (mem (i_name c) deleted) eqn:E; cbn [app].
    - apply IH; assumption.
    - cbn [write_all]. destruct (Hh c (Hl c (or_introl eq_refl)) E) as (_ & _ & S3). destruct (S3 st A) as (st1 & W1 & A1 & O1). rewrite W1. cbn [bind].
      destruct (IH st1 A1) as (st2 & W2 & A2 & O2). exists st2. rewrite O2, O1, app_assoc. auto. }
  assert (UN : set_altered deleted fvs [] = false -> deleted = [] /\ flat_map (fun c => if mem (i_name c) deleted then [] else content c) (i_children i) = orig_bytes data (i_addr i) (i_size i)).
  { cbn [set_altered]. destruct deleted as [|x deleted']; [|discriminate]. intros U. split; [reflexivity|]. rewrite <- (tiles_bytes (i_children i)) by assumption.
    apply flat_map_ext_in. intros c Hc. cbn [mem existsb]. destruct (Hh c Hc eq_refl) as (_ & S2 & _). apply S2. unfold the_item.
    destruct (assoc (i_name c) fields) as [x|] eqn:E; [|destruct c; reflexivity].
    apply assoc_in in E. destruct (v_altered (view_of input i x)) eqn:Al; [|reflexivity]. exfalso.
    assert (existsb (fun p0 => v_altered (snd p0)) fvs = true); [|congruence].
    apply existsb_exists. exists (i_name c, view_of input i x). split; [|exact Al]. unfold fvs. apply (in_map (fun kv => (fst kv, view_of input i (snd kv)))) in E. exact E. }
  unfold set_view. cbn [v_size v_altered v_write]. split; [|split].
  - destruct (set_altered deleted fvs []) eqn:Al.
    + rewrite ST. apply SUM. auto.
    + destruct (UN eq_refl) as [_ ->]. symmetry. apply orig_len. assumption.
  - intros Al. apply UN. assumption.
  - intros st A. destruct (set_altered deleted fvs []) eqn:Al.
    + rewrite ST. apply WR; auto.
    + destruct (UN eq_refl) as [_ ->]. unfold set_copy. replace (i_size i mod 8) with 0 by (symmetry; apply Ra). cbn [Z.eqb negb]. apply bytes_copy_total; assumption.
Qed.

(** Removing a list of fields. *)
Lemma removeFields_ok i : NoDup (map i_name (i_children i)) -> forall cs bs fields deleted,
  NoDup (map i_name cs) -> (forall c, In c cs -> In c (i_children i) /\ mem (i_name c) deleted = false) ->
  Forall2 (fun c b => holds i c (the_item i fields c) b) cs bs ->
  exists fields', removeFields input (map i_name cs) (ESet i fields deleted []) = Ok (ESet i fields' (deleted ++ map i_name cs) [], 8 * zlen (List.concat bs)) /\
    forall k, ~ In k (map i_name cs) -> assoc k fields' = assoc k fields.
Proof using.
  clear Hd Hs. intros ND. induction cs as [|c cs IH]; intros bs fields deleted NC Hin H.
  - inversion H; subst. exists fields. cbn [map removeFields List.concat]. rewrite app_nil_r. split; auto.
  - inversion H as [|c0 b cs0 bs0 Hb Hbs]; subst. destruct (Hin c (or_introl eq_refl)) as [Hc Hm]. cbn [map] in NC. inversion NC as [|x0 l0 N1 N2]; subst.
    cbn [map removeFields removeField]. rewrite (get_child i fields deleted c ND Hc Hm). cbn [bind del_item]. rewrite Hm. cbn [bind fst snd].
    destruct (IH bs0 (del_assoc (i_name c) fields) (deleted ++ [i_name c]) N2) as (fields' & E1 & E2).
    + intros d Hd. destruct (Hin d (or_intror Hd)) as [D1 D2]. split; [assumption|]. apply mem_not_in. apply mem_not_in in D2. intros X.
      apply in_app_or in X as [X|[X|[]]]; [contradiction|]. apply N1. rewrite X. apply in_map. assumption.
    + clear - Hbs N1. induction Hbs as [|d b' l l' Hh Hl IH]; constructor.
      * unfold the_item. rewrite assoc_del_other; [exact Hh|]. intros X. apply N1. left. assumption.
      * apply IH. intros X. apply N1. right. assumption.
    + rewrite E1. cbn [bind fst snd]. exists fields'. split.
      * rewrite <- app_assoc. cbn [app List.concat]. rewrite zlen_app. destruct Hb as (S1 & _). cbn zeta in S1. rewrite S1. do 2 f_equal. lia.
      * intros k Hk. rewrite E2 by (intros X; apply Hk; right; assumption). apply assoc_del_other. intros X. apply Hk. left. congruence.
Qed.

(** Decreasing an integer of 32 bits. *)
Lemma decrease_ok i fields deleted name a v delta :
  set_ok i -> i_endian i = LITTLE_ENDIAN -> In (ILeaf name (KInt false) a 32) (i_children i) -> mem name deleted = false -> assoc name fields = None ->
  orig_bytes data a 32 = le32 v -> 0 <= v < 2 ^ 32 -> 0 <= v - delta < 2 ^ 32 ->
  let f := EField {| ef_name := name; ef_kind := KInt false; ef_size := 32; ef_value := Some (VInt (v - delta)); ef_altered := true |} in
  decrease input (ESet i fields deleted []) name delta = Ok (ESet i (set_assoc name f fields) deleted []) /\
  holds i (ILeaf name (KInt false) a 32) f (le32 (v - delta)).
Proof using Hd Hs.
  intros SO Ee Hc Hm Ha Ho Hv Hw f. destruct SO as (IS & Ra & ND & T & F). rewrite Forall_forall in F. pose proof (F _ Hc) as Rc. cbn [i_addr i_size] in Rc.
  split.
  - pose proof (get_child i fields deleted _ ND Hc Hm) as G. unfold the_item in G. cbn [i_name fresh] in G. rewrite Ha in G.
    unfold decrease. rewrite G. cbn [bind]. unfold int_value. cbn [ef_value ef_kind ef_name].
    pose proof (find_child_in _ _ ND Hc) as C. cbn [i_name] in C. unfold child. rewrite C. cbn [i_addr i_size]. rewrite Ee.
    assert (R : readInteger input a false 32 LITTLE_ENDIAN = Ok v).
    { destruct Rc as (C1 & C2 & C3 & C4 & C5). unfold readInteger.
      assert (W : readBits input a 32 LITTLE_ENDIAN = Ok v). { pose proof (whole_le input data Hs Hd (a / 8) 4 ltac:(lia) ltac:(lia) ltac:(lia)) as W. change (8 * 4) with 32 in W. replace (8 * (a / 8)) with a in W by lia. rewrite W. f_equal. unfold orig_bytes in Ho. change (32 / 8) with 4 in Ho. rewrite Ho. rewrite <- tiles_app_le32. apply le_bytes_val. change (256 ^ Z.of_nat 4) with (2 ^ 32). assumption. }
      rewrite W. reflexivity. }
    rewrite R. cbn [bind edit_at]. rewrite G. cbn [bind assign]. unfold set_value. cbn [ef_kind ef_size check_value]. change (valid_unsigned 32) with (Some (0, 2 ^ 32 - 1)). cbv beta iota.
    replace ((0 <=? v - delta) && (v - delta <=? 2 ^ 32 - 1)) with true by (symmetry; apply andb_true_intro; split; lia). reflexivity.
  - split; [reflexivity|]. split; [discriminate|]. intros st A. cbn [view_of field_view v_write f ef_altered].
    destruct (bytes_write_total st (i_endian i) {| ef_name := name; ef_kind := KInt false; ef_size := 32; ef_value := Some (VInt (v - delta)); ef_altered := true |} (VInt (v - delta))) as (st' & W & A' & O).
    + rewrite Ee. discriminate.
    + reflexivity.
    + split; [|exact I]. cbn [ef_kind ef_size fits]. split; [lia|]. split; [reflexivity|lia].
    + assumption.
    + exists st'. split; [exact W|]. split; [assumption|]. rewrite O. f_equal. cbn [ef_kind ef_size enc_bytes stored]. rewrite Ee. cbn [bytes_of]. change (Z.to_nat (32 / 8)) with 4%nat. apply tiles_app_le32.
Qed.
End Sub.

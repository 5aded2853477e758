From Coq Require Import String.
From Verif Require Import Base BaseProofs BitsModel BitsSpec BitsProofs StreamModel StreamSpec StreamProofs DictModel DictProofs Lit OutputModel OutputProofs
  EditModel EditSpec EditProofs EditProofs2 EditProofs3 EditProofs4 EditProofs5 EditProofs6 StripModel StripSpec.
Open Scope Z_scope.
Ltac Zify.zify_post_hook ::= Z.div_mod_to_equations.

Lemma memb_mem name l : memb name l = mem name l.
Proof.
  unfold memb, mem. induction l as [|x l IH]; cbn [existsb]; [reflexivity|]. rewrite IH. f_equal. destruct (str_eqb name x) eqn:E.
  - apply str_eqb_eq in E. subst. symmetry. apply str_eqb_refl.
  - symmetry. apply str_eqb_neq. apply str_eqb_neq in E. congruence.
Qed.
Lemma flat_map_nil' {X Y} (f : X -> list Y) l : (forall x, In x l -> f x = []) -> flat_map f l = [].
Proof. induction l as [|x l IH]; intros H; [reflexivity|]. cbn [flat_map]. rewrite H by (left; reflexivity). apply IH. intros y Hy. apply H. right; assumption. Qed.

Section Strip.
Context (data : list Z) (Hd : is_bytes data) (input : read_fun) (Hs : serves input data).
Notation good := (good (bytes_range data) real_endian fits_bytes).
Notation parsed := (parsed (bytes_range data) real_endian).
Notation edoc := (edoc (orig_bytes data) enc_bytes).
Notation idoc := (idoc (orig_bytes data)).

Lemma good_shows p n : good p n -> shows 8 bytes_R (view_of input p n) (e_name n, edoc p n).
Proof using Hd Hs.
  intros G.
  apply (sound 8 input bytes_R (bytes_range data) real_endian fits_bytes (orig_bytes data) enc_bytes bytes_R_refl bytes_R_trans); try assumption.
  - intros a m H. apply H.
  - intros a m k (H1 & H2 & H3 & H4 & H5) (H6 & H7 & H8 & H9 & H10) H11. unfold bytes_range. repeat split; lia.
  - intros a. apply sub_0.
  - intros a m k (H1 & H2 & H3 & H4 & H5) (H6 & H7 & H8 & H9 & H10). unfold orig_bytes.
    replace ((a + m) / 8) with (a / 8 + m / 8) by lia. replace ((m + k) / 8) with (m / 8 + k / 8) by lia. symmetry. apply sub_app_split; lia.
  - intros a m (H1 & H2 & H3 & H4 & H5). unfold orig_bytes. rewrite zlen_sub_exact by lia. lia.
  - intros; eapply bytes_copy_bits; eassumption.
  - intros; eapply bytes_copy_bytes; eassumption.
  - intros; eapply bytes_write_value; eassumption.
  - intros; eapply bytes_enc_len; eassumption.
Qed.
Lemma good_size p n : good p n -> v_size (view_of input p n) = 8 * zlen (flatten (edoc p n)).
Proof using Hd Hs. intros G. apply (good_shows p n G). Qed.
Lemma good_writes n st : good root n -> byte_aligned st ->
  exists st', writeInto input n st = Ok st' /\ byte_aligned st' /\ out st' = out st ++ flatten (edoc root n).
Proof using Hd Hs.
  intros G A. destruct (view_live data Hd input Hs n root G st A) as (st' & W & A'). exists st'. split; [exact W|].
  destruct (good_shows root n G) as (_ & _ & S). exact (S st st' W A).
Qed.
Lemma idoc_bytes i : parsed i -> flatten (idoc i) = orig_bytes data (i_addr i) (i_size i).
Proof using Hd Hs.
  intros P.
  apply (flatten_idoc 8 input bytes_R (bytes_range data) real_endian fits_bytes (orig_bytes data) enc_bytes bytes_R_refl bytes_R_trans); try assumption.
  - intros a m H. apply H.
  - intros a m k (H1 & H2 & H3 & H4 & H5) (H6 & H7 & H8 & H9 & H10) H11. unfold bytes_range. repeat split; lia.
  - intros a. apply sub_0.
  - intros a m k (H1 & H2 & H3 & H4 & H5) (H6 & H7 & H8 & H9 & H10). unfold orig_bytes.
    replace ((a + m) / 8) with (a / 8 + m / 8) by lia. replace ((m + k) / 8) with (m / 8 + k / 8) by lia. symmetry. apply sub_app_split; lia.
  - intros a m (H1 & H2 & H3 & H4 & H5). unfold orig_bytes. rewrite zlen_sub_exact by lia. lia.
  - intros; eapply bytes_copy_bits; eassumption.
  - intros; eapply bytes_copy_bytes; eassumption.
  - intros; eapply bytes_write_value; eassumption.
  - intros; eapply bytes_enc_len; eassumption.
Qed.

(** The document of a child of an editor. *)
Definition cdoc (i : inode) (fields : list (str * enode)) (c : inode) : doc Z :=
  match assoc (i_name c) fields with Some x => edoc i x | None => idoc c end.
Lemma edoc_set p i fields deleted : edoc p (ESet i fields deleted []) =
  Node (flat_map (fun c => if mem (i_name c) deleted then [] else [(i_name c, cdoc i fields c)]) (i_children i)).
Proof using.
  cbn [EditProofs.edoc map]. unfold iterate. cbn [inserted_at opt_list app]. rewrite app_nil_r. f_equal. apply flat_map_ext_in. intros c _.
  unfold cdoc. rewrite assoc_map. destruct (mem (i_name c) deleted); [reflexivity|]. destruct (assoc (i_name c) fields); reflexivity.
Qed.
Lemma flatten_set p i fields deleted : flatten (edoc p (ESet i fields deleted [])) =
  flat_map (fun c => if mem (i_name c) deleted then [] else flatten (cdoc i fields c)) (i_children i).
Proof using.
  rewrite edoc_set. cbn [flatten]. rewrite flat_map_flat_map. apply flat_map_ext_in. intros c _. destruct (mem (i_name c) deleted); cbn [flat_map]; [reflexivity|]. cbn [snd]. apply app_nil_r.
Qed.

Definition the_item (i : inode) (fields : list (str * enode)) (c : inode) : enode := match assoc (i_name c) fields with Some x => x | None => fresh c end.
Lemma get_child i fields deleted c : NoDup (map i_name (i_children i)) -> In c (i_children i) -> mem (i_name c) deleted = false ->
  get_item (ESet i fields deleted []) (i_name c) = Ok (the_item i fields c).
Proof using.
  intros ND Hc Hm. cbn [get_item]. rewrite Hm. unfold child. rewrite find_child_in by assumption. reflexivity.
Qed.
Lemma item_good p i fields deleted c : good p (ESet i fields deleted []) -> In c (i_children i) ->
  good i (the_item i fields c) /\ edoc i (the_item i fields c) = cdoc i fields c /\ e_name (the_item i fields c) = i_name c.
Proof using.
  intros G Hc. inversion G as [| |p' i' fields' deleted' inserted' P IS Ff Fi NK HK ND HD NI HI]; subst p' i' fields' deleted' inserted'.
  destruct (parsed_set_inv _ _ i P IS) as (Ra & Ge & NDc & NE & T & F). unfold the_item, cdoc. destruct (assoc (i_name c) fields) as [x|] eqn:E.
  - apply assoc_in in E. rewrite Forall_forall in Ff. destruct (Ff _ E) as (c' & C1 & M & Gx). cbn [fst snd] in *. split; [assumption|]. split; [reflexivity|].
    unfold child in C1. rewrite find_child_in in C1 by assumption. injection C1 as <-. apply (matches_name _ _ M).
  - split; [apply fresh_good; assumption|]. split; [apply fresh_doc; assumption|]. destruct c; reflexivity.
Qed.

(** Removing some fields. *)
Lemma removeField_ok p i fields deleted c : good p (ESet i fields deleted []) -> In c (i_children i) -> mem (i_name c) deleted = false ->
  let n' := ESet i (del_assoc (i_name c) fields) (deleted ++ [i_name c]) [] in
  removeField input (i_name c) (ESet i fields deleted []) = Ok (n', 8 * zlen (flatten (cdoc i fields c))) /\ good p n'.
Proof using Hd Hs.
  intros G Hc Hm n'. assert (G' := G). inversion G' as [| |p' i' fields' deleted' inserted' P IS Ff Fi NK HK ND HD NI HI]; subst p' i' fields' deleted' inserted'.
  destruct (parsed_set_inv _ _ i P IS) as (Ra & Ge & NDc & NE & T & F).
  assert (E : del_item (i_name c) (ESet i fields deleted []) = Ok n') by (cbn [del_item]; rewrite Hm; reflexivity).
  split.
  - cbn [removeField]. rewrite (get_child i fields deleted c) by assumption. cbn [bind]. rewrite E. cbn [bind].
    destruct (item_good p i fields deleted c G Hc) as (G1 & E1 & _). rewrite (good_size _ _ G1), E1. reflexivity.
  - apply (del_item_ok (bytes_range data) real_endian fits_bytes (orig_bytes data) enc_bytes p i (i_name c) (ESet i fields deleted []) n'); try assumption; [|reflexivity].
    intros i0 f0 d0 ins0 X. injection X as <- _ _ _. apply has_child_in. apply in_map. assumption.
Qed.
Lemma del_assoc_other_child i fields k c : i_name c <> k -> cdoc i (del_assoc k fields) c = cdoc i fields c.
Proof using. intros H. unfold cdoc. rewrite assoc_del_other by assumption. reflexivity. Qed.

(** ** Strippers that check each field of the root *)
Lemma check_loop_ok check i p : forall l pre deleted total, i_children i = pre ++ l -> NoDup (map i_name (i_children i)) ->
  good p (ESet i [] deleted []) -> (forall x, In x deleted -> In x (map i_name pre)) ->
  let removed := filter (fun c => check (i_name c)) l in
  exists n', check_loop input check l (ESet i [] deleted []) total =
    Ok (ESet i [] (deleted ++ map i_name removed) [], total + 8 * zlen (flat_map (fun c => flatten (idoc c)) removed)) /\ n' = ESet i [] (deleted ++ map i_name removed) [] /\ good p n'.
Proof using Hd Hs.
  induction l as [|c l IH]; intros pre deleted total E ND G Hdel removed.
  - eexists. split; [|split; [reflexivity|]].
    + cbn [check_loop]. unfold removed. cbn [filter map flat_map]. rewrite app_nil_r. change (zlen (@nil Z)) with 0. f_equal. f_equal. lia.
    + unfold removed. cbn [filter map]. rewrite app_nil_r. assumption.
  - assert (Hc : In c (i_children i)) by (rewrite E; apply in_or_app; right; left; reflexivity).
    assert (Hm : mem (i_name c) deleted = false).
    { apply mem_not_in. intros X. apply Hdel in X. rewrite E, map_app in ND. cbn [map] in ND. apply NoDup_remove_2 in ND. apply ND. apply in_or_app. left; assumption. }
    assert (E' : i_children i = (pre ++ [c]) ++ l) by (rewrite E, <- app_assoc; reflexivity).
    cbn [check_loop]. rewrite (get_child i [] deleted c ND Hc Hm). cbn [bind].
    assert (Nm : e_name (the_item i [] c) = i_name c) by (destruct c; reflexivity). rewrite Nm.
    unfold removed. cbn [filter]. destruct (check (i_name c)) eqn:Ck.
    + destruct (removeField_ok p i [] deleted c G Hc Hm) as (R1 & R2). rewrite R1. cbn [bind fst snd]. cbn [del_assoc filter] in *.
      destruct (IH (pre ++ [c]) (deleted ++ [i_name c]) (total + 8 * zlen (flatten (cdoc i [] c))) E' ND R2) as (n' & I1 & I2 & I3).
      { intros x Hx. rewrite map_app. apply in_or_app. apply in_app_or in Hx as [Hx|Hx]; [left; apply Hdel; assumption|right; exact Hx]. }
      cbn [map flat_map]. rewrite <- app_assoc in I1, I2. cbn [app] in I1, I2. exists n'. split; [|split; assumption].
      rewrite I1. f_equal. f_equal. rewrite zlen_app. unfold cdoc. cbn [assoc]. lia.
    + destruct (IH (pre ++ [c]) deleted total E' ND G) as (n' & I1 & I2 & I3).
      { intros x Hx. rewrite map_app. apply in_or_app. left. apply Hdel; assumption. }
      exists n'. split; [exact I1|]. split; assumption.
Qed.
Lemma check_strip_ok check i : parsed i -> (exists n e a s l, i = ISet n e a s l) ->
  let removed := filter (fun c => check (i_name c)) (i_children i) in
  let kept := filter (fun c => negb (check (i_name c))) (i_children i) in
  exists n', check_strip input check (createEditor i) = Ok (n', 8 * zlen (flat_map (fun c => orig_bytes data (i_addr c) (i_size c)) removed)) /\ good root n' /\
    flatten (edoc root n') = flat_map (fun c => orig_bytes data (i_addr c) (i_size c)) kept.
Proof using Hd Hs.
  intros P IS removed kept. destruct (parsed_set_inv _ _ i P IS) as (Ra & Ge & ND & NE & T & F). rewrite Forall_forall in F.
  destruct (check_loop_ok check i root (i_children i) [] [] 0 eq_refl ND (set_good _ _ _ root i P IS)) as (n' & H1 & H2 & H3); [intros x []|].
  exists n'. split; [|split; [assumption|]].
  - unfold check_strip, createEditor. rewrite H1, H2. f_equal. f_equal. rewrite Z.add_0_l. f_equal. f_equal. apply flat_map_ext_in. intros c Hc. apply idoc_bytes. apply F. apply filter_In in Hc. apply Hc.
  - rewrite H2, flatten_set. unfold kept. rewrite (filter_flat_map (fun c => negb (check (i_name c)))), flat_map_flat_map. apply flat_map_ext_in. intros c Hc. cbn [app].
    destruct (check (i_name c)) eqn:Ck; cbn [negb flat_map].
    + replace (mem (i_name c) _) with true; [reflexivity|]. symmetry. apply mem_in. apply in_map_iff. exists c. split; [reflexivity|]. apply filter_In. split; assumption.
    + replace (mem (i_name c) _) with false; [|symmetry; apply mem_not_in; intros X; apply in_map_iff in X; destruct X as (d & X1 & X2); apply filter_In in X2; rewrite X1 in X2; destruct X2; congruence].
      rewrite app_nil_r. unfold cdoc. cbn [assoc]. apply idoc_bytes. apply F. assumption.
Qed.
End Strip.

From Verif Require Import Base BaseProofs DictModel DictProofs FieldModel FieldSpec FieldNames.
Ltac Zify.zify_post_hook ::= Z.div_mod_to_equations.

Scheme gen_mut := Induction for gen Sort Prop with spec_mut := Induction for spec Sort Prop.
Combined Scheme gen_spec_ind from gen_mut, spec_mut.

Section FsetInd.
Context (P : fset -> Prop)
  (H : forall l z c ct r, (forall n a x, In (FSet n a x) l -> P x) -> P (MkSet l z c ct r)).
Definition Pf (f : field) : Prop := match f with FSet _ _ x => P x | FLeaf _ _ _ => True end.
Lemma Pf_in l : Forall Pf l -> forall n a x, In (FSet n a x) l -> P x.
Proof. intros Hl n a x Hin. rewrite Forall_forall in Hl. exact (Hl _ Hin). Qed.
Fixpoint fset_ind' (s : fset) : P s :=
  match s with
  | MkSet l z c ct r =>
      H l z c ct r (Pf_in l
        ((fix go (l : list field) : Forall Pf l :=
            match l with
            | [] => Forall_nil Pf
            | f :: l' => Forall_cons f (match f as f return Pf f with
                                        | FLeaf _ _ _ => I
                                        | FSet _ _ x => fset_ind' x
                                        end) (go l')
            end) l))
  end.
End FsetInd.

(** ** Well formed states *)
(** A field named "raw[]" is the last one. *)
Definition rawlast (l : list field) : Prop :=
  forall l1 f l2, l = l1 ++ f :: l2 -> f_name f = raw_name -> l2 = [].

Inductive goodf : field -> Prop :=
| goodf_leaf n a z : 0 <= z -> goodf (FLeaf n a z)
| goodf_set n a s z : fsize s = Some z -> 0 < z -> goods s -> goodf (FSet n a s)
with goods : fset -> Prop :=
| goods_intro l z c ct r :
    tiles 0 (layout l) c -> NoDup (map f_name l) -> rawlast l -> Forall goodf l ->
    (forall k, r = Some k -> Forall (in_use ct) (map f_name l) /\ counts_ok ct /\ forall v, gen_ok (k v)) ->
    (match z with Some z => c <= z | None => True end) ->
    (r = None -> z = Some c) -> goods (MkSet l z c ct r).

Record pre (s : fset) : Prop := {
  pre_tiles : tiles 0 (layout (fields s)) (cur s);
  pre_nodup : NoDup (map f_name (fields s));
  pre_good : Forall goodf (fields s);
  pre_use : Forall (in_use (counts s)) (map f_name (fields s));
  pre_ct : counts_ok (counts s);
  pre_bound : match fsize s with Some z => cur s <= z | None => True end }.

Lemma tiles_app l1 : forall l2 a e, tiles a (l1 ++ l2) e <-> exists m, tiles a l1 m /\ tiles m l2 e.
Proof.
  induction l1 as [|[[n ad] z] l1 IH]; intros l2 a e; cbn [app tiles].
  - split; [intros H; exists a; auto|intros (m & -> & H); exact H].
  - split.
    + intros (-> & Hz & H). apply IH in H. destruct H as (m & H1 & H2). exists m. auto.
    + intros (m & (-> & Hz & H1) & H2). split; [reflexivity|]. split; [assumption|]. apply IH. eauto.
Qed.
Lemma tiles_le l : forall a e, tiles a l e -> a <= e.
Proof. induction l as [|[[n ad] z] l IH]; intros a e H; cbn [tiles] in H; [lia|]. destruct H as (_ & Hz & H). apply IH in H. lia. Qed.
Lemma layout_app l1 l2 : layout (l1 ++ l2) = layout l1 ++ layout l2.
Proof. apply map_app. Qed.
Lemma f_size_nonneg f : goodf f -> 0 <= f_size f.
Proof. intros H. inversion H; subst; cbn [f_size]; [assumption|]. rewrite H0. lia. Qed.
Lemma tiles_snoc l f c : tiles 0 (layout l) c -> goodf f -> f_addr f = c -> tiles 0 (layout (l ++ [f])) (c + f_size f).
Proof.
  intros H Hf Ha. rewrite layout_app. apply tiles_app. exists c. split; [assumption|]. cbn. split; [assumption|].
  split; [apply f_size_nonneg; assumption|reflexivity].
Qed.
Lemma in_use_rawlast ct l : Forall (in_use ct) (map f_name l) -> rawlast l.
Proof.
  intros H l1 f l2 -> E. exfalso. rewrite map_app in H. apply Forall_app in H. destruct H as [_ H]. inversion H; subst.
  apply (in_use_not_raw _ _ H2 E).
Qed.
Lemma pre_goods s k : pre s -> resume s = Some k -> (forall v, gen_ok (k v)) -> goods s.
Proof.
  intros [H1 H2 H3 H4 H5 H6] Hr Hk. destruct s as [l z c ct r]. cbn in *. subst r. constructor; try assumption.
  - eapply in_use_rawlast; eassumption.
  - intros k' E. injection E as <-. auto.
  - discriminate.
Qed.
Lemma goods_pre s k : goods s -> resume s = Some k -> pre s /\ forall v, gen_ok (k v).
Proof. intros H E. inversion H; subst. cbn in E. destruct (H4 k E) as (A & B & C). split; [constructor; assumption|assumption]. Qed.
Lemma pre_ext s s' : pre s -> fields s' = fields s -> fsize s' = fsize s -> cur s' = cur s -> counts s' = counts s -> pre s'.
Proof. intros [H1 H2 H3 H4 H5 H6] E1 E2 E3 E4. constructor; rewrite ?E1, ?E2, ?E3, ?E4; assumption. Qed.

Lemma NoDup_app_l {A} (l m : list A) : NoDup (l ++ m) -> NoDup l.
Proof.
  induction l as [|x l IH]; intros H; [constructor|]. inversion H; subst. constructor; [|auto].
  intros Hin. apply H2. apply in_or_app. auto.
Qed.
Lemma NoDup_snoc {A} (l : list A) x : NoDup l -> ~ In x l -> NoDup (l ++ [x]).
Proof.
  intros H Hx. rewrite <- (rev_involutive (l ++ [x])). apply NoDup_rev. rewrite rev_app_distr. cbn [rev app].
  constructor; [rewrite <- in_rev; assumption|apply NoDup_rev; assumption].
Qed.

(** ** Truncation *)
Definition cut (size : Z) := fix cut (seen : bool) (l : list field) {struct l} : res (option (list field)) :=
        match l with
        | [] => Ok None
        | f :: l' =>
            do o <- cut (seen || str_eqb raw_name (f_name f)) l';
            match o with
            | Some l2 => Ok (Some (f :: l2))
            | None =>
                if f_addr f <? size then
                  let rest := size - f_addr f in
                  if rest <? f_size f then
                    match f with
                    | FSet fn fa fs => do fs <- truncate fs rest; Ok (Some [FSet fn fa fs])
                    | FLeaf _ fa _ => if seen then Err UniqKeyError else Ok (Some [FLeaf raw_name fa rest])
                    end
                  else Ok (Some [f])
                else Ok None
            end
        end.
Lemma truncate_eq s size : truncate s size =
  if negb (0 <? size) then Err AssertionError
  else if size <? cur s then
    do o <- cut size false (fields s);
    match o with
    | None => Err IndexError
    | Some l => Ok (MkSet l (Some size) size (counts s) None)
    end
  else
    do _ <- assert_ (match fsize s with None => true | Some z => size <? z end);
    Ok (MkSet (fields s) (Some size) (cur s) (counts s) (if size =? cur s then None else resume s)).
Proof. destruct s. reflexivity. Qed.

Lemma cut_none size : forall l seen a e, tiles a (layout l) e -> size <= a -> cut size seen l = Ok None.
Proof.
  induction l as [|f l IH]; intros seen a e H Ha; [reflexivity|]. cbn [layout map tiles] in H. destruct H as (E & Hz & H).
  cbn [cut]. rewrite (IH _ _ _ H) by lia. cbn [bind]. replace (f_addr f <? size) with false by lia. reflexivity.
Qed.
Definition trunc_ok (s : fset) : Prop := forall z size, fsize s = Some z -> 0 < size < z -> goods s ->
  exists s', truncate s size = Ok s' /\ goods s' /\ fsize s' = Some size.
Lemma cut_some size : forall l a e, tiles a (layout l) e -> a < size < e -> Forall goodf l -> rawlast l ->
  (forall n ad x, In (FSet n ad x) l -> trunc_ok x) ->
  exists l', cut size false l = Ok (Some l') /\ tiles a (layout l') size /\ Forall goodf l' /\
    exists p f f' q, l = p ++ f :: q /\ l' = p ++ [f'] /\ (f_name f' = f_name f \/ f_name f' = raw_name).
Proof.
  induction l as [|f l IH]; intros a e H Ha Hg Hr Ht; [cbn in H; lia|].
  cbn [layout map tiles] in H. destruct H as (E & Hz & H). inversion Hg as [|? ? Hf Hg']; subst.
  destruct (Z_lt_le_dec (f_addr f + f_size f) size) as [Hlt|Hle].
  - assert (Hl : l <> []). { intros ->. cbn in H. lia. }
    destruct (IH _ _ H) as (l' & E1 & E2 & E3 & p & g & g' & q & E4 & E5 & E6); try assumption; try lia.
    { intros l1 x l2 -> Hx. apply (Hr (f :: l1) x l2 eq_refl Hx). }
    { intros n ad x Hin. apply (Ht n ad x). right. assumption. }
    exists (f :: l'). cbn [cut]. replace (str_eqb raw_name (f_name f)) with false.
    + cbn [orb]. rewrite E1. cbn [bind]. split; [reflexivity|]. split; [cbn [layout map tiles]; auto|].
      split; [constructor; assumption|]. exists (f :: p), g, g', q. rewrite E4, E5. auto.
    + symmetry. destruct (str_eqb raw_name (f_name f)) eqn:En; [|reflexivity]. apply str_eqb_eq in En.
      exfalso. apply Hl. apply (Hr [] f l eq_refl). congruence.
  - cbn [cut]. rewrite (cut_none size l _ _ _ H) by lia. cbn [bind]. replace (f_addr f <? size) with true by lia.
    destruct (size - f_addr f <? f_size f) eqn:Ec.
    + destruct f as [n ad z|n ad x]; cbn [f_addr f_size f_name] in *.
      * exists [FLeaf raw_name ad (size - ad)]. split; [reflexivity|]. split; [cbn; lia|]. split; [constructor; [constructor; lia|constructor]|].
        exists [], (FLeaf n ad z), (FLeaf raw_name ad (size - ad)), l. auto.
      * inversion Hf as [|? ? ? z G1 G2 G3]; subst. rewrite G1 in *. destruct (Ht n ad x (or_introl eq_refl) z (size - ad) G1 ltac:(lia) G3) as (x' & E1 & E2 & E3).
        rewrite E1. cbn [bind]. exists [FSet n ad x']. split; [reflexivity|]. split; [cbn [layout map tiles f_addr f_size f_name]; rewrite E3; lia|].
        split; [constructor; [econstructor; try eassumption; lia|constructor]|].
        exists [], (FSet n ad x), (FSet n ad x'), l. auto.
    + exists [f]. split; [reflexivity|]. split; [cbn [layout map tiles]; lia|]. split; [constructor; [assumption|constructor]|].
      exists [], f, f, l. auto.
Qed.
Lemma truncate_ok s : trunc_ok s.
Proof.
  induction s as [l z c ct r IH] using fset_ind'. intros z' size Hz Hs Hg. cbn in Hz. subst z.
  inversion Hg as [? ? ? ? ? H1 H2 H3 H4 H5 H6 H7]; subst. rewrite truncate_eq. cbn [fields fsize cur counts resume].
  replace (negb (0 <? size)) with false by lia. destruct (size <? c) eqn:E.
  - destruct (cut_some size l 0 c H1 ltac:(lia) H4 H3 IH) as (l' & -> & E2 & E3 & p & f & f' & q & -> & -> & En).
    cbn [bind]. eexists. split; [reflexivity|]. split; [|reflexivity].
    assert (Hp : forall x, In x p -> f_name x <> raw_name).
    { intros x Hx Hn. apply in_split in Hx. destruct Hx as (p1 & p2 & ->).
      specialize (H3 p1 x (p2 ++ f :: q)). rewrite <- app_assoc in H3. specialize (H3 eq_refl Hn). destruct p2; discriminate. }
    assert (Hnd : NoDup (map f_name (p ++ [f']))).
    { rewrite map_app in *. cbn [map] in *. destruct En as [->| ->].
      - change (f_name f :: map f_name q) with ([f_name f] ++ map f_name q) in H2. rewrite app_assoc in H2.
        apply NoDup_app_l in H2. assumption.
      - apply NoDup_app_l in H2. apply NoDup_snoc; [assumption|]. rewrite in_map_iff. intros (x & Hx1 & Hx2). apply (Hp x Hx2 Hx1). }
    constructor; try assumption; try discriminate; try lia; try reflexivity.
    + intros l1 x l2 Hx Hn. destruct l2 as [|y l2]; [reflexivity|]. exfalso.
      assert (In x p).
      { assert (Hl : exists m, y :: l2 = m ++ [f']).
        { destruct (exists_last (l := y :: l2)) as (m & last & Hm); [discriminate|]. exists m. rewrite Hm. f_equal. f_equal.
          rewrite Hm in Hx. rewrite app_comm_cons, app_assoc in Hx. apply app_inj_tail in Hx. destruct Hx. congruence. }
        destruct Hl as (m & Hm). rewrite Hm in Hx. rewrite app_comm_cons, app_assoc in Hx. apply app_inj_tail in Hx. destruct Hx as [-> _].
        apply in_or_app. right. left. reflexivity. }
      apply (Hp x H Hn).
  - replace (size <? z') with true by lia. cbn [assert_ bind]. eexists. split; [reflexivity|]. split; [|reflexivity].
    constructor; try assumption; try lia.
    + intros k Hk. destruct (size =? c); [discriminate|]. auto.
    + destruct (size =? c) eqn:Ec; intros Hr; [f_equal; lia|]. specialize (H7 Hr). injection H7 as ->. lia.
Qed.

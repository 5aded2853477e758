From Verif Require Import Base BaseProofs DictModel DictProofs FieldModel FieldSpec FieldNames FieldProofs FieldProofs2 FieldHist.
Ltac Zify.zify_post_hook ::= Z.div_mod_to_equations.

(** ** Histories keep field sets well formed *)
Definition neat (z : Z) (s : fset) : Prop := goods s /\ fsize s = Some z.

Lemma neat_feed autofix p hasp s z : neat z s ->
  let '(s', r) := feed_from autofix p hasp s in
  neat z s' /\ prefix (fields s) (fields s') /\
  match r with
  | FEnd _ => resume s' = None
  | FFound f => p f = true /\ exists l, fields s' = l ++ [f]
  | FRaised e => resume s' <> None /\ autofix = false
  end.
Proof.
  intros [Hg Hz]. unfold feed_from. destruct (resume s) as [k|] eqn:Ek.
  - destruct (goods_pre _ _ Hg Ek) as [Hp Hk].
    pose proof (proj1 feed_ok (k (view_of 0 s)) (Hk _) autofix p hasp 0 s Hp ltac:(congruence)) as H.
    destruct (feed autofix p hasp 0 (k (view_of 0 s)) s) as [s' r]. destruct H as (F1 & F2 & F3 & F4).
    split; [split; auto|]. split; [assumption|]. destruct r; auto. destruct F4 as [F4 F5]. split; [assumption|].
    destruct autofix; [|reflexivity]. rewrite F5 in Hz by reflexivity. discriminate.
  - split; [split; assumption|]. split; [apply prefix_refl|assumption].
Qed.
Lemma rawlast_names l l' : map f_name l = map f_name l' -> rawlast l -> rawlast l'.
Proof.
  intros E H l1 f l2 -> Hn. rewrite map_app in E. apply map_eq_app in E. destruct E as (m1 & m2 & -> & E1 & E2).
  destruct m2 as [|g m2]; [discriminate|]. cbn in E2. injection E2 as E2 E3.
  specialize (H m1 g m2 eq_refl ltac:(congruence)). subst m2. destruct l2; [reflexivity|discriminate].
Qed.
Lemma neat_size z s : neat z s -> fsize s = Some z.
Proof. intros [_ H]. exact H. Qed.
Lemma neat_fields z s : neat z s -> Forall (okf neat) (fields s).
Proof.
  intros [Hg _]. destruct Hg as [l z0 c ct r H1 H2 H3 H4 H5 H6 H7]. eapply Forall_impl; [|exact H4].
  intros f Hf. destruct Hf as [n a zz Hz|n a s zz E Hz Hs]; cbn [okf]; [exact I|]. exists zz. split; [assumption|]. split; assumption.
Qed.
Lemma layout_sizes l l' : layout l = layout l' -> map f_size l = map f_size l'.
Proof. intros E. apply (f_equal (map snd)) in E. unfold layout in E. rewrite !map_map in E. exact E. Qed.
Lemma neat_put z s l : neat z s -> Forall (okf neat) l -> layout l = layout (fields s) -> neat z (set_fields s l).
Proof.
  intros [Hg Hz] Hl El. split; [|assumption]. destruct Hg as [l0 z0 c ct r H1 H2 H3 H4 H5 H6 H7].
  cbn [fields fsize cur counts resume set_fields] in *. assert (En : map f_name l = map f_name l0) by (rewrite !names_layout; congruence).
  assert (Hg : Forall goodf l).
  { apply layout_sizes in El. clear -Hl El H4. revert l0 H4 El. induction Hl as [|f l Hf Hl IH]; intros l0 H4 El; [constructor|].
    destruct l0 as [|f0 l0]; [discriminate|]. cbn in El. injection El as E1 E2. inversion H4; subst. constructor; [|eauto].
    destruct f as [n a zz|n a x].
    - constructor. cbn in E1. rewrite E1. apply f_size_nonneg. assumption.
    - destruct Hf as (z & Hz & Hx1 & Hx2). econstructor; eassumption. }
  constructor; try assumption; try (rewrite En; assumption); try (rewrite El; assumption).
  eapply rawlast_names; [symmetry; eassumption|assumption].
Qed.
Definition neat_accesses := hist_accesses neat neat_size neat_fields neat_put neat_feed.
Definition neat_set_at := hist_set_at neat neat_fields.
Lemma root_neat g size : gen_ok g -> 0 < size -> neat size (root_set g size).
Proof.
  intros Hg Hs. split; [|reflexivity]. apply (pre_goods _ (fun _ => g)); [|reflexivity|auto]. apply empty_pre. lia.
Qed.
Lemma history_neat g size autofix ops path s' : gen_ok g -> 0 < size ->
  set_at path (fst (do_accesses autofix ops (root_set g size))) = Some s' -> exists z, neat z s' /\ (path = [] -> z = size).
Proof.
  intros Hg Hs Hat. pose proof (neat_accesses autofix ops _ _ (root_neat g size Hg Hs)) as H.
  destruct (do_accesses autofix ops (root_set g size)) as [s rs]. destruct H as (H1 & _). cbn [fst] in Hat.
  destruct (neat_set_at path s size H1 s' Hat) as (z' & Hz'). exists z'. split; [assumption|].
  intros ->. cbn in Hat. injection Hat as <-. destruct H1, Hz'. congruence.
Qed.
Theorem tiling_lemma g size autofix ops path s' : gen_ok g -> 0 < size ->
  set_at path (fst (do_accesses autofix ops (root_set g size))) = Some s' ->
  tiles 0 (layout (fields s')) (cur s').
Proof.
  intros Hg Hs Hat. destruct (history_neat g size autofix ops path s' Hg Hs Hat) as (z & [H _] & _). destruct H. assumption.
Qed.

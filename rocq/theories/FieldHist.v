From Verif Require Import Base BaseProofs DictModel DictProofs FieldModel FieldSpec FieldNames FieldProofs FieldProofs2.
Ltac Zify.zify_post_hook ::= Z.div_mod_to_equations.

(** ** An invariant kept by feeding is kept by every history *)
(** What may fail even with autofix: the user asked for something that is not
    there. *)
Definition asked_wrong (r : answer) : Prop :=
  match r with RFail e => e = MissingField \/ e = KeyError \/ e = AttributeError | _ => True end.
Lemma names_layout l : map f_name l = names (layout l).
Proof. unfold names, layout. rewrite map_map. reflexivity. Qed.
Lemma find_name_in l n f : find_name l n = Some f -> In f l /\ f_name f = n.
Proof.
  unfold find_name. intros H. apply find_some in H. destruct H as [H1 H2]. apply str_eqb_eq in H2. auto.
Qed.
Definition set_fields (s : fset) (l : list field) : fset := MkSet l (fsize s) (cur s) (counts s) (resume s).

Section Hist.
Context (sane : Z -> fset -> Prop).
Definition okf (f : field) : Prop := match f with FSet _ _ x => exists z, 0 < z /\ sane z x | FLeaf _ _ _ => True end.
Context (Hsize : forall z s, sane z s -> fsize s = Some z)
  (Hfields : forall z s, sane z s -> Forall okf (fields s))
  (Hput : forall z s l, sane z s -> Forall okf l -> layout l = layout (fields s) -> sane z (set_fields s l))
  (Hfeed : forall autofix p hasp s z, sane z s ->
    let '(s', r) := feed_from autofix p hasp s in
    sane z s' /\ prefix (fields s) (fields s') /\
    match r with
    | FEnd _ => resume s' = None
    | FFound f => p f = true /\ exists l, fields s' = l ++ [f]
    | FRaised e => resume s' <> None /\ autofix = false
    end).

Lemma hist_read_more autofix hasp n : forall s z, sane z s ->
  let '(s', r) := read_more autofix hasp n s in
  sane z s' /\ prefix (fields s) (fields s') /\ (autofix = true -> r = None).
Proof using Hfeed.
  induction n as [|n IH]; intros s z Hs; cbn [read_more].
  - split; [assumption|]. split; [apply prefix_refl|auto].
  - destruct (resume s) as [k|] eqn:Ek; [|split; [assumption|]; split; [apply prefix_refl|auto]].
    unfold step. pose proof (Hfeed autofix (fun _ => true) hasp s z Hs) as H.
    destruct (feed_from autofix (fun _ => true) hasp s) as [s' [f|o|e]]; destruct H as (F1 & F2 & F3).
    + specialize (IH s' z F1). destruct (read_more autofix hasp n s') as [s2 r]. destruct IH as (I1 & I2 & I3).
      split; [assumption|]. split; [eapply prefix_trans; eassumption|assumption].
    + split; [assumption|]. split; [assumption|auto].
    + split; [assumption|]. split; [assumption|]. destruct F3; congruence.
Qed.
Lemma in_child_good n h l : (forall x z, sane z x -> sane z (fst (h x))) -> Forall okf l ->
  Forall okf (fst (in_child n h l)) /\ layout (fst (in_child n h l)) = layout l.
Proof using Hsize.
  intros Hh. induction l as [|f l IH]; intros Hl; cbn [in_child]; [split; [constructor|reflexivity]|].
  inversion Hl; subst. destruct (str_eqb n (f_name f)).
  - destruct f as [fn fa fz|fn fa x]; [split; [assumption|reflexivity]|]. destruct H1 as (z & Hz & Hx).
    specialize (Hh x z Hx). destruct (h x) as [x' r]. cbn [fst] in *. split; [constructor; [exists z; auto|assumption]|].
    cbn. rewrite (Hsize _ _ Hh), (Hsize _ _ Hx). reflexivity.
  - destruct (IH H2) as [I1 I2]. destruct (in_child n h l) as [l' r]. cbn [fst] in *. split; [constructor; assumption|].
    unfold layout in *. cbn [map]. rewrite I2. reflexivity.
Qed.
Lemma in_child_answer n h l : (forall x z, sane z x -> asked_wrong (snd (h x))) -> Forall okf l ->
  asked_wrong (snd (in_child n h l)).
Proof using.
  intros Hh. induction l as [|f l IH]; intros Hl; cbn [in_child]; [cbn; auto|].
  inversion Hl; subst. destruct (str_eqb n (f_name f)).
  - destruct f as [fn fa fz|fn fa x]; [cbn; auto|]. destruct H1 as (z & Hz & Hx).
    specialize (Hh x z Hx). destruct (h x) as [x' r]. assumption.
  - specialize (IH H2). destruct (in_child n h l) as [l' r]. assumption.
Qed.
Lemma hist_access autofix a : forall hasp s z, sane z s ->
  let '(s', r) := do_access autofix hasp a s in
  sane z s' /\ prefix (layout (fields s)) (layout (fields s')) /\ (autofix = true -> asked_wrong r).
Proof using Hsize Hfields Hput Hfeed.
  assert (Hpl : forall s s' : fset, prefix (fields s) (fields s') -> prefix (layout (fields s)) (layout (fields s'))).
  { intros s s' (m & ->). rewrite layout_app. apply prefix_app. }
  induction a; intros hasp s z Hs; cbn [do_access].
  - pose proof (Hfeed autofix (fun _ => false) hasp s z Hs) as H.
    destruct (feed_from autofix (fun _ => false) hasp s) as [s' r]. destruct H as (F1 & F2 & F3).
    split; [assumption|]. split; [auto|]. destruct r; cbn; auto. destruct F3; congruence.
  - pose proof (Hfeed autofix (fun _ => false) hasp s z Hs) as H.
    destruct (feed_from autofix (fun _ => false) hasp s) as [s' r]. destruct H as (F1 & F2 & F3).
    split; [assumption|]. split; [auto|]. destruct r; cbn; auto. destruct F3; congruence.
  - rewrite (Hsize _ _ Hs). split; [assumption|]. split; [apply prefix_refl|cbn; auto].
  - unfold get_name. destruct (find_name (fields s) n); [split; [assumption|]; split; [apply prefix_refl|cbn; auto]|].
    destruct (resume s); [|split; [assumption|]; split; [apply prefix_refl|cbn; auto]].
    pose proof (Hfeed autofix (fun f => str_eqb (f_name f) n) hasp s z Hs) as H.
    destruct (feed_from autofix (fun f => str_eqb (f_name f) n) hasp s) as [s' [f|o|e]]; destruct H as (F1 & F2 & F3);
      (split; [assumption|]; split; [auto|cbn; auto]). destruct F3; congruence.
  - unfold get_index. destruct (i <? 0); [split; [assumption|]; split; [apply prefix_refl|cbn; auto]|].
    pose proof (hist_read_more autofix hasp (Z.to_nat (i + 1 - zlen (fields s))) s z Hs) as H.
    destruct (read_more autofix hasp (Z.to_nat (i + 1 - zlen (fields s))) s) as [s' [e|]]; destruct H as (F1 & F2 & F3).
    + split; [assumption|]. split; [auto|]. intros E. specialize (F3 E). discriminate.
    + destruct (nth_error (fields s') (Z.to_nat i)); (split; [assumption|]; split; [auto|cbn; auto]).
  - pose proof (hist_read_more autofix hasp n s z Hs) as H.
    destruct (read_more autofix hasp n s) as [s' [e|]]; destruct H as (F1 & F2 & F3);
      (split; [assumption|]; split; [auto|cbn; auto]). intros E. specialize (F3 E). discriminate.
  - unfold iter_next. destruct (nth_error (fields s) done); [split; [assumption|]; split; [apply prefix_refl|cbn; auto]|].
    destruct (resume s); [|split; [assumption|]; split; [apply prefix_refl|cbn; auto]].
    unfold step. pose proof (Hfeed autofix (fun _ => true) hasp s z Hs) as H.
    destruct (feed_from autofix (fun _ => true) hasp s) as [s' [f|[o|]|e]]; destruct H as (F1 & F2 & F3);
      (split; [assumption|]; split; [auto|cbn; auto]). destruct F3; congruence.
  - pose proof (Hfields _ _ Hs) as Hgood.
    assert (Hh : forall x z0, sane z0 x -> sane z0 (fst (do_access autofix true a x))).
    { intros x z0 Hx. specialize (IHa true x z0 Hx). destruct (do_access autofix true a x). apply IHa. }
    assert (Hr : autofix = true -> forall x z0, sane z0 x -> asked_wrong (snd (do_access autofix true a x))).
    { intros E x z0 Hx. specialize (IHa true x z0 Hx). destruct (do_access autofix true a x). apply IHa. assumption. }
    destruct (in_child_good n (do_access autofix true a) (fields s) Hh Hgood) as [G1 G2].
    pose proof (fun E => in_child_answer n (do_access autofix true a) (fields s) (Hr E) Hgood) as G3.
    destruct (in_child n (do_access autofix true a) (fields s)) as [l r]. cbn [fst snd] in *.
    split; [apply (Hput z s l Hs); assumption|]. cbn [fields]. rewrite G2. split; [apply prefix_refl|assumption].
Qed.
Lemma hist_accesses autofix ops : forall s z, sane z s ->
  let '(s', rs) := do_accesses autofix ops s in
  sane z s' /\ prefix (layout (fields s)) (layout (fields s')) /\ (autofix = true -> Forall asked_wrong rs).
Proof using Hsize Hfields Hput Hfeed.
  induction ops as [|a ops IH]; intros s z Hs; cbn [do_accesses].
  - split; [assumption|]. split; [apply prefix_refl|constructor].
  - pose proof (hist_access autofix a false s z Hs) as H. destruct (do_access autofix false a s) as [s1 r].
    destruct H as (H1 & H2 & H3). specialize (IH s1 z H1). destruct (do_accesses autofix ops s1) as [s2 rs].
    destruct IH as (I1 & I2 & I3). split; [assumption|]. split; [eapply prefix_trans; eassumption|].
    intros E. constructor; auto.
Qed.
Lemma hist_set_at path : forall s z, sane z s -> forall s', set_at path s = Some s' -> exists z', sane z' s'.
Proof using Hfields.
  induction path as [|n path IH]; intros s z Hs s'; cbn [set_at].
  - intros E. injection E as <-. eauto.
  - destruct (find_name (fields s) n) as [[fn fa fz|fn fa x]|] eqn:Ef; try discriminate.
    apply find_name_in in Ef. destruct Ef as [Ef _]. pose proof (Hfields _ _ Hs) as Hg.
    rewrite Forall_forall in Hg. destruct (Hg _ Ef) as (z1 & _ & Hx). eapply IH. eassumption.
Qed.
End Hist.

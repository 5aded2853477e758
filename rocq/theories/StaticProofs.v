From Verif Require Import Base BaseProofs DictModel DictProofs StaticModel StaticSpec.
Ltac Zify.zify_post_hook ::= Z.div_mod_to_equations.

Scheme has_size_mut := Induction for has_size Sort Prop with items_size_mut := Induction for items_size Sort Prop.
Combined Scheme has_size_ind2 from has_size_mut, items_size_mut.
Lemma leaf_proper l : proper l -> leaf_static l = Ok (leaf_size l).
Proof. destruct l; cbn; intros H; try contradiction; reflexivity. Qed.

Section T.
Context (table : list cls) (Hwf : well_formed table) (Hnr : no_redefinition table) (Hpl : proper_leaves table).

Lemma format_det c : forall i1 i2, has_format table c i1 -> has_format table c i2 -> i1 = i2.
Proof using.
  intros i1 i2 H1. revert i2. induction H1 as [c k items Hc Hf|c k b items Hc Hf Hb H IH]; intros i2 H2.
  - inversion H2; subst; congruence.
  - inversion H2; subst; [congruence|]. assert (k0 = k) by congruence. subst. assert (b0 = b) by congruence. subst. auto.
Qed.
Lemma size_det :
  (forall c z, has_size table c z -> forall z', has_size table c z' -> z = z') /\
  (forall l z, items_size table l z -> forall z', items_size table l z' -> z = z').
Proof using.
  apply has_size_ind2.
  - intros c items z Hf Hi IH z' H. inversion H; subst. rewrite (format_det c _ _ Hf H0) in *. auto.
  - intros z' H. inversion H. reflexivity.
  - intros l items z Hi IH z' H. inversion H; subst. f_equal. auto.
  - intros d items n z Hd IHd Hi IHi z' H. inversion H; subst. f_equal; auto.
Qed.
Lemma look_eq {A} (own : nat -> option A) fuel c : look table own fuel c =
  match own c with
  | Some a => Some a
  | None => match fuel, nth_error table c with
            | S fuel, Some k => match c_base k with Some b => look table own fuel b | None => None end
            | _, _ => None end
  end.
Proof using. destruct fuel; reflexivity. Qed.
Lemma format_of_spec : forall c fuel, (c <= fuel)%nat -> forall items, has_format table c items <-> look table (own_format table) fuel c = Some items.
Proof using Hwf.
  induction c as [c IH] using lt_wf_ind. intros fuel Hf items. rewrite look_eq. unfold own_format at 1. split.
  - intros H. destruct H as [c k items Hc Hk|c k b items Hc Hk Hb H]; rewrite Hc, Hk; [reflexivity|].
    destruct (Hwf c k Hc) as [Hlt _]. specialize (Hlt b Hb). destruct fuel as [|fuel]; [lia|]. rewrite Hb.
    apply (IH b Hlt fuel); [lia|assumption].
  - destruct (nth_error table c) as [k|] eqn:Hc; [|destruct fuel; discriminate]. destruct (c_format k) as [i|] eqn:Hk.
    + intros E. injection E as ->. eapply hf_own; eassumption.
    + destruct fuel as [|fuel]; [discriminate|]. destruct (c_base k) as [b|] eqn:Hb; [|discriminate]. intros E.
      destruct (Hwf c k Hc) as [Hlt _]. specialize (Hlt b Hb). eapply hf_base; try eassumption. apply (IH b Hlt fuel); [lia|assumption].
Qed.
Lemma format_ids c items d : has_format table c items -> In (ISet d) items -> (d < c)%nat.
Proof using Hwf.
  induction 1 as [c k items Hc Hf|c k b items Hc Hf Hb H IH]; intros Hin.
  - destruct (Hwf c k Hc) as [_ H]. eauto.
  - destruct (Hwf c k Hc) as [Hlt _]. specialize (Hlt b Hb). specialize (IH Hin). lia.
Qed.
Lemma format_leaves c items l : has_format table c items -> In (ILeaf l) items -> proper l.
Proof using Hpl. induction 1; intros Hin; eauto. Qed.
(** A base with a format has the same size. *)
Lemma base_size c k b z : nth_error table c = Some k -> c_base k = Some b -> has_size table b z -> has_size table c z.
Proof using Hnr.
  intros Hc Hb H. inversion H; subst. econstructor; [|eassumption]. eapply hf_base; try eassumption. eapply Hnr; eassumption.
Qed.

Record inv (st : cstate) : Prop := {
  inv_format : forall c, a_class (st c) <> None -> exists items, has_format table c items;
  inv_size : forall c z, a_size (st c) = Some z -> has_size table c z;
  inv_class : forall c z, a_class (st c) <> None -> has_size table c z -> a_size (st c) = Some z }.
Lemma static_of_sound st : inv st -> forall c fuel z, look table (fun d => a_size (st d)) fuel c = Some z -> has_size table c z.
Proof using Hnr.
  intros Hi. intros c fuel. revert c. induction fuel as [|fuel IH]; intros c z; rewrite look_eq.
  - destruct (a_size (st c)) eqn:E; [|discriminate]. intros H. injection H as <-. eapply inv_size; eassumption.
  - destruct (a_size (st c)) eqn:E; [intros H; injection H as <-; eapply inv_size; eassumption|].
    destruct (nth_error table c) as [k|] eqn:Ec; [|discriminate]. destruct (c_base k) as [b|] eqn:Eb; [|discriminate].
    intros H. eapply base_size; try eassumption. eauto.
Qed.
Lemma compute_ok st : inv st -> forall fuel c z, (c < fuel)%nat -> has_size table c z -> compute table fuel st c = Ok z.
Proof using Hwf Hnr Hpl.
  intros Hi. induction fuel as [|fuel IH]; intros c z Hlt Hs; [lia|]. cbn [compute]. destruct Hs as [c items z Hf Hz].
  unfold format_of. rewrite (proj1 (format_of_spec c c (le_n c) items) Hf).
  assert (Hids : forall d, In (ISet d) items -> (d < fuel)%nat) by (intros d Hd; pose proof (format_ids c items d Hf Hd); lia).
  assert (Hlv : forall l, In (ILeaf l) items -> proper l) by (intros l; exact (format_leaves c items l Hf)).
  clear Hf. induction Hz as [|l items z Hz IHz|d items n z Hd Hz IHz]; cbn [fold_right].
  - reflexivity.
  - rewrite leaf_proper by (apply Hlv; left; reflexivity). cbn [bind].
    rewrite IHz; [reflexivity|intros; apply Hids; right; assumption|intros; apply Hlv; right; assumption].
  - assert (E : match static_of table st d with Some z => Ok z | None => compute table fuel st d end = Ok n).
    { unfold static_of. destruct (look table (fun d0 => a_size (st d0)) d d) as [m|] eqn:E.
      - f_equal. exact (proj1 size_det d m (static_of_sound st Hi d d m E) n Hd).
      - apply IH; [apply Hids; left; reflexivity|assumption]. }
    rewrite E. cbn [bind]. rewrite IHz; [reflexivity|intros; apply Hids; right; assumption|intros; apply Hlv; right; assumption].
Qed.
(** Conversely a computed size is the right one. *)
Lemma compute_sound st : inv st -> forall fuel c z, compute table fuel st c = Ok z -> has_size table c z.
Proof using Hwf Hnr Hpl.
  intros Hi. induction fuel as [|fuel IH]; intros c z; cbn [compute]; [discriminate|].
  destruct (format_of table c) as [items|] eqn:Ef; [|discriminate]. apply (proj2 (format_of_spec c c (le_n c) items)) in Ef.
  intros H. econstructor; [eassumption|].
  assert (Hlv : forall l, In (ILeaf l) items -> proper l) by (intros l; exact (format_leaves c items l Ef)). clear Ef.
  revert z H. induction items as [|i items IHi]; intros z; cbn [fold_right].
  - intros E. injection E as <-. constructor.
  - destruct i as [l|d].
    + rewrite leaf_proper by (apply Hlv; left; reflexivity). cbn [bind].
      destruct (fold_right _ _ items) as [m|e]; cbn [bind]; [|discriminate]. intros E. injection E as <-. constructor.
      apply IHi; [intros; apply Hlv; right; assumption|reflexivity].
    + destruct (match static_of table st d with Some z => Ok z | None => compute table fuel st d end) as [n|e] eqn:E; cbn [bind]; [|discriminate].
      destruct (fold_right _ _ items) as [m|e]; cbn [bind]; [|discriminate]. intros E'. injection E' as <-. constructor.
      * unfold static_of in E. destruct (look table (fun d0 => a_size (st d0)) d d) as [q|] eqn:Eq.
        -- injection E as ->. eapply static_of_sound; eassumption.
        -- apply IH. assumption.
      * apply IHi; [intros; apply Hlv; right; assumption|reflexivity].
Qed.
Lemma no_class st : inv st -> forall b fuel n, (forall i, ~ has_format table b i) -> look table (fun d => a_class (st d)) fuel b = Some n -> False.
Proof using.
  intros Hi b fuel. revert b. induction fuel as [|fuel IH]; intros b n Hno; rewrite look_eq.
  - destruct (a_class (st b)) eqn:E; [|discriminate]. intros _. destruct (inv_format st Hi b) as [i H]; [congruence|]. exact (Hno i H).
  - destruct (a_class (st b)) eqn:E.
    + intros _. destruct (inv_format st Hi b) as [i H]; [congruence|]. exact (Hno i H).
    + destruct (nth_error table b) as [k|] eqn:Ek; [|discriminate]. destruct (c_base k) as [b'|] eqn:Eb; [|discriminate].
      apply IH. intros i H. destruct (c_format k) as [i'|] eqn:Ef.
      * exact (Hno i' (hf_own table b k i' Ek Ef)).
      * exact (Hno i (hf_base table b k b' i Ek Ef Eb H)).
Qed.
Lemma look_class st : inv st -> forall c fuel n z, look table (fun d => a_class (st d)) fuel c = Some n -> has_size table c z ->
  exists z', look table (fun d => a_size (st d)) fuel c = Some z'.
Proof using Hnr.
  intros Hi c fuel. revert c. induction fuel as [|fuel IH]; intros c n z; rewrite look_eq; intros H Hs; rewrite look_eq.
  - destruct (a_class (st c)) eqn:E; [|discriminate]. rewrite (inv_class st Hi c z); [eauto|congruence|assumption].
  - destruct (a_class (st c)) eqn:E.
    + rewrite (inv_class st Hi c z); [eauto|congruence|assumption].
    + destruct (a_size (st c)); [eauto|]. destruct (nth_error table c) as [k|] eqn:Ec; [|discriminate].
      destruct (c_base k) as [b|] eqn:Eb; [|discriminate].
      (* the base has a class attribute, hence was instantiated: it has a format *)
      destruct Hs as [c items z Hf Hz]. inversion Hf; subst.
      * (* own format: the base has none *) 
        exfalso. assert (k0 = k) by congruence. subst k0. clear Hf.
        assert (Hno : forall i, ~ has_format table b i) by (intros i Hb; rewrite (Hnr c k b i Ec Eb Hb) in H1; discriminate).
        exact (no_class st Hi b fuel n Hno H).
      * assert (k0 = k) by congruence. subst k0. assert (b0 = b) by congruence. subst b0.
        eapply IH; [eassumption|]. econstructor; eassumption.
Qed.
Lemma inv_init : inv cinit.
Proof using. split; cbn; intros; congruence. Qed.
Lemma set_attrs_same st c a : set_attrs st c a c = a.
Proof using. unfold set_attrs. rewrite Nat.eqb_refl. reflexivity. Qed.
Lemma set_attrs_other st c a d : d <> c -> set_attrs st c a d = st d.
Proof using. unfold set_attrs. intros H. destruct (Nat.eqb_spec d c); [contradiction|reflexivity]. Qed.

(** Changing [_class] does not change what is computed. *)
Lemma look_ext {A} (f g : nat -> option A) fuel c : (forall d, f d = g d) -> look table f fuel c = look table g fuel c.
Proof using. intros E. revert c. induction fuel as [|fuel IH]; intros c; rewrite !look_eq, E; destruct (g c); try reflexivity.
  destruct (nth_error table c) as [k|]; [|reflexivity]. destruct (c_base k); [apply IH|reflexivity]. Qed.
Lemma compute_ext st st' : (forall d, a_size (st d) = a_size (st' d)) -> forall fuel c, compute table fuel st c = compute table fuel st' c.
Proof using.
  intros E. induction fuel as [|fuel IH]; intros c; cbn [compute]; [reflexivity|]. destruct (format_of table c) as [items|]; [|reflexivity].
  induction items as [|i items IHi]; cbn [fold_right]; [reflexivity|]. rewrite IHi. destruct i as [l|d]; [reflexivity|].
  unfold static_of. rewrite (look_ext (fun d => a_size (st d)) (fun d => a_size (st' d))) by exact E. rewrite IH. reflexivity.
Qed.
Lemma class_only st c n : forall d, a_size (set_attrs st c {| a_class := n; a_size := a_size (st c) |} d) = a_size (st d).
Proof using. intros d. destruct (Nat.eq_dec d c) as [->|H]; [rewrite set_attrs_same; reflexivity|rewrite set_attrs_other by assumption; reflexivity]. Qed.

Lemma instance_ok st c : inv st -> inv (fst (instance table st c)) /\ (forall z, has_size table c z -> snd (instance table st c) = Ok z).
Proof using Hwf Hnr Hpl.
  intros Hi. unfold instance. destruct (format_of table c) as [items|] eqn:Ef.
  2:{ split; [assumption|]. intros z Hs. inversion Hs as [c' items z' Hf Hz]; subst. apply (proj1 (format_of_spec c c (le_n c) items)) in Hf. unfold format_of in Ef. congruence. }
  apply (proj2 (format_of_spec c c (le_n c) items)) in Ef.
  destruct (nth_error table c) as [k|] eqn:Ec; [|exfalso; destruct Ef; congruence].
  set (fresh := match class_of table st c with Some n => negb (str_eqb n (c_name k)) | None => true end).
  destruct fresh eqn:Efr.
  - set (st1 := set_attrs st c {| a_class := Some (c_name k); a_size := a_size (st c) |}).
    rewrite (compute_ext st1 st) by apply class_only.
    destruct (compute table (S c) st c) as [z|e] eqn:E; cbn [fst snd bind].
    + pose proof (compute_sound st Hi (S c) c z E) as Hz.
      assert (Hst : static_of table (set_attrs st1 c {| a_class := Some (c_name k); a_size := Some z |}) c = Some z)
        by (unfold static_of; rewrite look_eq, set_attrs_same; reflexivity).
      split.
      * split; intros d.
        -- destruct (Nat.eq_dec d c) as [->|H]; [eauto|]. rewrite set_attrs_other by assumption. unfold st1. rewrite set_attrs_other by assumption. apply (inv_format st Hi).
        -- intros z0. destruct (Nat.eq_dec d c) as [->|H]; [rewrite set_attrs_same; cbn; congruence|]. rewrite set_attrs_other by assumption. unfold st1. rewrite set_attrs_other by assumption. apply (inv_size st Hi).
        -- intros z0. destruct (Nat.eq_dec d c) as [->|H].
           ++ rewrite set_attrs_same. cbn. intros _ Hz0. f_equal. exact (proj1 size_det c z Hz z0 Hz0).
           ++ rewrite set_attrs_other by assumption. unfold st1. rewrite set_attrs_other by assumption. apply (inv_class st Hi).
      * intros z0 Hz0. rewrite Hst. f_equal. exact (proj1 size_det c z Hz z0 Hz0).
    + split.
      * split; intros d.
        -- destruct (Nat.eq_dec d c) as [->|H]; [eauto|]. unfold st1. rewrite set_attrs_other by assumption. apply (inv_format st Hi).
        -- intros z0. unfold st1. rewrite class_only. apply (inv_size st Hi).
        -- intros z0. destruct (Nat.eq_dec d c) as [->|H].
           ++ intros _ Hz0. rewrite (compute_ok st Hi (S c) c z0) in E; [discriminate|lia|assumption].
           ++ unfold st1. rewrite set_attrs_other by assumption. apply (inv_class st Hi).
      * intros z0 Hz0. rewrite (compute_ok st Hi (S c) c z0) in E; [discriminate|lia|assumption].
  - cbn [fst snd bind]. split; [assumption|]. intros z Hz. unfold fresh in Efr. destruct (class_of table st c) as [n|] eqn:En; [|discriminate].
    destruct (look_class st Hi c c n z En Hz) as [z' Hz']. unfold static_of. rewrite Hz'. f_equal.
    exact (proj1 size_det c z' (static_of_sound st Hi c c z' Hz') z Hz).
Qed.
Lemma instances_inv l : forall st, inv st -> inv (instances table st l).
Proof using Hwf Hnr Hpl. induction l as [|c l IH]; intros st Hi; [exact Hi|]. cbn [instances]. apply IH. apply instance_ok. assumption. Qed.
Lemma static_lemma l c z : has_size table c z -> snd (instance table (instances table cinit l) c) = Ok z.
Proof using Hwf Hnr Hpl. intros Hz. apply instance_ok; [|assumption]. apply instances_inv, inv_init. Qed.
End T.

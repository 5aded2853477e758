From Verif Require Import Base BaseProofs DictModel DictProofs ToolsModel FieldModel FieldSpec FieldSpec2 FieldNames FieldProofs FieldProofs2 FieldEdit.
From Coq Require Import FinFun.
Ltac Zify.zify_post_hook ::= Z.div_mod_to_equations.

Section Array.
Context (l : list field) (key : str) (n : nat) (Hn : array_of l key n).

Lemma item_some i : (i < n)%nat -> exists f, item l key i = Some f /\ In f l /\ f_name f = array_name key (Z.of_nat i).
Proof using Hn.
  intros Hi. apply Hn in Hi. unfold item, find_name. destruct (find (fun f => str_eqb (array_name key (Z.of_nat i)) (f_name f)) l) as [f|] eqn:E.
  - apply find_some in E. destruct E as [E1 E2]. apply str_eqb_eq in E2. exists f. auto.
  - exfalso. apply in_map_iff in Hi. destruct Hi as (f & Hf & Hin). pose proof (find_none _ _ E f Hin) as Hx. cbn in Hx.
    rewrite Hf, str_eqb_refl in Hx. discriminate.
Qed.
Lemma item_none i : (n <= i)%nat -> item l key i = None.
Proof using Hn.
  intros Hi. unfold item, find_name. destruct (find (fun f => str_eqb (array_name key (Z.of_nat i)) (f_name f)) l) as [f|] eqn:E; [|reflexivity].
  exfalso. apply find_some in E. destruct E as [E1 E2]. apply str_eqb_eq in E2.
  assert (i < n)%nat by (apply Hn; rewrite E2; apply in_map; assumption). lia.
Qed.
Lemma n_small : (n <= length l)%nat.
Proof using Hn.
  rewrite <- (map_length f_name l). rewrite <- (seq_length n 0), <- (map_length (fun i => array_name key (Z.of_nat i))).
  apply NoDup_incl_length.
  - apply FinFun.Injective_map_NoDup; [|apply seq_NoDup]. intros a b E. apply array_name_inj in E; lia.
  - intros x Hx. apply in_map_iff in Hx. destruct Hx as (i & <- & Hi). apply in_seq in Hi. apply Hn. lia.
Qed.
Record inv (a : farray) : Prop := {
  inv_cache : forall i f, fa_lookup (fa_cache a) i = Some f -> item l key i = Some f /\ Z.of_nat i <= fa_max a;
  inv_empty : fa_cache a = [] \/ (0 < n)%nat;
  inv_max : -1 <= fa_max a < Z.of_nat n \/ fa_max a = -1 }.
Definition measured (a : farray) : Prop := fa_known a = true -> fa_max a = Z.of_nat n - 1.

Lemma get_inv i a : inv a -> let '(a', r) := fa_get l key i a in
  inv a' /\ fa_max a <= fa_max a' /\
  (if (i <? n)%nat then (exists f, r = Ok f /\ item l key i = Some f) /\ Z.of_nat i <= fa_max a' /\ fa_known a' = fa_known a
   else r = Err MissingField /\ a' = {| fa_cache := fa_cache a; fa_known := true; fa_max := fa_max a |}).
Proof using Hn.
  intros [H1 H2 H3]. unfold fa_get. destruct (fa_lookup (fa_cache a) i) as [f|] eqn:El.
  - destruct (H1 _ _ El) as [G1 G2]. split; [constructor; assumption|]. split; [lia|].
    destruct (i <? n)%nat eqn:Ei; [split; [eauto|auto]|]. rewrite item_none in G1 by (apply Nat.ltb_ge; assumption). discriminate.
  - fold (item l key i). destruct (i <? n)%nat eqn:Ei.
    + apply Nat.ltb_lt in Ei. destruct (item_some i Ei) as (f & Hf & _). rewrite Hf. cbn [fa_cache fa_known fa_max].
      split; [constructor; cbn [fa_cache fa_known fa_max]|].
      * intros j g. unfold fa_lookup. cbn [find fst]. destruct (Nat.eqb j i) eqn:Ej.
        -- apply Nat.eqb_eq in Ej. subst j. intros E. injection E as <-. split; [assumption|lia].
        -- intros E. fold (fa_lookup (fa_cache a) j) in E. destruct (H1 _ _ E). split; [assumption|lia].
      * right. lia.
      * left. lia.
      * split; [lia|]. split; [eauto|]. split; [lia|reflexivity].
    + apply Nat.ltb_ge in Ei. rewrite item_none by assumption. split; [constructor; assumption|]. split; [cbn; lia|]. auto.
Qed.
Lemma from_inv fuel : forall i a, inv a -> (i <= n)%nat -> (n - i < fuel)%nat ->
  exists fs, let '(a', r) := fa_from fuel l key i a in
  inv a' /\ r = Ok fs /\ map f_name fs = map (fun j => array_name key (Z.of_nat j)) (seq i (n - i)) /\ incl fs l /\
  fa_known a' = true /\ fa_max a <= fa_max a' /\ ((i < n)%nat -> fa_max a' = Z.of_nat n - 1).
Proof using Hn.
  induction fuel as [|fuel IH]; intros i a Ha Hi Hf; [lia|]. cbn [fa_from].
  pose proof (get_inv i a Ha) as Hg. destruct (fa_get l key i a) as [a1 r]. destruct Hg as (G1 & G2 & G3).
  destruct (i <? n)%nat eqn:Ei.
  - apply Nat.ltb_lt in Ei. destruct G3 as ((f & -> & Hit) & G4 & G5). destruct (IH (S i) a1 G1 ltac:(lia) ltac:(lia)) as (fs & Hfs).
    destruct (fa_from fuel l key (S i) a1) as [a2 r2]. destruct Hfs as (F1 & -> & F3 & F4 & F5 & F6 & F7).
    exists (f :: fs). cbn [bind]. split; [assumption|]. split; [reflexivity|].
    destruct (item_some i Ei) as (f' & Hf' & Hin & Hnm). rewrite Hit in Hf'. injection Hf' as <-.
    split; [|split; [|split; [assumption|split; [lia|]]]].
    + replace (n - i)%nat with (S (n - S i)) by lia. cbn [seq map]. f_equal; assumption.
    + intros x [<-|Hx]; auto.
    + intros _. destruct (Nat.eq_dec (S i) n) as [E|E]; [|apply F7; lia].
      destruct F1 as [_ _ F1]. lia.
  - destruct G3 as [-> ->]. apply Nat.ltb_ge in Ei. exists []. split; [assumption|]. split; [reflexivity|].
    replace (n - i)%nat with O by lia. cbn. split; [reflexivity|]. split; [intros x []|]. split; [reflexivity|]. split; lia.
Qed.
(** Everything except the length is right whatever was asked before. *)
Lemma do_inv o a : inv a -> let '(a', r) := fa_do l key o a in inv a' /\ (o <> FLen -> should l key n o r).
Proof using Hn.
  intros Ha. destruct o as [i|i| | |]; cbn [fa_do].
  - pose proof (get_inv i a Ha) as Hg. destruct (fa_get l key i a) as [a1 r]. destruct Hg as (G1 & _ & G3). split; [assumption|]. intros _. cbn [should].
    destruct (i <? n)%nat eqn:Ei.
    + destruct G3 as ((f & -> & ->) & _). reflexivity.
    + apply Nat.ltb_ge in Ei. rewrite item_none by assumption. apply G3.
  - pose proof (get_inv i a Ha) as Hg. destruct (fa_get l key i a) as [a1 r]. destruct Hg as (G1 & _ & G3). split; [assumption|]. intros _. cbn [should].
    destruct (i <? n)%nat eqn:Ei; [destruct G3 as ((f & -> & _) & _)|destruct G3 as [-> _]]; reflexivity.
  - unfold fa_len. destruct (fa_known a); [split; [assumption|congruence]|].
    pose proof Ha as [_ _ Hm]. destruct (from_inv (S (S (length l))) (Z.to_nat (fa_max a + 1)) a Ha ltac:(lia)) as (fs & Hfs); [pose proof n_small; lia|].
    destruct (fa_from (S (S (length l))) l key (Z.to_nat (fa_max a + 1)) a) as [a1 r]. split; [apply Hfs|congruence].
  - destruct (from_inv (S (S (length l))) 0 a Ha ltac:(lia)) as (fs & Hfs); [pose proof n_small; lia|].
    destruct (fa_from (S (S (length l))) l key 0 a) as [a1 r]. destruct Hfs as (F1 & F2 & F3 & F4 & _). split; [assumption|].
    intros _. cbn [should]. exists fs. rewrite Nat.sub_0_r in F3. auto.
  - unfold fa_bool. destruct (fa_cache a) as [|c cs] eqn:Ec.
    + pose proof (get_inv 0 a Ha) as Hg. destruct (fa_get l key 0 a) as [a1 r]. destruct Hg as (G1 & _ & G3). split; [assumption|]. intros _. cbn [should].
      destruct (0 <? n)%nat eqn:Ei; [destruct G3 as ((f & -> & _) & _)|destruct G3 as [-> _]]; reflexivity.
    + split; [assumption|]. intros _. cbn [should]. destruct Ha as [_ [H|H] _]; [congruence|]. symmetry. apply Nat.ltb_lt. assumption.
Qed.
Lemma len_right a : inv a -> measured a -> let '(a', r) := fa_len l key a in r = Ok (Z.of_nat n) /\ measured a' /\ inv a'.
Proof using Hn.
  intros Ha Hm. unfold fa_len. destruct (fa_known a) eqn:Ek.
  - specialize (Hm Ek). split; [f_equal; lia|]. split; [|assumption]. intros _. assumption.
  - pose proof Ha as [_ _ Hx]. destruct (from_inv (S (S (length l))) (Z.to_nat (fa_max a + 1)) a Ha ltac:(lia)) as (fs & Hfs); [pose proof n_small; lia|].
    destruct (fa_from (S (S (length l))) l key (Z.to_nat (fa_max a + 1)) a) as [a1 r]. destruct Hfs as (F1 & -> & F3 & F4 & F5 & F6 & F7).
    apply (f_equal (@length str)) in F3. rewrite !map_length, seq_length in F3. cbn [bind]. unfold zlen. rewrite F3.
    split; [f_equal; lia|]. split; [|assumption]. intros _. pose proof F1 as [_ _ Fm].
    destruct (Nat.eq_dec (Z.to_nat (fa_max a + 1)) n); lia.
Qed.
(** Once measured, always measured. *)
Lemma measured_keeps o a : inv a -> fa_known a = true -> measured a ->
  let '(a', r) := fa_do l key o a in fa_known a' = true /\ measured a' /\ should l key n o r.
Proof using Hn.
  intros Ha Hk Hm. pose proof (do_inv o a Ha) as Hd. pose proof (Hm Hk) as Hmax. pose proof Ha as [_ _ Hx].
  destruct o as [i|i| | |]; cbn [fa_do] in *.
  - pose proof (get_inv i a Ha) as Hg. destruct (fa_get l key i a) as [a1 r]. destruct Hd as [D1 D2]. destruct Hg as ([_ _ G1] & G2 & G3).
    destruct (i <? n)%nat; [destruct G3 as (_ & _ & G3)|destruct G3 as (_ & ->)]; (split; [cbn; congruence|]; split; [|apply D2; discriminate]);
      intros _; cbn in *; lia.
  - pose proof (get_inv i a Ha) as Hg. destruct (fa_get l key i a) as [a1 r]. destruct Hd as [D1 D2]. destruct Hg as ([_ _ G1] & G2 & G3).
    destruct (i <? n)%nat; [destruct G3 as (_ & _ & G3)|destruct G3 as (_ & ->)]; (split; [cbn; congruence|]; split; [|apply D2; discriminate]);
      intros _; cbn in *; lia.
  - pose proof (len_right a Ha Hm) as Hl. unfold fa_len in *. rewrite Hk in *. destruct Hl as (L1 & L2 & L3). auto.
  - destruct (from_inv (S (S (length l))) 0 a Ha ltac:(lia)) as (fs & Hfs); [pose proof n_small; lia|].
    destruct (fa_from (S (S (length l))) l key 0 a) as [a1 r]. destruct Hfs as ([_ _ F1] & F2 & F3 & F4 & F5 & F6 & F7). split; [assumption|].
    split; [intros _; lia|]. apply Hd. discriminate.
  - unfold fa_bool in *. destruct (fa_cache a) as [|c cs] eqn:Ec.
    + pose proof (get_inv 0 a Ha) as Hg. destruct (fa_get l key 0 a) as [a1 r]. destruct Hd as [D1 D2]. destruct Hg as ([_ _ G1] & G2 & G3).
      destruct (0 <? n)%nat; [destruct G3 as (_ & _ & G3)|destruct G3 as (_ & ->)]; (split; [cbn; congruence|]; split; [|apply D2; discriminate]);
        intros _; cbn in *; lia.
    + split; [assumption|]. split; [assumption|]. apply Hd. discriminate.
Qed.
Lemma run_measured ops : forall a, inv a -> fa_known a = true -> measured a ->
  Forall2 (should l key n) ops (snd (fa_run l key ops a)).
Proof using Hn.
  induction ops as [|o ops IH]; intros a Ha Hk Hm; cbn [fa_run]; [constructor|].
  pose proof (measured_keeps o a Ha Hk Hm) as H. pose proof (do_inv o a Ha) as Hi. destruct (fa_do l key o a) as [a1 r].
  destruct H as (H1 & H2 & H3). destruct Hi as [Hi _]. specialize (IH a1 Hi H1 H2). destruct (fa_run l key ops a1) as [a2 rs].
  constructor; assumption.
Qed.
Lemma run_careful ops : forall a, inv a -> measured a -> (n = O \/ careful n ops) ->
  Forall2 (should l key n) ops (snd (fa_run l key ops a)).
Proof using Hn.
  induction ops as [|o ops IH]; intros a Ha Hm Hc; cbn [fa_run]; [constructor|].
  destruct (fa_known a) eqn:Ek.
  { pose proof (run_measured (o :: ops) a Ha Ek Hm) as H. exact H. }
  pose proof (do_inv o a Ha) as Hi.
  assert (Hstep : let '(a', r) := fa_do l key o a in measured a' /\ (o = FLen -> should l key n o r)).
  { destruct o as [i|i| | |]; cbn [fa_do].
    - pose proof (get_inv i a Ha) as Hg. destruct (fa_get l key i a) as [a1 r]. destruct Hg as ([_ _ G1] & G2 & G3). split; [|discriminate].
      destruct (i <? n)%nat eqn:Ei; [destruct G3 as (_ & _ & G3); intros Hk; congruence|]. destruct G3 as [_ ->]. apply Nat.ltb_ge in Ei.
      destruct Hc as [->|[Hc _]]; [|lia]. intros _. cbn in *. lia.
    - pose proof (get_inv i a Ha) as Hg. destruct (fa_get l key i a) as [a1 r]. destruct Hg as ([_ _ G1] & G2 & G3). split; [|discriminate].
      destruct (i <? n)%nat eqn:Ei; [destruct G3 as (_ & _ & G3); intros Hk; congruence|]. destruct G3 as [_ ->]. apply Nat.ltb_ge in Ei.
      destruct Hc as [->|[Hc _]]; [|lia]. intros _. cbn in *. lia.
    - pose proof (len_right a Ha Hm) as Hl. destruct (fa_len l key a) as [a1 r]. destruct Hl as (L1 & L2 & L3). split; [assumption|]. intros _. exact L1.
    - destruct (from_inv (S (S (length l))) 0 a Ha ltac:(lia)) as (fs & Hfs); [pose proof n_small; lia|].
      destruct (fa_from (S (S (length l))) l key 0 a) as [a1 r]. destruct Hfs as ([_ _ F1] & F2 & F3 & F4 & F5 & F6 & F7).
      split; [|discriminate]. intros _. destruct (Nat.eq_dec n 0); [lia|]. apply F7. lia.
    - unfold fa_bool. destruct (fa_cache a); [|split; [assumption|discriminate]].
      pose proof (get_inv 0 a Ha) as Hg. destruct (fa_get l key 0 a) as [a1 r]. destruct Hg as ([_ _ G1] & G2 & G3). split; [|discriminate].
      destruct (0 <? n)%nat eqn:Ei; [destruct G3 as (_ & _ & G3); intros Hk; congruence|]. destruct G3 as [_ ->]. apply Nat.ltb_ge in Ei.
      intros _. cbn in *. lia. }
  assert (Hs : should l key n o (snd (fa_do l key o a))).
  { destruct (fa_do l key o a) as [a1 r]. destruct Hi as [_ Hi], Hstep as [_ Hstep]. destruct o; try (apply Hi; discriminate). apply Hstep. reflexivity. }
  assert (Hc' : n = O \/ careful n ops \/ fa_known (fst (fa_do l key o a)) = true).
  { destruct Hc as [Hc|Hc]; [auto|]. right. destruct o as [i|i| | |]; cbn [careful] in Hc.
    - left. apply Hc.
    - left. apply Hc.
    - right. cbn [fa_do]. unfold fa_len. rewrite Ek. pose proof Ha as [_ _ Hx].
      destruct (from_inv (S (S (length l))) (Z.to_nat (fa_max a + 1)) a Ha ltac:(lia)) as (fs & Hfs); [pose proof n_small; lia|].
      destruct (fa_from (S (S (length l))) l key (Z.to_nat (fa_max a + 1)) a) as [a1 r]. apply Hfs.
    - right. cbn [fa_do]. destruct (from_inv (S (S (length l))) 0 a Ha ltac:(lia)) as (fs & Hfs); [pose proof n_small; lia|].
      destruct (fa_from (S (S (length l))) l key 0 a) as [a1 r]. apply Hfs.
    - left. assumption. }
  destruct (fa_do l key o a) as [a1 r]. destruct Hi as [Hi _], Hstep as [Hstep _]. cbn [fst snd] in *.
  assert (Hrest : Forall2 (should l key n) ops (snd (fa_run l key ops a1))).
  { destruct Hc' as [Hc'|[Hc'|Hc']]; [apply IH; auto|apply IH; auto|apply run_measured; auto]. }
  destruct (fa_run l key ops a1) as [a2 rs]. constructor; assumption.
Qed.
Lemma run_items ops : forall a, inv a -> Forall2 (fun o r => o <> FLen -> should l key n o r) ops (snd (fa_run l key ops a)).
Proof using Hn.
  induction ops as [|o ops IH]; intros a Ha; cbn [fa_run]; [constructor|].
  pose proof (do_inv o a Ha) as Hi. destruct (fa_do l key o a) as [a1 r]. destruct Hi as [Hi1 Hi2].
  specialize (IH a1 Hi1). destruct (fa_run l key ops a1) as [a2 rs]. constructor; assumption.
Qed.
Lemma init_inv : inv fa_init /\ measured fa_init.
Proof. split; [constructor; cbn|]; [discriminate|auto|auto|]. intros H. discriminate H. Qed.
End Array.

Lemma array_items l key n ops : array_of l key n ->
  Forall2 (fun o r => o <> FLen -> should l key n o r) ops (snd (fa_run l key ops fa_init)).
Proof. intros H. apply run_items; [assumption|]. apply init_inv. Qed.
Lemma array_len l key n ops : array_of l key n -> n = O \/ careful n ops ->
  Forall2 (should l key n) ops (snd (fa_run l key ops fa_init)).
Proof. intros H Hc. destruct (init_inv l key n) as [H1 H2]. exact (run_careful l key n H ops fa_init H1 H2 Hc). Qed.

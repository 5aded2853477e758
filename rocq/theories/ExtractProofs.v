(** What the assignments of an extractor leave in the metadata. *)
From Coq Require Import String.
From Verif Require Import Base BaseProofs DictModel DictProofs GenModel ExtractModel Lit.
From Verif Require Import MetaModel MetaProofs2.
From Verif Require HumanModel.
Open Scope Z_scope.
Ltac Zify.zify_post_hook ::= Z.div_mod_to_equations.

(** The texts of values can be made *)
Definition writes (e : env) : Prop := forall h v, exists t, e_handler e h v = Ok t.
Lemma create_ok e d v text : writes e -> exists it, createItem e d v text = Ok it /\ fst it = v.
Proof.
  intros W. unfold createItem. destruct text as [t|]; [eexists; split; reflexivity|]. assert (X : exists it, match d_handler d with Some h => do t <- e_handler e h v; Ok (v, t) | None => Ok (v, makeUnicode e v) end = Ok it /\ fst it = v).
  { destruct (d_handler d) as [h|]; [|eexists; split; reflexivity]. destruct (W h v) as [t ->]. eexists. split; reflexivity. }
  destruct v; auto. eexists; split; reflexivity.
Qed.
Lemma store_ok e d v text : writes e -> exists l, store e d v text = Ok l.
Proof.
  intros W. assert (C : forall v, exists l, store_checked e d v text = Ok l).
  { intros v0. unfold store_checked. cbv zeta. destruct (match d_type d with Some _ => _ | None => _ end); [eexists; reflexivity|]. set (w := match v0 with MStr s => _ | v => v end). destruct (contains _ _); [eexists; reflexivity|]. destruct (match d_filter d with Some _ => _ | None => _ end); [eexists; reflexivity|]. destruct (create_ok e d w text W) as (it & -> & _). cbn [bind]. destruct w; eexists; reflexivity. }
  unfold store. destruct v; auto. destruct (normalizeString e s); [eexists; reflexivity|auto].
Qed.
Definition some (v : mval) : Prop := match v with MNone | MBytes _ => False | _ => True end.
(** An assignment to a key without conversion changes the values of this key only *)
Lemma set_other e m key d v : writes e -> some v -> find_data m key = Some d -> d_conv d = None -> exists l, store e d v None = Ok l /\ setattr e m key (AVal v) = Ok (with_values m key l).
Proof.
  intros W N F C. destruct (store_ok e d v None W) as [l L]. exists l. split; [exact L|]. unfold setattr. rewrite F. unfold data_add. rewrite C. destruct v; try contradiction; cbn [bind fst snd]; rewrite L; reflexivity.
Qed.
Lemma store_int e d z lo hi : writes e -> d_values d = [] -> d_type d = Some [TInt] -> d_filter d = Some (NumberFilter (FNum lo 1) (FNum hi 1)) -> exists t, store e d (MInt z) None = Ok (if (lo <=? z) && (z <=? hi) then [(MInt z, t)] else []).
Proof.
  intros W V T Fi. unfold store, store_checked. rewrite V, T, Fi. cbn [existsb isinstance orb negb contains]. cbn iota. unfold filter_ok. cbn [number fl_lt]. rewrite !Z.mul_1_r. destruct (create_ok e d (MInt z) None W) as ([v t] & E & Fv). cbn [fst] in Fv. subst v. exists t.
  destruct (z <? lo) eqn:A; [replace (lo <=? z) with false by lia; reflexivity|]. replace (lo <=? z) with true by lia. cbn [negb andb]. destruct (hi <? z) eqn:B; [replace (z <=? hi) with false by lia; reflexivity|]. replace (z <=? hi) with true by lia. cbn [negb]. rewrite E. reflexivity.
Qed.
(** A key that may have one integer, between two limits *)
Definition int_key (key : string) (lo hi : Z) : Prop := exists d, find_data root (lit key) = Some d /\ d_values d = [] /\ d_type d = Some [TInt] /\ d_filter d = Some (NumberFilter (FNum lo 1) (FNum hi 1)) /\ d_conv d = None.
Definition plain_key (key : string) : Prop := exists d, find_data root (lit key) = Some d /\ d_conv d = None.
Definition in_limits (lo hi z : Z) : list mval := if (lo <=? z) && (z <=? hi) then [MInt z] else [].
Definition same (keys : list string) (m m' : meta) : Prop := forall k, ~ In k (map lit keys) -> find_data m' k = find_data m k.
Lemma assign_int e m key z lo hi : writes e -> int_key key lo hi -> find_data m (lit key) = find_data root (lit key) ->
  exists m', assign e m [(key, MInt z)] = (m', true) /\ getValues m' (lit key) = Ok (in_limits lo hi z) /\ same [key] m m'.
Proof.
  intros W (d & D & V & T & Fi & C) M. rewrite D in M. destruct (set_other e m (lit key) d (MInt z) W Logic.I M C) as (l & L & S). cbn [assign]. rewrite S. eexists. split; [reflexivity|]. split.
  - unfold getValues, getItems. rewrite (find_with_values_same _ _ _ _ M). cbn [bind set_values d_values]. destruct (store_int e d z lo hi W V T Fi) as [t E]. rewrite E in L. apply (f_equal (fun r => match r with Ok x => x | Err _ => [] end)) in L. rewrite <- L. unfold in_limits. destruct (_ && _); reflexivity.
  - intros k N. apply find_with_values_other. intros E. apply N. left. exact E.
Qed.
Lemma assign_plain e m key v : writes e -> some v -> plain_key key -> find_data m (lit key) = find_data root (lit key) -> exists m', assign e m [(key, v)] = (m', true) /\ same [key] m m'.
Proof.
  intros W N (d & D & C) M. rewrite D in M. destruct (set_other e m (lit key) d v W N M C) as (l & L & S). cbn [assign]. rewrite S. eexists. split; [reflexivity|]. intros k Nk. apply find_with_values_other. intros E. apply Nk. left. exact E.
Qed.
Lemma same_trans ks ks' m m' m'' : same ks m m' -> same ks' m' m'' -> same (ks ++ ks') m m''.
Proof. intros A B k N. rewrite map_app, in_app_iff in N. rewrite B by tauto. apply A. tauto. Qed.
Lemma same_refl ks m : same ks m m.
Proof. intros k _. reflexivity. Qed.
Lemma values_same ks m m' key : same ks m m' -> ~ In (lit key) (map lit ks) -> getValues m' (lit key) = getValues m (lit key).
Proof. intros S N. unfold getValues, getItems. rewrite (S _ N). reflexivity. Qed.
(** The MIME type and the endian *)
Lemma mime_same e m a b : find_data m (lit "mime_type") = find_data root (lit "mime_type") -> find_data m (lit "endian") = find_data root (lit "endian") -> same ["mime_type"%string; "endian"%string] m (with_mime e m a b).
Proof.
  intros A B. unfold with_mime. destruct (meta_bool m); [|apply same_refl]. assert (K : forall m key v d, some v -> find_data m (lit key) = Some d -> d_conv d = None -> same [key] m (set_or_keep e m (lit key, AVal v))).
  { intros m0 key v d N F C k Nk. unfold set_or_keep. cbn [fst snd]. unfold setattr, data_add. rewrite F, C. destruct v; try contradiction; cbn [bind fst snd]; match goal with |- context [store ?e ?d ?v ?t] => destruct (store e d v t); cbn [bind]; [|reflexivity] end; apply find_with_values_other; intros E; apply Nk; left; exact E. }
  pose proof (K m "mime_type"%string (MStr a) _ Logic.I A eq_refl) as S1. apply (same_trans ["mime_type"%string] ["endian"%string] _ _ _ S1). eapply K; [exact Logic.I|rewrite (S1 (lit "endian") ltac:(intros [X|[]]; vm_compute in X; discriminate X)), B; reflexivity|reflexivity].
Qed.
Lemma fresh key ks : forallb (fun k => negb (str_eqb (lit k) (lit key))) ks = true -> ~ In (lit key) (map lit ks).
Proof.
  intros F I. apply in_map_iff in I as (k & E & I). rewrite forallb_forall in F. specialize (F k I). rewrite E in F. replace (str_eqb (lit key) (lit key)) with true in F; [discriminate|]. symmetry. apply str_eqb_eq. reflexivity.
Qed.
(** One more assignment, for a key not yet in the metadata *)
Lemma step_int e ks m key z lo hi : writes e -> same ks root m -> int_key key lo hi -> forallb (fun k => negb (str_eqb (lit k) (lit key))) ks = true ->
  exists m', assign e m [(key, MInt z)] = (m', true) /\ same (ks ++ [key]) root m' /\ getValues m' (lit key) = Ok (in_limits lo hi z) /\ same [key] m m'.
Proof.
  intros W S K F. destruct (assign_int e m key z lo hi W K (S _ (fresh _ _ F))) as (m' & A & V & S'). exists m'. split; [exact A|]. split; [exact (same_trans _ _ _ _ _ S S')|]. split; assumption.
Qed.
Lemma step_plain e ks m key v : writes e -> some v -> same ks root m -> plain_key key -> forallb (fun k => negb (str_eqb (lit k) (lit key))) ks = true ->
  exists m', assign e m [(key, v)] = (m', true) /\ same (ks ++ [key]) root m' /\ same [key] m m'.
Proof.
  intros W N S K F. destruct (assign_plain e m key v W N K (S _ (fresh _ _ F))) as (m' & A & S'). exists m'. split; [exact A|]. split; [exact (same_trans _ _ _ _ _ S S')|assumption].
Qed.
Lemma kept ks m m' key l : same ks m m' -> forallb (fun k => negb (str_eqb (lit k) (lit key))) ks = true -> getValues m (lit key) = Ok l -> getValues m' (lit key) = Ok l.
Proof. intros S F V. rewrite (values_same ks m m' key S (fresh _ _ F)). exact V. Qed.
Lemma root_empty key d : find_data root (lit key) = Some d -> d_values d = [] -> getValues root (lit key) = Ok [].
Proof. intros F V. unfold getValues, getItems. rewrite F. cbn [bind]. rewrite V. reflexivity. Qed.
Lemma mime_step e ks m a b : same ks root m -> forallb (fun k => negb (str_eqb (lit k) (lit "mime_type")) && negb (str_eqb (lit k) (lit "endian"))) ks = true -> same ["mime_type"%string; "endian"%string] m (with_mime e m a b).
Proof.
  intros S F. rewrite forallb_forall in F. apply mime_same; apply S, fresh, forallb_forall; intros k I; specialize (F k I); apply andb_prop in F; tauto.
Qed.
(** The rate of compression *)
Lemma rate_step e ks m size : writes e -> same ks root m -> forallb (fun k => negb (str_eqb (lit k) (lit "compr_rate"))) ks = true ->
  exists m', computeComprRate e m size = (m', true) /\ same ["compr_rate"%string] m m'.
Proof.
  intros W S F. unfold computeComprRate. destruct (_ || _); [exists m; split; [reflexivity|apply same_refl]|]. destruct size; try (exists m; split; [reflexivity|apply same_refl]).
  match goal with |- context [assign e m [(_, ?v)]] => destruct (step_plain e ks m "compr_rate"%string v W Logic.I S) as (m' & A & _ & S') end; [eexists; split; reflexivity|exact F|]. exists m'. split; assumption.
Qed.
(** A key that may have a text *)
Definition text_key (key : string) : Prop := exists d, find_data root (lit key) = Some d /\ d_values d = [] /\ (d_type d = None \/ d_type d = Some [TStr]) /\ d_filter d = None /\ d_conv d = None.
(** A text kept as it is *)
Definition kept_text (e : env) (s : str) : Prop := s <> [] /\ normalizeString e s = s /\ HumanModel.normalizeNewline s = s /\ (e_max_str_length e = 0 \/ zlen s <= e_max_str_length e).
Lemma step_text e ks m key s : writes e -> kept_text e s -> same ks root m -> text_key key -> forallb (fun k => negb (str_eqb (lit k) (lit key))) ks = true ->
  exists m', assign e m [(key, MStr s)] = (m', true) /\ same (ks ++ [key]) root m' /\ getValues m' (lit key) = Ok [MStr s] /\ same [key] m m'.
Proof.
  intros W (Ne & N1 & N2 & N3) S (d & D & V & T & Fi & C) F. assert (M : find_data m (lit key) = Some d) by (rewrite (S _ (fresh _ _ F)); exact D). destruct (set_other e m (lit key) d (MStr s) W Logic.I M C) as (l & L & E). cbn [assign]. rewrite E. eexists. split; [reflexivity|].
  assert (S' : same [key] m (with_values m (lit key) l)) by (intros k Nk; apply find_with_values_other; intros X; apply Nk; left; exact X). split; [exact (same_trans _ _ _ _ _ S S')|]. split; [|exact S'].
  unfold getValues, getItems. rewrite (find_with_values_same _ _ _ _ M). cbn [bind set_values d_values]. unfold store in L. rewrite N1 in L. destruct s as [|c s0] eqn:Es; [contradiction|]. rewrite <- Es in *. clear Es c s0. unfold store_checked in L. rewrite V, Fi, N2 in L.
  replace (match d_type d with Some ((_ :: _) as ts) => negb (existsb (isinstance (MStr s)) ts) | _ => false end) with false in L by (destruct T as [-> | ->]; reflexivity). replace (negb (e_max_str_length e =? 0) && (e_max_str_length e <? zlen s)) with false in L by lia. cbn [contains] in L. destruct (create_ok e d (MStr s) None W) as (it & Ei & Fv). rewrite Ei in L. cbn [bind place] in L. injection L as <-. cbn [app map]. rewrite Fv. reflexivity.
Qed.
(** Any number of values for one key *)
Lemma steps_plain e key l : writes e -> Forall (fun kv => fst kv = key /\ some (snd kv)) l -> forall m d, find_data m (lit key) = Some d -> d_conv d = None -> exists m', assign e m l = (m', true) /\ same [key] m m'.
Proof.
  intros W K. induction K as [|[k v] l [Ek Sv] K IH]; intros m d D C; [exists m; split; [reflexivity|apply same_refl]|]. cbn [fst snd] in Ek, Sv. subst k. cbn [assign]. destruct (set_other e m (lit key) d v W Sv D C) as (vs & L & E). rewrite E.
  destruct (IH (with_values m (lit key) vs) (set_values d vs)) as (m' & A & S'); [apply find_with_values_same, D|exact C|]. exists m'. split; [exact A|]. intros k Nk. rewrite (S' k Nk). apply find_with_values_other. intros X. apply Nk. left. exact X.
Qed.
Lemma int_found m key z : getValues m (lit key) = Ok [MInt z] -> has_key m key = true /\ int_of m key = z.
Proof.
  unfold getValues, has_key, MetaModel.has, int_of, getItem. destruct (getItems m (lit key)) as [l|]; [|discriminate]. cbn [bind]. intros E. injection E as E. destruct l as [|[v t] [|]]; try discriminate E. cbn [map fst] in E. injection E as ->. split; reflexivity.
Qed.

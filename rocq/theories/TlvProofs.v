(** Proofs about trees of fields. *)
From Verif Require Import Base BaseProofs BitsModel StreamModel ChunkBase TlvModel TlvSpec.
Ltac Zify.zify_post_hook ::= Z.div_mod_to_equations.

Section Complete.
Context {I C : Type} (raw : C -> I -> list Z -> Prop) (grp : C -> I -> C -> list Z -> list Z -> list Z -> Prop).
Context (last : C -> list Z -> Prop) (data : list Z) (hd : C -> Z -> Z -> res (head I C)) (gap : C -> Z) (least : Z).
(** Every field has [least] bits at least; up to [gap c] bits more than the tail may be left after the fields of
    a group: this is less than the last field and less than two fields. *)
Context (raw_len : forall c i b, raw c i b -> 0 < zlen b /\ least <= 8 * zlen b)
  (grp_len : forall c i c' h b t, grp c i c' h b t -> 0 < zlen h /\ least <= 8 * zlen (h ++ b ++ t))
  (last_len : forall c b, last c b -> 0 < zlen b -> least <= 8 * zlen b -> gap c < 8 * zlen b) (gap2 : forall c, gap c < 2 * least)
  (raw_hd : forall c i b p stop, raw c i b -> occurs_at b data p -> 8 * (p + zlen b) <= stop -> hd c stop (8 * p) = Ok (Head i (8 * zlen b) BRaw))
  (grp_hd : forall c i c' h b t p stop, grp c i c' h b t -> occurs_at (h ++ b ++ t) data p -> 8 * (p + zlen (h ++ b ++ t)) <= stop ->
     exists slack, hd c stop (8 * p) = Ok (Head i (8 * zlen (h ++ b ++ t)) (BKids c' (8 * zlen h) slack)) /\ 8 * zlen t <= slack <= 8 * zlen t + gap c').
Notation enc := (enc raw grp last). Notation encs := (encs raw grp last). Notation laid := (laid raw grp last). Notation laids := (laids raw grp last).

Lemma enc_len : (forall c d b, enc c d b -> 0 < zlen b /\ least <= 8 * zlen b).
Proof using All. intros c d b [c0 i b0 H|c0 i c' l h b0 t _ H]; [eauto|]. destruct (grp_len _ _ _ _ _ _ H). rewrite !zlen_app in *. pose proof (zlen_nonneg b0). pose proof (zlen_nonneg t). lia. Qed.
Lemma laid_len : (forall c p d b t, laid c p d b t -> 0 < zlen b /\ least <= 8 * zlen b).
Proof using All. intros c p d b t [c0 p0 i b0 H|c0 p0 i c' l h b0 t0 ts _ H]; [eauto|]. destruct (grp_len _ _ _ _ _ _ H). rewrite !zlen_app in *. pose proof (zlen_nonneg b0). pose proof (zlen_nonneg t0). lia. Qed.

Scheme enc_mut := Minimality for TlvSpec.enc Sort Prop
  with encs_mut := Minimality for TlvSpec.encs Sort Prop.
Combined Scheme enc_both from enc_mut, encs_mut.
Scheme laid_mut := Minimality for TlvSpec.laid Sort Prop
  with laids_mut := Minimality for TlvSpec.laids Sort Prop.
Combined Scheme laid_both from laid_mut, laids_mut.

Lemma enc_laid : (forall c d b, enc c d b -> forall p, exists t, laid c p d b t) /\
  (forall c l b, encs c l b -> forall p, exists ts, laids c p l b ts).
Proof using.
  apply enc_both.
  - intros c i b H p. eexists. constructor. exact H.
  - intros c i c' l h b t _ IH H p. destruct (IH (p + zlen h)) as [ts T]. eexists. econstructor; eauto.
  - intros c p. eexists. constructor.
  - intros c d l b bs _ IH La _ IHs p. destruct (IH p) as [t T]. destruct (IHs (p + zlen b)) as [ts Ts]. eexists. econstructor; eauto.
Qed.
Lemma encs_app c l b : encs c l b -> forall l' b', encs c l' b' -> encs c (l ++ l') (b ++ b').
Proof using.
  induction 1 as [c|c d l b bs Hd La Hl IH]; intros l' b' H'; [exact H'|]. cbn [app]. rewrite <- app_assoc. constructor; [exact Hd| |apply IH, H'].
  intros N. apply La. destruct l; [reflexivity|discriminate].
Qed.
Lemma laids_app c p l b ts : laids c p l b ts -> forall l' b' ts', laids c (p + zlen b) l' b' ts' -> laids c p (l ++ l') (b ++ b') (ts ++ ts').
Proof using.
  induction 1 as [c p|c p d l b bs t ts Hd La Hl IH]; intros l' b' ts' H'; [change (zlen (@nil Z)) with 0 in H'; rewrite Z.add_0_r in H'; exact H'|].
  cbn [app]. rewrite <- app_assoc. constructor; [exact Hd| |].
  - intros N. apply La. destruct l; [reflexivity|discriminate].
  - apply IH. rewrite zlen_app in H'. rewrite <- Z.add_assoc. exact H'.
Qed.
Lemma complete : (forall c p d b t, laid c p d b t -> forall stop fuel, occurs_at b data p -> 8 * (p + zlen b) <= stop -> zlen b <= Z.of_nat fuel -> parse hd fuel c stop (8 * p) = Ok t) /\
  (forall c p l b ts, laids c p l b ts -> forall fuel m tail slack, occurs_at b data p -> tail <= slack <= tail + gap c -> 0 <= tail -> zlen b <= Z.of_nat fuel -> zlen b < Z.of_nat m ->
     walk (parse hd fuel c) m slack (8 * (p + zlen b) + tail) (8 * p) = (ts, None)).
Proof using All.
  apply laid_both.
  - intros c p i b H stop fuel O St Fu. pose proof (raw_len _ _ _ H). destruct fuel as [|fuel]; [lia|]. cbn [parse]. rewrite (raw_hd _ _ _ _ _ H O St). cbn [bind h_size h_info h_body].
    do 2 f_equal. lia.
  - intros c p i c' l h b t ts _ IH H stop fuel O St Fu. destruct (grp_len _ _ _ _ _ _ H) as [Lh L]. pose proof (zlen_nonneg t). pose proof (zlen_nonneg b). destruct fuel as [|fuel]; [rewrite !zlen_app in Fu; lia|]. cbn [parse].
    destruct (grp_hd _ _ _ _ _ _ _ _ H O St) as (slack & R & Sl). rewrite R. cbn [bind h_size h_info h_body]. apply occ_app in O as [O1 O]. apply occ_app in O as [O2 O3].
    replace (Z.min (8 * zlen (h ++ b ++ t)) (stop - 8 * p)) with (8 * zlen (h ++ b ++ t)) by lia. rewrite !zlen_app in *.
    specialize (IH fuel (S fuel) (8 * zlen t) slack O2 ltac:(lia) ltac:(lia) ltac:(lia) ltac:(lia)).
    replace (8 * (p + zlen h + zlen b) + 8 * zlen t) with (8 * p + 8 * (zlen h + (zlen b + zlen t))) in IH by lia. replace (8 * (p + zlen h)) with (8 * p + 8 * zlen h) in IH by lia.
    rewrite IH. reflexivity.
  - intros c p fuel m tail slack O T T0 Fu M. destruct m as [|m]; [change (zlen (@nil Z)) with 0 in M; lia|]. cbn [walk]. change (zlen (@nil Z)) with 0. replace (8 * (p + 0) + tail - 8 * p <=? slack) with true by lia. reflexivity.
  - intros c p d l b bs t ts Ld IH La Ls IHs fuel m tail slack O T T0 Fu M. destruct (laid_len _ _ _ _ _ Ld) as [L L']. apply occ_app in O as [O1 O2]. rewrite zlen_app in *. pose proof (zlen_nonneg bs).
    assert (W : gap c < 8 * zlen b + 8 * zlen bs).
    { inversion Ls as [|? ? ? ? b' ? ? ? Ld']; subst.
      - pose proof (last_len _ _ (La eq_refl) L L'). change (zlen (@nil Z)) with 0. lia.
      - destruct (laid_len _ _ _ _ _ Ld'). rewrite zlen_app. pose proof (gap2 c). match goal with |- context [zlen b' + zlen ?x] => pose proof (zlen_nonneg x) end. lia. }
    destruct m as [|m]; [lia|]. cbn [walk]. replace (8 * (p + (zlen b + zlen bs)) + tail - 8 * p <=? slack) with false by lia.
    rewrite (IH (8 * (p + (zlen b + zlen bs)) + tail) fuel O1 ltac:(lia) ltac:(lia)).
    assert (Sz : t_size t = 8 * zlen b) by (inversion Ld; reflexivity). rewrite Sz.
    specialize (IHs fuel m tail slack O2 T T0 ltac:(lia) ltac:(lia)). replace (8 * (p + zlen b + zlen bs) + tail) with (8 * (p + (zlen b + zlen bs)) + tail) in IHs by lia.
    replace (8 * (p + zlen b)) with (8 * p + 8 * zlen b) in IHs by lia. rewrite IHs. reflexivity.
Qed.
(** Walking over some of the fields *)
Lemma walk_laids c p l b ts : laids c p l b ts -> forall fuel n slack stop, occurs_at b data p -> 8 * (p + zlen b) + slack < stop -> 0 <= slack -> zlen b <= Z.of_nat fuel ->
  walk (parse hd fuel c) (List.length ts + n) slack stop (8 * p) =
    (ts ++ fst (walk (parse hd fuel c) n slack stop (8 * (p + zlen b))), snd (walk (parse hd fuel c) n slack stop (8 * (p + zlen b)))).
Proof using All.
  induction 1 as [c p|c p d l b bs t ts Hd _ _ IH]; intros fuel n slack stop O St Sl Fu.
  - change (zlen (@nil Z)) with 0. rewrite Z.add_0_r. cbn [List.length Nat.add app]. apply surjective_pairing.
  - apply occ_app in O as [O1 O2]. rewrite zlen_app in *. pose proof (zlen_nonneg bs). destruct (laid_len _ _ _ _ _ Hd) as [L _]. cbn [List.length Nat.add walk]. replace (stop - 8 * p <=? slack) with false by lia.
    rewrite (proj1 complete c p d b t Hd stop fuel O1) by lia. assert (Sz : t_size t = 8 * zlen b) by (inversion Hd; reflexivity). rewrite Sz. replace (8 * p + 8 * zlen b) with (8 * (p + zlen b)) by lia.
    rewrite IH by (auto; lia). cbn [fst snd app]. rewrite Z.add_assoc. reflexivity.
Qed.
Lemma laids_length c p l b ts : laids c p l b ts -> Z.of_nat (List.length ts) <= zlen b.
Proof using All.
  induction 1 as [c p|c p d l b bs t ts Hd _ _ IH]; [cbn; lia|]. rewrite zlen_app. destruct (laid_len _ _ _ _ _ Hd). cbn [List.length]. lia.
Qed.
End Complete.

Section Any.
Context {I C : Type} (data : list Z) (hd : C -> Z -> Z -> res (head I C)) (least : Z).
Context (hd_any : forall c p m, 0 <= p -> p < m -> m <= zlen data ->
  match hd c (8 * m) (8 * p) with
  | Ok h => (exists k, h_size h = 8 * k /\ 1 <= k) /\ match h_body h with BRaw => True | BKids _ off slack => 0 <= slack <= least /\ exists j, off = 8 * j /\ 1 <= j end
  | Err e => e <> OutOfFuel
  end).
Definition any_tree (p m : Z) (r : res (tree I)) : Prop :=
  match r with
  | Ok n => t_addr n = 8 * p /\ (exists k, t_size n = 8 * k /\ 1 <= k /\ p + k <= m) /\ tiles least n
  | Err e => e <> OutOfFuel
  end.
Lemma walk_any obj m p0 slack : (forall p, p0 <= p -> p < m \/ slack < 0 -> any_tree p m (obj (8 * m) (8 * p))) ->
  forall n p, p0 <= p -> m - p < Z.of_nat n -> 1 <= Z.of_nat n ->
  exists q, chain least (8 * p) (fst (walk obj n slack (8 * m) (8 * p))) q /\ q <= Z.max (8 * p) (8 * m) /\ snd (walk obj n slack (8 * m) (8 * p)) <> Some OutOfFuel /\
    (snd (walk obj n slack (8 * m) (8 * p)) = None -> 8 * m - q <= slack).
Proof using All.
  intros Ho. induction n as [|n IH]; intros p P N N1; cbn [walk]; [lia|]. destruct (8 * m - 8 * p <=? slack) eqn:S.
  - exists (8 * p). cbn [fst snd]. split; [constructor|]. split; [lia|]. split; [discriminate|]. intros _. lia.
  - pose proof (Ho p P ltac:(lia)) as H. destruct (obj (8 * m) (8 * p)) as [t|e]; cbn [any_tree] in H.
    + destruct H as (A & (k & Z0 & K & B) & T). cbn [fst snd]. rewrite Z0. replace (8 * p + 8 * k) with (8 * (p + k)) by lia. destruct (IH (p + k) ltac:(lia) ltac:(lia) ltac:(lia)) as (q & Ch & Q & F & D).
      exists q. split; [|split; [lia|auto]]. constructor; [exact A|lia|exact T|]. rewrite Z0. replace (8 * p + 8 * k) with (8 * (p + k)) by lia. exact Ch.
    + exists (8 * p). cbn [fst snd]. split; [constructor|]. split; [lia|]. split; [congruence|discriminate].
Qed.
Lemma parse_any : forall fuel c p m, 0 <= p -> p < m -> m <= zlen data -> m - p < Z.of_nat fuel -> any_tree p m (parse hd fuel c (8 * m) (8 * p)).
Proof using All.
  induction fuel as [|fuel IH]; intros c p m P L Md Fu; cbn [parse]; [lia|]. pose proof (hd_any c p m P L Md) as H. destruct (hd c (8 * m) (8 * p)) as [h|e]; cbn [bind]; [|exact H].
  destruct H as [(k & Z0 & K) B]. cbn [any_tree t_addr t_size]. split; [reflexivity|]. rewrite Z0. replace (Z.min (8 * k) (8 * m - 8 * p)) with (8 * Z.min k (m - p)) by lia. set (sz := Z.min k (m - p)).
  split; [exists sz; lia|]. destruct (h_body h) as [|c' off slack]; [constructor|]. destruct B as (Sl & j & -> & J). replace (8 * p + 8 * sz) with (8 * (p + sz)) by lia. replace (8 * p + 8 * j) with (8 * (p + j)) by lia.
  destruct (walk_any (parse hd fuel c') (p + sz) (p + j) slack ltac:(intros; apply IH; lia) (S fuel) (p + j) ltac:(lia) ltac:(lia) ltac:(lia)) as (q & Ch & Q & F & D).
  apply (t_group _ _ _ _ _ _ (8 * (p + j)) q); [lia|exact Ch|lia|exact F|]. intros N. specialize (D N). lia.
Qed.
End Any.

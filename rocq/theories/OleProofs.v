From Verif Require Import Base BaseProofs StreamModel StreamSpec StreamProofs OleModel OleSpec.
Ltac Zify.zify_post_hook ::= Z.div_mod_to_equations.

Lemma is_special_spec b : is_special b = true <-> b = UNUSED \/ b = END_OF_CHAIN \/ b = BFAT_SECTOR \/ b = DIFAT_SECTOR.
Proof. unfold is_special. cbn [existsb]. rewrite !orb_true_iff, !Z.eqb_eq. intuition congruence. Qed.
Lemma names_not_special b : names_block b -> is_special b = false.
Proof.
  intros H. destruct (is_special b) eqn:E; [|reflexivity]. apply is_special_spec in E.
  unfold names_block, UNUSED, END_OF_CHAIN, BFAT_SECTOR, DIFAT_SECTOR in *. lia.
Qed.

(** ** The table *)
Lemma entry_table items fat b : 0 < items -> Forall (fun s => zlen s = items) fat -> 0 <= b -> fat_entry items fat b = table fat b.
Proof.
  intros Hi Hf. unfold table, fat_entry. revert b. induction Hf as [|s fat Hs Hf IH]; intros b Hb.
  - replace (b <? 0) with false by lia. destruct (Z.to_nat (b / items)); destruct (Z.to_nat b); reflexivity.
  - replace (b <? 0) with false by lia. cbn [concat]. unfold zlen in Hs.
    destruct (Z_lt_ge_dec b items) as [L|G].
    + rewrite Z.div_small, Z.mod_small by lia. cbn [Z.to_nat nth_error]. rewrite nth_error_app1 by lia. reflexivity.
    + specialize (IH (b - items)). replace (b - items <? 0) with false in IH by lia.
      rewrite nth_error_app2 by lia. replace (Z.to_nat b - length s)%nat with (Z.to_nat (b - items)) by lia.
      rewrite <- IH by lia.
      assert (E1 : (b - items) / items = b / items - 1) by (replace (b - items) with (b + (-1) * items) by lia; rewrite Z.div_add by lia; lia).
      assert (E2 : (b - items) mod items = b mod items) by (replace (b - items) with (b + (-1) * items) by lia; rewrite Z.mod_add by lia; reflexivity).
      rewrite E1, E2.
      assert (1 <= b / items) by (apply Z.div_le_lower_bound; lia).
      replace (Z.to_nat (b / items)) with (S (Z.to_nat (b / items - 1))) by lia. reflexivity.
Qed.

(** ** Chains *)
Lemma links_app next b l m c d : links next b l c -> links next c m d -> links next b (l ++ m) d.
Proof. intros H K. induction H; [assumption|]. cbn [app]. econstructor; eauto. Qed.
Lemma links_split next b l1 l2 c : links next b (l1 ++ l2) c -> exists d, links next b l1 d /\ links next d l2 c.
Proof.
  revert b. induction l1 as [|x l1 IH]; intros b H.
  - exists b. split; [constructor|assumption].
  - cbn [app] in H. inversion H as [|b0 b' l0 last0 H1 H2]; subst. destruct (IH _ H2) as (d & K1 & K2). exists d. split; [econstructor; eassumption|assumption].
Qed.
Lemma links_head next b x l c : links next b (x :: l) c -> b = x.
Proof. intros H. inversion H. reflexivity. Qed.
(** The chain to a value that has no successor, or is not in the chain, is unique. *)
Lemma links_fun next b l c m d : links next b l c -> links next b m d -> ~ In c m -> ~ In d l -> l = m /\ c = d.
Proof.
  intros H. revert m. induction H as [b|b b' l c N H IH]; intros m K Hc Hd.
  - inversion K as [|b0 b1 l0 last0 H1 H2]; subst; [auto|]. exfalso. apply Hc. left. reflexivity.
  - inversion K as [|b0 b1 l0 last0 H1 H2]; subst.
    + exfalso. apply Hd. left. reflexivity.
    + rewrite N in H1. injection H1 as <-. destruct (IH l0 H2) as [-> ->]; [intros X; apply Hc; right; assumption|intros X; apply Hd; right; assumption|auto].
Qed.
Lemma links_nodup next b l c : links next b l c -> ~ In c l -> NoDup l.
Proof.
  intros H Hc. assert (forall l1 l2, l = l1 ++ l2 -> NoDup l2) as P; [|exact (P [] l eq_refl)].
  intros l1 l2. revert l1. induction l2 as [|x l2 IH]; intros l1 E; [constructor|].
  constructor; [|apply (IH (l1 ++ [x])); rewrite <- app_assoc; assumption].
  intros Hin. apply in_split in Hin. destruct Hin as (m1 & m2 & ->).
  rewrite E in H. destruct (links_split _ _ _ _ _ H) as (d & _ & K1). assert (d = x) by (eapply links_head; exact K1). subst d.
  assert (K2 : links next x (x :: m2) c).
  { change (x :: m1 ++ x :: m2) with ((x :: m1) ++ x :: m2) in K1. destruct (links_split _ _ _ _ _ K1) as (d & _ & K2).
    assert (d = x) by (eapply links_head; exact K2). subst d. assumption. }
  destruct (links_fun _ _ _ _ _ _ K1 K2) as [F _].
  - intros X. apply Hc. rewrite E. apply in_or_app. right. destruct X as [->|X]; [left; reflexivity|]. right. apply in_or_app. right. right. assumption.
  - intros X. apply Hc. rewrite E. apply in_or_app. right. assumption.
  - injection F as F. apply (f_equal (@length Z)) in F. rewrite app_length in F. cbn [length] in F. lia.
Qed.

Section Chain.
Context (items : Z) (fat : list (list Z)).
Notation next := (fat_entry items fat).
(** What the loop gives, for every FAT and every amount of fuel. *)
Lemma chain_sound fuel : forall block seen l e, chain_loop fuel items fat block seen = (l, e) ->
  (forall x, In x l -> is_special x = false) /\ NoDup l /\ (forall x, In x l -> ~ In x seen) /\
  match e with
  | Ok _ => exists c, (links next block l c /\ c = END_OF_CHAIN) \/ (exists l', l = l' ++ [c] /\ links next block l' c /\ next c = None)
  | Err ParserError => exists c, links next block l c /\ (is_special c = true /\ c <> END_OF_CHAIN \/ In c (l ++ seen))
  | Err OutOfFuel => exists c, links next block l c /\ length l = fuel
  | Err _ => False
  end.
Proof.
  induction fuel as [|fuel IH]; intros block seen l e; cbn [chain_loop].
  { intros E. injection E as <- <-. repeat split; [intros x []|constructor|intros x []|]. exists block. split; [constructor|reflexivity]. }
  destruct (block =? END_OF_CHAIN) eqn:E1.
  { intros E. injection E as <- <-. repeat split; [intros x []|constructor|intros x []|]. exists block. left. split; [constructor|lia]. }
  destruct (is_special block) eqn:E2.
  { intros E. injection E as <- <-. repeat split; [intros x []|constructor|intros x []|]. exists block. split; [constructor|]. left. split; [assumption|lia]. }
  destruct (existsb (Z.eqb block) seen) eqn:E3.
  { intros E. injection E as <- <-. repeat split; [intros x []|constructor|intros x []|]. exists block. split; [constructor|]. right. cbn [app].
    apply existsb_exists in E3. destruct E3 as (y & Hy & Ey). apply Z.eqb_eq in Ey. subst. assumption. }
  assert (Hn : ~ In block seen).
  { intros X. assert (existsb (Z.eqb block) seen = true) by (apply existsb_exists; exists block; split; [assumption|apply Z.eqb_refl]). congruence. }
  destruct (next block) as [b|] eqn:E4; cbn [fst snd].
  - destruct (chain_loop fuel items fat b (block :: seen)) as [l0 e0] eqn:E5. cbn [fst snd]. intros E. injection E as <- <-.
    destruct (IH _ _ _ _ E5) as (P1 & P2 & P3 & P4). repeat split.
    + intros x [<-|Hx]; auto.
    + constructor; [|assumption]. intros X. apply (P3 _ X). left. reflexivity.
    + intros x [<-|Hx]; [assumption|]. intros X. apply (P3 _ Hx). right. assumption.
    + destruct e0 as [u|x].
      * destruct P4 as (c & [[K1 K2]|(l' & K1 & K2 & K3)]); exists c; [left|right].
        -- split; [econstructor; eassumption|assumption].
        -- exists (block :: l'). subst l0. split; [reflexivity|]. split; [econstructor; eassumption|assumption].
      * destruct x; try contradiction; destruct P4 as (c & K1 & K2); exists c.
        -- split; [econstructor; eassumption|]. destruct K2 as [K2|K2]; [left; assumption|right].
           apply in_app_or in K2. cbn [app]. destruct K2 as [K2|[K2|K2]].
           ++ right. apply in_or_app. left. assumption.
           ++ left. assumption.
           ++ right. apply in_or_app. right. assumption.
        -- split; [econstructor; eassumption|]. cbn [length]. lia.
  - intros E. injection E as <- <-. repeat split.
    + intros x [<-|[]]. assumption.
    + constructor; [intros []|constructor].
    + intros x [<-|[]]. assumption.
    + exists block. right. exists []. repeat split; [constructor|assumption].
Qed.
(** The loop finds every chain. *)
Lemma chain_complete fuel : forall block seen l, links next block l END_OF_CHAIN -> (forall x, In x l -> is_special x = false) ->
  NoDup l -> (forall x, In x l -> ~ In x seen) -> (length l < fuel)%nat -> chain_loop fuel items fat block seen = (l, Ok tt).
Proof.
  induction fuel as [|fuel IH]; intros block seen l H Hs Hn Hd Hl; [lia|]. cbn [chain_loop].
  inversion H as [b|b b' l0 c N K]; subst.
  - rewrite Z.eqb_refl. reflexivity.
  - assert (S1 : is_special block = false) by (apply Hs; left; reflexivity).
    replace (block =? END_OF_CHAIN) with false.
    2: { symmetry. apply Z.eqb_neq. intros ->. discriminate. }
    rewrite S1. replace (existsb (Z.eqb block) seen) with false.
    2: { symmetry. destruct (existsb (Z.eqb block) seen) eqn:E; [|reflexivity]. exfalso. apply existsb_exists in E. destruct E as (y & Hy & Ey).
         apply Z.eqb_eq in Ey. subst y. apply (Hd block); [left; reflexivity|assumption]. }
    rewrite N. inversion Hn as [|x l1 N1 N2]; subst. rewrite (IH b' (block :: seen) l0); cbn [fst snd]; auto.
    + intros x Hx. apply Hs. right. assumption.
    + intros x Hx [<-|X]; [contradiction|]. apply (Hd x); [right; assumption|assumption].
    + cbn [length] in Hl. lia.
Qed.
End Chain.

(** The blocks that have an entry are numbered below the number of entries, when all
    the sectors but the last one are full. *)
Lemma links_entries next b l c : links next b l c -> forall x, In x l -> next x <> None.
Proof. intros H. induction H; intros x Hx; [destruct Hx|]. destruct Hx as [<-|Hx]; [congruence|auto]. Qed.
Lemma table_range fat b : table fat b <> None -> 0 <= b < zlen (concat fat).
Proof.
  unfold table. destruct (b <? 0) eqn:E; [congruence|]. intros H. apply nth_error_Some in H. unfold zlen. lia.
Qed.
Lemma bounded_nodup l n : NoDup l -> (forall x, In x l -> 0 <= x < n) -> zlen l <= Z.max 0 n.
Proof.
  intros H K. assert (I : incl l (map Z.of_nat (seq 0 (Z.to_nat n)))).
  { intros x Hx. specialize (K x Hx). apply in_map_iff. exists (Z.to_nat x). split; [lia|]. apply in_seq. lia. }
  apply NoDup_incl_length in I; [|assumption]. rewrite map_length, seq_length in I. unfold zlen. lia.
Qed.
Section Full.
Context (items : Z) (fat : list (list Z)) (items_pos : 0 < items) (full : Forall (fun s => zlen s = items) fat)
  (words : Forall (Forall (fun b => 0 <= b < 2 ^ 32)) fat).
Lemma table_word b v : table fat b = Some v -> 0 <= v < 2 ^ 32.
Proof using words.
  unfold table. destruct (b <? 0); [discriminate|]. intros H. apply nth_error_In in H. apply in_concat in H. destruct H as (s & H1 & H2).
  rewrite Forall_forall in words. specialize (words s H1). rewrite Forall_forall in words. apply words. assumption.
Qed.
Lemma links_table b l c : 0 <= b < 2 ^ 32 -> (links (fat_entry items fat) b l c <-> links (table fat) b l c).
Proof using All.
  intros Hb. split; intros H.
  - induction H as [b|b b' l c N H IH]; [constructor|]. rewrite entry_table in N by (auto; lia). econstructor; [eassumption|]. apply IH. eapply table_word. eassumption.
  - induction H as [b|b b' l c N H IH]; [constructor|]. econstructor; [rewrite entry_table by (auto; lia); eassumption|]. apply IH. eapply table_word. eassumption.
Qed.
Lemma links_word b l c : 0 <= b < 2 ^ 32 -> links (table fat) b l c -> (forall x, In x l -> 0 <= x < 2 ^ 32) /\ 0 <= c < 2 ^ 32.
Proof using words.
  intros Hb H. induction H as [b|b b' l c N H IH]; [split; [intros x []|assumption]|].
  destruct IH as [I1 I2]; [eapply table_word; eassumption|]. split; [|assumption]. intros x [<-|Hx]; auto.
Qed.
Lemma getChain_sound start l e : 0 <= start < 2 ^ 32 -> getChain items fat start = (l, e) ->
  (forall x, In x l -> names_block x) /\ NoDup l /\
  match e with
  | Ok _ => links (table fat) start l END_OF_CHAIN \/ (exists l' c, l = l' ++ [c] /\ links (table fat) start l' c /\ table fat c = None)
  | Err ParserError => exists c, links (table fat) start l c /\ (~ names_block c /\ c <> END_OF_CHAIN \/ In c l)
  | Err _ => False
  end.
Proof using All.
  intros Hs E. unfold getChain in E. destruct (chain_sound items fat _ _ _ _ _ E) as (P1 & P2 & _ & P4).
  assert (W : forall l0 c, links (fat_entry items fat) start l0 c -> links (table fat) start l0 c /\ (forall x, In x l0 -> 0 <= x < 2 ^ 32) /\ 0 <= c < 2 ^ 32).
  { intros l0 c K. apply links_table in K; [|assumption]. split; [assumption|]. apply links_word in K; auto. }
  assert (N : (forall x, In x l -> 0 <= x < 2 ^ 32) -> forall x, In x l -> names_block x).
  { intros A x Hx. specialize (P1 x Hx). specialize (A x Hx). unfold names_block.
    destruct (Z_lt_ge_dec x 0xFFFFFFFC) as [?|G]; [lia|exfalso]. assert (is_special x = true); [|congruence].
    apply is_special_spec. unfold UNUSED, END_OF_CHAIN, BFAT_SECTOR, DIFAT_SECTOR. lia. }
  destruct e as [u|x].
  - destruct P4 as (c & [[K1 ->]|(l' & -> & K2 & K3)]).
    + destruct (W _ _ K1) as (W1 & W2 & W3). repeat split; auto; apply N; assumption.
    + destruct (W _ _ K2) as (W1 & W2 & W3). split; [|split; [assumption|]].
      * apply N. intros x Hx. apply in_app_or in Hx. destruct Hx as [Hx|[<-|[]]]; auto.
      * right. exists l', c. repeat split; auto. rewrite <- (entry_table items) by (auto; lia). assumption.
  - destruct x; try contradiction; destruct P4 as (c & K1 & K2).
    + destruct (W _ _ K1) as (W1 & W2 & W3). repeat split; [apply N; assumption..|assumption|]. exists c. split; [assumption|].
      destruct K2 as [[K2 K3]|K2].
      * left. split; [|assumption]. intros X. apply names_not_special in X. congruence.
      * right. rewrite app_nil_r in K2. assumption.
    + exfalso. destruct (W _ _ K1) as (W1 & W2 & W3). assert (B := bounded_nodup l (zlen (concat fat)) P2).
      assert (zlen l <= Z.max 0 (zlen (concat fat))) by (apply B; intros x Hx; apply table_range; eapply links_entries; eassumption).
      unfold zlen in *. lia.
Qed.
Lemma getChain_complete start l : 0 <= start < 2 ^ 32 -> links (table fat) start l END_OF_CHAIN -> (forall x, In x l -> names_block x) -> getChain items fat start = (l, Ok tt).
Proof using All.
  intros Hs H Hn. assert (ND : NoDup l).
  { eapply links_nodup; [exact H|]. intros X. specialize (Hn _ X). unfold names_block, END_OF_CHAIN in Hn. lia. }
  unfold getChain. apply chain_complete; auto.
  - apply links_table; assumption.
  - intros x Hx. apply names_not_special. auto.
  - assert (zlen l <= Z.max 0 (zlen (concat fat))) by (apply bounded_nodup; [assumption|intros x Hx; apply table_range; eapply links_entries; eassumption]).
    unfold zlen in *. lia.
Qed.
End Full.

(** ** Fragments *)
Lemma run_S first n : run first (S n) = run first n ++ [first + Z.of_nat n].
Proof. unfold run. rewrite seq_S, map_app. reflexivity. Qed.
Definition runs (sector : Z) (fs : list (Z * Z)) : list Z := concat (map (fun f => run (fst f) (Z.to_nat (snd f / sector))) fs).
Lemma fragments_ok sector : 0 < sector -> forall l run0, match run0 with None => True | Some (first, prev, size) => exists n : nat, size = (1 + Z.of_nat n) * sector /\ prev = first + Z.of_nat n end ->
  exists fs, fragment_loop sector l (Ok tt) run0 = (fs, Ok tt) /\ Forall (fun f => exists n : nat, snd f = (1 + Z.of_nat n) * sector) fs /\
    runs sector fs = match run0 with None => [] | Some (first, _, size) => run first (Z.to_nat (size / sector)) end ++ l /\
    match run0 with None => True | Some (first, _, _) => exists s fs', fs = (first, s) :: fs' end /\
    (forall i f g, nth_error fs i = Some f -> nth_error fs (S i) = Some g -> fst g <> fst f + snd f / sector).
Proof.
  intros Hp. induction l as [|b l IH]; intros run0 H0; cbn [fragment_loop].
  - destruct run0 as [[[first prev] size]|].
    + destruct H0 as (n & E1 & E2). exists [(first, size)]. repeat split.
      * constructor; [exists n; assumption|constructor].
      * exists size, []. reflexivity.
      * intros i f g _ H. destruct i as [|i]; cbn in H; [discriminate|destruct i; discriminate].
    + exists []. repeat split; [constructor|]. intros i f g H. destruct i; discriminate.
  - destruct run0 as [[[first prev] size]|].
    + destruct H0 as (n & E1 & E2). destruct (b =? prev + 1) eqn:Eb.
      * destruct (IH (Some (first, b, size + sector))) as (fs & F1 & F2 & F3 & F4 & F5); [exists (S n); lia|].
        exists fs. repeat split; auto. rewrite F3.
        assert (Q : forall k : nat, (1 + Z.of_nat k) * sector / sector = 1 + Z.of_nat k) by (intros k; apply Z.div_mul; lia).
        subst size. replace ((1 + Z.of_nat n) * sector + sector) with ((1 + Z.of_nat (S n)) * sector) by lia. rewrite !Q.
        replace (Z.to_nat (1 + Z.of_nat (S n))) with (S (Z.to_nat (1 + Z.of_nat n))) by lia. rewrite run_S, <- app_assoc. cbn [app].
        f_equal. f_equal. lia.
      * destruct (IH (Some (b, b, sector))) as (fs & F1 & F2 & F3 & F4 & F5); [exists 0%nat; lia|].
        rewrite F1. cbn [fst snd]. exists ((first, size) :: fs). repeat split.
        -- constructor; [exists n; assumption|assumption].
        -- unfold runs in *. cbn [map concat fst snd]. rewrite F3. rewrite Z.div_same by lia.
           change (run b (Z.to_nat 1)) with [b + 0]. rewrite Z.add_0_r. reflexivity.
        -- exists size, fs. reflexivity.
        -- intros i f g H1 H2. destruct i as [|i]; cbn [nth_error] in H1, H2; [|exact (F5 i f g H1 H2)].
           injection H1 as <-. destruct F4 as (s & fs' & ->). injection H2 as <-. cbn [fst snd]. subst size.
           rewrite Z.div_mul by lia. lia.
    + destruct (IH (Some (b, b, sector))) as (fs & F1 & F2 & F3 & F4 & F5); [exists 0%nat; lia|].
      exists fs. repeat split; auto. rewrite F3, Z.div_same by lia. change (run b (Z.to_nat 1)) with [b + 0]. rewrite Z.add_0_r. reflexivity.
Qed.
(** An error of the chain is the error of the property. *)
Lemma fragments_err sector l x : forall run0, snd (fragment_loop sector l (Err x) run0) = Err x.
Proof.
  induction l as [|b l IH]; intros run0; cbn [fragment_loop]; [reflexivity|].
  destruct run0 as [[[first prev] size]|]; [destruct (b =? prev + 1)|]; cbn [snd]; apply IH.
Qed.

(** ** Data *)
Lemma sub_blocks (data : list Z) base w n first : 0 <= base -> 0 <= w -> 0 <= first ->
  sub data (base + first * w) (Z.of_nat n * w) = concat (map (fun b => sub data (base + b * w) w) (run first n)).
Proof.
  intros Hb Hw Hf. induction n as [|n IH]; [rewrite Z.mul_0_l, sub_0; reflexivity|].
  rewrite run_S, map_app, concat_app, <- IH. cbn [map concat]. rewrite app_nil_r.
  replace (Z.of_nat (S n) * w) with (Z.of_nat n * w + w) by lia.
  rewrite sub_app_split by lia. do 2 f_equal. lia.
Qed.
Lemma group_ok read data w : serves read data -> 0 < w -> forall fs, Forall (fun f => exists n : nat, snd f = (1 + Z.of_nat n) * (8 * w)) fs ->
  (forall b, In b (runs (8 * w) fs) -> 0 <= b /\ 512 + (b + 1) * w <= zlen data) ->
  group_data read (map (fun f => (block_address (8 * w) (fst f), snd f)) fs) = Ok (concat (map (fun b => sub data (512 + b * w) w) (runs (8 * w) fs))).
Proof.
  intros Hr Hw fs H. induction H as [|[first size] fs (n & E) H IH]; intros B; [reflexivity|].
  cbn [snd] in E. cbn [map group_data fst snd].
  assert (Q : size / (8 * w) = 1 + Z.of_nat n) by (rewrite E; apply Z.div_mul; lia).
  assert (ER : runs (8 * w) ((first, size) :: fs) = run first (S n) ++ runs (8 * w) fs).
  { unfold runs. cbn [map concat fst snd]. rewrite Q. replace (Z.to_nat (1 + Z.of_nat n)) with (S n) by lia. reflexivity. }
  rewrite ER in *.
  assert (B0 : 0 <= first) by (apply (B first), in_or_app; left; apply in_map_iff; exists 0%nat; split; [lia|apply in_seq; lia]).
  assert (B1 : 512 + (first + Z.of_nat n + 1) * w <= zlen data).
  { apply (B (first + Z.of_nat n)). apply in_or_app. left. rewrite run_S. apply in_or_app. right. left. reflexivity. }
  replace (block_address (8 * w) first) with (8 * (512 + first * w)) by (unfold block_address; change HEADER_SIZE with 4096; lia).
  assert (E8 : size / 8 = Z.of_nat (S n) * w) by (rewrite E; replace ((1 + Z.of_nat n) * (8 * w)) with (Z.of_nat (S n) * w * 8) by lia; apply Z.div_mul; lia).
  rewrite E8, (readBytes_serves read data) by (auto; nia). cbn [bind].
  rewrite IH by (intros b Hb; apply B, in_or_app; right; assumption). cbn [bind].
  rewrite map_app, concat_app, sub_blocks by lia. reflexivity.
Qed.

(** ** Content size *)
Lemma max_ge l : forall m b, (b <= m \/ In b l /\ is_special b = false) -> b <= fold_left (fun m b => if is_special b then m else Z.max b m) l m.
Proof.
  induction l as [|x l IH]; intros m b H; cbn [fold_left]; [destruct H as [H|[[] _]]; assumption|].
  apply IH. destruct H as [H|[[->|H] K]]; [left; destruct (is_special x); lia|left; rewrite K; lia|right; auto].
Qed.
Lemma content_covers sector fat b : 0 <= sector -> In b (concat fat) -> is_special b = false -> block_address sector b + sector <= content_size sector fat.
Proof.
  intros Hs Hb Hn. unfold content_size, block_address. assert (H := max_ge (concat fat) 0 b (or_intror (conj Hb Hn))). nia.
Qed.

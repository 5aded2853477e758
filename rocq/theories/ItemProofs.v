(** Generators that follow a table of fields show it. *)
From Verif Require Import Base BaseProofs BitsModel BitsSpec BitsProofs StreamModel StreamSpec StreamProofs DictModel DictProofs NumSpec NumRead ChunkBase GenModel GenSpec GenProofs ItemSpec.
Ltac Zify.zify_post_hook ::= Z.div_mod_to_equations.

Definition kind_of (s : plain) : fkind :=
  match s with
  | SNum n e _ => KNum (8 * Z.of_nat n) e
  | SInt n e _ => KInt (8 * Z.of_nat n) e
  | SBytes x => KBytes (zlen x)
  | SText x => KText (zlen x)
  | SLine s _ => KLine s
  | SPascal n little _ => KPascal (Z.of_nat n) little
  | SCode _ _ => KNum 0 LE
  end.
Lemma bytes_of_all_app l l' : bytes_of_all (l ++ l') = bytes_of_all l ++ bytes_of_all l'.
Proof. apply flat_map_app. Qed.
Lemma shows_app l l' : forall p, shows (l ++ l') p = shows l p ++ shows l' (p + zlen (bytes_of_all l)).
Proof.
  induction l as [|i l IH]; intros p; cbn [app shows].
  - change (zlen (bytes_of_all [])) with 0. rewrite Z.add_0_r. reflexivity.
  - rewrite IH. unfold bytes_of_all. cbn [flat_map]. rewrite zlen_app. unfold len. rewrite Z.add_assoc, app_assoc. reflexivity.
Qed.
Lemma show_set name l p : show (ISet name l) p = [G name (8 * p) (8 * zlen (bytes_of_all l)) (shows l p) None].
Proof. reflexivity. Qed.
Lemma flat_map_single {A B} (f : A -> B) l : flat_map (fun x => [f x]) l = map f l.
Proof. induction l as [|x l IH]; [reflexivity|]. cbn [flat_map map app]. rewrite IH. reflexivity. Qed.
Lemma occ_self data : occurs_at data data 0.
Proof. pose proof (occ_pre [] data []) as O. cbn [app] in O. rewrite app_nil_r in O. exact O. Qed.
Section Follow.
Context (read : read_fun) (data : list Z) (Hs : serves read data) (Hb : is_bytes data).
Notation run := (run read (8 * zlen data)).
Lemma plain_read s p : plain_ok s -> occurs_at (plain_bytes s) data p ->
  exists z, fsize read (8 * zlen data) (kind_of s) (8 * p) = Ok z /\ z = 8 * zlen (plain_bytes s) /\ fval read (kind_of s) (8 * p) z = Ok (plain_val s).
Proof using All.
  intros K O. destruct s as [n e v|n e v|x|x|c x|n little x|x v]; cbn [kind_of plain_ok plain_bytes plain_val fsize fval] in *; [| | | | | |contradiction].
  - destruct K as (E & N & V). replace (0 <=? 8 * Z.of_nat n) with true by lia. eexists. split; [reflexivity|]. rewrite zlen_uint. split; [reflexivity|]. rewrite (read_num read data Hs Hb e n _ v p); auto.
  - destruct K as (E & N & V). replace (0 <=? 8 * Z.of_nat n) with true by lia. eexists. split; [reflexivity|]. rewrite zlen_uint. split; [reflexivity|]. set (k := 8 * Z.of_nat n) in *.
    assert (P : 2 ^ k = 2 * 2 ^ (k - 1)) by (rewrite <- Z.pow_succ_r by lia; f_equal; lia). assert (0 < 2 ^ (k - 1)) by (apply Z.pow_pos_nonneg; lia).
    unfold readInteger. rewrite (read_num read data Hs Hb e n k (v mod 2 ^ k) p) by (auto; apply Z.mod_pos_bound; lia). cbn [bind]. unfold py_shl1. replace (k - 1 <? 0) with false by lia. replace (k <? 0) with false by lia. cbn [bind]. rewrite !Z.shiftl_mul_pow2 by lia. rewrite !Z.mul_1_l.
    destruct (Z_lt_le_dec v 0) as [L|L].
    + assert (M : v mod 2 ^ k = v + 2 ^ k) by (rewrite <- (Z.mod_add v 1) by lia; rewrite Z.mod_small; lia). rewrite M. replace (2 ^ (k - 1) <=? v + 2 ^ k) with true by lia. cbn [bind]. do 2 f_equal. lia.
    + rewrite Z.mod_small by lia. replace (2 ^ (k - 1) <=? v) with false by lia. reflexivity.
  - destruct K as (X & L). assert (1 <= zlen x) by (destruct x as [|y x]; [contradiction|rewrite zlen_cons; pose proof (zlen_nonneg x); lia]). replace ((0 <? zlen x) && (zlen x <=? 2 ^ 64)) with true by lia. eexists. split; [reflexivity|]. split; [lia|]. rewrite (rb_occ read data Hs p x O X). reflexivity.
  - destruct K as (X & L). assert (1 <= zlen x) by (destruct x as [|y x]; [contradiction|rewrite zlen_cons; pose proof (zlen_nonneg x); lia]). replace ((1 <=? zlen x) && (zlen x <=? 0xffff)) with true by lia. eexists. split; [reflexivity|]. split; [lia|]. rewrite (rb_occ read data Hs p x O X). reflexivity.
  - assert (R := step_line read data Hs Hb (8 * zlen data) [] c x (fun _ => PRet) false p (p + zlen x + 1) (8 * (p + zlen x + 1)) eq_refl K O eq_refl ltac:(lia)).
    cbn [GenModel.run fsize fval] in R. destruct (searchBytesLength read (8 * zlen data) [c] false (8 * p) None) as [[z|]|e]; cbn [bind] in *; [|discriminate|discriminate].
    destruct (_ <? _); [discriminate|]. destruct (some_bytes read (8 * p) ((z + 1) * 8 / 8 - 1)) as [v|e] eqn:Sb; [|discriminate]. cbv [put fst snd] in R. apply (f_equal (fun r => fst (fst r))) in R. cbn [fst] in R.
    assert (Z1 : (z + 1) * 8 = 8 * (zlen x + 1)) by congruence. assert (V : v = VBytes x) by congruence. eexists. split; [reflexivity|]. rewrite zlen_app. change (zlen [c]) with 1. split; [exact Z1|]. rewrite Sb, V. reflexivity.
  - destruct K as (N & L). apply occ_app in O as [O1 O2]. rewrite zlen_uint in O2. replace (Z.of_nat n <? 1) with false by lia. fold (pascal_end little). pose proof (zlen_nonneg x).
    rewrite (read_num read data Hs Hb (pascal_end little) n (8 * Z.of_nat n) (zlen x) p) by (auto; try lia; destruct little; discriminate). cbn [bind]. eexists. split; [reflexivity|]. rewrite zlen_app, zlen_uint. split; [lia|].
    replace ((Z.of_nat n + zlen x) * 8 / 8 - Z.of_nat n) with (zlen x) by lia. replace (8 * p + 8 * Z.of_nat n) with (8 * (p + Z.of_nat n)) by lia. apply (some_read read data Hs x _ O2).
Qed.
(** [p] yields the bits [l] and goes on with [q]. *)
Inductive takes (e : endian) : prog -> list (str * list bool) -> prog -> Prop :=
| ta_nil p : takes e p [] p
| ta_cons name n b c l q : 1 <= n -> n = zlen b -> takes e (c (VNum (val_of e b))) l q -> takes e (PFld name (KNum n e) c) ((name, b) :: l) q.
(** In a field set that ends at the bit [stop], the generator yields the items from the byte [p] on, and goes on with [q]. *)
Inductive follows : Z -> Z -> prog -> list item -> prog -> Prop :=
| fo_nil stop p q : follows stop p q [] q
| fo_plain stop p name k c s l q : plain_ok s -> k = kind_of s -> follows stop (p + len (I name s)) (c (plain_val s)) l q -> follows stop p (PFld name k c) (I name s :: l) q
| fo_bits stop p pr e n bs l q q' : e <> MIDDLE_ENDIAN -> (1 <= n)%nat -> zlen (all_bits bs) = 8 * Z.of_nat n -> takes e pr bs q -> follows stop (p + Z.of_nat n) q l q' -> follows stop p pr (IBits e n bs :: l) q'
| fo_set stop p name s body c k l q : s = 8 * zlen (bytes_of_all k) -> 0 < s -> follows (8 * p + s) p body k PRet ->
    follows stop (p + zlen (bytes_of_all k)) (c (shows k p)) l q -> follows stop p (PSet name (Some s) body c) (ISet name k :: l) q
| fo_open stop p name body c k l q : 0 < zlen (bytes_of_all k) -> follows stop p body k PRet ->
    follows stop (p + zlen (bytes_of_all k)) (c (shows k p)) l q -> follows stop p (PSet name None body c) (ISet name k :: l) q
| fo_code stop p name m c x v l q : m read (8 * p) = Ok (v, 8 * zlen x) -> follows stop (p + zlen x) (c (VNum v)) l q -> follows stop p (PFld name (KCode m) c) (I name (SCode x v) :: l) q
| fo_ask stop p c l q : follows stop p (c stop (8 * p)) l q -> follows stop p (PAsk c) l q
| fo_do stop p m c v l q : m read (8 * zlen data) stop (8 * p) = Ok v -> follows stop p (c v) l q -> follows stop p (PDo m c) l q
| fo_same stop p pr pr' l q : (forall f, run pr f stop (8 * p) = run pr' f stop (8 * p)) -> follows stop p pr' l q -> follows stop p pr l q.
Definition after_items {A} (l : list A) (f : bool) : bool := match l with [] => f | _ => false end.

Lemma takes_run e x bs pr q : e <> MIDDLE_ENDIAN -> takes e pr bs q -> forall p j f stop done, occurs_at x data p -> bits_of e x = done ++ all_bits bs -> j = zlen done -> zlen (bits_of e x) = 8 * zlen x -> 8 * p + j + zlen (all_bits bs) <= stop ->
  run pr f stop (8 * p + j) = puts (bits_at_addr e bs (8 * p + j)) (run q (after_items bs f) stop (8 * p + j + zlen (all_bits bs))).
Proof using All.
  intros E T. induction T as [pr|name n b c l q N1 N T IH]; intros p j f stop done O X J L St.
  - cbn [bits_at_addr after_items]. rewrite puts_nil. change (zlen (all_bits [])) with 0. rewrite Z.add_0_r. reflexivity.
  - change (all_bits ((name, b) :: l)) with (b ++ all_bits l) in *. rewrite zlen_app in *. pose proof (zlen_nonneg done). pose proof (zlen_nonneg (all_bits l)).
    assert (L' : zlen (bits_of e x) = zlen done + (zlen b + zlen (all_bits l))) by (rewrite X, !zlen_app; reflexivity).
    rewrite (step_bits read data Hs Hb (8 * zlen data) name e x (bits_of e x) b n c f p j (8 * p + j) (8 * p + j + zlen b) stop); auto; try lia.
    + rewrite <- (Z.add_assoc (8 * p) j (zlen b)). rewrite (IH p (j + zlen b) false stop (done ++ b)); auto; try lia.
      * cbn [bits_at_addr after_items]. rewrite puts_cons. subst n. rewrite !Z.add_assoc. destruct l; reflexivity.
      * rewrite X, app_assoc. reflexivity.
      * rewrite zlen_app. lia.
    + rewrite X, J, N. rewrite sub_app_r by lia. rewrite Z.sub_diag. rewrite sub_app_l by lia. apply sub_all.
Qed.
Theorem follow stop p pr l q : follows stop p pr l q -> forall f, occurs_at (bytes_of_all l) data p -> 8 * (p + zlen (bytes_of_all l)) <= stop ->
  run pr f stop (8 * p) = puts (shows l p) (run q (after_items l f) stop (8 * (p + zlen (bytes_of_all l)))).
Proof using All.
  intros Fo. induction Fo as [stop p q|stop p name k c s l q K -> Fo IH|stop p pr e n bs l q q' E N L T Fo IH|stop p name s body c k l q -> S0 Fb IHb Fo IH|stop p name body c k l q S0 Fb IHb Fo IH|stop p name m c x v l q M Fo IH|stop p c l q Fo IH|stop p m c v l q M Fo IH|stop p pr pr' l q R Fo IH]; intros f O St.
  - cbn [shows after_items]. rewrite puts_nil. change (zlen (bytes_of_all [])) with 0. rewrite Z.add_0_r. reflexivity.
  - change (bytes_of_all (I name s :: l)) with (plain_bytes s ++ bytes_of_all l) in *. change (len (I name s)) with (zlen (plain_bytes s)) in *. rewrite zlen_app in *. apply occ_app in O as [O1 O2]. pose proof (zlen_nonneg (bytes_of_all l)).
    destruct (plain_read s p K O1) as (z & Z1 & Z2 & V). cbn [GenModel.run]. rewrite Z1. replace (stop <? 8 * p + z) with false by lia. rewrite V. replace (8 * p + z) with (8 * (p + zlen (plain_bytes s))) by lia.
    rewrite IH by (auto; lia). cbn [shows show]. change (len (I name s)) with (zlen (plain_bytes s)). rewrite Z.add_assoc, Z2. cbn [app]. rewrite puts_cons. destruct l; reflexivity.
  - change (bytes_of_all (IBits e n bs :: l)) with (uint e n (val_of e (all_bits bs)) ++ bytes_of_all l) in *. rewrite zlen_app, zlen_uint in *. apply occ_app in O as [O1 O2]. rewrite zlen_uint in O2. pose proof (zlen_nonneg (bytes_of_all l)).
    pose proof (takes_run e _ bs pr q E T p 0 f stop [] O1 (bits_uint e n _ E L) eq_refl ltac:(rewrite bits_uint, zlen_uint by auto; exact L) ltac:(lia)) as R. rewrite !Z.add_0_r in R. rewrite R. rewrite L. replace (8 * p + 8 * Z.of_nat n) with (8 * (p + Z.of_nat n)) by lia.
    rewrite IH by (auto; lia). cbn [shows show]. rewrite puts_app. unfold len. cbn [bytes_of]. rewrite zlen_uint, Z.add_assoc.
    destruct bs as [|b bs]; [change (zlen (all_bits [])) with 0 in L; lia|]. destruct l; reflexivity.
  - change (bytes_of_all (ISet name k :: l)) with (bytes_of_all k ++ bytes_of_all l) in *. rewrite zlen_app in *. apply occ_app in O as [O1 O2]. pose proof (zlen_nonneg (bytes_of_all l)).
    pose proof (IHb true O1 ltac:(lia)) as R. cbn [GenModel.run] in R. unfold puts in R. cbn [fst snd] in R. rewrite app_nil_r in R.
    rewrite (step_set read _ name _ body c f stop (8 * p) _ _ _ (8 * (p + zlen (bytes_of_all k))) R) by lia. rewrite IH by (auto; lia). change (shows (ISet name k :: l) p) with (show (ISet name k) p ++ shows l (p + zlen (bytes_of_all k))). rewrite show_set. cbn [app]. rewrite puts_cons, Z.add_assoc. destruct l; reflexivity.
  - change (bytes_of_all (ISet name k :: l)) with (bytes_of_all k ++ bytes_of_all l) in *. rewrite zlen_app in *. apply occ_app in O as [O1 O2]. pose proof (zlen_nonneg (bytes_of_all l)).
    pose proof (IHb true O1 ltac:(lia)) as R. cbn [GenModel.run] in R. unfold puts in R. cbn [fst snd] in R. rewrite app_nil_r in R.
    rewrite (step_open read _ name body c f stop (8 * p) _ _ R) by lia. rewrite IH by (auto; lia). change (shows (ISet name k :: l) p) with (show (ISet name k) p ++ shows l (p + zlen (bytes_of_all k))). rewrite show_set. cbn [app]. rewrite puts_cons, Z.add_assoc.
    replace (8 * (p + zlen (bytes_of_all k)) - 8 * p) with (8 * zlen (bytes_of_all k)) by lia. destruct l; reflexivity.
  - change (bytes_of_all (I name (SCode x v) :: l)) with (x ++ bytes_of_all l) in *. rewrite zlen_app in *. apply occ_app in O as [O1 O2]. pose proof (zlen_nonneg (bytes_of_all l)). pose proof (zlen_nonneg x).
    cbn [GenModel.run fsize fval]. rewrite M. cbn [bind fst snd]. replace (0 <=? 8 * zlen x) with true by lia. replace (stop <? 8 * p + 8 * zlen x) with false by lia. replace (8 * p + 8 * zlen x) with (8 * (p + zlen x)) by lia.
    rewrite IH by (auto; lia). cbn [shows show plain_bytes plain_val]. change (len (I name (SCode x v))) with (zlen x). rewrite Z.add_assoc. cbn [app]. rewrite puts_cons. destruct l; reflexivity.
  - cbn [GenModel.run]. apply IH; auto.
  - cbn [GenModel.run]. rewrite M. apply IH; auto.
  - rewrite R. apply IH; auto.
Qed.
(** A generator that follows a table up to its end *)
Corollary follow_all stop p pr l f : follows stop p pr l PRet -> occurs_at (bytes_of_all l) data p -> 8 * (p + zlen (bytes_of_all l)) <= stop ->
  run pr f stop (8 * p) = (shows l p, None, 8 * (p + zlen (bytes_of_all l))).
Proof using All. intros Fo O St. rewrite (follow stop p pr l PRet Fo f O St). unfold puts. cbn [GenModel.run fst snd]. rewrite app_nil_r. reflexivity. Qed.
Corollary follow_file pr l : data = bytes_of_all l -> follows (8 * zlen data) 0 pr l PRet -> run pr true (8 * zlen data) 0 = (shows l 0, None, 8 * zlen data).
Proof using All.
  intros E Fo. pose proof (occ_self data) as O. pose proof (follow_all (8 * zlen data) 0 pr l true Fo) as R. rewrite <- E in R. specialize (R O ltac:(lia)). change (8 * 0) with 0 in R. rewrite R. reflexivity.
Qed.
Lemma follows_app stop p pr l q : follows stop p pr l q -> forall l' r, follows stop (p + zlen (bytes_of_all l)) q l' r -> follows stop p pr (l ++ l') r.
Proof using Type.
  intros Fo. induction Fo as [stop p q|stop p name k c s l q K E Fo IH|stop p pr e n bs l q q' E N L T Fo IH|stop p name s body c k l q E S0 Fb IHb Fo IH|stop p name body c k l q S0 Fb IHb Fo IH|stop p name m c x v l q M Fo IH|stop p c l q Fo IH|stop p m c v l q M Fo IH|stop p pr pr' l q R Fo IH]; intros l' r Fo'; cbn [app].
  - change (zlen (bytes_of_all [])) with 0 in Fo'. rewrite Z.add_0_r in Fo'. exact Fo'.
  - apply fo_plain; auto. apply IH. change (bytes_of_all (I name s :: l)) with (plain_bytes s ++ bytes_of_all l) in Fo'. rewrite zlen_app, Z.add_assoc in Fo'. exact Fo'.
  - apply (fo_bits _ _ _ _ _ _ _ q); auto. apply IH. change (bytes_of_all (IBits e n bs :: l)) with (uint e n (val_of e (all_bits bs)) ++ bytes_of_all l) in Fo'. rewrite zlen_app, zlen_uint, Z.add_assoc in Fo'. exact Fo'.
  - apply fo_set; auto. apply IH. change (bytes_of_all (ISet name k :: l)) with (bytes_of_all k ++ bytes_of_all l) in Fo'. rewrite zlen_app, Z.add_assoc in Fo'. exact Fo'.
  - apply fo_open; auto. apply IH. change (bytes_of_all (ISet name k :: l)) with (bytes_of_all k ++ bytes_of_all l) in Fo'. rewrite zlen_app, Z.add_assoc in Fo'. exact Fo'.
  - apply fo_code; auto. apply IH. change (bytes_of_all (I name (SCode x v) :: l)) with (x ++ bytes_of_all l) in Fo'. rewrite zlen_app, Z.add_assoc in Fo'. exact Fo'.
  - apply fo_ask. apply IH, Fo'.
  - apply (fo_do _ _ _ _ v); auto.
  - apply (fo_same _ _ _ pr'); auto.
Qed.
(** Loops *)
Lemma follows_loop {A} (it : A -> list item) body ds : forall stop p n, (length ds < n)%nat -> stop = 8 * (p + zlen (bytes_of_all (flat_map it ds))) ->
  occurs_at (bytes_of_all (flat_map it ds)) data p ->
  (forall d p k, In d ds -> occurs_at (bytes_of_all (it d)) data p -> 8 * (p + zlen (bytes_of_all (it d))) <= stop -> 0 < zlen (bytes_of_all (it d)) /\ follows stop p (body k) (it d) k) ->
  follows stop p (loop body n) (flat_map it ds) PRet.
Proof using Type.
  induction ds as [|d ds IH]; intros stop p n N St O H; (destruct n as [|n]; [cbn [length] in N; lia|]); cbn [loop flat_map] in *; apply fo_ask.
  - change (zlen (bytes_of_all [])) with 0 in St. replace (stop <=? 8 * p) with true by lia. constructor.
  - rewrite bytes_of_all_app, zlen_app in *. apply occ_app in O as [O1 O2]. pose proof (zlen_nonneg (bytes_of_all (flat_map it ds))). destruct (H d p (loop body n) ltac:(left; reflexivity) O1 ltac:(lia)) as [L Fo].
    replace (stop <=? 8 * p) with false by lia. apply (follows_app _ _ _ _ _ Fo). apply IH; [cbn [length] in N; lia|lia|exact O2|]. intros d' p' k I' O' St'. apply H; auto. right. exact I'.
Qed.
Lemma follows_times {A} (it : A -> list item) body ds k : forall stop p, occurs_at (bytes_of_all (flat_map it ds)) data p -> 8 * (p + zlen (bytes_of_all (flat_map it ds))) <= stop ->
  (forall d p k, In d ds -> occurs_at (bytes_of_all (it d)) data p -> 8 * (p + zlen (bytes_of_all (it d))) <= stop -> follows stop p (body k) (it d) k) ->
  follows stop p (times body (length ds) k) (flat_map it ds) k.
Proof using Type.
  induction ds as [|d ds IH]; intros stop p O St H; cbn [times length flat_map] in *; [constructor|].
  rewrite bytes_of_all_app, zlen_app in *. apply occ_app in O as [O1 O2]. pose proof (zlen_nonneg (bytes_of_all (flat_map it ds))).
  apply (follows_app _ _ _ _ _ (H d p _ ltac:(left; reflexivity) O1 ltac:(lia))). apply IH; auto; [lia|]. intros d' p' k' I' O' St'. apply H; auto. right. exact I'.
Qed.
Lemma follows_loop_from {A S} (it : A -> list item) (next : S -> A -> S) (good : S -> A -> Prop) body ds : forall s stop p n, (length ds < n)%nat -> stop = 8 * (p + zlen (bytes_of_all (flat_map it ds))) ->
  occurs_at (bytes_of_all (flat_map it ds)) data p ->
  (forall s d p k, In d ds -> good s d -> occurs_at (bytes_of_all (it d)) data p -> 8 * (p + zlen (bytes_of_all (it d))) <= stop -> 0 < zlen (bytes_of_all (it d)) /\ follows stop p (body s k) (it d) (k (next s d))) ->
  (fix along s ds := match ds with [] => True | d :: ds => good s d /\ along (next s d) ds end) s ds ->
  follows stop p (loop_from body n s) (flat_map it ds) PRet.
Proof using Type.
  induction ds as [|d ds IH]; intros s stop p n N St O H Al; (destruct n as [|n]; [cbn [length] in N; lia|]); cbn [loop_from flat_map] in *; apply fo_ask.
  - change (zlen (bytes_of_all [])) with 0 in St. replace (stop <=? 8 * p) with true by lia. constructor.
  - rewrite bytes_of_all_app, zlen_app in *. apply occ_app in O as [O1 O2]. pose proof (zlen_nonneg (bytes_of_all (flat_map it ds))). destruct Al as [G Al]. destruct (H s d p (loop_from body n) ltac:(left; reflexivity) G O1 ltac:(lia)) as [L Fo].
    replace (stop <=? 8 * p) with false by lia. apply (follows_app _ _ _ _ _ Fo). apply IH; [cbn [length] in N; lia|lia|exact O2| |exact Al]. intros s' d' p' k I' G' O' St'. apply H; auto. right. exact I'.
Qed.
Lemma peek_ok o s st c stop p l q : plain_ok s -> occurs_at (plain_bytes s) data (p + o) -> (st = true -> 8 * (p + o + zlen (plain_bytes s)) <= stop) -> forall k b, k = kind_of s -> b = 8 * o -> follows stop p (c (plain_val s)) l q -> follows stop p (peek b k st c) l q.
Proof using Hs Hb.
  intros K O St k b -> -> Fo. apply (fo_do _ _ _ _ (plain_val s)); [|exact Fo]. destruct (plain_read s (p + o) K O) as (z & Z1 & Z2 & V). replace (8 * p + 8 * o) with (8 * (p + o)) by lia. rewrite Z1. cbn [bind].
  replace (st && (stop <? 8 * (p + o) + z)) with false; [exact V|]. destruct st; [|reflexivity]. specialize (St eq_refl). lia.
Qed.
End Follow.
Arguments follows read data : clear implicits.

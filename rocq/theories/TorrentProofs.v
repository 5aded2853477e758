(** Proofs about the torrent parser. *)
From Coq Require Import String.
From Verif Require Import Base BitsModel ChunkBase DictModel DictProofs FieldModel FieldNames TorrentModel TorrentSpec Lit.
Open Scope Z_scope.
Ltac Zify.zify_post_hook ::= Z.div_mod_to_equations.

Scheme at_mut := Minimality for at_ Sort Prop
  with at_items_mut := Minimality for at_items Sort Prop
  with at_pairs_mut := Minimality for at_pairs Sort Prop.
Combined Scheme at_ind3 from at_mut, at_items_mut, at_pairs_mut.

Lemma at_size a b t : at_ a b t -> t_addr t = a /\ t_size t = 8 * zlen b.
Proof. intros H; inversion H; subst; cbn [t_addr t_size]; split; auto; rewrite ?zlen_app, ?zlen_cons; change (zlen (lit "i")) with 1; change (zlen (lit "e")) with 1; change (zlen (lit ":")) with 1; change (zlen (lit "l")) with 1; change (zlen (lit "d")) with 1; lia. Qed.
(** The first byte of a field *)
Lemma at_head a b t : at_ a b t -> exists c b', b = c :: b' /\ c <> 101.
Proof.
  intros H; inversion H; subst.
  - exists 105. eexists. split; [reflexivity|lia].
  - exists d. eexists. split; [reflexivity|unfold digit in *; lia].
  - exists 108. eexists. split; [reflexivity|lia].
  - exists 100. eexists. split; [reflexivity|lia].
Qed.

Section Proofs.
Context (read : read_fun) (data : list Z) (Hs : serves read data) (He : ends read data).
Notation ssize := (8 * zlen data).
Notation entry := (Entry read ssize).

Lemma occ_nonempty b p : occurs_at b data p -> b <> [] -> data <> [].
Proof. intros H Hb ->. apply occ_in in H. destruct b; [congruence|]. rewrite zlen_cons in H. change (zlen (@nil Z)) with 0 in H. pose proof (zlen_nonneg b). lia. Qed.
Lemma first_byte c b p : occurs_at (c :: b) data p -> readBytes read (8 * p) 1 = Ok [c].
Proof using Hs. intros H. change (c :: b) with ([c] ++ b) in H. apply occ_app in H as [H _]. apply (rb_occ read data Hs p [c] H). discriminate. Qed.
(** The text up to a delimiter is determined. *)
Lemma find_this c p limit t : 0 <= p -> 0 <= limit -> zlen t <= limit -> ~ In c t -> occurs_at (t ++ [c]) data p ->
  searchBytesLength read ssize [c] false (8 * p) (Some (8 * p + (limit + 1) * 8)) = Ok (Some (zlen t)).
Proof using Hs He.
  intros Hp Hl Ht N O.
  assert (Hd : data <> []) by (eapply occ_nonempty; [exact O|]; destruct t; discriminate).
  destruct (find_byte read data Hs c p limit Hd Hp Hl) as [(t' & E & L & N' & O')|[_ H]]; [|destruct (H t Ht O)].
  rewrite E. do 2 f_equal. apply occ_app in O as [O1 O2]. apply occ_app in O' as [O1' O2'].
  pose proof (zlen_nonneg t). pose proof (zlen_nonneg t').
  destruct (Z.lt_trichotomy (zlen t') (zlen t)) as [C|[C|C]]; [|exact C|].
  - destruct N. eapply occ_byte_inv; [exact O1| |exact O2']. lia.
  - destruct N'. eapply occ_byte_inv; [exact O1'| |exact O2]. lia.
Qed.

(** ** Everything that is there is found *)
Lemma complete3 :
  (forall a b t, at_ a b t -> forall p fuel, a = 8 * p -> occurs_at b data p -> zlen b <= Z.of_nat fuel -> entry fuel a = Ok t) /\
  (forall a b ts, at_items a b ts -> forall p fuel n, a = 8 * p -> occurs_at (b ++ [101]) data p -> zlen b <= Z.of_nat fuel -> zlen b < Z.of_nat n ->
     list_items read (entry fuel) n a = Ok (ts, a + 8 * zlen b)) /\
  (forall a b ts, at_pairs a b ts -> forall p fuel n, a = 8 * p -> occurs_at (b ++ [101]) data p -> zlen b <= Z.of_nat fuel -> zlen b < Z.of_nat n ->
     dict_items read (entry fuel) n a = Ok (ts, a + 8 * zlen b)).
Proof using Hs He.
  apply at_ind3.
  - (* integer *)
    intros a t Ht L N p fuel -> O F. rewrite !zlen_app in F. change (zlen (lit "i")) with 1 in F. change (zlen (lit "e")) with 1 in F.
    pose proof (occ_in _ _ _ O) as [Hp _]. pose proof (zlen_nonneg t).
    destruct fuel as [|fuel]; [lia|]. cbn [Entry]. rewrite (first_byte 105 (t ++ lit "e") p O). cbn [bind Z.eqb Pos.eqb].
    unfold Integer. change (lit "i" ++ t ++ lit "e") with ([105] ++ t ++ [101]) in O. apply occ_app in O as [_ O]. change (zlen [105]) with 1 in O.
    replace (8 * p + 8) with (8 * (p + 1)) by lia. rewrite (find_this 101 (p + 1) 21 t) by (auto; lia). cbn [bind].
    assert (1 <= zlen t) by (destruct t; [congruence|rewrite zlen_cons; pose proof (zlen_nonneg t); lia]).
    replace (zlen t =? 0) with false by lia. apply occ_app in O as [O _]. rewrite (rb_occ read data Hs (p + 1) t O Ht). cbn [bind]. do 2 f_equal. lia.
  - (* string *)
    intros a d t s c Hd L N V S p fuel -> O F. rewrite !zlen_app, zlen_cons in F. change (zlen (lit ":")) with 1 in F.
    pose proof (occ_in _ _ _ O) as [Hp _]. pose proof (zlen_nonneg t). pose proof (zlen_nonneg s).
    destruct fuel as [|fuel]; [lia|]. cbn [Entry]. rewrite (first_byte d (t ++ lit ":" ++ s) p O). cbn [bind]. unfold digit in Hd.
    replace (d =? 105) with false by lia. replace ((48 <=? d) && (d <=? 57)) with true by lia.
    unfold TorrentString. change (lit ":") with [58] in O. rewrite app_assoc in O. apply occ_app in O as [O O2].
    rewrite (find_this 58 p 6 (d :: t)) by (auto; lia). cbn [bind]. rewrite zlen_cons at 1. replace (1 + zlen t =? 0) with false by lia.
    apply occ_app in O as [O _]. rewrite (rb_occ read data Hs p (d :: t) O) by discriminate. cbn [bind]. rewrite V.
    replace (zlen s <? 0) with false by lia. red in S. rewrite S. destruct (zlen s =? 0) eqn:Z0; [do 2 f_equal; lia|].
    rewrite zlen_app in O2. change (zlen [58]) with 1 in O2.
    replace (8 * p + (zlen (d :: t) + 1) * 8) with (8 * (p + (zlen (d :: t) + 1))) by lia.
    rewrite (rb_occ read data Hs _ s O2) by (intros ->; discriminate). cbn [bind]. do 2 f_equal. lia.
  - (* list *)
    intros a b ts _ IH p fuel -> O F. rewrite !zlen_app in F. change (zlen (lit "l")) with 1 in F. change (zlen (lit "e")) with 1 in F.
    pose proof (occ_in _ _ _ O) as [Hp _]. pose proof (zlen_nonneg b).
    destruct fuel as [|fuel]; [lia|]. cbn [Entry]. rewrite (first_byte 108 (b ++ lit "e") p O). cbn [bind Z.eqb Z.leb Z.compare Pos.eqb Pos.compare Pos.compare_cont andb].
    change (lit "l" ++ b ++ lit "e") with ([108] ++ b ++ [101]) in O. apply occ_app in O as [_ O]. change (zlen [108]) with 1 in O.
    rewrite (IH (p + 1) fuel (S fuel)) by (auto; lia). cbn [bind fst snd]. do 2 f_equal. lia.
  - (* dictionary *)
    intros a b ts _ IH p fuel -> O F. rewrite !zlen_app in F. change (zlen (lit "d")) with 1 in F. change (zlen (lit "e")) with 1 in F.
    pose proof (occ_in _ _ _ O) as [Hp _]. pose proof (zlen_nonneg b).
    destruct fuel as [|fuel]; [lia|]. cbn [Entry]. rewrite (first_byte 100 (b ++ lit "e") p O). cbn [bind Z.eqb Z.leb Z.compare Pos.eqb Pos.compare Pos.compare_cont andb].
    change (lit "d" ++ b ++ lit "e") with ([100] ++ b ++ [101]) in O. apply occ_app in O as [_ O]. change (zlen [100]) with 1 in O.
    rewrite (IH (p + 1) fuel (S fuel)) by (auto; lia). cbn [bind fst snd]. do 2 f_equal. lia.
  - intros a p fuel n -> O F Hn. change (zlen (@nil Z)) with 0 in Hn. destruct n as [|n]; [lia|]. cbn [list_items]. rewrite (first_byte 101 [] p O). cbn [bind]. change (str_eqb [101] [101]) with true. cbv iota. change (zlen (@nil Z)) with 0. do 2 f_equal. lia.
  - intros a b b' t ts A IHt _ IHs p fuel n -> O F Hn. rewrite zlen_app in *. pose proof (zlen_nonneg b). pose proof (zlen_nonneg b').
    destruct (at_head _ _ _ A) as (c & b0 & E & Nc). destruct (at_size _ _ _ A) as [_ T].
    assert (1 <= zlen b) by (subst b; rewrite zlen_cons; pose proof (zlen_nonneg b0); lia).
    destruct n as [|n]; [lia|]. cbn [list_items]. rewrite <- app_assoc in O. pose proof O as O'. rewrite E in O'. rewrite (first_byte c (b0 ++ b' ++ [101]) p O'). cbn [bind].
    replace (str_eqb [c] [101]) with false by (cbn; replace (c =? 101) with false by lia; reflexivity).
    apply occ_app in O as [O1 O2]. rewrite (IHt p fuel) by (auto; lia). cbn [bind]. rewrite T. rewrite (IHs (p + zlen b) fuel n) by (auto; lia). cbn [bind fst snd]. do 2 f_equal. lia.
  - intros a p fuel n -> O F Hn. change (zlen (@nil Z)) with 0 in Hn. destruct n as [|n]; [lia|]. cbn [dict_items]. rewrite (first_byte 101 [] p O). cbn [bind]. change (str_eqb [101] [101]) with true. cbv iota. change (zlen (@nil Z)) with 0. do 2 f_equal. lia.
  - intros a b b' b'' k v ts A IHk A' IHv _ IHs p fuel n -> O F Hn. rewrite !zlen_app in *. pose proof (zlen_nonneg b). pose proof (zlen_nonneg b'). pose proof (zlen_nonneg b'').
    destruct (at_head _ _ _ A) as (c & b0 & E & Nc). destruct (at_size _ _ _ A) as [_ T]. destruct (at_size _ _ _ A') as [_ T'].
    assert (1 <= zlen b) by (subst b; rewrite zlen_cons; pose proof (zlen_nonneg b0); lia).
    destruct n as [|n]; [lia|]. cbn [dict_items]. rewrite <- !app_assoc in O. pose proof O as O'. rewrite E in O'. rewrite (first_byte c (b0 ++ b' ++ b'' ++ [101]) p O'). cbn [bind].
    replace (str_eqb [c] [101]) with false by (cbn; replace (c =? 101) with false by lia; reflexivity).
    apply occ_app in O as [O1 O2]. apply occ_app in O2 as [O2 O3].
    rewrite (IHk p fuel) by (auto; lia). cbn [bind]. rewrite T. rewrite (IHv (p + zlen b) fuel) by (auto; lia). cbn [bind]. rewrite T'.
    rewrite (IHs (p + zlen b + zlen b') fuel n) by (auto; lia). cbn [bind fst snd]. do 2 f_equal. lia.
Qed.

(** ** Everything that is found is there *)
Lemma integer_sound p t : 0 <= p -> data <> [] -> Integer read ssize (8 * p) = Ok t -> readBytes read (8 * p) 1 = Ok [105] ->
  exists b, at_ (8 * p) b t /\ occurs_at b data p.
Proof using Hs He.
  intros Hp Hd H R. unfold Integer in H. replace (8 * p + 8) with (8 * (p + 1)) in H by lia.
  destruct (find_byte read data Hs 101 (p + 1) 21 Hd ltac:(lia) ltac:(lia)) as [(x & E & L & N & O)|[E _]]; rewrite E in H; cbn [bind] in H; [|discriminate].
  destruct (zlen x =? 0) eqn:Z0; [discriminate|]. pose proof (zlen_nonneg x).
  apply occ_app in O as [O1 O2]. assert (X : x <> []) by (intros ->; discriminate). rewrite (rb_occ read data Hs _ x O1 X) in H. cbn [bind] in H. apply ok_inj in H as <-.
  exists (lit "i" ++ x ++ lit "e"). split.
  - replace ((1 + zlen x + 1) * 8) with (8 * (zlen x + 2)) by lia. constructor; auto.
  - apply occ_app. split; [apply (proj1 (rb_inv read data Hs He p 1 [105] Hp ltac:(lia) R))|]. apply occ_app. auto.
Qed.
Lemma string_sound p c t : 0 <= p -> data <> [] -> TorrentString read ssize (8 * p) = Ok t -> readBytes read (8 * p) 1 = Ok [c] -> digit c ->
  exists b, at_ (8 * p) b t /\ occurs_at b data p.
Proof using Hs He.
  intros Hp Hd H R D. unfold TorrentString in H.
  destruct (find_byte read data Hs 58 p 6 Hd ltac:(lia) ltac:(lia)) as [(x & E & L & N & O)|[E _]]; rewrite E in H; cbn [bind] in H; [|discriminate].
  destruct (zlen x =? 0) eqn:Z0; [discriminate|]. pose proof (zlen_nonneg x). pose proof O as O0.
  apply occ_app in O as [O1 O2]. assert (X : x <> []) by (intros ->; discriminate). rewrite (rb_occ read data Hs _ x O1 X) in H. cbn [bind] in H.
  assert (exists x', x = c :: x') as (x' & ->).
  { destruct x as [|c' x']; [congruence|]. exists x'. f_equal.
    assert ([c'] = [c]) as Y; [|congruence]. eapply (occ_unique data p); [|apply (proj1 (rb_inv read data Hs He p 1 [c] Hp ltac:(lia) R))|reflexivity].
    change (c' :: x') with ([c'] ++ x') in O1. apply occ_app in O1 as [O1 _]. exact O1. }
  destruct (py_int 10 (c :: x')) as [len|] eqn:V; [|discriminate]. destruct (len <? 0) eqn:L0; [discriminate|]. destruct (len =? 0) eqn:L1.
  - apply ok_inj in H as <-. exists ((c :: x') ++ lit ":" ++ []). split; [|rewrite app_nil_r; exact O0].
    replace ((zlen (c :: x') + 1) * 8) with (8 * (zlen (c :: x') + 1 + zlen (@nil Z))) by (change (zlen (@nil Z)) with 0; lia).
    apply at_str; auto; [rewrite V; f_equal; change (zlen (@nil Z)) with 0; lia|reflexivity].
  - replace (8 * p + (zlen (c :: x') + 1) * 8) with (8 * (p + zlen (c :: x') + 1)) in H by lia.
    destruct (readBytes read (8 * (p + zlen (c :: x') + 1)) len) as [s|] eqn:R2; [|discriminate]. cbn [bind] in H. apply ok_inj in H as <-.
    apply (rb_inv read data Hs He) in R2 as [O3 Ls]; try lia. exists ((c :: x') ++ lit ":" ++ s). split.
    + replace ((zlen (c :: x') + 1 + len) * 8) with (8 * (zlen (c :: x') + 1 + zlen s)) by lia.
      apply at_str; auto; [rewrite V; f_equal; lia|]. red. rewrite Ls, L1. reflexivity.
    + rewrite app_assoc. apply occ_app. split; [exact O0|]. rewrite zlen_app. change (zlen (lit ":")) with 1. replace (p + (zlen (c :: x') + 1)) with (p + zlen (c :: x') + 1) by lia. exact O3.
Qed.

Lemma items_sound (f : Z -> res tree) :
  (forall p t, 0 <= p -> f (8 * p) = Ok t -> exists b, at_ (8 * p) b t /\ occurs_at b data p) ->
  forall n p ts e, 0 <= p -> list_items read f n (8 * p) = Ok (ts, e) ->
  exists b, at_items (8 * p) b ts /\ occurs_at (b ++ [101]) data p /\ e = 8 * (p + zlen b).
Proof using Hs He.
  intros Hf. induction n as [|n IH]; intros p ts e Hp H; [discriminate|]. cbn [list_items] in H.
  destruct (readBytes read (8 * p) 1) as [x|] eqn:R; [|discriminate]. cbn [bind] in H.
  destruct (str_eqb x [101]) eqn:X.
  - apply str_eqb_eq in X as ->. apply ok_pair in H as [<- <-]. exists []. split; [constructor|]. split; [apply (proj1 (rb_inv read data Hs He p 1 _ Hp ltac:(lia) R))|change (zlen (@nil Z)) with 0; lia].
  - destruct (f (8 * p)) as [t|] eqn:T; [|discriminate]. cbn [bind] in H. destruct (Hf p t Hp T) as (b & A & O). destruct (at_size _ _ _ A) as [_ Sz].
    rewrite Sz in H. replace (8 * p + 8 * zlen b) with (8 * (p + zlen b)) in H by lia. pose proof (zlen_nonneg b).
    destruct (list_items read f n (8 * (p + zlen b))) as [[ts' e']|] eqn:L; [|discriminate]. cbn [bind fst snd] in H. apply ok_pair in H as [<- <-].
    destruct (IH (p + zlen b) ts' e' ltac:(lia) L) as (b' & A' & O' & ->). exists (b ++ b'). split; [|split].
    + constructor; auto. replace (8 * p + 8 * zlen b) with (8 * (p + zlen b)) by lia. exact A'.
    + rewrite <- app_assoc. apply occ_app. auto.
    + rewrite zlen_app. lia.
Qed.
Lemma pairs_sound (f : Z -> res tree) :
  (forall p t, 0 <= p -> f (8 * p) = Ok t -> exists b, at_ (8 * p) b t /\ occurs_at b data p) ->
  forall n p ts e, 0 <= p -> dict_items read f n (8 * p) = Ok (ts, e) ->
  exists b, at_pairs (8 * p) b ts /\ occurs_at (b ++ [101]) data p /\ e = 8 * (p + zlen b).
Proof using Hs He.
  intros Hf. induction n as [|n IH]; intros p ts e Hp H; [discriminate|]. cbn [dict_items] in H.
  destruct (readBytes read (8 * p) 1) as [x|] eqn:R; [|discriminate]. cbn [bind] in H.
  destruct (str_eqb x [101]) eqn:X.
  - apply str_eqb_eq in X as ->. apply ok_pair in H as [<- <-]. exists []. split; [constructor|]. split; [apply (proj1 (rb_inv read data Hs He p 1 _ Hp ltac:(lia) R))|change (zlen (@nil Z)) with 0; lia].
  - destruct (f (8 * p)) as [k|] eqn:T; [|discriminate]. cbn [bind] in H. destruct (Hf p k Hp T) as (b & A & O). destruct (at_size _ _ _ A) as [_ Sz].
    rewrite Sz in H. replace (8 * p + 8 * zlen b) with (8 * (p + zlen b)) in H by lia. pose proof (zlen_nonneg b).
    destruct (f (8 * (p + zlen b))) as [v|] eqn:T'; [|discriminate]. cbn [bind] in H. destruct (Hf (p + zlen b) v ltac:(lia) T') as (b' & A' & O'). destruct (at_size _ _ _ A') as [_ Sz'].
    rewrite Sz' in H. replace (8 * (p + zlen b) + 8 * zlen b') with (8 * (p + zlen b + zlen b')) in H by lia. pose proof (zlen_nonneg b').
    destruct (dict_items read f n (8 * (p + zlen b + zlen b'))) as [[ts' e']|] eqn:L; [|discriminate]. cbn [bind fst snd] in H. apply ok_pair in H as [<- <-].
    destruct (IH (p + zlen b + zlen b') ts' e' ltac:(lia) L) as (b'' & A'' & O'' & ->). exists (b ++ b' ++ b''). split; [|split].
    + constructor; auto.
      * replace (8 * p + 8 * zlen b) with (8 * (p + zlen b)) by lia. exact A'.
      * replace (8 * p + 8 * zlen b + 8 * zlen b') with (8 * (p + zlen b + zlen b')) by lia. exact A''.
    + rewrite <- !app_assoc. apply occ_app. split; [assumption|]. apply occ_app. auto.
    + rewrite !zlen_app. lia.
Qed.
Lemma entry_sound : forall fuel p t, 0 <= p -> entry fuel (8 * p) = Ok t -> exists b, at_ (8 * p) b t /\ occurs_at b data p.
Proof using Hs He.
  induction fuel as [|fuel IH]; intros p t Hp H; [discriminate|]. cbn [Entry] in H.
  destruct (readBytes read (8 * p) 1) as [x|] eqn:R; [|discriminate]. cbn [bind] in H.
  destruct (rb_inv read data Hs He p 1 _ Hp ltac:(lia) R) as [Ox Lx].
  destruct x as [|c [|]]; try discriminate.
  assert (Hd : data <> []) by (eapply occ_nonempty; [exact Ox|discriminate]).
  destruct (c =? 105) eqn:C1; [apply Z.eqb_eq in C1 as ->; apply integer_sound; auto|].
  destruct ((48 <=? c) && (c <=? 57)) eqn:C2; [apply (string_sound p c); auto; unfold digit; lia|].
  destruct (c =? 108) eqn:C3; [|destruct (c =? 100) eqn:C4; [|discriminate]].
  - apply Z.eqb_eq in C3 as ->. replace (8 * p + 8) with (8 * (p + 1)) in H by lia.
    destruct (list_items read (entry fuel) (S fuel) (8 * (p + 1))) as [[ts e]|] eqn:L; [|discriminate]. cbn [bind fst snd] in H. apply ok_inj in H as <-.
    destruct (items_sound _ IH (S fuel) (p + 1) ts e ltac:(lia) L) as (b & A & O & ->). exists (lit "l" ++ b ++ lit "e"). split.
    + replace (8 * (p + 1 + zlen b) + 8 - 8 * p) with (8 * (zlen b + 2)) by lia. constructor. replace (8 * p + 8) with (8 * (p + 1)) by lia. exact A.
    + apply occ_app. auto.
  - apply Z.eqb_eq in C4 as ->. replace (8 * p + 8) with (8 * (p + 1)) in H by lia.
    destruct (dict_items read (entry fuel) (S fuel) (8 * (p + 1))) as [[ts e]|] eqn:L; [|discriminate]. cbn [bind fst snd] in H. apply ok_inj in H as <-.
    destruct (pairs_sound _ IH (S fuel) (p + 1) ts e ltac:(lia) L) as (b & A & O & ->). exists (lit "d" ++ b ++ lit "e"). split.
    + replace (8 * (p + 1 + zlen b) + 8 - 8 * p) with (8 * (zlen b + 2)) by lia. constructor. replace (8 * p + 8) with (8 * (p + 1)) by lia. exact A.
    + apply occ_app. auto.
Qed.

(** ** The parser stops *)
Lemma integer_fuel p : 0 <= p -> data <> [] -> Integer read ssize (8 * p) <> Err OutOfFuel.
Proof using Hs He.
  intros Hp Hd H. unfold Integer in H. replace (8 * p + 8) with (8 * (p + 1)) in H by lia.
  destruct (find_byte read data Hs 101 (p + 1) 21 Hd ltac:(lia) ltac:(lia)) as [(x & E & L & N & O)|[E _]]; rewrite E in H; cbn [bind] in H; [|discriminate].
  destruct (zlen x =? 0) eqn:Z0; [discriminate|]. pose proof (zlen_nonneg x). rewrite (rb read data Hs He) in H by lia. destruct (p + 1 + zlen x <=? zlen data); discriminate.
Qed.
Lemma string_fuel p : 0 <= p -> data <> [] -> TorrentString read ssize (8 * p) <> Err OutOfFuel.
Proof using Hs He.
  intros Hp Hd H. unfold TorrentString in H.
  destruct (find_byte read data Hs 58 p 6 Hd ltac:(lia) ltac:(lia)) as [(x & E & L & N & O)|[E _]]; rewrite E in H; cbn [bind] in H; [|discriminate].
  destruct (zlen x =? 0) eqn:Z0; [discriminate|]. pose proof (zlen_nonneg x). rewrite (rb read data Hs He) in H by lia. destruct (p + zlen x <=? zlen data); [|discriminate].
  cbn [bind] in H. destruct (py_int 10 _) as [len|]; [|discriminate]. destruct (len <? 0) eqn:?; [discriminate|]. destruct (len =? 0) eqn:?; [discriminate|].
  replace (8 * p + (zlen x + 1) * 8) with (8 * (p + zlen x + 1)) in H by lia. rewrite (rb read data Hs He) in H by lia. destruct (p + zlen x + 1 + len <=? zlen data); discriminate.
Qed.
Lemma at_nonempty a b t : at_ a b t -> 1 <= zlen b.
Proof. intros A. destruct (at_head _ _ _ A) as (c & b' & -> & _). rewrite zlen_cons. pose proof (zlen_nonneg b'). lia. Qed.
Lemma items_fuel fuel : (forall p, 0 <= p <= zlen data -> zlen data - p < Z.of_nat fuel -> entry fuel (8 * p) <> Err OutOfFuel) ->
  forall n p, 0 <= p <= zlen data -> zlen data - p < Z.of_nat fuel -> zlen data - p < Z.of_nat n -> list_items read (entry fuel) n (8 * p) <> Err OutOfFuel.
Proof using Hs He.
  intros Hf. induction n as [|n IH]; intros p Hp F Hn H; [lia|]. cbn [list_items] in H. rewrite (rb read data Hs He) in H by lia.
  destruct (p + 1 <=? zlen data); [|discriminate]. cbn [bind] in H. destruct (str_eqb _ _); [discriminate|].
  destruct (entry fuel (8 * p)) as [t|e] eqn:T; [|apply (Hf p Hp F); cbn [bind] in H; congruence]. cbn [bind] in H.
  destruct (entry_sound fuel p t ltac:(lia) T) as (b & A & O). destruct (at_size _ _ _ A) as [_ Sz]. pose proof (at_nonempty _ _ _ A). apply occ_in in O.
  rewrite Sz in H. replace (8 * p + 8 * zlen b) with (8 * (p + zlen b)) in H by lia. apply (IH (p + zlen b)); try lia.
  destruct (list_items read (entry fuel) n (8 * (p + zlen b))); cbn [bind] in H; [discriminate|congruence].
Qed.
Lemma pairs_fuel fuel : (forall p, 0 <= p <= zlen data -> zlen data - p < Z.of_nat fuel -> entry fuel (8 * p) <> Err OutOfFuel) ->
  forall n p, 0 <= p <= zlen data -> zlen data - p < Z.of_nat fuel -> zlen data - p < Z.of_nat n -> dict_items read (entry fuel) n (8 * p) <> Err OutOfFuel.
Proof using Hs He.
  intros Hf. induction n as [|n IH]; intros p Hp F Hn H; [lia|]. cbn [dict_items] in H. rewrite (rb read data Hs He) in H by lia.
  destruct (p + 1 <=? zlen data); [|discriminate]. cbn [bind] in H. destruct (str_eqb _ _); [discriminate|].
  destruct (entry fuel (8 * p)) as [t|e] eqn:T; [|apply (Hf p Hp F); cbn [bind] in H; congruence]. cbn [bind] in H.
  destruct (entry_sound fuel p t ltac:(lia) T) as (b & A & O). destruct (at_size _ _ _ A) as [_ Sz]. pose proof (at_nonempty _ _ _ A). apply occ_in in O.
  rewrite Sz in H. replace (8 * p + 8 * zlen b) with (8 * (p + zlen b)) in H by lia.
  destruct (entry fuel (8 * (p + zlen b))) as [v|e] eqn:T'; [|apply (Hf (p + zlen b)); try lia; cbn [bind] in H; congruence]. cbn [bind] in H.
  destruct (entry_sound fuel (p + zlen b) v ltac:(lia) T') as (b' & A' & O'). destruct (at_size _ _ _ A') as [_ Sz']. pose proof (at_nonempty _ _ _ A'). apply occ_in in O'.
  rewrite Sz' in H. replace (8 * (p + zlen b) + 8 * zlen b') with (8 * (p + zlen b + zlen b')) in H by lia. apply (IH (p + zlen b + zlen b')); try lia.
  destruct (dict_items read (entry fuel) n (8 * (p + zlen b + zlen b'))); cbn [bind] in H; [discriminate|congruence].
Qed.
Lemma entry_fuel : forall fuel p, 0 <= p <= zlen data -> zlen data - p < Z.of_nat fuel -> entry fuel (8 * p) <> Err OutOfFuel.
Proof using Hs He.
  induction fuel as [|fuel IH]; intros p Hp F H; [lia|]. cbn [Entry] in H. rewrite (rb read data Hs He) in H by lia.
  destruct (p + 1 <=? zlen data) eqn:B; [|discriminate]. cbn [bind] in H.
  assert (Hd : data <> []) by (intros ->; change (zlen (@nil Z)) with 0 in *; lia).
  destruct (sub data p 1) as [|c [|]]; try discriminate.
  destruct (c =? 105); [apply (integer_fuel p); auto; lia|]. destruct ((48 <=? c) && (c <=? 57)); [apply (string_fuel p); auto; lia|].
  replace (8 * p + 8) with (8 * (p + 1)) in H by lia.
  destruct (c =? 108); [|destruct (c =? 100); [|discriminate]].
  - apply (items_fuel fuel IH (S fuel) (p + 1)); try lia. destruct (list_items read (entry fuel) (S fuel) (8 * (p + 1))); cbn [bind] in H; [discriminate|congruence].
  - apply (pairs_fuel fuel IH (S fuel) (p + 1)); try lia. destruct (dict_items read (entry fuel) (S fuel) (8 * (p + 1))); cbn [bind] in H; [discriminate|congruence].
Qed.
End Proofs.

(** ** Bencoded documents *)
Lemma digits_no c t : Forall digit t -> ~ digit c -> ~ In c t.
Proof. intros H N I. rewrite Forall_forall in H. auto. Qed.
Lemma skip_spaces_digit d t : digit d -> skip_spaces (d :: t) = d :: t.
Proof. intros H. unfold digit in H. cbn [skip_spaces]. unfold is_space. replace (((9 <=? d) && (d <=? 13)) || ((28 <=? d) && (d <=? 32)) || (d =? 133) || (d =? 160)) with false by lia. reflexivity. Qed.
Lemma int_digits_dec t : forall acc, Forall digit t -> t <> [] -> int_digits 10 t acc true = Some (undec acc t) /\ int_digits 10 t acc false = Some (undec acc t).
Proof.
  induction t as [|d t IH]; intros acc H N; [congruence|]. inversion H as [|? ? Hd Ht]; subst. unfold digit in Hd. cbn [int_digits undec].
  replace (d =? 95) with false by lia. unfold digit_of. replace ((48 <=? d) && (d <=? 57)) with true by lia. replace (d - 48 <? 10) with true by lia.
  destruct t as [|d' t]; [cbn [int_digits undec]; auto|]. split; apply IH; auto; discriminate.
Qed.
Lemma strip_digits t : Forall digit t -> rev (skip_spaces (rev (skip_spaces t))) = t.
Proof.
  intros H. destruct t as [|d t]; [reflexivity|]. rewrite skip_spaces_digit by (inversion H; assumption).
  destruct (rev (d :: t)) as [|e r] eqn:E; [apply (f_equal (@List.length Z)) in E; rewrite rev_length in E; discriminate|].
  rewrite skip_spaces_digit, <- E, rev_involutive; [reflexivity|]. rewrite Forall_forall in H. apply H. rewrite in_rev, E. left. reflexivity.
Qed.
Lemma py_int_decimal t v : decimal t v -> py_int 10 t = Some v.
Proof.
  intros (N & D & U & _). unfold py_int. rewrite strip_digits by assumption. unfold int_prefix. cbn [Z.eqb Pos.eqb].
  destruct (int_digits_dec t 0 D N) as [_ E]. destruct t as [|d t]; [congruence|]. inversion D as [|? ? Hd Ht]; subst. unfold digit in Hd.
  assert (d = 45 \/ d = 43 \/ (d <> 45 /\ d <> 43)) as [->|[->|[H1 H2]]] by lia; try lia.
  rewrite <- E. destruct d; try lia. repeat (destruct p; try reflexivity; try lia).
Qed.
Lemma strip_sign t : Forall digit t -> t <> [] -> rev (skip_spaces (rev (skip_spaces (45 :: t)))) = 45 :: t.
Proof.
  intros H N. change (skip_spaces (45 :: t)) with (45 :: t).
  destruct (rev (45 :: t)) as [|e r] eqn:E; [apply (f_equal (@List.length Z)) in E; rewrite rev_length in E; discriminate|].
  rewrite skip_spaces_digit, <- E, rev_involutive; [reflexivity|].
  cbn [rev] in E. destruct (rev t) as [|e' r'] eqn:E'; [apply (f_equal (@List.length Z)) in E'; rewrite rev_length in E'; destruct t; [congruence|discriminate]|].
  cbn in E. injection E as <- _. rewrite Forall_forall in H. apply H. rewrite in_rev, E'. left. reflexivity.
Qed.
Lemma py_int_signed t v : signed_decimal t v -> py_int 10 t = Some v.
Proof.
  intros [H|(t' & -> & (N & D & U & _) & Hv)]; [apply py_int_decimal; assumption|]. unfold py_int. rewrite strip_sign by assumption.
  unfold int_prefix. cbn [Z.eqb Pos.eqb]. destruct (int_digits_dec t' 0 D N) as [_ ->]. rewrite U. f_equal. lia.
Qed.
(** The number of digits *)
Lemma undec_ge t : forall acc, Forall digit t -> acc * 10 ^ zlen t <= undec acc t.
Proof.
  induction t as [|d t IH]; intros acc H; [cbn [undec]; change (zlen (@nil Z)) with 0; lia|]. inversion H as [|? ? Hd Ht]; subst. cbn [undec]. unfold digit in Hd.
  specialize (IH (10 * acc + (d - 48)) Ht). rewrite zlen_cons. pose proof (zlen_nonneg t). rewrite Z.pow_add_r by lia. pose proof (Z.pow_pos_nonneg 10 (zlen t) ltac:(lia) ltac:(lia)). change (10 ^ 1) with 10. nia.
Qed.
Lemma decimal_length t v k : decimal t v -> 1 <= k -> v < 10 ^ k -> zlen t <= k.
Proof.
  intros (N & D & U & Z0) Hk Hv. destruct t as [|d t]; [congruence|]. inversion D as [|? ? Hd Ht]; subst. cbn [undec] in Hv. unfold digit in Hd. rewrite zlen_cons. pose proof (zlen_nonneg t).
  destruct (Z.eq_dec d 48) as [->|Nd]; [rewrite (Z0 t eq_refl); change (zlen (@nil Z)) with 0; lia|].
  pose proof (undec_ge t (10 * 0 + (d - 48)) Ht) as G. pose proof (Z.pow_pos_nonneg 10 (zlen t) ltac:(lia) ltac:(lia)).
  assert (10 ^ zlen t < 10 ^ k) by nia. apply Z.pow_lt_mono_r_iff in H1; lia.
Qed.

Scheme be_mut := Minimality for bencode Sort Prop
  with be_items_mut := Minimality for bencode_items Sort Prop
  with be_pairs_mut := Minimality for bencode_pairs Sort Prop.
Combined Scheme be_ind3 from be_mut, be_items_mut, be_pairs_mut.
Definition all_limits (l : list bval) : Prop := in_limits (BList l).
Definition all_limits2 (l : list (list Z * bval)) : Prop := in_limits (BDict l).

Lemma str_name s t : shows_str s (t_content t) -> item_name t = key_name s.
Proof.
  unfold shows_str, item_name, key_name. intros ->. pose proof (zlen_nonneg s). destruct (zlen s =? 0) eqn:E; [reflexivity|]. destruct (zlen s <? 512) eqn:F.
  - replace (512 <=? zlen s) with false by lia. reflexivity.
  - replace (512 <=? zlen s) with true by lia. reflexivity.
Qed.
Lemma bencode_str_at s b : bencode_str s b -> zlen s < 10 ^ 6 -> forall a, exists t, at_ a b t /\ shows_str s (t_content t).
Proof.
  intros H L a. destruct H as [s t D]. pose proof D as (N & F & _). destruct t as [|d t]; [congruence|].
  exists (Node a (8 * (zlen (d :: t) + 1 + zlen s)) (if zlen s =? 0 then CEmpty else if zlen s <? 512 then CText s else CRaw s)). split; [|reflexivity].
  apply at_str; [inversion F; assumption| | | |reflexivity].
  - apply (decimal_length _ _ 6 D); lia.
  - apply digits_no; [assumption|unfold digit; lia].
  - apply py_int_decimal. assumption.
Qed.
Lemma bencode_at :
  (forall v b, bencode v b -> in_limits v -> forall a, exists t, at_ a b t /\ shows v (t_content t)) /\
  (forall l b, bencode_items l b -> all_limits l -> forall a, exists ts, at_items a b ts /\ shows_items l ts) /\
  (forall l b, bencode_pairs l b -> all_limits2 l -> forall a, exists ts, at_pairs a b ts /\ shows_pairs l ts).
Proof.
  apply be_ind3.
  - intros z t D L a. cbn [in_limits] in L. exists (Node a (8 * (zlen t + 2)) (CInt (py_int 10 t))). cbn [t_content]. rewrite (py_int_signed t z D). split; [|constructor].
    rewrite <- (py_int_signed t z D). constructor.
    + destruct D as [(N & _)|(t' & -> & _)]; [assumption|discriminate].
    + destruct D as [D|(t' & -> & D & Hz)]; [apply (decimal_length t z 21 D); lia|]. rewrite zlen_cons. pose proof (decimal_length t' (- z) 20 D ltac:(lia) ltac:(lia)). lia.
    + destruct D as [(_ & D & _)|(t' & -> & (_ & D & _) & _)]; [apply digits_no; [assumption|unfold digit; lia]|].
      intros [I|I]; [lia|]. revert I. apply digits_no; [assumption|unfold digit; lia].
  - intros s b B L a. cbn [in_limits] in L. destruct (bencode_str_at s b B L a) as (t & A & S). exists t. split; [assumption|constructor; assumption].
  - intros l b _ IH L a. destruct (IH L (a + 8)) as (ts & A & S). exists (Node a (8 * (zlen b + 2)) (CList ts)). split; constructor; assumption.
  - intros l b _ IH L a. destruct (IH L (a + 8)) as (ts & A & S). exists (Node a (8 * (zlen b + 2)) (CDict ts)). split; constructor; assumption.
  - intros _ a. exists []. split; constructor.
  - intros v l b b' _ IH _ IHl L a. unfold all_limits, all_limits2 in L. cbn [in_limits] in L. destruct L as [L1 L2]. destruct (IH L1 a) as (t & A & S). destruct (IHl L2 (a + 8 * zlen b)) as (ts & A' & S').
    exists (t :: ts). split; constructor; assumption.
  - intros _ a. exists []. split; constructor.
  - intros k v l bk b b' Bk _ IHv _ IHl L a. unfold all_limits, all_limits2 in L. cbn [in_limits] in L. destruct L as (L0 & L1 & L2).
    destruct (bencode_str_at k bk Bk L0 a) as (tk & Ak & Sk). destruct (IHv L1 (a + 8 * zlen bk)) as (tv & Av & Sv). destruct (IHl L2 (a + 8 * zlen bk + 8 * zlen b)) as (ts & A' & S').
    exists ((item_name tk, tk, tv) :: ts). split; [constructor; assumption|]. rewrite (str_name k tk Sk). constructor; assumption.
Qed.
Lemma undec_lt t : forall acc, Forall digit t -> 0 <= acc -> undec acc t < (acc + 1) * 10 ^ zlen t.
Proof.
  induction t as [|d t IH]; intros acc H Ha; [cbn [undec]; change (zlen (@nil Z)) with 0; lia|]. inversion H as [|? ? Hd Ht]; subst. cbn [undec]. unfold digit in Hd.
  specialize (IH (10 * acc + (d - 48)) Ht ltac:(lia)). rewrite zlen_cons. pose proof (zlen_nonneg t). rewrite Z.pow_add_r by lia. pose proof (Z.pow_pos_nonneg 10 (zlen t) ltac:(lia) ltac:(lia)). change (10 ^ 1) with 10. nia.
Qed.
Lemma decimal_long t v k : decimal t v -> 0 <= k -> 10 ^ k <= v -> k < zlen t.
Proof.
  intros (N & D & U & _) Hk Hv. pose proof (undec_lt t 0 D ltac:(lia)) as L. rewrite U in L. assert (10 ^ k < 10 ^ zlen t) as P by lia. apply Z.pow_lt_mono_r_iff in P; pose proof (zlen_nonneg t); lia.
Qed.
Section Long.
Context (read : read_fun) (data : list Z) (Hs : serves read data) (He : ends read data).
(** A delimiter after a longer text without it is not found. *)
Lemma find_none c p limit t : 0 <= p -> 0 <= limit < zlen t -> ~ In c t -> occurs_at t data p ->
  searchBytesLength read (8 * zlen data) [c] false (8 * p) (Some (8 * p + (limit + 1) * 8)) = Ok None.
Proof using Hs He.
  intros Hp Hl N O.
  assert (Hd : data <> []) by (intros ->; apply occ_in in O; change (zlen (@nil Z)) with 0 in O; lia).
  destruct (find_byte read data Hs c p limit Hd Hp ltac:(lia)) as [(t' & E & L & N' & O')|[E _]]; [|exact E].
  destruct N. apply occ_app in O' as [_ O']. eapply occ_byte_inv; [exact O| |exact O']. pose proof (zlen_nonneg t'). lia.
Qed.
Lemma long_string s b p fuel : bencode_str s b -> 10 ^ 6 <= zlen s -> occurs_at b data p -> Entry read (8 * zlen data) (S fuel) (8 * p) = Err ParserError.
Proof using Hs He.
  intros H L O. destruct H as [s t D]. pose proof D as (N & F & _). pose proof (decimal_long t _ 6 D ltac:(lia) L) as Lt. pose proof (occ_in _ _ _ O) as [Hp _].
  apply occ_app in O as [O _]. destruct t as [|d t]; [congruence|]. cbn [Entry]. change (d :: t) with ([d] ++ t) in O. pose proof O as O'. apply occ_app in O' as [O' _].
  pose proof (rb_occ read data Hs p [d] O' ltac:(discriminate)) as R1; change (zlen [d]) with 1 in R1; rewrite R1. cbn [bind]. inversion F as [|? ? Hd Ht]; subst. unfold digit in Hd.
  replace (d =? 105) with false by lia. replace ((48 <=? d) && (d <=? 57)) with true by lia. unfold TorrentString.
  change ([d] ++ t) with (d :: t) in O. assert (N58 : ~ In 58 (d :: t)) by (apply digits_no; [assumption|unfold digit; lia]). rewrite (find_none 58 p 6 (d :: t)) by (auto; lia). reflexivity.
Qed.
Lemma long_integer z b p fuel : bencode (BInt z) b -> z <= - 10 ^ 20 \/ 10 ^ 21 <= z -> occurs_at b data p -> Entry read (8 * zlen data) (S fuel) (8 * p) = Err ParserError.
Proof using Hs He.
  intros H L O. inversion H as [z' t D E1 E2| | |]; subst. pose proof (occ_in _ _ _ O) as [Hp _].
  assert (21 < zlen t /\ ~ In 101 t) as [Lt N].
  { destruct D as [D|(t' & -> & D & Hz)].
    - destruct L as [L|L]; [|split; [apply (decimal_long t z 21 D); lia|apply digits_no; [apply D|unfold digit; lia]]].
      pose proof D as (_ & F & U & _). pose proof (undec_ge t 0 F). lia.
    - rewrite zlen_cons. split; [pose proof (decimal_long t' (- z) 20 D ltac:(lia) ltac:(lia)); lia|]. intros [I|I]; [lia|]. revert I. apply digits_no; [apply D|unfold digit; lia]. }
  change (lit "i") with [105] in O. apply occ_app in O as [O1 O2]. apply occ_app in O2 as [O2 _]. change (zlen [105]) with 1 in O2.
  cbn [Entry]. pose proof (rb_occ read data Hs p [105] O1 ltac:(discriminate)) as R1; change (zlen [105]) with 1 in R1; rewrite R1. cbn [bind Z.eqb Pos.eqb]. unfold Integer.
  replace (8 * p + 8) with (8 * (p + 1)) by lia. rewrite (find_none 101 (p + 1) 21 t) by (auto; lia). reflexivity.
Qed.
End Long.

(** ** Which texts are numbers *)
Lemma digit_of_dec c : (exists d, digit_of c = Some d /\ d < 10) <-> digit c.
Proof.
  unfold digit_of, digit. split.
  - intros (d & E & L). destruct ((48 <=? c) && (c <=? 57)) eqn:E1; [lia|]. destruct ((97 <=? c) && (c <=? 122)) eqn:E2; [injection E as <-; lia|]. destruct ((65 <=? c) && (c <=? 90)) eqn:E3; [injection E as <-; lia|discriminate].
  - intros D. replace ((48 <=? c) && (c <=? 57)) with true by lia. exists (c - 48). split; [reflexivity|lia].
Qed.
Lemma digits_iff : forall t acc after v, int_digits 10 t acc after = Some v <->
  exists g gs, t = g ++ List.concat (map (cons 95) gs) /\ (after = true \/ g <> []) /\ Forall digit g /\ Forall (fun g => g <> [] /\ Forall digit g) gs /\ v = undec acc (g ++ List.concat gs).
Proof.
  induction t as [|c t IH]; intros acc after v; cbn [int_digits].
  - split.
    + destruct after; [|discriminate]. intros E. injection E as <-. exists [], []. repeat split; auto.
    + intros (g & gs & E & A & G & Gs & ->). destruct g; [|discriminate]. destruct A as [->|A]; [|congruence]. destruct gs; [|discriminate]. reflexivity.
  - destruct (c =? 95) eqn:C.
    + assert (c = 95) by lia. subst c. destruct after.
      * rewrite IH. split.
        -- intros (g & gs & E & A & G & Gs & ->). exists [], (g :: gs). cbn [app map List.concat]. rewrite <- E. repeat split; auto. constructor; [|exact Gs]. destruct A; [discriminate|auto].
        -- intros (g & gs & E & A & G & Gs & ->). destruct g as [|x g].
           ++ destruct gs as [|h gs]; [discriminate|]. cbn [app map List.concat] in E. inversion Gs as [|? ? [N D] Gs']; subst. injection E as ->. exists h, gs. cbn [app List.concat]. repeat split; auto.
           ++ inversion G; subst. injection E as <- _. unfold digit in *. lia.
      * split; [discriminate|]. intros (g & gs & E & A & G & Gs & ->). destruct A as [A|A]; [discriminate|]. destruct g as [|x g]; [congruence|]. inversion G; subst. injection E as <- _. unfold digit in *. lia.
    + pose proof (digit_of_dec c) as D. split.
      * destruct (digit_of c) as [d|] eqn:Dc; [|discriminate]. destruct (d <? 10) eqn:L; [|discriminate]. rewrite IH. intros (g & gs & E & A & G & Gs & ->). assert (Dg : digit c) by (apply D; exists d; split; [reflexivity|lia]).
        exists (c :: g), gs. cbn [app]. rewrite <- E. repeat split; auto; [right; discriminate|]. cbn [undec]. f_equal. unfold digit_of in Dc. unfold digit in Dg. replace ((48 <=? c) && (c <=? 57)) with true in Dc by lia. injection Dc as <-. reflexivity.
      * intros (g & gs & E & A & G & Gs & ->). destruct g as [|x g].
        -- destruct gs as [|h gs]; [discriminate|]. cbn [app map List.concat] in E. injection E as -> _. discriminate.
        -- inversion G as [|? ? Gx G']; subst. cbn [app] in E. injection E as -> ->. replace (digit_of x) with (Some (x - 48)) by (unfold digit_of, digit in *; replace ((48 <=? x) && (x <=? 57)) with true by lia; reflexivity).
           replace (x - 48 <? 10) with true by (unfold digit in Gx; lia). rewrite IH. exists g, gs. repeat split; auto.
Qed.
Lemma skip_spaces_split t : exists s, t = s ++ skip_spaces t /\ Forall (fun c => is_space c = true) s /\ match skip_spaces t with [] => True | c :: _ => is_space c = false end.
Proof.
  induction t as [|c t (s & E & F & N)]; cbn [skip_spaces]; [exists []; repeat split; auto|]. destruct (is_space c) eqn:C.
  - exists (c :: s). cbn [app]. rewrite <- E. repeat split; auto.
  - exists []. repeat split; auto.
Qed.
Lemma skip_spaces_app s t : Forall (fun c => is_space c = true) s -> match t with [] => True | c :: _ => is_space c = false end -> skip_spaces (s ++ t) = t.
Proof. intros F N. induction F as [|c s C F IH]; cbn [app skip_spaces]; [destruct t; [reflexivity|cbn [skip_spaces]; rewrite N; reflexivity]|]. rewrite C. exact IH. Qed.
Lemma py_int_iff t v : py_int 10 t = Some v <-> int_text t v.
Proof.
  unfold py_int, int_text. split.
  - destruct (skip_spaces_split t) as (s1 & E1 & F1 & N1). set (u := skip_spaces t) in *. clearbody u. destruct (skip_spaces_split (rev u)) as (s2 & E2 & F2 & N2). set (w := skip_spaces (rev u)) in *. clearbody w.
    assert (Eu : u = rev w ++ rev s2) by (rewrite <- rev_app_distr, <- E2, rev_involutive; reflexivity).
    assert (K : forall sign body, rev w = sign ++ body -> forall x, int_digits 10 (int_prefix 10 body) 0 false = Some x -> ((sign = [] \/ sign = [43]) /\ v = x) \/ (sign = [45] /\ v = - x) ->
      exists s1 sign g gs s2, t = s1 ++ sign ++ (g ++ List.concat (map (cons 95) gs)) ++ s2 /\ Forall (fun c => is_space c = true) (s1 ++ s2) /\ Forall (fun g => g <> [] /\ Forall digit g) (g :: gs) /\ (((sign = [] \/ sign = [43]) /\ v = undec 0 (g ++ List.concat gs)) \/ (sign = [45] /\ v = - undec 0 (g ++ List.concat gs)))).
    { intros sign body Ew x D V. change (int_prefix 10 body) with body in D. apply digits_iff in D as (g & gs & Eb & A & G & Gs & ->). destruct A as [A|A]; [discriminate|]. exists s1, sign, g, gs, (rev s2). split; [rewrite E1, Eu, Ew, Eb, <- app_assoc; reflexivity|].
      split; [apply Forall_app; split; [exact F1|apply Forall_rev; exact F2]|]. split; [constructor; auto|]. exact V. }
    intros H. destruct (rev w) as [|c l] eqn:Ew; [discriminate|]. destruct (Z.eq_dec c 45) as [->|N45]; [destruct (int_digits 10 (int_prefix 10 l) 0 false) as [x|] eqn:D; [|discriminate]; injection H as <-; apply (K [45] l eq_refl x D); auto|].
    destruct (Z.eq_dec c 43) as [->|N43]; [apply (K [43] l eq_refl v H); auto|].
    assert (H' : int_digits 10 (int_prefix 10 (c :: l)) 0 false = Some v) by (destruct c as [|[?|?|]|?]; try exact H; repeat match type of H with context [match ?q with _ => _ end] => destruct q; try exact H; try congruence end).
    apply (K [] (c :: l) eq_refl v H'); auto.
  - intros (s1 & sign & g & gs & s2 & -> & F & G & V). apply Forall_app in F as [F1 F2]. inversion G as [|? ? [N D] Gs]; subst.
    set (body := g ++ List.concat (map (cons 95) gs)) in *.
    assert (Hd : exists c b, body = c :: b /\ digit c) by (unfold body; destruct g as [|c g]; [congruence|]; inversion D; subst; exists c, (g ++ List.concat (map (cons 95) gs)); auto).
    assert (Sp : forall c, digit c -> is_space c = false) by (intros c C; unfold is_space, digit in *; lia).
    assert (Tl : exists c b, rev body = c :: b /\ is_space c = false).
    { assert (All : Forall (fun c => digit c \/ c = 95) body). { unfold body. apply Forall_app. split; [revert D; apply Forall_impl; auto|]. clear -Gs. induction Gs as [|h gs [_ H] Gs IH]; cbn [map List.concat]; [constructor|]. apply Forall_app. split; [constructor; [auto|revert H; apply Forall_impl; auto]|exact IH]. }
      destruct (rev body) as [|c b] eqn:R; [destruct Hd as (c & b & E & _); rewrite E in R; apply (f_equal (@List.length Z)) in R; rewrite rev_length in R; discriminate|]. exists c, b. split; [reflexivity|].
      assert (I : In c body) by (apply in_rev; rewrite R; left; reflexivity). rewrite Forall_forall in All. destruct (All c I) as [H| -> ]; [apply Sp; exact H|reflexivity]. }
    destruct Hd as (c0 & b0 & Eb & Dc). destruct Tl as (c1 & b1 & Er & Sc).
    assert (Sg : sign = [] \/ sign = [43] \/ sign = [45]) by tauto.
    rewrite (skip_spaces_app s1 _ F1) by (destruct Sg as [-> |[-> | -> ]]; cbn [app]; [rewrite Eb; cbn [app]; apply Sp; exact Dc|reflexivity|reflexivity]).
    rewrite app_assoc, rev_app_distr. rewrite (skip_spaces_app (rev s2) (rev (sign ++ body)) ltac:(apply Forall_rev; exact F2)) by (rewrite rev_app_distr, Er; exact Sc). rewrite rev_involutive.
    assert (I : int_digits 10 (int_prefix 10 body) 0 false = Some (undec 0 (g ++ List.concat gs))) by (change (int_prefix 10 body) with body; apply digits_iff; exists g, gs; repeat split; auto).
    destruct V as [[[-> | -> ] -> ]|[-> -> ]]; cbn [app]; [|exact I|rewrite I; reflexivity].
    rewrite <- I. clear I. rewrite Eb. unfold digit in Dc. destruct c0 as [|[?|?|]|?]; try reflexivity; repeat match goal with |- context [match ?q with _ => _ end] => destruct q; try reflexivity; try lia end.
Qed.

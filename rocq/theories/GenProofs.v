(** Proofs about GenModel.v. *)
From Verif Require Import Base BaseProofs BitsModel BitsSpec BitsProofs StreamModel StreamSpec StreamProofs StreamProofs2 DictModel DictProofs FieldModel NumSpec NumRead ChunkBase GenModel GenSpec EditProofs5.
Ltac Zify.zify_post_hook ::= Z.div_mod_to_equations.

Lemma tiled_le a l b : tiled a l b -> a <= b.
Proof. induction 1; lia. Qed.

Definition puts (l : list fld) (r : shown) : shown := (l ++ fst (fst r), snd (fst r), snd r).
Lemma puts_cons f l r : puts (f :: l) r = put f (puts l r).
Proof. reflexivity. Qed.
Lemma puts_nil r : puts [] r = r.
Proof. destruct r as [[l e] b]. reflexivity. Qed.
Lemma puts_app l l' r : puts (l ++ l') r = puts l (puts l' r).
Proof. unfold puts. cbn [fst snd]. rewrite app_assoc. reflexivity. Qed.
(** ** Bits *)
Lemma testbit_byte v : forall b0 b1 b2 b3 b4 b5 b6 b7 : bool, v = val_le [b0; b1; b2; b3; b4; b5; b6; b7] -> bits_le [v] = [b0; b1; b2; b3; b4; b5; b6; b7].
Proof. intros b0 b1 b2 b3 b4 b5 b6 b7 ->. destruct b0, b1, b2, b3, b4, b5, b6, b7; reflexivity. Qed.
Lemma list8 {A} (l : list A) n : zlen l = 8 * Z.of_nat (S n) -> exists b0 b1 b2 b3 b4 b5 b6 b7 r, l = b0 :: b1 :: b2 :: b3 :: b4 :: b5 :: b6 :: b7 :: r /\ zlen r = 8 * Z.of_nat n.
Proof.
  intros L. do 8 (destruct l as [|? l]; [exfalso; rewrite ?zlen_cons in L; change (zlen (@nil A)) with 0 in L; lia|]). repeat eexists. rewrite !zlen_cons in L. lia.
Qed.
Lemma val_le_8 b0 b1 b2 b3 b4 b5 b6 b7 r : val_le (b0 :: b1 :: b2 :: b3 :: b4 :: b5 :: b6 :: b7 :: r) = val_le [b0; b1; b2; b3; b4; b5; b6; b7] + 256 * val_le r.
Proof. destruct b0, b1, b2, b3, b4, b5, b6, b7; unfold val_le; cbn [fold_right b2z]; set (x := fold_right _ _ _); lia. Qed.
Lemma val_le_range b0 b1 b2 b3 b4 b5 b6 b7 : 0 <= val_le [b0; b1; b2; b3; b4; b5; b6; b7] < 256.
Proof. destruct b0, b1, b2, b3, b4, b5, b6, b7; vm_compute; split; congruence. Qed.
Lemma val_le_nonneg l : 0 <= val_le l.
Proof. induction l as [|b l IH]; [unfold val_le; cbn [fold_right]; lia|]. change (val_le (b :: l)) with (b2z b + 2 * val_le l). destruct b; cbn [b2z]; lia. Qed.
Lemma val_le_bound l : 0 <= val_le l < 2 ^ zlen l.
Proof.
  split; [apply val_le_nonneg|]. induction l as [|b l IH]; [reflexivity|]. rewrite zlen_cons. pose proof (zlen_nonneg l). rewrite Z.pow_add_r by lia. change (2 ^ 1) with 2.
  change (val_le (b :: l)) with (b2z b + 2 * val_le l). destruct b; cbn [b2z]; lia.
Qed.
Lemma bits_uint_le n : forall l, zlen l = 8 * Z.of_nat n -> bits_le (uint LITTLE_ENDIAN n (val_le l)) = l.
Proof.
  cbn [uint]. induction n as [|n IH]; intros l L.
  - destruct l; [reflexivity|]. rewrite zlen_cons in L. pose proof (zlen_nonneg l). lia.
  - destruct (list8 l n L) as (b0 & b1 & b2 & b3 & b4 & b5 & b6 & b7 & r & -> & R). cbn [le_bytes]. rewrite bits_le_cons. rewrite val_le_8. pose proof (val_le_range b0 b1 b2 b3 b4 b5 b6 b7).
    replace ((val_le [b0; b1; b2; b3; b4; b5; b6; b7] + 256 * val_le r) / 256) with (val_le r) by lia. rewrite (IH r R).
    rewrite (testbit_byte _ b0 b1 b2 b3 b4 b5 b6 b7) by lia. reflexivity.
Qed.
Lemma bits_uint_be n l : zlen l = 8 * Z.of_nat n -> bits_be (uint BIG_ENDIAN n (val_be l)) = l.
Proof.
  intros L. apply val_be_inj; [rewrite zlen_bits_be, zlen_uint; lia|]. rewrite <- from_bytes_big_val by apply is_bytes_uint. pose proof (val_be_bound l) as B. rewrite L in B. rewrite Z.pow_mul_r in B by lia. apply be_val, B.
Qed.
Lemma bits_uint e n l : e <> MIDDLE_ENDIAN -> zlen l = 8 * Z.of_nat n -> bits_of e (uint e n (val_of e l)) = l.
Proof. intros E L. destruct e; [apply bits_uint_be, L|apply bits_uint_le, L|congruence]. Qed.
(** ** One step *)
Section Steps.
Context (read : read_fun) (data : list Z) (Hs : serves read data) (Hb : is_bytes data) (ssize : Z).
Notation run := (run read ssize).
Lemma step_num name e n k v c f p q stop : e <> MIDDLE_ENDIAN -> (1 <= n)%nat -> k = 8 * Z.of_nat n -> 0 <= v < 2 ^ k -> occurs_at (uint e n v) data p -> q = p + Z.of_nat n -> 8 * q <= stop ->
  run (PFld name (KNum k e) c) f stop (8 * p) = put (F name (8 * p) k (VNum v)) (run (c (VNum v)) false stop (8 * q)).
Proof using All.
  intros E N K V O -> St. cbn [GenModel.run fsize fval]. replace (0 <=? k) with true by lia. replace (stop <? 8 * p + k) with false by lia. rewrite (read_num read data Hs Hb e n k v p) by auto. cbn [bind]. do 2 f_equal. lia.
Qed.
Lemma step_bytes name x n c f p q stop : n = zlen x -> x <> [] -> zlen x <= 2 ^ 64 -> occurs_at x data p -> q = p + n -> 8 * q <= stop ->
  run (PFld name (KBytes n) c) f stop (8 * p) = put (F name (8 * p) (8 * n) (VBytes x)) (run (c (VBytes x)) false stop (8 * q)).
Proof using Hs.
  intros -> X L O -> St. assert (1 <= zlen x) by (destruct x as [|y x]; [contradiction|rewrite zlen_cons; pose proof (zlen_nonneg x); lia]).
  cbn [GenModel.run fsize fval]. replace ((0 <? zlen x) && (zlen x <=? 2 ^ 64)) with true by lia. replace (stop <? 8 * p + zlen x * 8) with false by lia. rewrite (rb_occ read data Hs p x O X). cbn [bind]. f_equal; f_equal; lia.
Qed.
Lemma step_text name x n c f p q stop : n = zlen x -> x <> [] -> zlen x <= 0xffff -> occurs_at x data p -> q = p + n -> 8 * q <= stop ->
  run (PFld name (KText n) c) f stop (8 * p) = put (F name (8 * p) (8 * n) (VBytes x)) (run (c (VBytes x)) false stop (8 * q)).
Proof using Hs.
  intros -> X L O -> St. assert (1 <= zlen x) by (destruct x as [|y x]; [contradiction|rewrite zlen_cons; pose proof (zlen_nonneg x); lia]).
  cbn [GenModel.run fsize fval]. replace ((1 <=? zlen x) && (zlen x <=? 0xffff)) with true by lia. replace (stop <? 8 * p + zlen x * 8) with false by lia. rewrite (rb_occ read data Hs p x O X). cbn [bind]. f_equal; f_equal; lia.
Qed.
Lemma some_read x p : occurs_at x data p -> some_bytes read (8 * p) (zlen x) = Ok (VBytes x).
Proof using Hs.
  intros O. unfold some_bytes. destruct x as [|y x]; [reflexivity|]. replace (zlen (y :: x) =? 0) with false by (rewrite zlen_cons; pose proof (zlen_nonneg x); lia). rewrite (rb_occ read data Hs p _ O) by discriminate. reflexivity.
Qed.
Lemma step_pascal name (little : bool) e n x c f p q stop : e = (if little then LITTLE_ENDIAN else BIG_ENDIAN) -> (1 <= n)%nat -> zlen x < 2 ^ (8 * Z.of_nat n) -> occurs_at (uint e n (zlen x) ++ x) data p -> q = p + Z.of_nat n + zlen x -> 8 * q <= stop ->
  run (PFld name (KPascal (Z.of_nat n) little) c) f stop (8 * p) = put (F name (8 * p) (8 * (Z.of_nat n + zlen x)) (VBytes x)) (run (c (VBytes x)) false stop (8 * q)).
Proof using All.
  intros E N L O -> St. pose proof (zlen_nonneg x). apply occ_app in O as [O1 O2]. rewrite zlen_uint in O2.
  cbn [GenModel.run fsize fval]. replace (Z.of_nat n <? 1) with false by lia. rewrite <- E. rewrite (read_num read data Hs Hb e n (8 * Z.of_nat n) (zlen x) p) by (auto; try lia; rewrite E; destruct little; discriminate). cbn [bind].
  replace (stop <? 8 * p + (Z.of_nat n + zlen x) * 8) with false by lia. replace ((Z.of_nat n + zlen x) * 8 / 8 - Z.of_nat n) with (zlen x) by lia. replace (8 * p + 8 * Z.of_nat n) with (8 * (p + Z.of_nat n)) by lia.
  rewrite (some_read x _ O2). f_equal; f_equal; lia.
Qed.
Lemma step_line name s x c f p q stop : ssize = 8 * zlen data -> ~ In s x -> occurs_at (x ++ [s]) data p -> q = p + zlen x + 1 -> 8 * q <= stop ->
  run (PFld name (KLine s) c) f stop (8 * p) = put (F name (8 * p) (8 * (zlen x + 1)) (VBytes x)) (run (c (VBytes x)) false stop (8 * q)).
Proof using All.
  intros -> NI O -> St. pose proof (zlen_nonneg x). apply occ_app in O as [O1 O2].
  assert (Sl : searchBytesLength read (8 * zlen data) [s] false (8 * p) None = Ok (Some (zlen x))).
  { pose proof (occ_in _ _ _ O2) as [I1 I2]. change (zlen [s]) with 1 in I2. pose proof (occ_in _ _ _ O1) as [I3 _].
    destruct (searchBytesLength_correct read data [s] false p None Hs ltac:(intros ->; change (zlen (@nil Z)) with 0 in *; lia) ltac:(discriminate) I3) as [(i & E & H1 & H2 & H3 & H4)|[_ N]].
    - rewrite E. do 2 f_equal. destruct (Z.lt_trichotomy i (p + zlen x)) as [L|[->|L]]; [|lia|].
      + exfalso. apply NI. apply (occ_byte_inv data p x (i - p) s O1 ltac:(lia)). replace (p + (i - p)) with i by lia. exact H3.
      + exfalso. apply (H4 (p + zlen x) ltac:(lia)); exact O2.
    - exfalso. apply (N (p + zlen x)). split; [lia|]. split; [unfold search_limit; change (zlen [s]) with 1; lia|]. split; [exact O2|]. intros j J Oj. apply NI. apply (occ_byte_inv data p x (j - p) s O1 ltac:(lia)). replace (p + (j - p)) with j by lia. exact Oj. }
  cbn [GenModel.run fsize fval]. rewrite Sl. cbn [bind]. replace (stop <? 8 * p + (zlen x + 1) * 8) with false by lia. replace ((zlen x + 1) * 8 / 8 - 1) with (zlen x) by lia. rewrite (some_read x _ O1). f_equal; f_equal; lia.
Qed.
Lemma step_bits name e x l r m c f p j a a' stop : e <> MIDDLE_ENDIAN -> occurs_at x data p -> bits_of e x = l -> sub l j m = r -> 0 <= j -> 1 <= m -> j + m <= 8 * zlen x -> a = 8 * p + j -> a' = a + m -> a' <= stop ->
  run (PFld name (KNum m e) c) f stop a = put (F name a m (VNum (val_of e r))) (run (c (VNum (val_of e r))) false stop a').
Proof using All.
  intros E (K & L & O) <- <- J M JM -> -> St. cbn [GenModel.run fsize fval]. replace (0 <=? m) with true by lia. replace (stop <? 8 * p + j + m) with false by lia.
  rewrite (readBits_serves _ data) by (auto; try lia; unfold bits_available; destruct e; congruence || lia). cbn [bind].
  assert (V : bits_at data (8 * p + j) m e = val_of e (sub (bits_of e x) j m)); [|rewrite V; reflexivity].
  unfold bits_at, val_of, bits_of. rewrite <- O. destruct e; [| |congruence].
  - rewrite bits_be_sub by lia. rewrite sub_sub by lia. reflexivity.
  - rewrite bits_le_sub by lia. rewrite sub_sub by lia. reflexivity.
Qed.
(** The same, for addresses in bits *)
Lemma at_num name e n k v c f p a b stop : e <> MIDDLE_ENDIAN -> (1 <= n)%nat -> k = 8 * Z.of_nat n -> 0 <= v < 2 ^ k -> occurs_at (uint e n v) data p -> a = 8 * p -> b = a + k -> b <= stop ->
  run (PFld name (KNum k e) c) f stop a = put (F name a k (VNum v)) (run (c (VNum v)) false stop b).
Proof using All. intros E N K V O -> -> St. rewrite (step_num name e n k v c f p (p + Z.of_nat n)) by (auto; lia). do 2 f_equal; lia. Qed.
Lemma at_bytes name x n c f p a b stop : n = zlen x -> x <> [] -> zlen x <= 2 ^ 64 -> occurs_at x data p -> a = 8 * p -> b = a + 8 * n -> b <= stop ->
  run (PFld name (KBytes n) c) f stop a = put (F name a (8 * n) (VBytes x)) (run (c (VBytes x)) false stop b).
Proof using Hs. intros N X L O -> -> St. rewrite (step_bytes name x n c f p (p + n)) by (auto; lia). do 2 f_equal; lia. Qed.
Lemma at_text name x n c f p a b stop : n = zlen x -> x <> [] -> zlen x <= 0xffff -> occurs_at x data p -> a = 8 * p -> b = a + 8 * n -> b <= stop ->
  run (PFld name (KText n) c) f stop a = put (F name a (8 * n) (VBytes x)) (run (c (VBytes x)) false stop b).
Proof using Hs. intros N X L O -> -> St. rewrite (step_text name x n c f p (p + n)) by (auto; lia). do 2 f_equal; lia. Qed.
Lemma at_line name s x c f p a b stop : ssize = 8 * zlen data -> ~ In s x -> occurs_at (x ++ [s]) data p -> a = 8 * p -> b = a + 8 * (zlen x + 1) -> b <= stop ->
  run (PFld name (KLine s) c) f stop a = put (F name a (8 * (zlen x + 1)) (VBytes x)) (run (c (VBytes x)) false stop b).
Proof using All. intros Z X O -> -> St. rewrite (step_line name s x c f p (p + zlen x + 1)) by (auto; lia). do 2 f_equal; lia. Qed.
Lemma step_ask c f stop a : run (PAsk c) f stop a = run (c stop a) f stop a.
Proof using Type. reflexivity. Qed.
Lemma step_set name s body c f stop a l e q b : run body true (a + s) a = (l, e, q) -> 0 < s -> b = a + s -> b <= stop ->
  run (PSet name (Some s) body c) f stop a = put (G name a s l e) (run (c l) false stop b).
Proof using Type.
  intros R S -> St. cbn [GenModel.run]. replace (s <=? 0) with false by lia. replace ((stop <=? a) || f && (stop <? a + s)) with false by (destruct f; lia). replace (Z.min s (stop - a)) with s by lia. rewrite R. reflexivity.
Qed.
Lemma step_open name body c f stop a l b : run body true stop a = (l, None, b) -> a < b ->
  run (PSet name None body c) f stop a = put (G name a (b - a) l None) (run (c l) false stop b).
Proof using Type. intros R S. cbn [GenModel.run]. rewrite R. replace (b <=? a) with false by lia. reflexivity. Qed.
End Steps.

(** ** Every program *)
Section Any.
Context (read : read_fun) (data : list Z) (Hs : serves read data) (Hb : is_bytes data) (He : ends read data) (Hd : data <> []).
(** Whatever a generator does, the fields it yields are one after the other before the end. *)
Theorem run_any : forall p first stop a, 0 <= a <= stop -> let '(l, e, b) := run read (8 * zlen data) p first stop a in tiled a l b /\ b <= stop.
Proof using All.
  assert (Put : forall f r a stop, tiled a (f :: fst (fst r)) (snd r) /\ snd r <= stop -> let '(l, e, b) := put f r in tiled a l b /\ b <= stop) by (intros f [[l e] b] a stop H; exact H).
  induction p as [| e | name k c IH | name size body IHb c IH | c IH | m c IH]; intros first stop a A; cbn [run].
  - split; [constructor|lia].
  - split; [constructor|lia].
  - destruct (fsize read (8 * zlen data) k a) as [s|e] eqn:S; [|split; [constructor|lia]]. destruct (stop <? a + s) eqn:T; [split; [constructor|lia]|]. destruct (fval read k a s) as [v|e] eqn:V; [|split; [constructor|lia]].
    apply Put. assert (S0 : 0 <= s).
    { destruct k as [n e|n e|n|n|n|n little|m]; cbn [fsize] in S.
      - destruct (0 <=? n) eqn:N; [|discriminate]. apply ok_inj in S. lia.
      - destruct (0 <=? n) eqn:N; [|discriminate]. apply ok_inj in S. lia.
      - destruct ((0 <? n) && (n <=? 2 ^ 64)) eqn:N; [|discriminate]. apply ok_inj in S. lia.
      - destruct ((1 <=? n) && (n <=? 0xffff)) eqn:N; [|discriminate]. apply ok_inj in S. lia.
      - unfold searchBytesLength in S. destruct (searchBytes _ _ _ _ _) as [[pos|]|] eqn:P in S; cbn [bind] in S; try discriminate. apply ok_inj in S.
        destruct (a mod 8 =? 0) eqn:A8; [|unfold searchBytes in P; rewrite A8 in P; discriminate]. replace a with (8 * (a / 8)) in * by lia. set (p := a / 8) in *.
        destruct (searchBytes_correct read data [n] p None Hs Hd ltac:(discriminate) ltac:(lia)) as [(i & E & I1 & _)|[E _]]; rewrite E in P; apply ok_inj in P; [|discriminate]. apply (f_equal (fun o => match o with Some x => x | None => 0 end)) in P. lia.
      - destruct (n <? 1) eqn:N1; [discriminate|].
        destruct (bits_any read data Hs He a (8 * n) (if little then LITTLE_ENDIAN else BIG_ENDIAN) Hb ltac:(destruct little; discriminate) ltac:(lia) ltac:(lia)) as [(R & _ & B)|R]; rewrite R in S; cbn [bind] in S; [|discriminate]. apply ok_inj in S. lia.
      - destruct (m read a) as [r|e]; cbn [bind] in S; [|discriminate]. destruct (0 <=? snd r) eqn:N; [|discriminate]. apply ok_inj in S. lia. }
    specialize (IH v false stop (a + s) ltac:(lia)). destruct (run _ _ (c v) false stop (a + s)) as [[l e] b]. cbn [fst snd]. destruct IH. split; [constructor; auto|auto].
  - destruct size as [s|].
    + destruct (s <=? 0) eqn:S0; [split; [constructor|lia]|]. destruct (_ || _) eqn:Or; [split; [constructor|lia]|]. set (sz := Z.min s (stop - a)). specialize (IHb true (a + sz) a ltac:(unfold sz; lia)).
      destruct (run _ _ body true (a + sz) a) as [[l e] q]. destruct IHb as [T Q]. apply Put. specialize (IH l false stop (a + sz) ltac:(unfold sz; lia)). destruct (run _ _ (c l) false stop (a + sz)) as [[l' e'] b]. cbn [fst snd]. destruct IH. split; [|assumption].
      apply (ti_set name a sz l e l' b q); auto. unfold sz; lia.
    + specialize (IHb true stop a A). destruct (run _ _ body true stop a) as [[l e] q]. destruct IHb as [T Q]. pose proof (tiled_le _ _ _ T).
      assert (Go : forall e1 x, a < x -> q <= x -> x <= stop -> let '(l0, _, b) := put (G name a (x - a) l e1) (run read (8 * zlen data) (c l) false stop x) in tiled a l0 b /\ b <= stop).
      { intros e1 x X1 X2 X3. apply Put. specialize (IH l false stop x ltac:(lia)). destruct (run _ _ (c l) false stop x) as [[l' e'] b]. cbn [fst snd]. destruct IH. split; [|assumption].
        apply (ti_set name a (x - a) l e1 l' b q); auto; try lia. replace (a + (x - a)) with x by lia. assumption. }
      destruct e as [e|].
      * destruct e; try (destruct l as [|f l]; [split; [constructor|lia]|]; destruct (stop <=? q) eqn:Sq; cbn [negb]; [|split; [constructor|lia]]; destruct (q <=? a) eqn:Qa; [split; [constructor|lia]|]; apply Put; cbn [fst snd]; split; [|lia];
          apply (ti_set name a (q - a) (f :: l) _ [] q q); auto; try lia; replace (a + (q - a)) with q by lia; constructor).
        destruct (stop <=? a) eqn:Sa; [split; [constructor|lia]|]. apply Go; lia.
      * destruct (q <=? a) eqn:Qa; [split; [constructor|lia]|]. apply Go; lia.
  - apply IH. exact A.
  - destruct (m read (8 * zlen data) stop a) as [v|e]; [apply IH, A|split; [constructor|lia]].
Qed.
End Any.

(** ** Loops end *)
Section Safe.
Context (read : read_fun) (data : list Z) (Hs : serves read data) (Hb : is_bytes data) (He : ends read data) (Hd : data <> []).
Notation run := (run read (8 * zlen data)).
Definition safe (m : Z) (p : prog) : Prop := forall first stop a, 0 <= a <= stop -> stop - a <= m -> settled_file (run p first stop a).
Lemma settled_set name a s l e : settled (G name a s l e) <-> e <> Some OutOfFuel /\ Forall settled l.
Proof using Type.
  cbn [settled]. set (all := fix all (l : list fld) : Prop := match l with [] => True | f :: l => settled f /\ all l end). assert (X : forall l, all l <-> Forall settled l); [|rewrite X; reflexivity].
  clear. induction l as [|f l IH]; cbn [all]; [split; [constructor|exact (fun _ => Logic.I)]|]. change (settled f /\ all l <-> Forall settled (f :: l)). rewrite IH. split; [intros [A B]; constructor; assumption|intros H; inversion H; subst; split; assumption].
Qed.
Lemma settled_put f r : settled f -> settled_file r -> settled_file (put f r).
Proof using Type. destruct r as [[l e] b]. cbn [put fst snd settled_file]. intros F [E L]. split; [exact E|constructor; assumption]. Qed.
Lemma settled_none e b : e <> OutOfFuel -> settled_file ([], Some e, b).
Proof using Type. intros E. split; [congruence|constructor]. Qed.
Lemma settled_stop (f : bool) b : settled_file ([], Some (if f then ParserError else StopIteration), b).
Proof using Type. apply settled_none. destruct f; discriminate. Qed.
Definition least (k : fkind) : Z := match k with KNum n _ | KInt n _ => n | KBytes n | KText n => 8 * n | KLine _ => 8 | KPascal n _ => 8 * n | KCode _ => 0 end.
Definition fine (k : fkind) : Prop := match k with KNum n e | KInt n e => 1 <= n /\ e <> MIDDLE_ENDIAN | KCode _ => False | _ => True end.
Lemma safe_ret m : safe m PRet.
Proof using Type. intros f s a _ _. split; [discriminate|constructor]. Qed.
Lemma safe_err m e : e <> OutOfFuel -> safe m (PErr e).
Proof using Type. intros E f s a _ _. apply settled_none, E. Qed.
Lemma search_any c a : 0 <= a -> match searchBytesLength read (8 * zlen data) [c] false a None with Ok (Some n) => 0 <= n | Ok None => True | Err e => e <> OutOfFuel end.
Proof using Hs Hd.
  intros A. destruct (a mod 8 =? 0) eqn:A8.
  - replace a with (8 * (a / 8)) by lia. destruct (searchBytesLength_correct read data [c] false (a / 8) None Hs Hd ltac:(discriminate) ltac:(lia)) as [(i & -> & I & _)|[-> _]]; [lia|exact Logic.I].
  - unfold searchBytesLength, searchBytes. rewrite A8. discriminate.
Qed.
Lemma bytes_any a n : 0 <= a -> 1 <= n -> match readBytes read a n with Ok _ => True | Err e => e <> OutOfFuel end.
Proof using Hs He.
  intros A N. unfold readBytes. destruct (a + 8 * n <=? 8 * zlen data) eqn:L; [rewrite Hs by lia|rewrite He by lia; discriminate]. cbn [bind]. destruct (a mod 8 =? 0); [exact I|discriminate].
Qed.
Lemma kind_any k a : fine k -> 0 <= a -> match fsize read (8 * zlen data) k a with
  | Err e => e <> OutOfFuel
  | Ok s => 0 <= s /\ least k <= s /\ match fval read k a s with Err e => e <> OutOfFuel | Ok _ => True end
  end.
Proof using All.
  intros Fi A. destruct k as [n e|n e|n|n|c|n little|d]; cbn [fsize fval fine least] in *; [| | | | | |contradiction].
  - replace (0 <=? n) with true by lia. split; [lia|]. split; [lia|]. destruct (bits_any read data Hs He a n e Hb (proj2 Fi) A (proj1 Fi)) as [(R & _ & B)|R]; rewrite R; cbn [bind]; [exact I|discriminate].
  - replace (0 <=? n) with true by lia. split; [lia|]. split; [lia|]. unfold readInteger. destruct (bits_any read data Hs He a n e Hb (proj2 Fi) A (proj1 Fi)) as [(R & _ & B)|R]; rewrite R; cbn [bind]; [|discriminate].
    unfold py_shl1. replace (n - 1 <? 0) with false by lia. replace (n <? 0) with false by lia. cbn [bind]. destruct (_ <=? _); exact I.
  - destruct ((0 <? n) && (n <=? 2 ^ 64)) eqn:N; [|discriminate]. split; [lia|]. split; [lia|]. pose proof (bytes_any a n A ltac:(lia)) as R. destruct (readBytes read a n); cbn [bind]; [exact I|exact R].
  - destruct ((1 <=? n) && (n <=? 0xffff)) eqn:N; [|discriminate]. split; [lia|]. split; [lia|]. pose proof (bytes_any a n A ltac:(lia)) as R. destruct (readBytes read a n); cbn [bind]; [exact I|exact R].
  - pose proof (search_any c a A) as S. destruct (searchBytesLength read (8 * zlen data) [c] false a None) as [[n|]|e]; cbn [bind]; [|discriminate|exact S]. split; [lia|]. split; [lia|].
    unfold some_bytes. destruct (_ =? 0) eqn:Z0; [exact I|]. pose proof (bytes_any a ((n + 1) * 8 / 8 - 1) A ltac:(lia)) as R. destruct (readBytes read a _); cbn [bind]; [exact I|exact R].
  - destruct (n <? 1) eqn:N; [discriminate|]. destruct (bits_any read data Hs He a (8 * n) (if little then LITTLE_ENDIAN else BIG_ENDIAN) Hb ltac:(destruct little; discriminate) A ltac:(lia)) as [(R & _ & B)|R]; rewrite R; cbn [bind]; [|discriminate].
    split; [lia|]. split; [lia|]. unfold some_bytes. destruct (_ =? 0) eqn:Z0; [exact I|]. pose proof (bytes_any (a + 8 * n) ((n + bits_at data a (8 * n) (if little then LITTLE_ENDIAN else BIG_ENDIAN)) * 8 / 8 - n) ltac:(lia) ltac:(lia)) as R2.
    destruct (readBytes read _ _); cbn [bind]; [exact I|exact R2].
Qed.
Lemma safe_fld m name k c : fine k -> (forall v, safe (m - least k) (c v)) -> safe m (PFld name k c).
Proof using All.
  intros Fi H f stop a A M. cbn [GenModel.run]. pose proof (kind_any k a Fi (proj1 A)) as K. destruct (fsize read (8 * zlen data) k a) as [s|e]; [|apply settled_none, K]. destruct K as (S0 & L & V).
  destruct (stop <? a + s) eqn:T; [apply settled_stop|]. destruct (fval read k a s) as [v|e]; [|apply settled_none, V]. apply settled_put; [exact Logic.I|]. apply H; lia.
Qed.
Lemma safe_code_by n m name d c : 0 <= n -> (forall a, 0 <= a -> match d read a with Ok r => n <= snd r | Err e => e <> OutOfFuel end) -> (forall v, safe (m - n) (c v)) -> safe m (PFld name (KCode d) c).
Proof using Type.
  intros N D H f stop a A M. cbn [GenModel.run fsize fval]. specialize (D a (proj1 A)). destruct (d read a) as [r|e]; cbn [bind]; [|apply settled_none, D]. replace (0 <=? snd r) with true by lia.
  destruct (stop <? a + snd r) eqn:T; [apply settled_stop|]. apply settled_put; [exact Logic.I|]. apply H; lia.
Qed.
Lemma safe_code m name d c : (forall a, 0 <= a -> match d read a with Ok r => 1 <= snd r | Err e => e <> OutOfFuel end) -> (forall v, safe (m - 1) (c v)) -> safe m (PFld name (KCode d) c).
Proof using Type. intros D H. apply (safe_code_by 1); [lia|exact D|exact H]. Qed.
Lemma safe_more m m' p : safe m p -> m' <= m -> safe m' p.
Proof using Type. intros H L f stop a A M. apply H; lia. Qed.
Lemma safe_set m name s body c : safe (Z.min m s) body -> (forall l, safe (m - 1) (c l)) -> safe m (PSet name (Some s) body c).
Proof using Type.
  intros B H f stop a A M. cbn [GenModel.run]. destruct (s <=? 0) eqn:S0; [apply settled_none; discriminate|]. destruct (_ || _) eqn:Or; [apply settled_stop|]. set (sz := Z.min s (stop - a)).
  pose proof (B true (a + sz) a ltac:(unfold sz; lia) ltac:(unfold sz; lia)) as Be. destruct (run body true (a + sz) a) as [[l e] q]. apply settled_put; [apply settled_set, Be|]. apply H; unfold sz; lia.
Qed.
Lemma safe_open m name body c : safe m body -> (forall l, safe (m - 1) (c l)) -> safe m (PSet name None body c).
Proof using All.
  intros B H f stop a A M. cbn [GenModel.run]. pose proof (B true stop a A M) as Be. pose proof (run_any read data Hs Hb He Hd body true stop a A) as Ra. destruct (run body true stop a) as [[l e] q]. destruct Ra as [_ Q0].
  assert (Se : forall s, settled (G name a s l e)) by (intros s; apply settled_set, Be). destruct Be as [Be _].
  destruct e as [e|].
  - destruct e; try congruence; try (destruct l; [apply settled_none; discriminate|]; destruct (negb _); [apply settled_none; discriminate|]; destruct (_ <=? _); [apply settled_stop|apply settled_put; [apply Se|apply settled_none; discriminate]]).
    destruct (stop <=? a) eqn:Sa; [apply settled_stop|]. apply settled_put; [apply Se|]. apply H; lia.
  - destruct (q <=? a) eqn:Q; [apply settled_stop|]. apply settled_put; [apply Se|]. apply H; lia.
Qed.
Lemma safe_ask m c : (forall stop a, 0 <= a <= stop -> stop - a <= m -> safe (stop - a) (c stop a)) -> safe m (PAsk c).
Proof using Type. intros H f stop a A M. cbn [GenModel.run]. apply (H stop a A M); lia. Qed.
Lemma safe_do m d c : (forall stop a, 0 <= a <= stop -> match d read (8 * zlen data) stop a with Err e => e <> OutOfFuel | Ok v => safe m (c v) end) -> safe m (PDo d c).
Proof using Type.
  intros H f stop a A M. cbn [GenModel.run]. pose proof (H stop a A) as D. destruct (d read (8 * zlen data) stop a) as [v|e]; [apply (D f stop a A M)|apply settled_none, D].
Qed.
Lemma safe_peek m o k s c : fine k -> 0 <= o -> (forall v, safe m (c v)) -> safe m (peek o k s c).
Proof using All.
  intros Fi O H. apply safe_do. intros stop a A. pose proof (kind_any k (a + o) Fi ltac:(lia)) as K. destruct (fsize read (8 * zlen data) k (a + o)) as [z|e]; cbn [bind]; [|exact K]. destruct K as (_ & _ & K).
  destruct (s && (stop <? a + o + z)); [discriminate|]. destruct (fval read k (a + o) z); [apply H|exact K].
Qed.
(** Loops whose turns take at least [d] bits *)
Lemma safe_loop_by d body : 1 <= d -> (forall m k, safe (m - d) k -> safe m (body k)) -> forall n m, m < d * Z.of_nat n -> safe m (loop body n).
Proof using Type.
  intros D B. induction n as [|n IH]; intros m M f stop a A L; [lia|]. cbn [loop GenModel.run]. destruct (stop <=? a) eqn:Sa; [split; [discriminate|constructor]|]. apply (B (stop - a) (loop body n)); [apply IH; lia|lia|lia].
Qed.
Lemma safe_loop body : (forall m k, safe (m - 1) k -> safe m (body k)) -> forall n m, m < Z.of_nat n -> safe m (loop body n).
Proof using Type. intros B n m M. apply (safe_loop_by 1); [lia|exact B|lia]. Qed.
Lemma safe_loop_from {S} (body : S -> (S -> prog) -> prog) : (forall s m k, (forall s, safe (m - 1) (k s)) -> safe m (body s k)) -> forall n s m, m < Z.of_nat n -> safe m (loop_from body n s).
Proof using Type.
  intros B. induction n as [|n IH]; intros s m M f stop a A L; [lia|]. cbn [loop_from GenModel.run]. destruct (stop <=? a) eqn:Sa; [split; [discriminate|constructor]|]. apply (B s (stop - a)); [|lia|lia]. intros s'. apply IH. lia.
Qed.
Lemma safe_times body : (forall m k, safe m k -> safe m (body k)) -> forall n m k, safe m k -> safe m (times body n k).
Proof using Type. intros B. induction n as [|n IH]; intros m k K; [exact K|]. cbn [times]. apply B, IH, K. Qed.
(** What is claimed of every file *)
Theorem any_file p : safe (8 * zlen data) p -> let '(l, e, b) := run p true (8 * zlen data) 0 in tiled 0 l b /\ b <= 8 * zlen data /\ settled_file (l, e, b).
Proof using All.
  intros S. pose proof (zlen_nonneg data). pose proof (run_any read data Hs Hb He Hd p true (8 * zlen data) 0 ltac:(lia)) as R. specialize (S true (8 * zlen data) 0 ltac:(lia) ltac:(lia)).
  destruct (run p true (8 * zlen data) 0) as [[l e] b]. tauto.
Qed.
End Safe.
(** Programs without loops *)
Ltac calm_step := first [ apply safe_ret | apply safe_err; discriminate
  | apply safe_fld; try assumption; [first [exact Logic.I|split; [lia|discriminate]]|intros ?] | apply safe_set; [|intros ?] | apply safe_open; try assumption; [|intros ?]
  | progress cbn [when] | match goal with |- safe _ _ _ (if ?b then _ else _) => destruct b | |- safe _ _ _ (when ?b _ _) => destruct b end ].

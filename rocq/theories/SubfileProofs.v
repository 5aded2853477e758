(** Proofs about the search of sub-files. *)
From Verif Require Import Base BaseProofs DictModel DictProofs StreamModel StreamSpec StreamProofs SubfileModel SubfileSpec.
Ltac Zify.zify_post_hook ::= Z.div_mod_to_equations.

Lemma occurs_split n d p : occurs_at n d p <-> exists a b, d = a ++ n ++ b /\ zlen a = p.
Proof.
  unfold occurs_at. split.
  - intros (P & L & E). exists (firstn (Z.to_nat p) d), (skipn (length n) (skipn (Z.to_nat p) d)). split.
    + rewrite <- (firstn_skipn (Z.to_nat p) d) at 1. f_equal. rewrite <- (firstn_skipn (length n) (skipn (Z.to_nat p) d)) at 1. f_equal.
      unfold sub, zlen in E. rewrite Nat2Z.id in E. exact E.
    + unfold zlen in *. rewrite firstn_length. lia.
  - intros (a & b & -> & <-). pose proof (zlen_nonneg a). pose proof (zlen_nonneg b). rewrite !zlen_app. split; [lia|]. split; [lia|].
    unfold sub, zlen. rewrite !Nat2Z.id. rewrite skipn_app, skipn_all, Nat.sub_diag. cbn [app skipn]. rewrite firstn_app, firstn_all, Nat.sub_diag. cbn [firstn]. apply app_nil_r.
Qed.
Lemma occurs_shift n x d p : 0 <= p -> occurs_at n (x :: d) (p + 1) <-> occurs_at n d p.
Proof.
  intros P. rewrite !occurs_split. split; intros (a & b & E & L).
  - destruct a as [|y a]; [unfold zlen in L; cbn in L; lia|]. injection E as -> ->. exists a, b. split; [reflexivity|]. rewrite zlen_cons in L. lia.
  - subst d. exists (x :: a), b. split; [reflexivity|]. rewrite zlen_cons. lia.
Qed.
Lemma occurs_sub n d a m p : 0 <= a -> 0 <= p -> 0 <= m -> a + m <= zlen d -> occurs_at n (sub d a m) p <-> occurs_at n d (a + p) /\ p + zlen n <= m.
Proof.
  intros A P M L. unfold occurs_at. rewrite zlen_sub_exact by lia. pose proof (zlen_nonneg n).
  split; [intros (_ & X & E)|intros ((_ & _ & E) & X)].
  - rewrite sub_sub in E by lia. repeat split; try lia. exact E.
  - repeat split; try lia. rewrite sub_sub by lia. exact E.
Qed.
Lemma no_overlap_tail magics x d : no_overlap magics (x :: d) -> no_overlap magics d.
Proof.
  intros N g h p q G H Op Oq L. pose proof Op as [P _]. pose proof Oq as [Q _].
  destruct (N g h (p + 1) (q + 1) G H) as [[E ->]|E]; [apply occurs_shift; assumption|apply occurs_shift; assumption|lia|left; split; [lia|reflexivity]|right; lia].
Qed.
Lemma no_overlap_sub magics d a m : 0 <= a -> 0 <= m -> a + m <= zlen d -> no_overlap magics d -> no_overlap magics (sub d a m).
Proof.
  intros A M L N g h p q G H Op Oq PQ. pose proof Op as [P _]. pose proof Oq as [Q _]. apply occurs_sub in Op; try lia. apply occurs_sub in Oq; try lia.
  destruct (N g h (a + p) (a + q) G H) as [[E ->]|E]; try tauto; [lia|left; split; [lia|reflexivity]|right; lia].
Qed.

Section Scan.
Context (pick : list Z -> option magic) (magics : list magic) (PK : picks pick magics).
Lemma scan_sound d : forall skip pos cls off, In (cls, off) (scan pick skip pos d) ->
  exists g p, In g magics /\ g_class g = cls /\ occurs_at (g_text g) d p /\ off = (pos + p) * 8 - g_offset g.
Proof using PK.
  induction d as [|x d IH]; intros skip pos cls off I; [destruct I|]. cbn [scan] in I.
  assert (ST : In (cls, off) (scan pick 0 (pos + 1) d) \/ (exists k, In (cls, off) (scan pick k (pos + 1) d)) -> exists g p, In g magics /\ g_class g = cls /\ occurs_at (g_text g) (x :: d) p /\ off = (pos + p) * 8 - g_offset g).
  { intros [J|[k J]]; apply IH in J; destruct J as (g & p & G & C & O & E); exists g, (p + 1); pose proof O as [P _]; (split; [exact G|]; split; [exact C|]; split; [apply occurs_shift; assumption|lia]). }
  destruct skip as [|k]; [|apply ST; right; eauto]. pose proof (PK (x :: d)) as X. destruct (pick (x :: d)) as [g|]; [|apply ST; auto].
  destruct I as [I|I]; [|apply ST; right; eauto]. injection I as <- <-. destruct X as [G [r E]]. exists g, 0. split; [exact G|]. split; [reflexivity|]. split; [|lia].
  apply occurs_split. exists [], r. split; [exact E|reflexivity].
Qed.
Lemma scan_complete d : no_overlap magics d -> forall skip pos g p, (forall h, In h magics -> g_text h <> []) -> In g magics -> occurs_at (g_text g) d p -> Z.of_nat skip <= p ->
  In (g_class g, (pos + p) * 8 - g_offset g) (scan pick skip pos d).
Proof using PK.
  induction d as [|x d IH]; intros N skip pos g p NE G O S.
  - exfalso. destruct O as (P & L & _). specialize (NE g G). destruct (g_text g) as [|t0 t1]; [congruence|]. rewrite zlen_cons in L. change (zlen (@nil Z)) with 0 in L. pose proof (zlen_nonneg t1). lia.
  - pose proof (no_overlap_tail _ _ _ N) as N'. cbn [scan]. destruct skip as [|k].
    + pose proof (PK (x :: d)) as X. destruct (pick (x :: d)) as [h|].
      * destruct X as [H [r E]]. assert (Oh : occurs_at (g_text h) (x :: d) 0) by (apply occurs_split; exists [], r; split; [exact E|reflexivity]).
        destruct (N h g 0 p H G Oh O ltac:(lia)) as [[<- ->]|D]; [left; f_equal; lia|]. right.
        assert (LH : (1 <= length (g_text h))%nat) by (pose proof (NE h H); destruct (g_text h); [congruence|cbn; lia]).
        unfold zlen in D. replace (pos + p) with (pos + 1 + (p - 1)) by lia. apply (IH N' _ _ g (p - 1) NE G); [|lia].
        apply (occurs_shift _ x); [lia|]. replace (p - 1 + 1) with p by lia. exact O.
      * destruct (Z.eq_dec p 0) as [->|P0].
        { exfalso. apply occurs_split in O. destruct O as (a & b & E & L). destruct a; [|rewrite zlen_cons in L; pose proof (zlen_nonneg a); lia]. exact (X g b G E). }
        pose proof O as [P _]. replace (pos + p) with (pos + 1 + (p - 1)) by lia. apply (IH N' _ _ g (p - 1) NE G); [|lia].
        apply (occurs_shift _ x); [lia|]. replace (p - 1 + 1) with p by lia. exact O.
    + replace (pos + p) with (pos + 1 + (p - 1)) by lia. apply (IH N' _ _ g (p - 1) NE G); [|lia].
      apply (occurs_shift _ x); [lia|]. replace (p - 1 + 1) with p by lia. exact O.
Qed.
End Scan.

Section Find.
Context (guess : Z -> Z -> option found).
Lemma find_sound start stop l : forall next r n, find_loop guess start stop l next = (r, n) -> forall off cls, In (off, cls) r -> In (cls, off - start) l /\ 0 <= off /\ guess off cls <> None.
Proof using.
  induction l as [|[c o] l IH]; intros next r n E off cls I; cbn [find_loop] in E; [injection E as <- <-; destruct I|].
  assert (ST : forall next r n, find_loop guess start stop l next = (r, n) -> In (off, cls) r -> In (cls, off - start) ((c, o) :: l) /\ 0 <= off /\ guess off cls <> None).
  { intros nx r' n' E' I'. destruct (IH nx r' n' E' off cls I') as (A & B & C). split; [right; exact A|auto]. }
  destruct (o + start <? 0) eqn:NG; [exact (ST _ _ _ E I)|]. destruct (before_next (o + start) next); [exact (ST _ _ _ E I)|].
  destruct (guess (o + start) c) as [f|] eqn:GE; [|exact (ST _ _ _ E I)].
  assert (HD : (o + start, c) = (off, cls) -> In (cls, off - start) ((c, o) :: l) /\ 0 <= off /\ guess off cls <> None).
  { intros Q. injection Q as <- <-. split; [left; f_equal; lia|]. split; [lia|congruence]. }
  destruct (f_size f) as [z|]; [destruct (f_skip f)|].
  - destruct (stop <=? o + start + z); [injection E as <- <-; destruct I as [I|[]]; exact (HD I)|]. destruct (find_loop guess start stop l (Some (o + start + z))) as [r' n'] eqn:F. injection E as <- <-. destruct I as [I|I]; [exact (HD I)|exact (ST _ _ _ F I)].
  - destruct (find_loop guess start stop l next) as [r' n'] eqn:F. injection E as <- <-. destruct I as [I|I]; [exact (HD I)|exact (ST _ _ _ F I)].
  - destruct (find_loop guess start stop l next) as [r' n'] eqn:F. injection E as <- <-. destruct I as [I|I]; [exact (HD I)|exact (ST _ _ _ F I)].
Qed.
Definition never_skips : Prop := forall off cls f, guess off cls = Some f -> f_size f = None \/ f_skip f = false.
Lemma find_complete start stop l : never_skips -> exists r, find_loop guess start stop l None = (r, None) /\ forall off cls, In (cls, off - start) l -> 0 <= off -> guess off cls <> None -> In (off, cls) r.
Proof using.
  intros NS. induction l as [|[c o] l (r & E & IH)]; [exists []; split; [reflexivity|intros off cls []]|]. cbn [find_loop before_next]. destruct (o + start <? 0) eqn:NG.
  - exists r. split; [exact E|]. intros off cls [I|I] P G; [|exact (IH off cls I P G)]. injection I as -> ->. lia.
  - destruct (guess (o + start) c) as [f|] eqn:GE.
    + exists ((o + start, c) :: r). split.
      * destruct (NS _ _ _ GE) as [-> | ->]; [rewrite E; reflexivity|]. destruct (f_size f); rewrite E; reflexivity.
      * intros off cls [I|I] P G; [|right; exact (IH off cls I P G)]. injection I as -> ->. left. f_equal. lia.
    + exists r. split; [exact E|]. intros off cls [I|I] P G; [|exact (IH off cls I P G)]. injection I as -> ->. replace (off - start + start) with off in GE by lia. congruence.
Qed.
End Find.

Section Loop.
Context (pick : list Z -> option magic) (magics : list magic) (PK : picks pick magics) (guess : Z -> Z -> option found) (data : list Z) (sz slice : Z) (S1 : 8 <= slice) (S8 : slice mod 8 = 0) (B : 0 <= sz <= zlen data).
Lemma unaligned start n : 0 <= start -> start mod 8 <> 0 -> 0 <= n -> start + 8 * n <= 8 * zlen data -> readBytes (string_read data) start n = Err InputStreamError.
Proof using. intros. apply readBytes_string_unaligned; assumption. Qed.
Lemma search_sound fuel : forall current next r, 0 <= current -> search_loop pick guess (string_read data) (8 * sz) slice fuel current next = Ok r ->
  forall off cls, In (off, cls) r -> magic_at magics data off cls /\ 0 <= off /\ guess off cls <> None.
Proof using PK S1 S8 B.
  induction fuel as [|fuel IH]; intros current next r C E off cls I; cbn [search_loop] in E; destruct (current <? 8 * sz) eqn:LT; try discriminate; try (injection E as <-; destruct I).
  unfold findMagic in E. set (stop := Z.min (current + slice) (8 * sz)) in *.
  destruct (Z.eq_dec (current mod 8) 0) as [AL|AL]; [|rewrite unaligned in E by (auto; unfold stop; lia); discriminate].
  replace current with (8 * (current / 8)) in E at 1 by lia. rewrite readBytes_string in E by (unfold stop; lia).
  replace (((stop - current) / 8 =? 0) || (current / 8 + (stop - current) / 8 <=? zlen data)) with true in E by (unfold stop; lia). cbn [bind] in E.
  destruct (find_loop guess current stop _ next) as [r1 n1] eqn:F. cbn [fst snd] in E. destruct (search_loop _ _ _ _ _ fuel _ n1) as [rest|] eqn:L; [|discriminate]. cbn [bind] in E. injection E as <-.
  apply in_app_or in I. destruct I as [I|I].
  - destruct (find_sound guess _ _ _ _ _ _ F off cls I) as (A & P & G). split; [|auto]. apply (scan_sound pick magics PK) in A. destruct A as (g & p & G1 & G2 & O & OE).
    exists g, (current / 8 + p). split; [exact G1|]. split; [exact G2|]. pose proof O as [P0 _]. apply occurs_sub in O; [|lia|lia|unfold stop; lia|unfold stop; lia]. split; [tauto|lia].
  - refine (IH _ _ _ _ L off cls I). destruct (truthy n1); [|lia]. destruct n1; lia.
Qed.
Lemma search_complete fuel : never_skips guess -> no_overlap magics data -> (forall h, In h magics -> g_text h <> []) -> forall c, 0 <= c -> 8 * sz - 8 * c <= Z.of_nat fuel ->
  exists r, search_loop pick guess (string_read data) (8 * sz) slice fuel (8 * c) None = Ok r /\
  forall g p, In g magics -> occurs_at (g_text g) data p -> c <= p -> p + zlen (g_text g) <= sz -> (p - c) / (slice / 8) = (p + zlen (g_text g) - 1 - c) / (slice / 8) ->
    0 <= 8 * p - g_offset g -> guess (8 * p - g_offset g) (g_class g) <> None -> In (8 * p - g_offset g, g_class g) r.
Proof using PK S1 S8 B.
  intros NS NO NEM. assert (ST : 0 < slice / 8) by lia. induction fuel as [|fuel IH]; intros c C F; cbn [search_loop].
  - replace (8 * c <? 8 * sz) with false by lia. exists []. split; [reflexivity|]. intros g p G O P L. exfalso. pose proof (NEM g G). destruct (g_text g); [congruence|]. rewrite zlen_cons in L. pose proof (zlen_nonneg l). lia.
  - destruct (8 * c <? 8 * sz) eqn:LT.
    2: { exists []. split; [reflexivity|]. intros g p G O P L. exfalso. pose proof (NEM g G). destruct (g_text g); [congruence|]. rewrite zlen_cons in L. pose proof (zlen_nonneg l). lia. }
    unfold findMagic. set (stop := Z.min (8 * c + slice) (8 * sz)) in *.
    rewrite readBytes_string by (unfold stop; lia). replace (((stop - 8 * c) / 8 =? 0) || (c + (stop - 8 * c) / 8 <=? zlen data)) with true by (unfold stop; lia). cbn [bind].
    set (m := (stop - 8 * c) / 8) in *. assert (MB : 0 <= m /\ c + m <= zlen data /\ m = Z.min (slice / 8) (sz - c)) by (unfold m, stop; lia).
    destruct (find_complete guess (8 * c) stop (scan pick 0 0 (sub data c m)) NS) as (r1 & -> & FC). cbn [fst snd truthy].
    replace (Z.min (8 * c + slice) (8 * sz)) with (8 * Z.min (c + slice / 8) sz) by lia.
    destruct (IH (Z.min (c + slice / 8) sz)) as (r2 & -> & IC); [lia|lia|]. cbn [bind]. exists (r1 ++ r2). split; [reflexivity|].
    intros g p G O P L D OP GU. apply in_or_app.
    assert (L1 : 1 <= zlen (g_text g)) by (pose proof (NEM g G) as X; destruct (g_text g) as [|t0 t1]; [congruence|]; rewrite zlen_cons; pose proof (zlen_nonneg t1); lia).
    destruct (Z_lt_ge_dec (p - c) (slice / 8)) as [LS|GS].
    + left. apply FC; [|exact OP|exact GU].
      assert (D0 : (p - c) / (slice / 8) = 0) by (apply Z.div_small; lia). rewrite D0 in D. assert (EN : p + zlen (g_text g) - 1 - c < slice / 8).
      { destruct (Z_lt_ge_dec (p + zlen (g_text g) - 1 - c) (slice / 8)) as [|GE]; [assumption|]. exfalso. assert (1 <= (p + zlen (g_text g) - 1 - c) / (slice / 8)) by (apply Z.div_le_lower_bound; lia). lia. }
      assert (OS : occurs_at (g_text g) (sub data c m) (p - c)) by (apply occurs_sub; try lia; split; [replace (c + (p - c)) with p by lia; exact O|lia]).
      pose proof (scan_complete pick magics PK _ (no_overlap_sub magics data c m C ltac:(lia) ltac:(lia) NO) 0%nat 0 g (p - c) NEM G OS ltac:(lia)) as SC.
      replace (8 * p - g_offset g - 8 * c) with ((0 + (p - c)) * 8 - g_offset g) by lia. exact SC.
    + right. assert (MIN : Z.min (c + slice / 8) sz = c + slice / 8) by lia. rewrite MIN in *. apply IC; auto; [lia|].
      replace (p - (c + slice / 8)) with (p - c + (-1) * (slice / 8)) by lia. replace (p + zlen (g_text g) - 1 - (c + slice / 8)) with (p + zlen (g_text g) - 1 - c + (-1) * (slice / 8)) by lia.
      rewrite !Z.div_add by lia. lia.
Qed.
End Loop.

(** ** Files whose content is skipped *)
Definition lim (next : option Z) : Z := match next with Some n => n | None => 0 end.
Lemma before_lim off next : 0 <= off -> 0 <= lim next -> before_next off next = (off <? lim next).
Proof. intros H L. destruct next as [n|]; cbn [before_next lim] in *; [|lia]. destruct (n =? 0) eqn:E; cbn [negb andb]; lia. Qed.
Section Skip.
Context (guess : Z -> Z -> option found) (NN : forall off cls n, skips guess off cls n -> 0 <= n).
Notation skips := (skips guess).
Definition apart (r : list (Z * Z)) : Prop := ForallOrdPairs (fun x y => forall n, skips (fst x) (snd x) n -> fst x + n <= fst y) r.
Lemma find_apart start stop l : forall next r n, 0 <= lim next -> find_loop guess start stop l next = (r, n) ->
  lim next <= lim n /\ (forall x, In x r -> lim next <= fst x) /\ (forall x k, In x r -> skips (fst x) (snd x) k -> fst x + k <= lim n) /\ apart r /\
  (forall off cls, In (cls, off - start) l -> 0 <= off < stop -> guess off cls <> None -> In (off, cls) r \/ off < lim next \/ exists o c k, In (o, c) r /\ skips o c k /\ off < o + k).
Proof using NN.
  induction l as [|[c o] l IH]; intros next r n L E; cbn [find_loop] in E.
  { injection E as <- <-. split; [lia|]. split; [intros x []|]. split; [intros x k []|]. split; [constructor|]. intros off cls []. }
  assert (SAME : forall (Hs : forall off cls, (cls, off - start) = (c, o) -> 0 <= off < stop -> guess off cls <> None -> off < lim next), find_loop guess start stop l next = (r, n) ->
    lim next <= lim n /\ (forall x, In x r -> lim next <= fst x) /\ (forall x k, In x r -> skips (fst x) (snd x) k -> fst x + k <= lim n) /\ apart r /\
    (forall off cls, In (cls, off - start) ((c, o) :: l) -> 0 <= off < stop -> guess off cls <> None -> In (off, cls) r \/ off < lim next \/ exists o c k, In (o, c) r /\ skips o c k /\ off < o + k)).
  { intros Hs E'. destruct (IH _ _ _ L E') as (A1 & A2 & A3 & A4 & A5). repeat (split; [assumption|]). intros off cls [Q|Q] P G; [|exact (A5 off cls Q P G)]. right; left. apply (Hs off cls); congruence || assumption. }
  destruct (o + start <? 0) eqn:NG. { apply SAME; [|exact E]. intros off cls Q P G. injection Q as -> Q. lia. }
  rewrite before_lim in E by lia. destruct (o + start <? lim next) eqn:BN. { apply SAME; [|exact E]. intros off cls Q P G. injection Q as -> Q. lia. }
  destruct (guess (o + start) c) as [f|] eqn:GE. 2: { apply SAME; [|exact E]. intros off cls Q P G. injection Q as -> Q. replace (o + start) with off in GE by lia. congruence. }
  assert (HD : forall off cls, (c, o) = (cls, off - start) -> (off, cls) = (o + start, c)) by (intros off cls Q; injection Q as -> ->; f_equal; lia).
  assert (NOSKIP : (forall k, ~ skips (o + start) c k) -> (let (r0, n0) := find_loop guess start stop l next in ((o + start, c) :: r0, n0)) = (r, n) ->
    lim next <= lim n /\ (forall x, In x r -> lim next <= fst x) /\ (forall x k, In x r -> skips (fst x) (snd x) k -> fst x + k <= lim n) /\ apart r /\
    (forall off cls, In (cls, off - start) ((c, o) :: l) -> 0 <= off < stop -> guess off cls <> None -> In (off, cls) r \/ off < lim next \/ exists o c k, In (o, c) r /\ skips o c k /\ off < o + k)).
  { intros NS E'. destruct (find_loop guess start stop l next) as [r0 n0] eqn:F. injection E' as <- <-. destruct (IH _ _ _ L F) as (A1 & A2 & A3 & A4 & A5).
    split; [assumption|]. split; [intros x [<-|Hx]; [cbn [fst]; lia|exact (A2 x Hx)]|]. split; [intros x k [<-|Hx] S; [exfalso; exact (NS k S)|exact (A3 x k Hx S)]|].
    split; [constructor; [rewrite Forall_forall; intros y Hy k S; exfalso; exact (NS k S)|assumption]|].
    intros off cls [Q|Q] P G; [left; left; symmetry; exact (HD _ _ Q)|]. destruct (A5 off cls Q P G) as [A|[A|(o2 & c2 & k & X1 & X2 & X3)]]; [left; right; exact A|right; left; exact A|right; right; exists o2, c2, k; split; [right; exact X1|auto]]. }
  destruct (f_size f) as [z|] eqn:FS; [|apply NOSKIP; [intros k (f' & X1 & X2 & X3); congruence|exact E]].
  destruct (f_skip f) eqn:FK; [|apply NOSKIP; [intros k (f' & X1 & X2 & X3); congruence|exact E]].
  assert (SK : skips (o + start) c z) by (exists f; auto). pose proof (NN _ _ _ SK) as Z0.
  assert (U : forall k, skips (o + start) c k -> k = z) by (intros k (f' & X1 & X2 & X3); congruence).
  destruct (stop <=? o + start + z) eqn:ST.
  - injection E as <- <-. cbn [lim]. split; [lia|]. split; [intros x [<-|[]]; cbn [fst]; lia|]. split; [intros x k [<-|[]] S; cbn [fst snd] in *; rewrite (U k S); lia|].
    split; [repeat constructor|]. intros off cls _ P G. right; right. exists (o + start), c, z. split; [left; reflexivity|]. split; [exact SK|lia].
  - destruct (find_loop guess start stop l (Some (o + start + z))) as [r0 n0] eqn:F. injection E as <- <-. destruct (IH (Some (o + start + z)) r0 n0 ltac:(cbn [lim]; lia) F) as (A1 & A2 & A3 & A4 & A5). cbn [lim] in A1, A2, A5.
    split; [lia|]. split; [intros x [<-|Hx]; [cbn [fst]; lia|specialize (A2 x Hx); lia]|]. split; [intros x k [<-|Hx] S; [cbn [fst snd] in *; rewrite (U k S); lia|exact (A3 x k Hx S)]|].
    split; [constructor; [rewrite Forall_forall; intros y Hy k S; cbn [fst snd] in *; rewrite (U k S); exact (A2 y Hy)|assumption]|].
    intros off cls [Q|Q] P G; [left; left; symmetry; exact (HD _ _ Q)|]. destruct (A5 off cls Q P G) as [A|[A|(o2 & c2 & k & X1 & X2 & X3)]].
    + left; right; exact A.
    + right; right. exists (o + start), c, z. split; [left; reflexivity|]. split; [exact SK|exact A].
    + right; right; exists o2, c2, k; split; [right; exact X1|auto].
Qed.
Lemma apart_app r1 r2 m : apart r1 -> apart r2 -> (forall x k, In x r1 -> skips (fst x) (snd x) k -> fst x + k <= m) -> (forall x, In x r2 -> m <= fst x) -> apart (r1 ++ r2).
Proof using.
  clear NN. intros A1 A2 H1 H2. induction A1 as [|x r1 F A1 IH]; cbn [app]; [exact A2|]. constructor.
  - apply Forall_app. split; [exact F|]. rewrite Forall_forall. intros y Hy k S. specialize (H1 x k (or_introl eq_refl) S). specialize (H2 y Hy). lia.
  - apply IH. intros y k Hy. apply H1. right. exact Hy.
Qed.
Lemma search_apart pick read size slice fuel : forall current next r, 0 <= lim next -> search_loop pick guess read size slice fuel current next = Ok r ->
  apart r /\ forall x, In x r -> lim next <= fst x.
Proof using NN.
  induction fuel as [|fuel IH]; intros current next r L E; cbn [search_loop] in E; destruct (current <? size); try discriminate; try (injection E as <-; split; [constructor|intros x []]).
  unfold findMagic in E. destruct (readBytes _ _ _) as [d|]; [|discriminate]. cbn [bind] in E. destruct (find_loop _ _ _ _ next) as [r1 n1] eqn:F. cbn [fst snd] in E.
  destruct (search_loop _ _ _ _ _ fuel _ n1) as [rest|] eqn:R; [|discriminate]. cbn [bind] in E. injection E as <-.
  destruct (find_apart _ _ _ _ _ _ L F) as (A1 & A2 & A3 & A4 & _). destruct (IH _ n1 _ ltac:(lia) R) as [B1 B2].
  split; [exact (apart_app r1 rest (lim n1) A4 B1 A3 B2)|]. intros x Hx. apply in_app_or in Hx as [Hx|Hx]; [exact (A2 x Hx)|]. specialize (B2 x Hx). lia.
Qed.
Lemma apart_split r : apart r -> forall r1 x r2 y r3 n, r = r1 ++ x :: r2 ++ y :: r3 -> skips (fst x) (snd x) n -> fst x + n <= fst y.
Proof using.
  clear NN. induction 1 as [|z r F A IH]; intros r1 x r2 y r3 n E S; destruct r1 as [|w r1]; try discriminate; cbn [app] in E; injection E as <- E.
  - rewrite Forall_forall in F. apply F; [|exact S]. rewrite E. apply in_elt.
  - exact (IH _ _ _ _ _ _ E S).
Qed.
End Skip.
Lemma first_slice pick magics guess data sz slice fuel c r : picks pick magics -> (forall off cls n, skips guess off cls n -> 0 <= n) ->
  no_overlap magics data -> (forall h, In h magics -> g_text h <> [] /\ 0 <= g_offset h) -> 8 <= slice -> slice mod 8 = 0 -> 0 <= sz <= zlen data -> 0 <= c ->
  search_loop pick guess (string_read data) (8 * sz) slice fuel (8 * c) None = Ok r ->
  forall g p, In g magics -> occurs_at (g_text g) data p -> c <= p -> p + zlen (g_text g) <= sz -> p + zlen (g_text g) <= c + slice / 8 ->
  0 <= 8 * p - g_offset g -> guess (8 * p - g_offset g) (g_class g) <> None ->
  In (8 * p - g_offset g, g_class g) r \/ exists o cls n, In (o, cls) r /\ skips guess o cls n /\ 8 * p - g_offset g < o + n.
Proof.
  intros PK NN NO NEM S1 S8 B C E g p G O P L1 L2 OP GU.
  assert (L0 : 1 <= zlen (g_text g)) by (destruct (NEM g G) as [X _]; destruct (g_text g) as [|t0 t1]; [congruence|]; rewrite zlen_cons; pose proof (zlen_nonneg t1); lia).
  assert (LT : 8 * c <? 8 * sz = true) by lia.
  destruct fuel as [|fuel]; cbn [search_loop] in E; rewrite LT in E; [discriminate|]. unfold findMagic in E. set (stop := Z.min (8 * c + slice) (8 * sz)) in *.
  rewrite readBytes_string in E by (unfold stop; lia). replace (((stop - 8 * c) / 8 =? 0) || (c + (stop - 8 * c) / 8 <=? zlen data)) with true in E by (unfold stop; lia). cbn [bind] in E.
  set (m := (stop - 8 * c) / 8) in *. assert (MB : 0 <= m /\ c + m <= zlen data /\ m = Z.min (slice / 8) (sz - c)) by (unfold m, stop; lia).
  destruct (find_loop guess (8 * c) stop _ None) as [r1 n1] eqn:F. cbn [fst snd] in E. destruct (search_loop _ _ _ _ _ fuel _ n1) as [rest|]; [|discriminate]. cbn [bind] in E. injection E as <-.
  destruct (find_apart guess NN _ _ _ None _ _ ltac:(cbn [lim]; lia) F) as (_ & _ & _ & _ & A5). cbn [lim] in A5.
  assert (OS : occurs_at (g_text g) (sub data c m) (p - c)) by (apply occurs_sub; try lia; split; [replace (c + (p - c)) with p by lia; exact O|lia]).
  pose proof (scan_complete pick magics PK _ (no_overlap_sub magics data c m C ltac:(lia) ltac:(lia) NO) 0%nat 0 g (p - c) (fun h H => proj1 (NEM h H)) G OS ltac:(lia)) as SC.
  destruct (NEM g G) as [_ GO].
  destruct (A5 (8 * p - g_offset g) (g_class g)) as [A|[A|(o & cls & n & X1 & X2 & X3)]]; [replace (8 * p - g_offset g - 8 * c) with ((0 + (p - c)) * 8 - g_offset g) by lia; exact SC|unfold stop; lia|exact GU| | |].
  - left. apply in_or_app. left. exact A.
  - lia.
  - right. exists o, cls, n. split; [apply in_or_app; left; exact X1|auto].
Qed.

(** ** The list of magics *)
Lemma load_magics_in l : forall known g, In g (load_magics known l) -> In g known \/ In g l.
Proof.
  induction l as [|x l IH]; intros known g I; cbn [load_magics] in I; [auto|]. apply IH in I. destruct I as [I|I]; [|right; right; exact I].
  destruct (existsb _ known); [auto|]. apply in_app_or in I. destruct I as [I|[<-|[]]]; [auto|right; left; reflexivity].
Qed.
Lemma load_magics_keeps l : forall known g, In g known -> In g (load_magics known l).
Proof. induction l as [|x l IH]; intros known g I; cbn [load_magics]; [exact I|]. apply IH. destruct (existsb _ known); [exact I|apply in_or_app; left; exact I]. Qed.
Lemma load_magics_text l : forall known g, In g l -> exists h, In h (load_magics known l) /\ g_text h = g_text g.
Proof.
  induction l as [|x l IH]; intros known g I; [destruct I|]. cbn [load_magics]. destruct I as [->|I]; [|exact (IH _ g I)].
  destruct (existsb _ known) eqn:E.
  - apply existsb_exists in E. destruct E as (h & H & Q). apply str_eqb_eq in Q. exists h. split; [apply load_magics_keeps, H|congruence].
  - exists g. split; [apply load_magics_keeps, in_or_app; right; left; reflexivity|reflexivity].
Qed.

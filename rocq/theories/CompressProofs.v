(** Proofs about CompressedStream. *)
From Verif Require Import Base BaseProofs StreamSpec CompressModel CompressSpec.
Ltac Zify.zify_post_hook ::= Z.div_mod_to_equations.

Lemma zlen_firstn {A} (l : list A) n : 0 <= n -> zlen (firstn (Z.to_nat n) l) = Z.min n (zlen l).
Proof. intros H. unfold zlen. rewrite firstn_length. lia. Qed.
Lemma skipn_all_z {A} (l : list A) n : zlen l <= n -> skipn (Z.to_nat n) l = [].
Proof. intros H. apply skipn_all2. unfold zlen in H. lia. Qed.
Lemma firstn_all_z {A} (l : list A) n : zlen l <= n -> firstn (Z.to_nat n) l = l.
Proof. intros H. apply firstn_all2. unfold zlen in H. lia. Qed.

Section Reads.
Context {D : Type} (data : list Z) (sread : Z -> Z -> res (Z * list Z * bool)) (SV : serves sread data) (NE : 0 < zlen data).
Context (total : list Z -> list Z) (G : growing total) (call : D -> Z -> option (list Z) -> res (list Z * D)) (R : D -> list Z -> list Z -> bool -> Prop) (C : contract total call R).
Let ssize := 8 * zlen data.

(** [P]: what has been read so far *)
Definition inv (st : cstream D) (P : list Z) : Prop :=
  exists dr rest fed, fed = firstn (Z.to_nat (c_offset st / 8)) data /\ c_offset st mod 8 = 0 /\ 0 <= c_offset st <= ssize /\
    R (c_dec st) fed (P ++ c_buffer st) dr /\ (P ++ c_buffer st) ++ rest = total fed.
Lemma prefix_total k x y : x ++ y = total (firstn k data) -> exists z, x ++ z = total data.
Proof using G.
  intros H. destruct (G (firstn k data) (skipn k data)) as [c E]. rewrite firstn_skipn in E. exists (y ++ c). rewrite E, <- H, app_assoc. reflexivity.
Qed.
(** What a read gives *)
Definition good (P : list Z) (size : Z) (r : res (list Z * cstream D)) : Prop :=
  exists out st, r = Ok (out, st) /\ inv st (P ++ out) /\ (zlen out = size \/ (zlen out <= size /\ P ++ out = total data)).
Lemma loop_good P size0 fuel : forall offset size d acc dec dr rest,
  ssize - offset < 8 * Z.of_nat fuel -> offset mod 8 = 0 -> 0 <= offset <= ssize ->
  R dec (firstn (Z.to_nat (offset / 8)) data) (P ++ acc ++ skipn (Z.to_nat (size + zlen d)) d) dr ->
  (P ++ acc ++ skipn (Z.to_nat (size + zlen d)) d) ++ rest = total (firstn (Z.to_nat (offset / 8)) data) ->
  zlen acc + Z.max size 0 = size0 -> (0 < size -> rest = [] /\ dr = true) ->
  good P size0 (cs_loop ssize sread call fuel offset size d acc dec).
Proof using SV NE G C.
  induction fuel as [|fuel IH]; intros offset size d acc dec dr rest F M B RR T L S.
  - exfalso. lia.
  - cbn [cs_loop]. destruct (size <=? 0) eqn:SZ.
    + unfold good, cs_end. eexists _, _. split; [reflexivity|]. split; [|left; lia].
      exists dr, rest. eexists. split; [reflexivity|]. cbn [c_offset c_buffer c_dec]. rewrite <- app_assoc. auto.
    + destruct S as [-> ->]; [lia|]. rewrite (skipn_all_z d) in RR, T by lia. rewrite app_nil_r in RR, T. rewrite app_nil_r in T.
      replace (ssize =? 0) with false by (unfold ssize; lia). cbv iota. destruct (Z.min (ssize - offset) 4096 =? 0) eqn:N.
      * unfold good, cs_end. eexists _, _. split; [reflexivity|]. cbn [c_offset c_buffer c_dec].
        assert (FA : firstn (Z.to_nat (offset / 8)) data = data) by (apply firstn_all_z; unfold ssize in *; lia).
        split.
        -- exists true, [], data. cbn [c_offset c_buffer c_dec]. rewrite (skipn_all_z d) by lia. rewrite FA in RR, T. rewrite !app_nil_r. repeat split; auto; lia.
        -- right. split; [lia|]. rewrite FA in T. exact T.
      * set (n := Z.min (ssize - offset) 4096) in *. assert (NB : 8 <= n /\ n mod 8 = 0 /\ offset + n <= ssize) by (unfold n, ssize in *; lia).
        rewrite (SV offset n) by (unfold ssize in *; lia). cbn [bind fst snd].
        replace (offset mod 8) with 0 by lia. replace ((n + 0 + 7) / 8) with (n / 8) by lia. set (x := sub data (offset / 8) (n / 8)).
        assert (XL : zlen x = n / 8) by (unfold x; apply zlen_sub_exact; unfold ssize in *; lia).
        assert (FE : firstn (Z.to_nat (offset / 8)) data ++ x = firstn (Z.to_nat ((offset + 8 * zlen x) / 8)) data).
        { rewrite XL. replace ((offset + 8 * (n / 8)) / 8) with (offset / 8 + n / 8) by lia. unfold x, sub. rewrite Z2Nat.inj_add by lia. rewrite <- (firstn_skipn (Z.to_nat (offset / 8)) data) at 3. rewrite firstn_app.
          rewrite firstn_firstn. assert (LF : length (firstn (Z.to_nat (offset / 8)) data) = Z.to_nat (offset / 8)) by (rewrite firstn_length; unfold zlen, ssize in *; unfold zlen in *; lia).
          rewrite LF. replace (Nat.min _ _) with (Z.to_nat (offset / 8)) by lia. f_equal. f_equal. lia. }
        destruct (C dec _ _ true size (Some x) RR ltac:(lia) (or_intror eq_refl)) as (out & dec' & rest' & CE & R' & T' & S'). cbv iota zeta in R', T'.
        rewrite CE. cbn [bind]. rewrite FE in R', T'.
        apply (IH _ _ _ _ _ (zlen out <? size) rest').
        -- rewrite XL. lia.
        -- rewrite XL. lia.
        -- rewrite XL. unfold ssize in *. lia.
        -- replace (size - zlen out + zlen out) with size by lia. rewrite <- app_assoc, firstn_skipn, app_assoc. exact R'.
        -- replace (size - zlen out + zlen out) with size by lia. rewrite <- (app_assoc acc), firstn_skipn. rewrite <- T'. rewrite <- !app_assoc. reflexivity.
        -- rewrite zlen_app, zlen_firstn by lia. lia.
        -- intros PZ. split; [apply S'; lia|lia].
Qed.
Lemma read_good st P size fuel : inv st P -> 0 <= size -> ssize < 8 * Z.of_nat fuel -> good P size (cs_read ssize sread call fuel st size).
Proof using SV NE G C.
  intros (dr & rest & fed & -> & M & B & RR & T) S F. unfold cs_read. destruct (size - zlen (c_buffer st) <=? 0) eqn:SZ.
  - unfold good, cs_end. eexists _, _. split; [reflexivity|]. split; [|left; rewrite zlen_firstn by lia; lia].
    replace (size - zlen (c_buffer st) + zlen (c_buffer st)) with size by lia.
    exists dr, rest. eexists. split; [reflexivity|]. cbn [c_offset c_buffer c_dec]. rewrite <- app_assoc, firstn_skipn. auto.
  - destruct (C (c_dec st) _ _ dr (size - zlen (c_buffer st)) None RR ltac:(lia) (or_introl eq_refl)) as (out & dec' & rest' & CE & R' & T' & S'). cbv iota zeta in R', T'.
    rewrite app_nil_r in R', T'. rewrite CE. cbn [bind]. set (sz := size - zlen (c_buffer st)) in *.
    rewrite (firstn_all_z (c_buffer st)) by lia.
    apply (loop_good P size fuel _ _ _ _ _ (zlen out <? sz) rest'); try lia.
    + replace (sz - zlen out + zlen out) with sz by lia. rewrite <- app_assoc, firstn_skipn, app_assoc. exact R'.
    + replace (sz - zlen out + zlen out) with sz by lia. rewrite <- (app_assoc (c_buffer st)), firstn_skipn. rewrite <- T'. rewrite <- !app_assoc. reflexivity.
    + rewrite zlen_app, zlen_firstn by lia. lia.
    + intros PZ. split; [apply S'; lia|lia].
Qed.
Lemma reads_good fuel sizes : forall st P X, inv st P -> P ++ X = total data -> Forall (fun n => 0 <= n) sizes -> ssize < 8 * Z.of_nat fuel ->
  cs_reads ssize sread call fuel st sizes = Ok (slices X sizes).
Proof using SV NE G C.
  induction sizes as [|n sizes IH]; intros st P X I E F FU; [reflexivity|]. inversion F as [|? ? N F']; subst. cbn [cs_reads slices].
  destruct (read_good st P n fuel I N FU) as (out & st' & -> & I' & O). cbn [bind fst snd].
  assert (Q : out = firstn (Z.to_nat n) X /\ (P ++ out) ++ skipn (Z.to_nat n) X = total data).
  { destruct I' as (dr & rest & fed & -> & M & B & RR & T). rewrite <- app_assoc in T. destruct (prefix_total _ _ _ T) as [z Z0]. rewrite <- E, <- !app_assoc in Z0. apply app_inv_head in Z0.
    assert (Q : out = firstn (Z.to_nat n) X).
    { destruct O as [O|[O1 O2]].
      - rewrite <- Z0. rewrite <- O at 1. unfold zlen at 1. rewrite Nat2Z.id. rewrite firstn_app, Nat.sub_diag, firstn_all, app_nil_r. reflexivity.
      - rewrite <- E in O2. apply app_inv_head in O2. subst X. symmetry. apply firstn_all_z, O1. }
    split; [exact Q|]. rewrite Q, <- app_assoc, firstn_skipn. exact E. }
  destruct Q as [Q1 Q2]. rewrite (IH st' (P ++ out) (skipn (Z.to_nat n) X) I' Q2 F' FU). cbn [bind]. rewrite Q1. reflexivity.
Qed.
Lemma reads_all d0 sizes fuel : R d0 [] [] false -> Forall (fun n => 0 <= n) sizes -> (length data < fuel)%nat ->
  cs_reads ssize sread call fuel (cs_init d0) sizes = Ok (slices (total data) sizes).
Proof using SV NE G C.
  intros R0 F FU. apply (reads_good fuel sizes (cs_init d0) [] (total data)); [|reflexivity|exact F|unfold ssize, zlen; lia].
  exists false, (total []), []. cbn [cs_init c_offset c_buffer c_dec app]. split; [reflexivity|]. split; [reflexivity|]. split; [unfold ssize; lia|]. auto.
Qed.
End Reads.

(** ** zlib wrappers *)
Definition zobj_rel {Z0} (R : Z0 -> list Z -> list Z -> Prop) (z : @zobj Z0) (fed given : list Z) (drained : bool) : Prop :=
  exists consumed, fed = consumed ++ snd z /\ R (fst z) consumed given /\ (drained = true -> snd z = []).
Lemma deflate_contract {Z0} total (zcall : Z0 -> list Z -> Z -> list Z * list Z * Z0) R : growing total -> zlib_contract total zcall R ->
  (forall z consumed given, R z consumed given -> exists rest, given ++ rest = total consumed) -> contract total (deflate_call zcall) (zobj_rel R).
Proof.
  intros G ZC PR z fed given drained size data (c & -> & RZ & DR) S DA new. unfold deflate_call.
  replace (match data with None => [] | Some d => d end) with new by (destruct data; reflexivity).
  destruct (zcall (fst z) (snd z ++ new) size) as [[out tail] z'] eqn:E.
  destruct (ZC _ _ _ _ _ _ _ _ RZ S E) as (used & rest & IN & R' & T & SH).
  assert (FE : (c ++ snd z) ++ new = (c ++ used) ++ tail) by (rewrite <- !app_assoc; f_equal; exact IN).
  destruct (G (c ++ used) tail) as [more GM]. exists out, (z', tail), (rest ++ more). split; [reflexivity|]. split; [|split].
  - exists (c ++ used). cbn [fst snd]. split; [exact FE|]. split; [exact R'|]. intros LT. apply SH. lia.
  - rewrite FE, GM, <- T, <- !app_assoc. reflexivity.
  - intros LT. destruct (SH LT) as [-> ->]. rewrite app_nil_r in GM. rewrite <- (app_nil_r (total (c ++ used))) in GM at 1. apply app_inv_head in GM. rewrite <- GM. reflexivity.
Qed.
Lemma gunzip_contract {Z0} total (zcall : Z0 -> list Z -> Z -> list Z * list Z * Z0) R : growing total -> zlib_contract total zcall R ->
  (forall z consumed given, R z consumed given -> exists rest, given ++ rest = total consumed) -> contract total (gunzip_call zcall) (zobj_rel R).
Proof.
  intros G ZC PR z fed given drained size data RR S DA new.
  replace (gunzip_call zcall z size data) with (deflate_call zcall z size data); [exact (deflate_contract total zcall R G ZC PR z fed given drained size data RR S DA)|].
  unfold gunzip_call, deflate_call. destruct data as [x|]; [|rewrite app_nil_r; reflexivity]. destruct DA as [DA|DA]; [discriminate|]. destruct RR as (c & _ & _ & DR). rewrite (DR DA). reflexivity.
Qed.

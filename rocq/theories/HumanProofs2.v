(** Proofs about durations, modes, newlines and timestamps. *)
From Coq Require Import String Sorted.
From Verif Require Import Base BaseProofs DictModel BitsModel FieldModel FieldNames FloatModel FloatProofs Lit HumanModel HumanSpec.
Ltac Zify.zify_post_hook ::= Z.div_mod_to_equations.

(** ** Durations *)
(** Mixed radix digits of a number. *)
Fixpoint expand (delta : Z) (units : list (Z * str)) : list (Z * (Z * str)) :=
  match units with [] => [] | u :: us => (delta / fst u, u) :: expand (delta mod fst u) us end.
Definition nonzero (p : Z * (Z * str)) : bool := negb (fst p =? 0).
Lemma expand_in_order units : forall delta, in_order (map snd (filter nonzero (expand delta units))) units.
Proof.
  induction units as [|u us IH]; intros delta; cbn [expand filter map]; [constructor|]. unfold nonzero at 1. cbn [fst].
  destruct (delta / fst u =? 0); cbn [negb map snd]; [apply io_skip|apply io_take]; apply IH.
Qed.
Lemma in_order_firstn {A} n (s l : list A) : in_order s l -> in_order (firstn n s) l.
Proof.
  intros H. revert n. induction H; intros n; [rewrite firstn_nil; constructor|constructor; apply IHin_order|].
  destruct n; [constructor|]. cbn [firstn]. apply io_take, IHin_order.
Qed.
(** [us] is a tail of the unit list, larger units do not fit. *)
Lemma expand_greedy us : forall delta, 0 <= delta ->
  (forall u, In u us -> 0 < fst u) ->
  StronglySorted (fun u v : Z * str => fst v < fst u) us ->
  (forall u, In u duration_units -> fst u <= delta -> In u us) ->
  greedy delta (filter nonzero (expand delta us)).
Proof.
  induction us as [|u us IH]; intros delta Hd Hpos Hs Hu; cbn [expand filter]; [exact I|].
  assert (Hu0 : 0 < fst u) by (apply Hpos; left; reflexivity). inversion Hs as [|? ? Hs' Hlt]; subst. rewrite Forall_forall in Hlt.
  pose proof (Z.div_mod delta (fst u) ltac:(lia)) as Hdm. pose proof (Z.mod_pos_bound delta (fst u) Hu0) as Hm.
  unfold nonzero at 1. cbn [fst]. destruct (delta / fst u =? 0) eqn:E; cbn [negb].
  - replace (delta mod fst u) with delta by nia. apply IH; try assumption; [intros v Hv; apply Hpos; right; exact Hv|].
    intros v Hv Hle. destruct (Hu v Hv Hle) as [->|H]; [nia|exact H].
  - destruct u as [un name]. cbn [greedy fst] in *. pose proof (Z.div_pos delta un Hd Hu0).
    split; [|split; [lia|]].
    + intros v Hv Hle. destruct (Hu v Hv Hle) as [<-|H']; [cbn; lia|]. specialize (Hlt v H'). cbn in Hlt. lia.
    + assert (Em : delta - delta / un * un = delta mod un) by lia. rewrite Em. split; [lia|].
      apply IH; [lia|intros v Hv; apply Hpos; right; exact Hv|assumption|].
      intros v Hv Hle. destruct (Hu v Hv ltac:(nia)) as [<-|H']; [cbn in *; lia|exact H'].
Qed.
Lemma greedy_firstn n : forall parts delta, greedy delta parts -> greedy delta (firstn n parts).
Proof.
  induction n as [|n IH]; intros [|[c [u name]] parts] delta H; try exact I. cbn [firstn greedy] in *.
  destruct H as (H1 & H2 & H3 & H4). split; [assumption|]. split; [assumption|]. split; [assumption|]. apply IH, H4.
Qed.
Lemma total_filter parts : total (filter nonzero parts) = total parts.
Proof.
  induction parts as [|[c u] ps IH]; [reflexivity|]. cbn [filter]. unfold nonzero at 1. cbn [fst total fold_right].
  fold (total ps). destruct (c =? 0) eqn:E; cbn [negb]; [rewrite IH; lia|]. cbn [total fold_right fst]. fold (total (filter nonzero ps)). rewrite IH. reflexivity.
Qed.
Lemma total_expand us u : forall delta, (forall v, In v us -> 0 < fst v) -> fst u = 1 -> total (expand delta (us ++ [u])) = delta.
Proof.
  induction us as [|v us IH]; intros delta Hpos Hu; cbn [app expand total fold_right fst snd].
  - rewrite Hu. lia.
  - fold (total (expand (delta mod fst v) (us ++ [u]))). rewrite IH by (try assumption; intros w Hw; apply Hpos; right; exact Hw).
    pose proof (Hpos v (or_introl eq_refl)). pose proof (Z.div_mod delta (fst v)). lia.
Qed.
Lemma rev_tail {A} (l : list A) : 3 < zlen l -> rev (py_from l (-3)) = firstn 3 (rev l).
Proof.
  intros H. assert (E : py_from l (-3) = skipn (length l - 3) l).
  { unfold py_from, py_slice, py_norm, sub. replace (-3 <? 0) with true by lia. replace (zlen l <? 0) with false by lia.
    unfold zlen in *. replace (Z.to_nat (Z.max 0 (-3 + Z.of_nat (length l)))) with (length l - 3)%nat by lia. apply firstn_all2. rewrite skipn_length. lia. }
  rewrite E. rewrite firstn_rev. reflexivity.
Qed.

Lemma duration_lemma delta : 0 <= delta < 86400000 * 1000000000 -> exists text, humanDuration delta = Ok text /\
  ((delta = 0 /\ text = lit "0 ms") \/
   exists parts, parts <> [] /\ text = join (lit " ") (map part_text parts) /\ in_order (map snd parts) duration_units /\
     greedy delta parts /\ (length parts <= 3)%nat /\ ((length parts < 3)%nat -> total parts = delta)).
Proof.
  intros Hd. unfold humanDuration, timedelta, td_days, td_seconds, td_microseconds, us_per_day.
  replace ((-999999999 <=? delta * 1000 / 86400000000) && (delta * 1000 / 86400000000 <=? 999999999)) with true by lia.
  cbn [bind].
  set (full := filter nonzero (expand delta duration_units)).
  assert (Hg : greedy delta full).
  { apply expand_greedy; [lia| | |intros; assumption].
    - intros u. cbn [duration_units In]. intros [<-|[<-|[<-|[<-|[<-|[<-|[]]]]]]]; cbn; lia.
    - unfold duration_units. repeat constructor; cbn; lia. }
  assert (Ht : total full = delta).
  { unfold full. rewrite total_filter. apply (total_expand (removelast duration_units) (1, lit "ms")); [|reflexivity].
    intros u. cbn [duration_units removelast In]. intros [<-|[<-|[<-|[<-|[<-|[]]]]]]; cbn; lia. }
  pose proof (expand_in_order duration_units delta) as Ho. fold full in Ho.
  (* the amounts of the code are the mixed radix digits *)
  set (us := delta * 1000 mod 1000000). set (sec := delta * 1000 mod 86400000000 / 1000000). set (days := delta * 1000 / 86400000000).
  set (y := delta / 31536000000) in *. set (r1 := delta mod 31536000000) in *.
  assert (Ey : days / 365 = y) by (subst days y; lia).
  assert (Ed : days mod 365 = r1 / 86400000) by (subst days r1; lia).
  assert (Er2 : sec = delta mod 86400000 / 1000) by (subst sec; lia).
  assert (Er2' : r1 mod 86400000 = delta mod 86400000) by (subst r1; lia).
  assert (Eh : sec / 60 / 60 = delta mod 86400000 / 3600000) by (rewrite Er2; generalize (delta mod 86400000); intros; lia).
  assert (Em : sec / 60 mod 60 = delta mod 86400000 mod 3600000 / 60000) by (rewrite Er2; generalize (delta mod 86400000); intros; lia).
  assert (Es : sec mod 60 = delta mod 86400000 mod 3600000 mod 60000 / 1000) by (rewrite Er2; generalize (delta mod 86400000); intros; lia).
  assert (Eu : us / 1000 = delta mod 86400000 mod 3600000 mod 60000 mod 1000 / 1) by (subst us; rewrite Z.div_1_r; lia).
  assert (Eu' : (1000 <=? us) = negb (us / 1000 =? 0)) by (subst us; lia).
  rewrite Eu', Ey, Ed, Eh, Em, Es, Eu.
  match goal with |- context [if 3 <? zlen ?t then _ else _] => set (text := t) end.
  assert (Htext : text = rev (map part_text full)).
  { subst text full. unfold duration_units. cbn [expand fst]. fold y.
    change (delta mod 31536000000) with r1. rewrite ?Er2'.
    generalize (delta mod 86400000 mod 3600000 mod 60000 mod 1000 / 1) as v6. generalize (delta mod 86400000 mod 3600000 mod 60000 / 1000) as v5.
    generalize (delta mod 86400000 mod 3600000 / 60000) as v4. generalize (delta mod 86400000 / 3600000) as v3. generalize (r1 / 86400000) as v2. generalize y as v1. intros v1 v2 v3 v4 v5 v6.
    cbn [filter]. unfold nonzero. cbn [fst].
    destruct (v1 =? 0), (v2 =? 0), (v3 =? 0), (v4 =? 0), (v5 =? 0), (v6 =? 0); reflexivity. }
  clearbody text full. clear Eu Eu' Es Em Eh Er2 Er2' Ed Ey.
  assert (Hlen : zlen text = Z.of_nat (length full)) by (rewrite Htext; unfold zlen; rewrite rev_length, map_length; reflexivity).
  destruct (3 <? zlen text) eqn:E3.
  - eexists. split; [reflexivity|]. right. exists (firstn 3 full). rewrite rev_tail by lia. rewrite Htext, rev_involutive.
    assert (Hl3 : length (firstn 3 full) = 3%nat) by (rewrite firstn_length; lia).
    split; [intros E; rewrite E in Hl3; discriminate|]. split; [rewrite firstn_map; reflexivity|]. split; [rewrite <- firstn_map; apply in_order_firstn, Ho|].
    split; [apply greedy_firstn, Hg|]. split; [lia|]. lia.
  - destruct text as [|t0 tl] eqn:Et.
    + eexists. split; [reflexivity|]. left. split; [|reflexivity]. destruct full; [|cbn in Hlen; unfold zlen in Hlen; cbn in Hlen; lia]. cbn in Ht. lia.
    + eexists. split; [reflexivity|]. right. exists full. rewrite Htext, rev_involutive.
      split; [intros E; subst full; discriminate|]. split; [reflexivity|]. split; [exact Ho|]. split; [exact Hg|]. split; [lia|]. intros _. exact Ht.
Qed.
(** The specification determines the parts. *)
Lemma unit_unique u v : In u duration_units -> In v duration_units -> fst u = fst v -> u = v.
Proof.
  cbn [duration_units In]. intros H1 H2. 
  destruct H1 as [<-|[<-|[<-|[<-|[<-|[<-|[]]]]]]]; destruct H2 as [<-|[<-|[<-|[<-|[<-|[<-|[]]]]]]]; cbn [fst]; intros E; first [reflexivity | exfalso; lia].
Qed.
Lemma in_order_in {A} (s l : list A) : in_order s l -> forall x, In x s -> In x l.
Proof. induction 1; intros y H1; [destruct H1|right; auto|]. destruct H1 as [->|H1]; [left; reflexivity|right; auto]. Qed.
Lemma greedy_unique : forall p q delta, greedy delta p -> greedy delta q ->
  (forall x, In x (map snd p) -> In x duration_units) -> (forall x, In x (map snd q) -> In x duration_units) ->
  length p = length q -> p = q.
Proof.
  induction p as [|[c u] p IH]; intros [|[c' u'] q] delta Hp Hq Ip Iq Hl; try discriminate; [reflexivity|].
  destruct u as [u n], u' as [u' n']. cbn [greedy] in *. destruct Hp as (P1 & P2 & P3 & P4). destruct Hq as (Q1 & Q2 & Q3 & Q4).
  assert (I1 : In (u, n) duration_units) by (apply Ip; left; reflexivity). assert (I2 : In (u', n') duration_units) by (apply Iq; left; reflexivity).
  assert (E : u = u').
  { pose proof (P1 _ I2) as A. pose proof (Q1 _ I1) as B. cbn [fst] in *. assert (u <= delta) by nia. assert (u' <= delta) by nia. lia. }
  pose proof (unit_unique _ _ I1 I2 E) as E2. injection E2 as -> ->. assert (c = c') as -> by nia. f_equal.
  apply (IH q (delta - c' * u')); try assumption.
  - intros x Hx. apply Ip. right. exact Hx.
  - intros x Hx. apply Iq. right. exact Hx.
  - injection Hl as Hl. exact Hl.
Qed.

(** Microseconds and milliseconds with two decimals. *)
Lemma two_decimals a b : 0 <= a < 1000 -> 0 <= b < 1000 ->
  let x := fadd (fl a 1) (fdiv (fl b 1) 1000) in exists t, format_f2 x = hundredths t /\ Z.abs (10 * t - (1000 * a + b)) <= 5.
Proof.
  intros Ha Hb x. exists (fdigits 2 x). split; [reflexivity|]. unfold fdigits. change (10 ^ 2) with 100.
  assert (H53 : 2 ^ 53 = 9007199254740992) by reflexivity.
  destruct (fl_pos a 1 ltac:(lia) ltac:(lia)) as [A1 A2]. pose proof (fl_dyadic a 0 ltac:(lia) ltac:(lia)) as DA. change (2 ^ 0) with 1 in DA.
  destruct (fl_pos b 1 ltac:(lia) ltac:(lia)) as [B1 B2]. pose proof (fl_dyadic b 0 ltac:(lia) ltac:(lia)) as DB. change (2 ^ 0) with 1 in DB.
  unfold fadd, fdiv in x. set (fa := fl a 1) in *. set (fb := fl b 1) in *. clearbody fa fb.
  destruct fa as [u1 u2], fb as [f0 s0]. cbn [fst snd] in *.
  destruct (fl_pos f0 (s0 * 1000) ltac:(lia) ltac:(lia)) as [R1 R2]. pose proof (fl_error f0 (s0 * 1000) ltac:(lia) ltac:(lia)) as R3.
  set (fr := fl f0 (s0 * 1000)) in *. clearbody fr. destruct fr as [r s]. cbn [fst snd] in *.
  assert (N0 : 0 <= u1 * s + r * u2) by nia. assert (D0 : 0 < u2 * s) by nia.
  destruct (fl_pos (u1 * s + r * u2) (u2 * s) N0 D0) as [X1 X2]. pose proof (fl_error (u1 * s + r * u2) (u2 * s) N0 D0) as X3.
  subst x. set (fx := fl (u1 * s + r * u2) (u2 * s)) in *. clearbody fx. destruct fx as [X Y]. cbn [fst snd] in *.
  pose proof (rhe_error (100 * X) Y X2) as T. set (t := rhe (100 * X) Y) in *. clearbody t.
  (* e1, e2, e3 *)
  assert (E1 : 2 ^ 53 * Z.abs (r * 1000 - b * s) <= b * s).
  { assert (Hf : f0 = b * s0) by lia. subst f0. apply Z.mul_le_mono_pos_r with s0; [lia|].
    replace (2 ^ 53 * Z.abs (r * 1000 - b * s) * s0) with (2 ^ 53 * (Z.abs (r * 1000 - b * s) * Z.abs s0)) by (rewrite (Z.abs_eq s0) by lia; ring).
    rewrite <- Z.abs_mul. replace ((r * 1000 - b * s) * s0) with (r * (s0 * 1000) - b * s0 * s) by ring. replace (b * s * s0) with (b * s0 * s) by ring. exact R3. }
  assert (E2 : 2 ^ 53 * Z.abs (X * s - (a * s + r) * Y) <= (a * s + r) * Y).
  { assert (Hu : u1 = a * u2) by lia. subst u1. apply Z.mul_le_mono_pos_r with u2; [lia|].
    replace (2 ^ 53 * Z.abs (X * s - (a * s + r) * Y) * u2) with (2 ^ 53 * (Z.abs (X * s - (a * s + r) * Y) * Z.abs u2)) by (rewrite (Z.abs_eq u2) by lia; ring).
    rewrite <- Z.abs_mul. replace ((X * s - (a * s + r) * Y) * u2) with (X * (u2 * s) - (a * u2 * s + r * u2) * Y) by ring.
    replace ((a * s + r) * Y * u2) with ((a * u2 * s + r * u2) * Y) by ring. exact X3. }
  clear R3 X3 DA DB N0 D0. rewrite H53 in *. clear H53.
  assert (SY : 0 < s * Y) by nia.
  assert (Id : (10 * t - (1000 * a + b)) * (s * Y) = 10 * s * (t * Y - 100 * X) + 1000 * (X * s - (a * s + r) * Y) + (r * 1000 - b * s) * Y) by ring.
  set (e1 := r * 1000 - b * s) in *. set (e2 := X * s - (a * s + r) * Y) in *. set (e3 := t * Y - 100 * X) in *.
  assert (H3 : Z.abs (10 * s * e3) <= 5 * (s * Y)) by (rewrite !Z.abs_mul, (Z.abs_eq s), (Z.abs_eq 10) by lia; nia).
  assert (H1 : Z.abs (e1 * Y) = Z.abs e1 * Y) by (rewrite Z.abs_mul, (Z.abs_eq Y) by lia; reflexivity).
  assert (H1' : 9007199254740992 * (Z.abs e1 * Y) <= b * (s * Y)) by nia.
  assert (Hr : r * 1000 * Y <= 2 * (b * (s * Y))) by (assert (r * 1000 = e1 + b * s) as -> by (subst e1; ring); nia).
  assert (H2' : 9007199254740992 * (1000 * Z.abs e2) <= 1000 * a * (s * Y) + 2 * (b * (s * Y))) by nia.
  assert (Hab : Z.abs ((10 * t - (1000 * a + b)) * (s * Y)) <= 5 * (s * Y) + 1000 * Z.abs e2 + Z.abs e1 * Y) by (rewrite Id; lia).
  rewrite Z.abs_mul, (Z.abs_eq (s * Y)) in Hab by lia. set (d := Z.abs (10 * t - (1000 * a + b))) in *. clearbody d. set (W := s * Y) in *. clearbody W e1 e2 e3.
  destruct (Z_le_dec d 5); [assumption|]. exfalso.
  assert (6 * W <= d * W) by (apply Z.mul_le_mono_nonneg_r; lia). assert (a * W <= 999 * W) by (apply Z.mul_le_mono_nonneg_r; lia). assert (b * W <= 999 * W) by (apply Z.mul_le_mono_nonneg_r; lia). lia.
Qed.
Lemma nanosec_lemma n : 0 <= n ->
  (n < 1000 -> humanDurationNanosec n = Ok (dec n ++ lit " nsec")) /\
  (1000 <= n < 1000000 -> exists t, humanDurationNanosec n = Ok (hundredths t ++ lit " usec") /\ Z.abs (10 * t - n) <= 5) /\
  (1000000 <= n < 1000000000 -> exists t, humanDurationNanosec n = Ok (hundredths t ++ lit " ms") /\ Z.abs (10 * t - n / 1000) <= 5) /\
  (1000000000 <= n -> humanDurationNanosec n = humanDuration (n / 1000000)).
Proof.
  intros Hn. split; [intros H; unfold humanDurationNanosec; replace (n <? 1000) with true by lia; reflexivity|].
  unfold humanDurationNanosec. split; [|split]; intros H; replace (n <? 1000) with false by lia.
  - replace (n / 1000 <? 1000) with true by lia. destruct (two_decimals (n / 1000) (n mod 1000) ltac:(lia) ltac:(lia)) as (t & -> & Ht). exists t. split; [reflexivity|]. lia.
  - replace (n / 1000 <? 1000) with false by lia. replace (n / 1000 / 1000 <? 1000) with true by lia.
    destruct (two_decimals (n / 1000 / 1000) (n / 1000 mod 1000) ltac:(lia) ltac:(lia)) as (t & -> & Ht). exists t. split; [reflexivity|]. lia.
  - replace (n / 1000 <? 1000) with false by lia. replace (n / 1000 / 1000 <? 1000) with false by lia. f_equal. lia.
Qed.

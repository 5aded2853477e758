(** What the readers of variable length integers do on any data; move to front. *)
From Coq Require Import Permutation.
From Verif Require Import Base BaseProofs BitsModel BitsSpec BitsProofs StreamModel StreamSpec StreamProofs VarintModel VarintSpec VarintProofs VarintProofs2.
Ltac Zify.zify_post_hook ::= Z.div_mod_to_equations.

Definition marked (l : list Z) : Prop := Forall (fun b => 128 <= b < 256) l.

Lemma occurs_snoc a b data k : occurs_at a data k -> occurs_at [b] data (k + zlen a) -> occurs_at (a ++ [b]) data k.
Proof.
  intros (K & L & E) (K2 & L2 & E2). change (zlen [b]) with 1 in *. pose proof (zlen_nonneg a). unfold occurs_at. rewrite zlen_app. change (zlen [b]) with 1.
  repeat split; try lia. rewrite sub_app_split, E, E2 by lia. reflexivity.
Qed.
Lemma occurs_one data k : 0 <= k < zlen data -> exists b, occurs_at [b] data k.
Proof.
  intros K. assert (L : zlen (sub data k 1) = 1) by (apply zlen_sub_exact; lia).
  destruct (sub data k 1) as [|b [|c r]] eqn:E; [discriminate| |rewrite !zlen_cons in L; pose proof (zlen_nonneg r); lia].
  exists b. unfold occurs_at. change (zlen [b]) with 1. repeat split; try lia. exact E.
Qed.
(** The first [m] bytes from [k] on: a byte without mark among them, or not, or the data ends before. *)
Lemma chain_cases data k m : is_bytes data -> 0 <= k <= zlen data ->
  (exists l b, occurs_at (l ++ [b]) data k /\ marked l /\ 0 <= b < 128 /\ (length l < m)%nat) \/
  (exists l, occurs_at l data k /\ marked l /\ length l = m) \/
  (exists l, occurs_at l data k /\ marked l /\ (length l < m)%nat /\ k + zlen l = zlen data).
Proof.
  intros D K. induction m as [|m IH].
  - right; left. exists []. split; [|split; [constructor|reflexivity]]. unfold occurs_at. change (zlen []) with 0. rewrite sub_0. repeat split; lia.
  - destruct IH as [(l & b & H & M & B & L)|[(l & H & M & L)|(l & H & M & L & E)]].
    + left. exists l, b. repeat split; auto; try apply H; lia.
    + destruct (Z.eq_dec (k + zlen l) (zlen data)) as [E|N].
      * right; right. exists l. repeat split; auto; try apply H; lia.
      * pose proof (zlen_nonneg l). assert (R : k + zlen l <= zlen data) by apply H.
        destruct (occurs_one data (k + zlen l)) as [b Hb]; [lia|].
        pose proof (occurs_bytes _ _ _ D Hb) as Y. inversion Y as [|? ? Y1 _]; subst. unfold is_byte in Y1.
        pose proof (occurs_snoc _ _ _ _ H Hb) as HH.
        destruct (Z.lt_ge_cases b 128).
        -- left. exists l, b. split; [exact HH|]. repeat split; auto; lia.
        -- right; left. exists (l ++ [b]). split; [exact HH|]. split; [apply Forall_app; split; [exact M|constructor; [lia|constructor]]|].
           rewrite app_length. cbn. lia.
    + right; right. exists l. repeat split; auto; try apply H; lia.
Qed.

(** Truncated data *)
Section Truncated.
Context (data : list Z) (HD : is_bytes data).
Let rd := string_read data.
Let rbyte := read_byte rd data (string_serves data) HD.
Lemma read_end k e : e <> MIDDLE_ENDIAN -> 0 <= k -> zlen data <= k -> readBits rd (8 * k) 8 e = Err ReadStreamError.
Proof using All. intros N K L. unfold rd. rewrite readBits_string_spec by (auto; lia). unfold bits_available. destruct e; [| |congruence]; replace (8 * k + 8 <=? 8 * zlen data) with false by lia; reflexivity. Qed.
Lemma midi_trunc e l fuel k acc size : e <> MIDDLE_ENDIAN -> occurs_at l data k -> marked l -> k + zlen l = zlen data ->
  size + 8 * zlen l <= 32 -> (length l < fuel)%nat -> midi_loop rd fuel e (8 * k) acc size = Err ReadStreamError.
Proof using All.
  intros N. revert fuel k acc size. induction l as [|c l IH]; intros fuel k acc size H F E S L.
  - destruct fuel as [|fuel]; [cbn in L; lia|]. cbn [midi_loop]. change (zlen []) with 0 in E. rewrite read_end by (auto; try apply H; lia). reflexivity.
  - inversion F as [|? ? C F']; subst. destruct fuel as [|fuel]; [cbn in L; lia|]. cbn [midi_loop].
    apply occurs_cons in H. destruct H as [H1 H2].
    rewrite (rbyte c) by assumption. cbn [bind]. rewrite mark7 by (unfold is_byte; lia). rewrite zlen_cons in *. pose proof (zlen_nonneg l).
    replace (c <? 128) with false by lia. replace (32 <? size + 8) with false by lia. replace (8 * k + 8) with (8 * (k + 1)) by lia.
    apply IH; auto; try lia. cbn in L; lia.
Qed.
Lemma oid_trunc l fuel k acc c size : 0 <= k -> occurs_at l data (k + 1) -> marked l -> k + 1 + zlen l = zlen data -> 128 <= c ->
  size + 8 * zlen l <= 56 -> (length l < fuel)%nat -> oid_loop rd fuel (8 * k) size acc c = Err ReadStreamError.
Proof using All.
  revert fuel k acc c size. induction l as [|x l IH]; intros fuel k acc c size K H F E C S L.
  - destruct fuel as [|fuel]; [cbn in L; lia|]. cbn [oid_loop]. change (zlen []) with 0 in *. replace (128 <=? c) with true by lia. replace (64 <? size + 8) with false by lia.
    replace (8 * k + 8) with (8 * (k + 1)) by lia. rewrite read_end by (try discriminate; lia). reflexivity.
  - inversion F as [|? ? X F']; subst. destruct fuel as [|fuel]; [cbn in L; lia|]. cbn [oid_loop]. rewrite zlen_cons in *. pose proof (zlen_nonneg l).
    replace (128 <=? c) with true by lia. replace (64 <? size + 8) with false by lia. replace (8 * k + 8) with (8 * (k + 1)) by lia.
    apply occurs_cons in H. destruct H as [H1 H2]. rewrite (rbyte x) by (auto; discriminate). cbn [bind].
    apply IH; auto; try lia. cbn in L; lia.
Qed.
Lemma midi_any e k : e <> MIDDLE_ENDIAN -> 0 <= k <= zlen data ->
  (exists n v, (n <= 3)%nat /\ 0 <= v < 128 ^ (Z.of_nat n + 1) /\ occurs_at (vlq n v) data k /\ midi_int rd e (8 * k) = Ok (v, 8 * (Z.of_nat n + 1))) \/
  (exists l, occurs_at l data k /\ marked l /\ zlen l = 4 /\ midi_int rd e (8 * k) = Err ParserError) \/
  (exists l, occurs_at l data k /\ marked l /\ zlen l < 4 /\ k + zlen l = zlen data /\ midi_int rd e (8 * k) = Err ReadStreamError).
Proof using All.
  intros N K. destruct (chain_cases data k 4 HD K) as [(l & b & H & M & B & L)|[(l & H & M & L)|(l & H & M & L & E)]].
  - left. destruct (vlq_of l b M B) as [Q V]. exists (length l), (be7 0 l * 128 + b). rewrite <- Q. fold (zlen l).
    split; [lia|]. split; [exact V|]. split; [exact H|]. rewrite Q in H.
    apply midi_ok with (data := data); auto; try lia. apply string_serves.
  - right; left. exists l. assert (zlen l = 4) by (unfold zlen; lia). repeat split; auto; try apply H.
    apply (midi_long rd data (string_serves data) HD e l); auto.
  - right; right. exists l. assert (zlen l < 4) by (unfold zlen; lia). repeat split; auto; try apply H.
    unfold midi_int. apply (midi_trunc e l); auto; lia.
Qed.
Lemma oid_any k : 0 <= k <= zlen data ->
  (exists n v, (n <= 7)%nat /\ 0 <= v < 128 ^ (Z.of_nat n + 1) /\ occurs_at (vlq n v) data k /\ oid_int rd (8 * k) = Ok (v, 8 * (Z.of_nat n + 1))) \/
  (exists l, occurs_at l data k /\ marked l /\ zlen l = 8 /\ oid_int rd (8 * k) = Err ParserError) \/
  (exists l, occurs_at l data k /\ marked l /\ zlen l < 8 /\ k + zlen l = zlen data /\ oid_int rd (8 * k) = Err ReadStreamError).
Proof using All.
  intros K. destruct (chain_cases data k 8 HD K) as [(l & b & H & M & B & L)|[(l & H & M & L)|(l & H & M & L & E)]].
  - left. destruct (vlq_of l b M B) as [Q V]. exists (length l), (be7 0 l * 128 + b). rewrite <- Q. fold (zlen l).
    split; [lia|]. split; [exact V|]. split; [exact H|]. rewrite Q in H.
    apply oid_ok with (data := data); auto; try lia. apply string_serves.
  - right; left. exists l. assert (zlen l = 8) by (unfold zlen; lia). repeat split; auto; try apply H.
    apply (oid_long rd data (string_serves data) HD l); auto.
  - right; right. exists l. assert (zlen l < 8) by (unfold zlen; lia). repeat split; auto; try apply H.
    unfold oid_int. destruct l as [|c l].
    + change (zlen []) with 0 in E. rewrite read_end by (try discriminate; lia). reflexivity.
    + apply occurs_cons in H. destruct H as [H1 H2]. inversion M; subst. rewrite (rbyte c) by (auto; discriminate). cbn [bind].
      rewrite zlen_cons in *. apply (oid_trunc l); auto; try lia. unfold zlen in *. lia.
Qed.
(** The readers of unbounded numbers stop at the end of the data at the latest. *)
Lemma readBits_any a n e : 0 <= a -> 1 <= n -> readBits rd a n e = Ok (bits_at data a n e) /\ bits_available data a n e = true \/ readBits rd a n e = Err ReadStreamError.
Proof using All. intros A B. unfold rd. rewrite readBits_string_spec by auto. destruct (bits_available data a n e); auto. Qed.
Lemma git_ends fuel a acc bits : 0 <= a -> 8 * zlen data < a + 8 * Z.of_nat fuel -> 0 < Z.of_nat fuel -> (exists r, git_loop rd fuel a acc bits = Ok r) \/ git_loop rd fuel a acc bits = Err ReadStreamError.
Proof using All.
  revert a acc bits. induction fuel as [|fuel IH]; intros a acc bits A F P; [lia|]. cbn [git_loop].
  destruct (readBits_any a 1 BIG_ENDIAN A ltac:(lia)) as [[E V]|E]; rewrite E; [|auto]. cbn [bind].
  destruct (readBits_any (a + 1) 7 BIG_ENDIAN ltac:(lia) ltac:(lia)) as [[E2 V2]|E2]; rewrite E2; [|auto]. cbn [bind].
  destruct (_ =? 0); [eauto|]. unfold bits_available in *. apply IH; lia.
Qed.
Lemma xiph_ends fuel m a acc size : 0 <= a -> 8 * zlen data < a + 8 * Z.of_nat fuel -> 0 < Z.of_nat fuel -> (exists r, xiph_loop rd fuel m a acc size = Ok r) \/ xiph_loop rd fuel m a acc size = Err ReadStreamError.
Proof using All.
  revert a acc size. induction fuel as [|fuel IH]; intros a acc size A F P; [lia|]. cbn [xiph_loop].
  destruct (match m with None => true | Some m => size <? m end); [|eauto].
  destruct (readBits_any a 8 LITTLE_ENDIAN A ltac:(lia)) as [[E V]|E]; rewrite E; [|auto]. cbn [bind].
  destruct (negb _); [eauto|]. unfold bits_available in *. apply IH; lia.
Qed.
Lemma unary_ends fuel e a acc size : e <> MIDDLE_ENDIAN -> 0 <= a -> 8 * zlen data < a + Z.of_nat fuel -> 0 < Z.of_nat fuel -> (exists r, unary_loop rd fuel e a acc size = Ok r) \/ unary_loop rd fuel e a acc size = Err ReadStreamError.
Proof using All.
  intros N. revert a acc size. induction fuel as [|fuel IH]; intros a acc size A F P; [lia|]. cbn [unary_loop].
  destruct (readBits_any a 1 e A ltac:(lia)) as [[E V]|E]; rewrite E; [|auto]. cbn [bind].
  destruct (_ =? 0); [eauto|]. unfold bits_available in *. apply IH; destruct e; congruence || lia.
Qed.
End Truncated.

(** ** Move to front *)
Lemma move_split {A} (a b : list A) x : move_to_front (a ++ x :: b) (length a) = x :: a ++ b.
Proof.
  unfold move_to_front.
  assert (E1 : skipn (length a) (a ++ x :: b) = x :: b) by (rewrite skipn_app, skipn_all, Nat.sub_diag; reflexivity).
  assert (E2 : firstn (length a) (a ++ x :: b) = a) by (rewrite firstn_app, Nat.sub_diag, firstn_all; apply app_nil_r).
  assert (E3 : skipn (S (length a)) (a ++ x :: b) = b) by (rewrite skipn_app, skipn_all2, Nat.sub_succ_l, Nat.sub_diag by lia; reflexivity).
  rewrite E1, E2, E3. reflexivity.
Qed.
Lemma move_beyond {A} (l : list A) i : (length l <= i)%nat -> move_to_front l i = l.
Proof. intros L. unfold move_to_front. rewrite !skipn_all2 by lia. cbn. rewrite firstn_all2 by lia. apply app_nil_r. Qed.
Lemma move_perm {A} (l : list A) i : Permutation (move_to_front l i) l.
Proof.
  destruct (Nat.lt_ge_cases i (length l)) as [L|L]; [|rewrite move_beyond by lia; reflexivity].
  destruct (nth_error l i) as [x|] eqn:E; [|apply nth_error_None in E; lia].
  destruct (nth_error_split l i E) as (a & b & -> & <-). rewrite move_split. apply Permutation_middle.
Qed.

Lemma index_split x l : In x l -> exists a b, l = a ++ x :: b /\ length a = index_of x l /\ ~ In x a.
Proof.
  induction l as [|y l IH]; intros I; [destruct I|]. cbn [index_of]. destruct (x =? y) eqn:E.
  - exists [], l. replace y with x by lia. repeat split; auto.
  - destruct I as [->|I]; [lia|]. destruct (IH I) as (a & b & -> & L & N). exists (y :: a), b. repeat split; cbn; [lia|]. intros [->|J]; [lia|tauto].
Qed.
Lemma filter_out x a : ~ In x a -> filter (fun y => negb (y =? x)) a = a.
Proof.
  induction a as [|y a IH]; intros N; [reflexivity|]. cbn. destruct (y =? x) eqn:E; cbn.
  - exfalso. apply N. left. lia.
  - rewrite IH; [reflexivity|]. intros I. apply N. right. exact I.
Qed.
(** the table of the specification is the table of the program *)
Lemma move_index x l : NoDup l -> In x l -> move_to_front l (index_of x l) = x :: filter (fun y => negb (y =? x)) l.
Proof.
  intros D I. destruct (index_split x l I) as (a & b & -> & L & N). rewrite <- L, move_split.
  apply NoDup_remove in D. destruct D as [_ D]. rewrite filter_app. cbn [filter]. rewrite Z.eqb_refl. cbn [negb].
  rewrite !filter_out; [reflexivity| |exact N]. intros J. apply D, in_or_app. right. exact J.
Qed.
Lemma mtf_table x l : NoDup l -> In x l -> NoDup (x :: filter (fun y => negb (y =? x)) l) /\ forall y, In y l -> In y (x :: filter (fun y => negb (y =? x)) l).
Proof.
  intros D I. rewrite <- move_index by assumption. split.
  - exact (Permutation_NoDup (Permutation_sym (move_perm l _)) D).
  - intros y Y. exact (Permutation_in y (Permutation_sym (move_perm l _)) Y).
Qed.
Lemma mtf_round l : forall seq, NoDup seq -> (forall x, In x l -> In x seq) -> mtf_decode seq (mtf_encode seq l) = Ok l.
Proof.
  induction l as [|x l IH]; intros seq D I; [reflexivity|]. cbn [mtf_encode mtf_decode].
  assert (X : In x seq) by (apply I; left; reflexivity). rewrite move_index by assumption.
  destruct (mtf_table x seq D X) as [D' I']. rewrite IH; [reflexivity|exact D'|].
  intros y Y. apply I', I. right. exact Y.
Qed.
Lemma index_of_nth l i x : NoDup l -> nth_error l i = Some x -> index_of x l = i.
Proof.
  intros D E. destruct (nth_error_split l i E) as (a & b & -> & <-). clear E.
  apply NoDup_remove in D. destruct D as [_ D]. assert (N : ~ In x a) by (intros J; apply D, in_or_app; left; exact J). clear D.
  induction a as [|y a IH]; cbn [app index_of length]; [rewrite Z.eqb_refl; reflexivity|].
  destruct (x =? y) eqn:E; [exfalso; apply N; left; lia|]. f_equal. apply IH. intros J. apply N. right. exact J.
Qed.
Lemma move_length {A} (l : list A) i : length (move_to_front l i) = length l.
Proof. apply Permutation_length, move_perm. Qed.
(** Every list of indexes inside the table is an encoding. *)
Lemma mtf_onto is : forall seq, NoDup seq -> Forall (fun i => (i < length seq)%nat) is ->
  exists l, mtf_decode seq is = Ok l /\ mtf_encode seq l = is /\ forall x, In x l -> In x seq.
Proof.
  induction is as [|i is IH]; intros seq D F; [exists []; repeat split; auto; intros ? []|].
  inversion F as [|? ? Hi F']; subst. cbn [mtf_decode].
  destruct (nth_error seq i) as [x|] eqn:E; [|apply nth_error_None in E; lia].
  pose proof (index_of_nth seq i x D E) as X. assert (I : In x seq) by (eapply nth_error_In; exact E).
  rewrite <- X, move_index by assumption. destruct (mtf_table x seq D I) as [D' _].
  assert (LL : length (x :: filter (fun y => negb (y =? x)) seq) = length seq) by (rewrite <- move_index by assumption; apply move_length).
  destruct (IH (x :: filter (fun y => negb (y =? x)) seq)) as (l & E1 & E2 & E3).
  - exact D'.
  - rewrite LL. exact F'.
  - exists (x :: l). rewrite E1. cbn [bind]. split; [reflexivity|]. cbn [mtf_encode]. rewrite E2. split; [reflexivity|].
    intros y [<-|Y]; [exact I|]. apply E3 in Y. destruct Y as [<-|Y]; [exact I|]. apply filter_In in Y. tauto.
Qed.

(** ** Run lengths *)
Lemma bijective_nonneg ds : Forall (fun c => c = 0 \/ c = 1) ds -> 0 <= bijective ds.
Proof. induction ds as [|c ds IH]; intros F; [cbn; lia|]. inversion F as [|? ? C F']; subst. specialize (IH F'). cbn [bijective]. lia. Qed.
Lemma bijective_onto n : exists ds, Forall (fun c => c = 0 \/ c = 1) ds /\ bijective ds = Z.of_nat n.
Proof.
  induction n as [n IH] using lt_wf_ind. destruct n as [|n]; [exists []; split; [constructor|reflexivity]|].
  destruct (IH (n / 2)%nat) as (ds & F & E). { pose proof (Nat.div_le_upper_bound n 2 n). lia. }
  exists ((Z.of_nat n mod 2) :: ds). split; [constructor; [lia|exact F]|]. cbn [bijective]. rewrite E, Nat2Z.inj_div. change (Z.of_nat 2) with 2. lia.
Qed.
Lemma bijective_inj a : forall b, Forall (fun c => c = 0 \/ c = 1) a -> Forall (fun c => c = 0 \/ c = 1) b -> bijective a = bijective b -> a = b.
Proof.
  induction a as [|x a IH]; intros [|y b] Fa Fb E; auto.
  - inversion Fb as [|? ? Y B]; subst. pose proof (bijective_nonneg b B). cbn [bijective] in E. lia.
  - inversion Fa as [|? ? X A]; subst. pose proof (bijective_nonneg a A). cbn [bijective] in E. lia.
  - inversion Fa as [|? ? X A]; inversion Fb as [|? ? Y B]; subst. cbn [bijective] in E. assert (x = y) by lia. subst y. f_equal. apply IH; auto. lia.
Qed.
Lemma coded_total is : exists codes, coded is codes.
Proof.
  enough (H : forall n l, hd_error l <> Some O -> (exists c, coded l c) -> exists c, coded (repeat O n ++ l) c).
  { assert (G : forall n, (length is <= n)%nat -> exists c, coded is c); [|exact (G _ (le_n _))]. intros n. revert is.
    induction n as [|n IH]; intros is L; [destruct is; [|cbn in L; lia]; exists []; constructor|].
    assert (S : exists m l, is = repeat O m ++ l /\ hd_error l <> Some O).
    { clear. induction is as [|[|i] is IH]; [exists O, []; split; [reflexivity|discriminate]| |].
      - destruct IH as (m & l & -> & E). exists (S m), l. split; [reflexivity|exact E].
      - exists O, (S i :: is). split; [reflexivity|discriminate]. }
    destruct S as (m & l & -> & E). apply H; [exact E|]. destruct l as [|[|i] l]; [exists []; constructor|cbn in E; congruence|].
    destruct (IH l) as [c C]. { rewrite app_length, repeat_length in L. cbn in L. lia. }
    eexists. apply coded_index; [lia|exact C]. }
  intros [|n] l E [c C]; [exists c; exact C|]. destruct (bijective_onto (S n)) as (ds & F & B). exists (ds ++ c). apply coded_run; auto. lia.
Qed.

Lemma items_digits s seq ds : forall run power rest items,
  Forall (fun c => c = 0 \/ c = 1) ds -> ds <> [] -> 0 <= run ->
  (forall p, bz_items (s :: seq) rest (run + (if run =? 0 then 1 else power) * bijective ds) p = Ok items) -> 0 < power ->
  (match items with Run _ _ :: _ => False | _ => True end) ->
  exists shown, bz_items (s :: seq) (ds ++ rest) run power = Ok shown /\ expand shown = repeat s (Z.to_nat (run + (if run =? 0 then 1 else power) * bijective ds)) ++ expand items
   /\ match shown with Run _ _ :: _ => True | _ => False end.
Proof.
  induction ds as [|c ds IH]; intros run power rest items F N R H P NR; [congruence|].
  inversion F as [|? ? C F']; subst. cbn [app bz_items].
  replace ((c =? 0) || (c =? 1)) with true by lia. set (pw := if run =? 0 then 1 else power) in *.
  assert (0 < pw) by (subst pw; destruct (run =? 0); lia). clearbody pw. rewrite Z.shiftl_mul_pow2 by lia. change (2 ^ 1) with 2.
  cbn [bijective] in *. set (run' := run + (c + 1) * pw) in *.
  assert (R' : 0 < run') by (subst run'; nia).
  destruct ds as [|d ds].
  - cbn [app]. specialize (H (pw * 2)). cbn [bijective] in H. replace (run + pw * (c + 1 + 2 * 0)) with run' in * by (subst run'; nia).
    rewrite H. cbn [bind]. eexists; split; [reflexivity|]. split; [|exact I]. cbn [expand bijective].
    replace (run + pw * (c + 1 + 2 * 0)) with run' by (subst run'; nia). destruct items as [|[] ?]; try reflexivity. destruct NR.
  - destruct (IH run' (pw * 2) rest items) as (shown & E1 & E2 & E3); auto; try lia; [discriminate| |].
    + intros p. replace (run' =? 0) with false by lia. replace (run' + pw * 2 * bijective (d :: ds)) with (run + pw * (c + 1 + 2 * bijective (d :: ds))) by (subst run'; nia). apply H.
    + rewrite E1. cbn [bind]. eexists; split; [reflexivity|]. split; [|exact I]. cbn [expand].
      destruct shown as [|[] ?]; try destruct E3. rewrite E2. replace (run' =? 0) with false by lia. do 3 f_equal. subst run'. nia.
Qed.
Lemma power_irrelevant codes : forall seq p p', bz_items seq codes 0 p = bz_items seq codes 0 p'.
Proof.
  induction codes as [|c codes IH]; intros seq p p'; [reflexivity|]. cbn [bz_items]. change (0 =? 0) with true. cbv iota.
  destruct ((c =? 0) || (c =? 1)); [reflexivity|]. destruct (c =? zlen seq + 1); [reflexivity|].
  destruct (move_to_front seq (Z.to_nat (c - 1))); [reflexivity|]. rewrite (IH _ p p'). reflexivity.
Qed.
Lemma mtf_encode_zero x seq text l : NoDup seq -> mtf_encode seq (x :: text) = O :: l -> In x seq -> exists r, seq = x :: r /\ mtf_encode seq text = l.
Proof.
  intros D E I. cbn [mtf_encode] in E. injection E as E1 E2. destruct (index_split x seq I) as (a & b & -> & L & N).
  rewrite E1 in L. destruct a; [|discriminate]. cbn [app] in *. exists b. split; [reflexivity|].
  rewrite <- E2. f_equal. cbn [filter]. rewrite Z.eqb_refl. cbn [negb]. f_equal. symmetry. apply filter_out.
  apply NoDup_cons_iff in D. tauto.
Qed.
Lemma mtf_encode_run n : forall seq text l, NoDup seq -> (forall x, In x text -> In x seq) -> mtf_encode seq text = repeat O n ++ l -> (0 < n)%nat ->
  exists s r text', seq = s :: r /\ text = repeat s n ++ text' /\ mtf_encode seq text' = l.
Proof.
  induction n as [|n IH]; intros seq text l D I E N; [lia|]. destruct text as [|x text]; [discriminate|].
  change (repeat O (S n) ++ l) with (O :: (repeat O n ++ l)) in E.
  destruct (mtf_encode_zero _ _ _ _ D E (I x (or_introl eq_refl))) as (r & S & E2).
  destruct n as [|n].
  - exists x, r, text. repeat split; auto.
  - destruct (IH seq text l D) as (s & r' & t & S' & T & E3); [intros y Y; apply I; right; exact Y|exact E2|lia|].
    rewrite S in S'. injection S' as <- <-. exists x, r, t. repeat split; auto. rewrite T. reflexivity.
Qed.
Lemma bz_main l codes : coded l codes -> forall seq text, NoDup seq -> seq <> [] -> (forall x, In x text -> In x seq) -> mtf_encode seq text = l ->
  exists items, (forall run power, 0 <= run -> (hd_error l = Some O -> run = 0) -> bz_items seq (codes ++ [zlen seq + 1]) run power = Ok items) /\
    expand items = text /\ (hd_error l <> Some O -> match items with Run _ _ :: _ => False | _ => True end).
Proof.
  intros C. induction C as [|ds n l codes F B N Hd C IH|i l codes Hi C IH]; intros seq text D NE I E.
  - destruct text as [|x text]; [|discriminate]. exists [Terminator]. split; [|split; [reflexivity|exact (fun _ => Logic.I)]].
    intros run power _ _. cbn [app bz_items]. assert (1 <= zlen seq) by (destruct seq; [congruence|rewrite zlen_cons; pose proof (zlen_nonneg seq); lia]).
    replace ((zlen seq + 1 =? 0) || (zlen seq + 1 =? 1)) with false by lia. rewrite Z.eqb_refl. reflexivity.
  - destruct (mtf_encode_run n seq text l D I E N) as (s & r & t & S & T & E2).
    destruct (IH seq t D NE) as (items & H1 & H2 & H3); [intros y Y; apply I; rewrite T; apply in_or_app; right; exact Y|exact E2|].
    assert (DN : ds <> []) by (intros ->; cbn in B; lia).
    destruct (items_digits s r ds 0 1 (codes ++ [zlen seq + 1]) items F DN) as (shown & A1 & A2 & A3); [lia| |lia|exact (H3 Hd)|].
    { intros p. rewrite <- S. apply H1; [|intros Q; congruence]. change (if 0 =? 0 then 1 else 1) with 1. lia. }
    exists shown. split; [|split].
    + intros run power R0 R. rewrite R, <- app_assoc, S by (destruct n; [lia|reflexivity]). rewrite <- S at 2.
      rewrite (power_irrelevant _ _ power 1). exact A1.
    + rewrite A2, H2. change (if 0 =? 0 then 1 else 1) with 1. rewrite B, T. do 2 f_equal. lia.
    + intros Q. destruct n; [lia|]. cbn in Q. congruence.
  - destruct text as [|x text]; [discriminate|]. cbn [mtf_encode] in E. injection E as E1 E2.
    assert (X : In x seq) by (apply I; left; reflexivity). destruct (mtf_table x seq D X) as [D' I'].
    set (seq' := x :: filter (fun y => negb (y =? x)) seq) in *.
    assert (L : zlen seq' = zlen seq) by (unfold seq'; rewrite <- move_index by assumption; unfold zlen; rewrite move_length; reflexivity).
    destruct (IH seq' text D') as (items & H1 & H2 & H3); [discriminate|intros y Y; apply I', I; right; exact Y|exact E2|].
    exists (Literal x :: items). split; [|split].
    + intros run power R0 R. cbn [app bz_items]. replace ((Z.of_nat i + 1 =? 0) || (Z.of_nat i + 1 =? 1)) with false by lia.
      assert (index_of x seq < length seq)%nat by (destruct (index_split x seq X) as (a & b & -> & La & _); rewrite <- La, app_length; cbn; lia).
      replace (Z.of_nat i + 1 =? zlen seq + 1) with false by (unfold zlen; lia).
      replace (Z.to_nat (Z.of_nat i + 1 - 1)) with (index_of x seq) by lia. rewrite move_index by assumption. fold seq'. unfold seq' at 1. cbv iota.
      rewrite <- L, H1 by (auto; lia). reflexivity.
    + cbn [expand]. rewrite H2. reflexivity.
    + auto.
Qed.
Lemma bz_ok seq text codes run power : NoDup seq -> seq <> [] -> (forall x, In x text -> In x seq) -> coded (mtf_encode seq text) codes -> run = 0 ->
  exists items, bz_items seq (codes ++ [zlen seq + 1]) run power = Ok items /\ expand items = text.
Proof.
  intros D N I C ->. destruct (bz_main _ _ C seq text D N I eq_refl) as (items & H1 & H2 & _). exists items. split; [apply H1; auto; lia|exact H2].
Qed.

(** ** Copy instructions of git deltas *)
Definition only (n i : nat) (b : Z) : list Z := repeat 0 i ++ [b] ++ repeat 0 (n - 1 - i).
Section Delta.
Context (read : read_fun) (data : list Z) (HS : serves read data) (HD : is_bytes data).
Lemma delta_one i j b c k : (i < 4)%nat -> (j < 3)%nat -> 0 < b -> 0 < c ->
  occurs_at (git_copy (only 4 i b) (only 3 j c)) data k ->
  delta_copy read (8 * k) = Ok (b * 256 ^ Z.of_nat i, c * 256 ^ Z.of_nat j, 24).
Proof using All.
  intros I J B C H.
  assert (Eb : (b =? 0) = false) by lia. assert (Ec : (c =? 0) = false) by lia.
  unfold delta_copy.
  do 4 (destruct i as [|i]; [do 3 (destruct j as [|j]; [
    unfold git_copy, only in H; cbn [repeat Nat.sub app fold_right filter negb Z.eqb] in H; rewrite Eb, Ec in H; cbn [negb app filter Z.eqb] in H;
    apply occurs_cons in H; destruct H as [H1 H]; apply occurs_cons in H; destruct H as [H2 H3];
    rewrite (read_bits _ _ HS HD _ _ 1 1 H1), (read_bits _ _ HS HD _ _ 2 1 H1), (read_bits _ _ HS HD _ _ 3 1 H1), (read_bits _ _ HS HD _ _ 4 1 H1), (read_bits _ _ HS HD _ _ 5 1 H1),
      (read_bits _ _ HS HD _ _ 6 1 H1), (read_bits _ _ HS HD _ _ 7 1 H1) by lia;
    match goal with |- context [val_be (sub (bits_be [?x]) 1 1)] => let y := eval vm_compute in x in change x with y end;
    repeat match goal with |- context [val_be ?x] => let y := eval vm_compute in (val_be x) in change (val_be x) with y end;
    cbn [bind delta_bytes Z.eqb];
    replace (8 * k + 8) with (8 * (k + 1)) by lia;
    rewrite (read_byte _ _ HS HD _ _ BIG_ENDIAN H2) by discriminate; cbn [bind fst snd];
    replace (8 * (k + 1) + 8) with (8 * (k + 1 + 1)) by lia;
    rewrite (read_byte _ _ HS HD _ _ BIG_ENDIAN H3) by discriminate; cbn [bind fst snd];
    rewrite !Z.lor_0_l, !Z.shiftl_mul_pow2 by lia;
    change (Z.of_nat 0) with 0; change (Z.of_nat 1) with 1; change (Z.of_nat 2) with 2; change (Z.of_nat 3) with 3;
    repeat f_equal; lia |]); lia |]); lia.
Qed.
End Delta.

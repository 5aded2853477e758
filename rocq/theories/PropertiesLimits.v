(** C46 and C47: limits around a call; reading through a decompressor. *)
From Verif Require Import Base BaseProofs StreamModel StreamSpec StreamProofs LimitModel CompressModel CompressSpec CompressProofs.
Ltac Zify.zify_post_hook ::= Z.div_mod_to_equations.

(** ** C46 *)
(** The handler of SIGALRM is the one from before the call, however the function
    ends and whatever it does to it; the answer is the function's, which runs with
    an alarm of one second at least. *)
Theorem C46_time_handler : forall A main s (func : sigstate -> sigstate * outcome A) st,
  sig_handler (fst (limitedTime main s func st)) = sig_handler st.
Proof.
  intros A main s func st. unfold limitedTime. destruct (fixTimeout s) as [n|e]; [|reflexivity]. destruct main; [|reflexivity]. cbn [negb].
  destruct (n <? 2 ^ 31); [|reflexivity]. cbn [sig_handler]. destruct (func _) as [st' o]. reflexivity.
Qed.
Print Assumptions C46_time_handler.
Theorem C46_time_call : forall A n (func : sigstate -> sigstate * outcome A) st, n < 2 ^ 31 ->
  exists second, 1 <= second /\ n <= second /\ snd (limitedTime true (NInt n) func st) = snd (func {| sig_handler := TimeoutHandler; sig_alarm := Some second |}) /\
    sig_alarm (fst (limitedTime true (NInt n) func st)) = None.
Proof.
  intros A n func st H. exists (Z.max n 1). split; [lia|]. split; [lia|]. unfold limitedTime. cbn [fixTimeout negb]. replace (Z.max n 1 <? 2 ^ 31) with true by lia.
  cbn [sig_handler]. destruct (func _) as [st' o]. split; reflexivity.
Qed.
Print Assumptions C46_time_call.
Example C46_time_ex : let st := {| sig_handler := OtherHandler 7; sig_alarm := None |} in
  limitedTime true (NFloat 3) (fun s => ({| sig_handler := OtherHandler 9; sig_alarm := sig_alarm s |}, Raises (A := Z) OtherError)) st = (st, Raises OtherError).
Proof. vm_compute. reflexivity. Qed.
(** The signal state is completely restored iff no alarm was pending. *)
Theorem C46_time_alarm_partial : forall A main n (func : sigstate -> sigstate * outcome A) st, main = true -> sig_alarm st = None ->
  fst (limitedTime main (NInt n) func st) = st.
Proof.
  intros A main n func st -> H. unfold limitedTime. cbn [fixTimeout negb]. destruct st as [h a]. cbn in H. subst a. destruct (Z.max n 1 <? 2 ^ 31); cbn [sig_handler]; [|reflexivity].
  destruct (func _) as [st' o]. reflexivity.
Qed.
Print Assumptions C46_time_alarm_partial.
(** "The previous alarm is restored" fails: it is cancelled. A limitedTime inside
    another one takes the outer limit away. *)
Theorem C46_time_alarm_refuted : forall h n, sig_alarm (fst (limitedTime true (NInt 5) (fun s => (s, Returns 0)) {| sig_handler := h; sig_alarm := Some n |})) = None /\
  snd (limitedTime true (NInt 10) (fun s => let (s', _) := limitedTime true (NInt 1) (fun s => (s, Returns 0)) s in (s', Returns (sig_alarm s'))) {| sig_handler := h; sig_alarm := None |}) = Returns None.
Proof. intros h n. split; reflexivity. Qed.
Print Assumptions C46_time_alarm_refuted.

(** Memory: when there was no limit, or when the limit could not be set, the limits
    are those from before. *)
Theorem C46_memory_partial : forall A page priv rss limit (func : rlimits -> rlimits * outcome A) st,
  (forall s, fst (func s) = s) -> soft st = -1 -> hard st = -1 ->
  fst (limitedMemory page priv rss limit func st) = st.
Proof.
  intros A page priv rss limit func st F S H. destruct st as [so ha]. cbn [soft hard] in S, H. subst so ha. unfold limitedMemory.
  assert (RUN : forall (f : rlimits -> rlimits * outcome A) s, f s = (fst (f s), snd (f s))) by (intros f s; destruct (f s); reflexivity).
  destruct rss as [m|]; [|rewrite (RUN func), F; reflexivity].
  change (getMemoryLimit page {| soft := -1; hard := -1 |}) with (-1). unfold setMemoryLimit at 1, setrlimit at 1.
  destruct ((2 ^ 63 <=? m + limit) || (m + limit <? - 2 ^ 63)); [reflexivity|].
  destruct (unsigned (-1) <? unsigned (m + limit)); [cbn [bind fst snd]; rewrite (RUN func), F; reflexivity|].
  cbn [hard]. change (unsigned (-1) <? unsigned (-1)) with false. cbn [andb bind fst snd]. rewrite (RUN func), F. unfold setMemoryLimit, setrlimit. cbn [hard].
  change ((2 ^ 63 <=? -1) || (-1 <? - 2 ^ 63)) with false. change (unsigned (-1) <? unsigned (-1)) with false. reflexivity.
Qed.
Print Assumptions C46_memory_partial.
Example C46_memory_ex : limitedMemory 4096 false (Some 1000000) 50000 (fun s => (s, Returns (soft s))) {| soft := -1; hard := -1 |} = ({| soft := -1; hard := -1 |}, Returns 1050000).
Proof. vm_compute. reflexivity. Qed.
(** "The previous limit is restored" fails for every previous limit: it is taken
    for a number of pages and multiplied by their size. *)
Theorem C46_memory_refuted : forall A page priv m limit (func : rlimits -> rlimits * outcome A) old,
  (forall s, fst (func s) = s) -> 1 < page -> 0 < old -> old * page < 2 ^ 63 -> 0 <= m + limit < 2 ^ 63 ->
  fst (limitedMemory page priv (Some m) limit func {| soft := old; hard := -1 |}) = {| soft := old * page; hard := -1 |} /\ old * page <> old.
Proof.
  intros A page priv m limit func old F P O B L. split; [|nia]. unfold limitedMemory.
  assert (RUN : forall (f : rlimits -> rlimits * outcome A) s, f s = (fst (f s), snd (f s))) by (intros f s; destruct (f s); reflexivity).
  unfold getMemoryLimit. cbn [soft]. replace (0 <? old) with true by lia.
  assert (X : forall s st, 0 <= s < 2 ^ 63 -> hard st = -1 -> setMemoryLimit priv s st = Ok (true, {| soft := s; hard := -1 |})).
  { intros s st R H. unfold setMemoryLimit, setrlimit. rewrite H. replace ((2 ^ 63 <=? s) || (s <? - 2 ^ 63)) with false by lia.
    change (unsigned (-1)) with (2 ^ 64 - 1). unfold unsigned. rewrite Z.mod_small by lia. replace (2 ^ 64 - 1 <? s) with false by lia. rewrite Z.ltb_irrefl. reflexivity. }
  rewrite (X (m + limit)) by (auto; lia). cbn [bind fst snd]. rewrite (RUN func), F. rewrite (X (old * page)) by (try reflexivity; nia). reflexivity.
Qed.
Print Assumptions C46_memory_refuted.
Example C46_memory_refuted_ex : limitedMemory 4096 false (Some 1000000) 50000 (fun s => (s, Returns 0)) {| soft := 2 ^ 30; hard := -1 |} = ({| soft := 2 ^ 42; hard := -1 |}, Returns 0).
Proof. vm_compute. reflexivity. Qed.

(** ** C47 *)
(** Whatever sizes are asked for, the reads give successive slices of the
    decompressed data, for every decompressor that keeps its contract (in
    whatever pieces it gives its output). *)
Theorem C47_reads : forall D data sread total (call : D -> Z -> option (list Z) -> res (list Z * D)) R d0 sizes fuel,
  serves sread data -> 0 < zlen data -> growing total -> contract total call R -> R d0 [] [] false ->
  Forall (fun n => 0 <= n) sizes -> (length data < fuel)%nat ->
  cs_reads (8 * zlen data) sread call fuel (cs_init d0) sizes = Ok (slices (total data) sizes).
Proof. intros D data sread total call R d0 sizes fuel SV NE G C R0 F FU. exact (reads_all data sread SV NE total G call R C d0 sizes fuel R0 F FU). Qed.
Print Assumptions C47_reads.
(** The decompressors of the deflate and PNG parsers keep the contract if zlib does. *)
Theorem C47_deflate : forall Z0 data sread total (zcall : Z0 -> list Z -> Z -> list Z * list Z * Z0) R z0 sizes fuel,
  serves sread data -> 0 < zlen data -> growing total -> zlib_contract total zcall R -> (forall z c g, R z c g -> exists rest, g ++ rest = total c) -> R z0 [] [] ->
  Forall (fun n => 0 <= n) sizes -> (length data < fuel)%nat ->
  cs_reads (8 * zlen data) sread (deflate_call zcall) fuel (cs_init (z0, [])) sizes = Ok (slices (total data) sizes) /\
  cs_reads (8 * zlen data) sread (gunzip_call zcall) fuel (cs_init (z0, [])) sizes = Ok (slices (total data) sizes).
Proof.
  intros Z0 data sread total zcall R z0 sizes fuel SV NE G ZC PR R0 F FU.
  assert (I : zobj_rel R (z0, []) [] [] false) by (exists []; cbn; auto).
  split; [exact (reads_all data sread SV NE total G _ _ (deflate_contract total zcall R G ZC PR) (z0, []) sizes fuel I F FU)|exact (reads_all data sread SV NE total G _ _ (gunzip_contract total zcall R G ZC PR) (z0, []) sizes fuel I F FU)].
Qed.
Print Assumptions C47_deflate.
(** A zlib-like object: it doubles each byte; what does not fit in the output is
    kept. *)
Definition ex_zcall (p input : list Z) (max : Z) : list Z * list Z * list Z :=
  let all := p ++ flat_map (fun x => [x; x]) input in (firstn (Z.to_nat max) all, [], skipn (Z.to_nat max) all).
Definition ex_total (l : list Z) : list Z := flat_map (fun x => [x; x]) l.
Definition ex_R (p consumed given : list Z) : Prop := given ++ p = ex_total consumed.
Example C47_contract_ex : growing ex_total /\ zlib_contract ex_total ex_zcall ex_R /\ (forall z c g, ex_R z c g -> exists rest, g ++ rest = ex_total c).
Proof.
  split; [|split].
  - intros a b. exists (ex_total b). apply flat_map_app.
  - intros z c g input size out tail z' RR S E. unfold ex_zcall in E. injection E as <- <- <-. exists input. eexists. rewrite app_nil_r. split; [reflexivity|].
    assert (T : g ++ z ++ ex_total input = ex_total (c ++ input)) by (unfold ex_R in RR; rewrite app_assoc, RR; symmetry; apply flat_map_app).
    unfold ex_R. fold (ex_total input). split; [rewrite <- app_assoc, firstn_skipn; exact T|]. split; [rewrite firstn_skipn; exact T|].
    intros L. split; [|reflexivity]. apply skipn_all_z. rewrite zlen_firstn in L by lia. lia.
  - intros z c g H. exists z. exact H.
Qed.
Definition ex_cdata : list Z := map Z.of_nat (seq 0 600).
Example C47_ex : cs_reads (8 * zlen ex_cdata) (string_read ex_cdata) (gunzip_call ex_zcall) 601 (cs_init ([], [])) [3; 0; 1020; 50; 1000; 7] = Ok (slices (ex_total ex_cdata) [3; 0; 1020; 50; 1000; 7]).
Proof. vm_compute. reflexivity. Qed.
(** "Bzip2 data can be read" fails: the first read passes the default data '', a
    text, to the decompressor, which raises TypeError. *)
Theorem C47_bzip2_refuted : forall B bcall (b : B) ssize sread fuel size, 0 < size ->
  cs_read ssize sread (bunzip_call bcall) fuel (cs_init b) size = Err TypeError.
Proof. intros B bcall b ssize sread fuel size H. unfold cs_read. cbn [cs_init c_buffer c_dec bunzip_call]. change (zlen (@nil Z)) with 0. replace (size - 0 <=? 0) with false by lia. reflexivity. Qed.
Print Assumptions C47_bzip2_refuted.

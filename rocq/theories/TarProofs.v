(** Proofs about the tar parser. *)
From Coq Require Import String.
From Verif Require Import Base BaseProofs ChunkBase ToolsModel TextModel TextSpec TextProofs DictModel DictProofs TorrentModel VarintProofs TarModel TarSpec Lit.
Open Scope Z_scope.
Ltac Zify.zify_post_hook ::= Z.div_mod_to_equations.

(** ** strip *)
Lemma lstrip_exact p a t : forallb p a = true -> (forall c u, t = c :: u -> p c = false) -> lstrip p (a ++ t) = t.
Proof.
  induction a as [|c a IH]; intros Ha Ht; cbn [app].
  - destruct t as [|c u]; [reflexivity|]. cbn [lstrip]. rewrite (Ht c u eq_refl). reflexivity.
  - cbn [forallb] in Ha. apply andb_true_iff in Ha as [Hc Ha]. cbn [lstrip]. rewrite Hc. auto.
Qed.
Lemma forallb_rev {A} (p : A -> bool) l : forallb p l = true -> forallb p (rev l) = true.
Proof. intros H. apply forallb_forall. intros x I. rewrite <- in_rev in I. rewrite forallb_forall in H. auto. Qed.
Lemma strip_exact p a t b : forallb p a = true -> forallb p b = true -> (forall c u, t = c :: u -> p c = false) -> (forall c u, t = u ++ [c] -> p c = false) ->
  strip p (a ++ t ++ b) = t.
Proof.
  intros Ha Hb H1 H2. unfold strip. destruct t as [|c u].
  - cbn [app]. rewrite <- (app_nil_r (a ++ b)). rewrite lstrip_exact; [reflexivity| |discriminate]. rewrite forallb_app, Ha, Hb. reflexivity.
  - rewrite lstrip_exact; [| exact Ha|].
    + rewrite rev_app_distr, lstrip_exact; [apply rev_involutive|apply forallb_rev, Hb|]. intros d v E. apply (H2 d (rev v)).
      rewrite <- (rev_involutive (c :: u)), E. reflexivity.
    + intros d v E. cbn [app] in E. injection E as <- _. apply (H1 c u eq_refl).
Qed.
Lemma forallb_ext_ {A} (p q : A -> bool) l : (forall x, p x = q x) -> forallb p l = forallb q l.
Proof. intros H. induction l as [|x l IH]; cbn [forallb]; [reflexivity|]. rewrite H, IH. reflexivity. Qed.
(** Stripping twice, where the second set has more characters *)
Lemma strip_nul text nul : ~ In 0 text -> Forall (eq 0) nul -> strip (fun c => existsb (Z.eqb c) [0]) (text ++ nul) = text.
Proof.
  intros N Z0. apply (strip_exact _ [] text nul); [reflexivity| | |].
  - apply forallb_forall. intros x I. rewrite Forall_forall in Z0. rewrite <- (Z0 x I). reflexivity.
  - intros c u ->. cbn. destruct (c =? 0) eqn:E; [|reflexivity]. exfalso. apply N. left. lia.
  - intros c u ->. cbn. destruct (c =? 0) eqn:E; [|reflexivity]. exfalso. apply N, in_app_iff. right. left. lia.
Qed.
Lemma strip_trim text nul : Forall (eq 0) nul -> trimmed text (strip (fun c => existsb (Z.eqb c) [32; 0]) (text ++ nul)).
Proof.
  intros Z0. set (p := fun c => existsb (Z.eqb c) [32; 0]).
  assert (P : forall c, p c = ((c =? 32) || (c =? 0))) by (intros c; unfold p; cbn [existsb]; rewrite orb_false_r; reflexivity).
  assert (PE : strip p (text ++ nul) = strip p text).
  { destruct (strip_ok p text) as (b & a & E & H1 & H2 & H3 & H4). rewrite E at 1. rewrite <- !app_assoc. apply strip_exact; auto.
    rewrite forallb_app, H2. apply forallb_forall. intros x I. rewrite Forall_forall in Z0. rewrite <- (Z0 x I). reflexivity. }
  rewrite PE. destruct (strip_ok p text) as (b & a & E & H1 & H2 & H3 & H4). exists b, a. split; [exact E|].
  split; [rewrite <- H1; apply forallb_ext_; auto|]. split; [rewrite <- H2; apply forallb_ext_; auto|].
  split; intros c t Q; rewrite <- P; eauto.
Qed.

(** ** Numbers *)
Lemma octal_space d : octal_digit d -> is_space d = false.
Proof. unfold octal_digit, is_space. intros H. lia. Qed.
Lemma skip_spaces_octal t : Forall octal_digit t -> skip_spaces t = t.
Proof. intros H. destruct t as [|d t]; [reflexivity|]. cbn [skip_spaces]. rewrite octal_space by (inversion H; assumption). reflexivity. Qed.
Lemma Forall_rev_ {A} (P : A -> Prop) l : Forall P l -> Forall P (rev l).
Proof. rewrite !Forall_forall. intros H x I. apply H, in_rev, I. Qed.
Lemma int_digits_octal t : forall acc, Forall octal_digit t -> t <> [] ->
  int_digits 8 t acc true = Some (fold_left (fun v d => 8 * v + (d - 48)) t acc) /\ int_digits 8 t acc false = Some (fold_left (fun v d => 8 * v + (d - 48)) t acc).
Proof.
  induction t as [|d t IH]; intros acc H N; [congruence|]. inversion H as [|? ? Hd Ht]; subst. unfold octal_digit in Hd. cbn [int_digits fold_left].
  replace (d =? 95) with false by lia. unfold digit_of. replace ((48 <=? d) && (d <=? 57)) with true by lia. replace (d - 48 <? 8) with true by lia.
  destruct t as [|d' t]; [cbn [int_digits fold_left]; auto|]. split; apply IH; auto; discriminate.
Qed.
Lemma py_int_octal t : Forall octal_digit t -> t <> [] -> py_int 8 t = Some (octal_value t).
Proof.
  intros H N. unfold py_int. rewrite (skip_spaces_octal t H), skip_spaces_octal, rev_involutive by (apply Forall_rev_; exact H).
  destruct (int_digits_octal t 0 H N) as [_ E].
  assert (P : int_prefix 8 t = t).
  { destruct t as [|d [|c t]]; [reflexivity|..].
    - unfold int_prefix. cbn. destruct d as [|p|p]; try reflexivity. repeat (destruct p; try reflexivity).
    - inversion H as [|? ? Hd H']; subst. inversion H' as [|? ? Hc _]; subst. unfold octal_digit in *. unfold int_prefix. change (8 =? 8) with true. cbv iota.
      replace ((c =? 111) || (c =? 79)) with false by lia. destruct d as [|p|p]; try reflexivity. repeat (destruct p; try reflexivity). }
  destruct t as [|d t]; [congruence|]. inversion H as [|? ? Hd Ht]; subst. unfold octal_digit in Hd. transitivity (int_digits 8 (int_prefix 8 (d :: t)) 0 false); [|rewrite P; exact E].
  destruct d; try lia. repeat (destruct p; try reflexivity; try lia).
Qed.
Lemma octal_field_text bytes v : octal_field bytes v -> py_int 8 (strip (fun c => existsb (Z.eqb c) [32; 0]) bytes) = Some v.
Proof.
  intros (sp & ds & bl & -> & S & B & N & D & ->). rewrite strip_exact.
  - apply py_int_octal; assumption.
  - apply forallb_forall. intros x I. rewrite Forall_forall in S. rewrite <- (S x I). reflexivity.
  - apply forallb_forall. intros x I. rewrite Forall_forall in B. destruct (B x I) as [-> | ->]; reflexivity.
  - intros c u ->. inversion D as [|? ? Hd _]; subst. unfold octal_digit in Hd. cbn [existsb]. lia.
  - intros c u ->. apply Forall_app in D as [_ D]. inversion D as [|? ? Hd _]; subst. unfold octal_digit in Hd. cbn [existsb]. lia.
Qed.

(** ** The entries *)
Section Entries.
Context (read : read_fun) (data : list Z) (Hs : serves read data) (Hb : is_bytes data).
Lemma str_field_at h p off n st : occurs_at h data p -> 0 <= off -> 1 <= n -> off + n <= zlen h ->
  str_field read (8 * p) off n st = Ok (strip (fun c => existsb (Z.eqb c) st) (sub h off n)).
Proof using Hs.
  intros (H1 & H2 & H3) Ho Hn Hl. unfold str_field. replace (8 * p + 8 * off) with (8 * (p + off)) by lia.
  rewrite (readBytes_serves read data) by (auto; lia). cbn [bind]. rewrite <- H3, sub_sub by lia. reflexivity.
Qed.
Lemma entry_at p h m : header m h -> occurs_at h data p ->
  exists e, FileEntry read (8 * p) = Ok e /\ e_addr e = 8 * p /\ e_name e = m_name m /\ e_prefix e = m_prefix m /\ e_type e = m_type m /\
  py_int 8 (e_mode e) = Some (m_mode m) /\ py_int 8 (e_uid e) = Some (m_uid m) /\ py_int 8 (e_gid e) = Some (m_gid m) /\
  py_int 8 (e_mtime e) = Some (m_mtime m) /\ py_int 8 (e_sizetext e) = Some (zlen (m_content m)) /\
  trimmed (m_link m) (e_lname e) /\ trimmed (m_user m) (e_uname e) /\ trimmed (m_group m) (e_gname e).
Proof using Hs Hb.
  intros (L & ((n1 & Nm & Z1) & I1) & NE & Mo & Ui & Gi & Si & Mt & Ty & ((n2 & Li & Z2) & I2) & _ & ((n3 & Us & Z3) & I3) & ((n4 & Gr & Z4) & I4) & ((n5 & Pr & Z5) & I5)) O.
  assert (T : occurs_at [m_type m] data (p + 156)).
  { rewrite <- Ty. destruct O as (O1 & O2 & O3). rewrite L in *. rewrite <- O3, sub_sub by lia. replace (Z.min 1 (512 - 156)) with 1 by lia. apply occ_sub; lia. }
  unfold FileEntry. cbv zeta. rewrite !(str_field_at h p) by (auto; lia). cbn [bind].
  replace (8 * p + 8 * 156) with (8 * (p + 156)) by lia. rewrite (read_byte read data Hs Hb (m_type m)) by (auto; discriminate). cbn [bind].
  eexists. split; [reflexivity|]. cbn [e_addr e_name e_mode e_uid e_gid e_sizetext e_mtime e_type e_lname e_uname e_gname e_prefix].
  rewrite Nm, Li, Us, Gr, Pr. rewrite !strip_nul by assumption. repeat (split; [first [reflexivity | apply octal_field_text; assumption | apply strip_trim; assumption]|]).
  apply strip_trim; assumption.
Qed.

Lemma filesize_of e v : py_int 8 (e_sizetext e) = Some v -> e_filesize e = v.
Proof. unfold e_filesize, octal2int. intros ->. reflexivity. Qed.
Lemma e_size_of e n pad : e_filesize e = n -> 0 <= n -> 0 <= pad < 512 -> (n + pad) mod 512 = 0 -> e_size e = 8 * (512 + n + pad).
Proof. intros F Hn Hp Hm. unfold e_size, paddingSize. rewrite F. 
  assert (C : 8 * 512 + (if negb (n =? 0) then 8 * n else 0) = 8 * (512 + n)) by (destruct (n =? 0) eqn:E; cbn [negb]; lia). rewrite C.
  replace (8 * (512 + n) / 8) with (512 + n) by lia. destruct ((512 + n) mod 512 =? 0) eqn:E; cbn [negb].
  - change (0 =? 0) with true. cbn [negb]. lia.
  - destruct (512 - (512 + n) mod 512 =? 0) eqn:E2; cbn [negb]; lia.
Qed.
Lemma header_shows p h m c : header m h -> occurs_at h data p -> occurs_at (m_content m) data (p + 512) -> c = zlen (m_content m) ->
  exists e, FileEntry read (8 * p) = Ok e /\ shows data p m e /\ e_filesize e = c /\ isEmpty e = false.
Proof using Hs Hb.
  intros H O C ->. destruct (entry_at p h m H O) as (e & E & A1 & A2 & A3 & A4 & A5 & A6 & A7 & A8 & A9 & A10 & A11 & A12). exists e. split; [exact E|].
  pose proof (filesize_of e _ A9) as F. split.
  - unfold shows. rewrite A1, A2, A3. repeat (split; [first [reflexivity | assumption | unfold described_name, m_path; rewrite ?A2, A3; reflexivity]|]).
    unfold e_content. rewrite F, A1, A2. destruct (zlen (m_content m) =? 0) eqn:Z; cbn [negb].
    + destruct (m_content m); [reflexivity|]. rewrite zlen_cons in Z. pose proof (zlen_nonneg l). lia.
    + exists (p + 512). split; [lia|]. auto.
  - split; [exact F|]. unfold isEmpty. rewrite A2. destruct (m_name m) as [|x u] eqn:N; [|reflexivity]. destruct H as (_ & _ & H & _). congruence.
Qed.

Lemma members_listed : forall l b, members l b -> forall p, occurs_at b data p -> forall fuel ,
  exists es, listed data p l es (p + zlen b) /\ forall r, tar_loop fuel read (8 * zlen data) (8 * (p + zlen b)) = Ok r ->
    tar_loop (List.length l + fuel) read (8 * zlen data) (8 * p) = Ok (es ++ fst r, snd r).
Proof using Hs Hb.
  induction 1 as [|m h pad l b H Z P M Ms IH]; intros p O fuel.
  - exists []. change (zlen (@nil Z)) with 0. rewrite Z.add_0_r. split; [constructor|]. intros [r1 r2] E. exact E.
  - pose proof O as O0. apply occ_app in O as [O1 O]. apply occ_app in O as [O2 O]. apply occ_app in O as [O3 O4].
    assert (L : zlen h = 512) by apply H. rewrite L in *. destruct (header_shows p h m _ H O1 O2 eq_refl) as (e & E & Sh & F & Em).
    pose proof (e_size_of e _ (zlen pad) F (zlen_nonneg _) P M) as Sz. pose proof (zlen_nonneg b). pose proof (zlen_nonneg (m_content m)).
    destruct (IH _ O4 fuel) as (es & Ls & R).
    replace (p + zlen (h ++ m_content m ++ pad ++ b)) with (p + 512 + zlen (m_content m) + zlen pad + zlen b) by (rewrite !zlen_app, L; lia).
    exists (e :: es). split.
    + apply (ls_cons _ p m l e es (512 + zlen (m_content m) + zlen pad)); [exact Sh|exact Sz|].
      replace (p + (512 + zlen (m_content m) + zlen pad)) with (p + 512 + zlen (m_content m) + zlen pad) by lia. exact Ls.
    + intros r Hr. apply occ_in in O0. rewrite !zlen_app, L in O0. cbn [List.length Nat.add tar_loop]. replace (8 * zlen data <? 8 * p + 1) with false by lia.
      rewrite E. cbn [bind]. rewrite Em, F. replace (zlen (m_content m) <? 0) with false by lia. rewrite Sz.
      replace (8 * zlen data <? 8 * p + 8 * (512 + zlen (m_content m) + zlen pad)) with false by lia.
      replace (8 * p + 8 * (512 + zlen (m_content m) + zlen pad)) with (8 * (p + 512 + zlen (m_content m) + zlen pad)) by lia.
      rewrite (R r Hr). reflexivity.
Qed.
Lemma terminator_at p fuel : occurs_at (List.repeat 0 1024) data p -> tar_loop (S fuel) read (8 * zlen data) (8 * p) = Ok ([], Some (8 * p)).
Proof using Hs Hb.
  intros O. assert (L : zlen (List.repeat 0 1024) = 1024) by (vm_compute; reflexivity). pose proof (occ_in _ _ _ O) as B. rewrite L in B.
  cbn [tar_loop]. replace (8 * zlen data <? 8 * p + 1) with false by lia.
  unfold FileEntry. cbv zeta. rewrite !(str_field_at (List.repeat 0 1024) p) by (auto; rewrite ?L; lia). cbn [bind].
  replace (8 * p + 8 * 156) with (8 * (p + 156)) by lia. rewrite (read_byte read data Hs Hb 0); [|apply (occ_byte _ _ _ 156 0 O); vm_compute; reflexivity|discriminate].
  cbn [bind]. unfold isEmpty. cbn [e_name]. reflexivity.
Qed.
End Entries.

(** ** Every file *)
Lemma str_field_any read data p off n st : serves read data -> ends read data -> 0 <= p -> 0 <= off -> 1 <= n ->
  (exists t, str_field read (8 * p) off n st = Ok t /\ p + off + n <= zlen data) \/ str_field read (8 * p) off n st = Err ReadStreamError.
Proof.
  intros Hs He Hp Ho Hn. unfold str_field. replace (8 * p + 8 * off) with (8 * (p + off)) by lia. rewrite (rb read data Hs He) by lia.
  destruct (p + off + n <=? zlen data) eqn:E; [left; eexists; split; [reflexivity|lia]|right; reflexivity].
Qed.
Lemma byte_any read data p : serves read data -> ends read data -> is_bytes data -> 0 <= p ->
  (exists v, readBits read (8 * p) 8 BIG_ENDIAN = Ok v) \/ readBits read (8 * p) 8 BIG_ENDIAN = Err ReadStreamError.
Proof.
  intros Hs He Hb Hp. destruct (p + 1 <=? zlen data) eqn:E.
  - left. eexists. apply (readBits_serves read data); auto; try lia. unfold bits_available. lia.
  - right. unfold readBits. rewrite He by lia. reflexivity.
Qed.
Lemma entry_any read data p : serves read data -> ends read data -> is_bytes data -> 0 <= p ->
  (exists e, FileEntry read (8 * p) = Ok e /\ e_addr e = 8 * p) \/ FileEntry read (8 * p) = Err ReadStreamError.
Proof.
  intros Hs He Hb Hp. unfold FileEntry. cbv zeta.
  Local Ltac fld read data p off n st Hs He := destruct (str_field_any read data p off n st Hs He) as [(? & -> & _)| -> ]; [lia|lia|lia| |right; reflexivity]; cbn [bind].
  fld read data p 0 100 [0] Hs He. fld read data p 100 8 [32; 0] Hs He. fld read data p 108 8 [32; 0] Hs He. fld read data p 116 8 [32; 0] Hs He.
  fld read data p 124 12 [32; 0] Hs He. fld read data p 136 12 [32; 0] Hs He. replace (8 * p + 8 * 156) with (8 * (p + 156)) by lia.
  destruct (byte_any read data (p + 156) Hs He Hb) as [(? & ->)| -> ]; [lia| |right; reflexivity]. cbn [bind].
  fld read data p 157 100 [32; 0] Hs He. fld read data p 265 32 [32; 0] Hs He. fld read data p 297 32 [32; 0] Hs He. fld read data p 345 155 [0] Hs He.
  left. eexists. split; [reflexivity|]. reflexivity.
Qed.
Lemma e_size_blocks e : 0 <= e_filesize e -> exists j, 1 <= j /\ e_size e = 8 * (512 * j).
Proof.
  intros H. exists (1 + (e_filesize e + 511) / 512). split; [lia|].
  rewrite (e_size_of e (e_filesize e) ((e_filesize e + 511) / 512 * 512 - e_filesize e)); auto; lia.
Qed.
Lemma loop_any read data : serves read data -> ends read data -> is_bytes data -> forall fuel k, 0 <= k -> 512 * k <= zlen data < 512 * k + Z.of_nat fuel ->
  match tar_loop fuel read (8 * zlen data) (8 * (512 * k)) with
  | Ok (es, t) => exists n, follow k es n /\
      match t with Some a => a = 8 * (512 * n) /\ 512 * n < zlen data | None => zlen data <= 512 * n end
  | Err x => x = ReadStreamError \/ x = ParserError
  end.
Proof.
  intros Hs He Hb. induction fuel as [|fuel IH]; intros k Hk Hf.
  - cbn [tar_loop]. lia.
  - cbn [tar_loop]. destruct (8 * zlen data <? 8 * (512 * k) + 1) eqn:E0; [exists k; split; [constructor|lia]|].
    destruct (entry_any read data (512 * k) Hs He Hb) as [(e & -> & A)| -> ]; [lia| |left; reflexivity]. cbn [bind].
    destruct (isEmpty e); [exists k; split; [constructor|lia]|]. destruct (e_filesize e <? 0) eqn:F; [right; reflexivity|].
    destruct (e_size_blocks e) as (j & J & Sz); [lia|]. rewrite Sz. destruct (8 * zlen data <? 8 * (512 * k) + 8 * (512 * j)) eqn:E1.
    + exists (k + j). split; [|lia]. apply (fo_cons k e [] j); auto. constructor.
    + replace (8 * (512 * k) + 8 * (512 * j)) with (8 * (512 * (k + j))) by lia. specialize (IH (k + j) ltac:(lia) ltac:(lia)).
      destruct (tar_loop fuel read _ _) as [[es t]|x]; cbn [bind fst snd]; [|exact IH]. idtac. destruct IH as (n & Fo & T). exists n. split; [|exact T].
      apply (fo_cons k e es j); auto.
Qed.

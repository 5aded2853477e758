(** What the parser of MPEG audio files does on the files of the format. *)
From Coq Require Import String.
From Verif Require Import Base BaseProofs BitsModel BitsSpec BitsProofs StreamModel StreamSpec StreamProofs StreamProofs2 DictModel DictProofs FieldModel ToolsModel NumSpec NumRead ChunkBase GenModel GenSpec GenProofs ItemSpec ItemProofs ItemProofs2 ZipSpec ZipProofs MidiSpec MidiProofs JpegProofs Id3Model Id3Spec Id3Proofs MpegModel MpegSpec Lit.
From Verif Require TextModel.
Open Scope Z_scope.
Ltac Zify.zify_post_hook ::= Z.div_mod_to_equations.

Lemma between_in a n v : 0 <= n -> a <= v < a + n -> In v (map (fun i => a + Z.of_nat i) (seq 0 (Z.to_nat n))).
Proof. intros N V. apply in_map_iff. exists (Z.to_nat (v - a)). split; [lia|]. apply in_seq. lia. Qed.
(** The size of frames *)
Lemma frame_table v l (p : bool) rate sampling : 1 <= rate <= 14 -> 0 <= sampling <= 2 ->
  getFrameSize (mpeg_code v) (layer_code l) rate sampling (if p then 1 else 0) = Some (frame_len v l rate sampling p) /\ 21 <= frame_len v l rate sampling p <= 2 ^ 16 /\
  getBitRate (mpeg_code v) (layer_code l) rate = Some (1000 * kbits v l rate) /\ getSampleRate (mpeg_code v) sampling = Some (hertz v sampling).
Proof.
  intros R S. assert (R' : In rate (map (fun i => 1 + Z.of_nat i) (seq 0 (Z.to_nat 14)))) by (apply between_in; lia). assert (S' : In sampling (map (fun i => 0 + Z.of_nat i) (seq 0 (Z.to_nat 3)))) by (apply between_in; lia). clear R S.
  set (check := fun r s => match getFrameSize (mpeg_code v) (layer_code l) r s (if p then 1 else 0), getBitRate (mpeg_code v) (layer_code l) r, getSampleRate (mpeg_code v) s with
    | Some n, Some b, Some h => (n =? frame_len v l r s p) && (21 <=? n) && (n <=? 2 ^ 16) && (b =? 1000 * kbits v l r) && (h =? hertz v s) | _, _, _ => false end).
  assert (C : forallb (fun r => forallb (check r) (map (fun i => 0 + Z.of_nat i) (seq 0 (Z.to_nat 3)))) (map (fun i => 1 + Z.of_nat i) (seq 0 (Z.to_nat 14))) = true) by (unfold check; destruct v, l, p; vm_compute; reflexivity).
  rewrite forallb_forall in C. specialize (C rate R'). rewrite forallb_forall in C. specialize (C sampling S'). unfold check in C. clear R' S' check.
  destruct (getFrameSize _ _ _ _ _) as [n|]; [|discriminate C]. destruct (getBitRate _ _ _) as [b|]; [|discriminate C]. destruct (getSampleRate _ _) as [h|]; [|discriminate C]. apply andb_true_iff in C as [C C5]. apply andb_true_iff in C as [C C4]. apply andb_true_iff in C as [C C3]. apply andb_true_iff in C as [C1 C2].
  apply Z.eqb_eq in C1, C4, C5. apply Z.leb_le in C2, C3. subst. auto.
Qed.
Definition flen (f : frame) : Z := frame_len (a_mpeg f) (a_layer f) (a_rate f) (a_sampling f) (a_padded f).
Lemma frame_bytes f : bytes_of_all (frame_items f) = uint BIG_ENDIAN 4 (val_of BIG_ENDIAN (all_bits (frame_head f))) ++ a_data f.
Proof. unfold frame_items. rewrite !bytes_of_all_cons. unfold raw. cbn [bytes_of plain_bytes bytes_of_all flat_map]. rewrite app_nil_r. reflexivity. Qed.
Lemma flen_ok f : frame_ok f -> zlen (bytes_of_all (frame_items f)) = flen f /\ 21 <= flen f <= 2 ^ 16.
Proof. intros (R & S & _ & _ & _ & _ & D). destruct (frame_table (a_mpeg f) (a_layer f) (a_padded f) (a_rate f) (a_sampling f) R S) as (_ & L & _). unfold flen. rewrite frame_bytes, zlen_app, zlen_uint, D. split; [lia|exact L]. Qed.
Lemma head_len_32 f : zlen (all_bits (frame_head f)) = 32.
Proof. reflexivity. Qed.
Lemma all_bits_cons n b l : all_bits ((n, b) :: l) = b ++ all_bits l.
Proof. reflexivity. Qed.
Lemma nth_firstn {A} (l : list A) : forall i j, (j < i)%nat -> nth_error (firstn i l) j = nth_error l j.
Proof. induction l as [|x l IH]; intros [|i] j J; try lia; [reflexivity|]. destruct j as [|j]; [reflexivity|]. cbn [firstn nth_error]. apply IH. lia. Qed.
(** The first byte of a frame is 255 *)
Lemma frame_first f : exists x, bytes_of_all (frame_items f) = 255 :: x.
Proof.
  rewrite frame_bytes. unfold frame_head. unfold high at 1. rewrite all_bits_cons. set (r := all_bits _). assert (Lr : zlen r = 21) by reflexivity. cbv beta iota delta [uint val_of]. rewrite val_be_app, Lr. pose proof (val_be_bound r) as B. rewrite Lr in B. set (w := val_be r) in *. change (val_be (rev (low 11 2047))) with 2047. change (2 ^ 21) with 2097152 in *. eexists. cbn [be_bytes]. rewrite <- !app_assoc. cbn [app]. f_equal. lia.
Qed.
Section Read.
Context (read : read_fun) (data : list Z) (Hs : serves read data) (Hb : is_bytes data).
Notation obeys := (obeys read data).
(** Fields of bits read where they are *)
Lemma bits_found e n bs pre name b post p : e <> MIDDLE_ENDIAN -> zlen (all_bits bs) = 8 * Z.of_nat n -> bs = pre ++ (name, b) :: post -> 1 <= zlen b -> occurs_at (uint e n (val_of e (all_bits bs))) data p ->
  forall a k, a = 8 * p + zlen (all_bits pre) -> k = zlen b -> readBits read a k e = Ok (val_of e b).
Proof using Hs Hb.
  intros E L Eb Lb O a k -> ->. pose proof (bits_uint e n (all_bits bs) E L) as X. destruct O as (K & L' & O). set (x := uint e n (val_of e (all_bits bs))) in *. assert (Lx : zlen x = Z.of_nat n) by apply zlen_uint. pose proof (zlen_nonneg (all_bits pre)).
  assert (Ea : all_bits bs = all_bits pre ++ b ++ all_bits post) by (rewrite Eb; unfold all_bits; rewrite flat_map_app; reflexivity). assert (Le : zlen (all_bits pre) + (zlen b + zlen (all_bits post)) = 8 * Z.of_nat n) by (rewrite <- L, Ea, !zlen_app; reflexivity). pose proof (zlen_nonneg (all_bits post)).
  rewrite (readBits_serves _ data) by (auto; try lia; unfold bits_available; destruct e; congruence || lia).
  assert (V : bits_at data (8 * p + zlen (all_bits pre)) (zlen b) e = val_of e (sub (bits_of e x) (zlen (all_bits pre)) (zlen b))).
  { unfold bits_at, val_of, bits_of. rewrite <- O. destruct e; [| |congruence]; [rewrite bits_be_sub by lia|rewrite bits_le_sub by lia]; rewrite sub_sub by lia; reflexivity. }
  rewrite V, X, Ea. rewrite sub_app_r by lia. rewrite Z.sub_diag, sub_app_l by lia. rewrite sub_all. reflexivity.
Qed.
Lemma frame_size_ok f p stop : frame_ok f -> occurs_at (bytes_of_all (frame_items f)) data p -> 8 * p + 32 <= stop -> frame_size read stop (8 * p) = Ok (flen f).
Proof using Hs Hb.
  intros K O St. rewrite frame_bytes in O. apply occ_app in O as [O _]. unfold frame_size. replace (stop <? 8 * p + 11) with false by lia. replace (stop <? 8 * p + 20) with false by lia.
  pose proof K as (R & S & M & _ & _ & _ & D). assert (Vh : forall m (name : string) n, 0 <= n < 2 ^ Z.of_nat m -> snd (high m name n) = rev (low m n) /\ val_of BIG_ENDIAN (rev (low m n)) = n) by (intros; split; [reflexivity|apply val_of_high; assumption]).
  rewrite (bits_found BIG_ENDIAN 4 (frame_head f) [high 11 "sync" 2047] (lit "version") (rev (low 2 (mpeg_code (a_mpeg f)))) (skipn 2 (frame_head f)) p ltac:(discriminate) eq_refl eq_refl ltac:(cbn; lia) O) by reflexivity.
  rewrite val_of_high by (unfold u; destruct (a_mpeg f); cbn; lia). cbn [bind].
  rewrite (bits_found BIG_ENDIAN 4 (frame_head f) (firstn 2 (frame_head f)) (lit "layer") (rev (low 2 (layer_code (a_layer f)))) (skipn 3 (frame_head f)) p ltac:(discriminate) eq_refl eq_refl ltac:(cbn; lia) O) by reflexivity.
  rewrite val_of_high by (unfold u; destruct (a_layer f); cbn; lia). cbn [bind].
  rewrite (bits_found BIG_ENDIAN 4 (frame_head f) (firstn 4 (frame_head f)) (lit "bit_rate") (rev (low 4 (a_rate f))) (skipn 5 (frame_head f)) p ltac:(discriminate) eq_refl eq_refl ltac:(cbn; lia) O) by reflexivity.
  rewrite val_of_high by (unfold u; cbn; lia). cbn [bind].
  rewrite (bits_found BIG_ENDIAN 4 (frame_head f) (firstn 5 (frame_head f)) (lit "sampling_rate") (rev (low 2 (a_sampling f))) (skipn 6 (frame_head f)) p ltac:(discriminate) eq_refl eq_refl ltac:(cbn; lia) O) by reflexivity.
  rewrite val_of_high by (unfold u; cbn; lia). cbn [bind].
  rewrite (bits_found BIG_ENDIAN 4 (frame_head f) (firstn 6 (frame_head f)) (lit "use_padding") [a_padded f] (skipn 7 (frame_head f)) p ltac:(discriminate) eq_refl eq_refl ltac:(cbn; lia) O) by reflexivity.
  replace (val_of BIG_ENDIAN [a_padded f]) with (if a_padded f then 1 else 0) by (destruct (a_padded f); reflexivity). cbn [bind].
  destruct (frame_table (a_mpeg f) (a_layer f) (a_padded f) (a_rate f) (a_sampling f) R S) as (-> & L & _). fold (flen f) in *. replace (flen f =? 0) with false by lia. reflexivity.
Qed.
Lemma frame_fields_obey f stop p : frame_ok f -> stop = 8 * (p + flen f) -> obeys stop p Frame_fields (frame_items f) PRet.
Proof using Hs Hb.
  intros K E. destruct (flen_ok f K) as [_ Lf]. pose proof K as (_ & _ & _ & _ & _ & _ & D). fold (flen f) in D. unfold Frame_fields, frame_items. eapply (ob_bits read data); [discriminate|lia|reflexivity| |].
  - unfold frame_head, flag, high, bits. do 13 (apply ta_cons; [cbn; lia|reflexivity|]). apply ta_nil.
  - apply (ob_rest read data _ _ _ (a_data f)); [lia|intros N; rewrite N in D; change (zlen (@nil Z)) with 0 in D; lia|]. intros N. apply ob_raw; [exact N|change (2 ^ 64) with 18446744073709551616; change (2 ^ 16) with 65536 in Lf; lia|apply ob_nil|reflexivity].
Qed.
Lemma frame_obeys f stop p k : frame_ok f -> obeys stop p (Frame k) [frame_item f] k.
Proof using Hs Hb.
  intros K F. pose proof F as [O St]. destruct (flen_ok f K) as [L Lf]. unfold frame_item in O, St. rewrite bytes_of_all_cons in O, St. change (bytes_of (ISet (lit "frame[]") ?x)) with (bytes_of_all x) in O, St. change (bytes_of_all []) with (@nil Z) in O, St. rewrite app_nil_r in O, St. rewrite L in St. revert F. change (obeys stop p (Frame k) [frame_item f] k).
  unfold Frame. eapply (ob_do read data) with (v := VNum (flen f)); [intros _; rewrite (frame_size_ok f p stop K O) by lia; reflexivity|]. apply ob_ask. cbn [num]. rewrite Z.min_l by lia. apply ob_set; [lia|lia| |apply ob_nil]. apply frame_fields_obey; [exact K|lia].
Qed.
(** A frame that is read where it is *)
Lemma orphan_ok f p stop : frame_ok f -> occurs_at (bytes_of_all (frame_items f)) data p -> 8 * (p + flen f) <= stop -> orphan_frame read (8 * zlen data) stop (8 * p) = Ok (8 * flen f, shows (frame_items f) p).
Proof using Hs Hb.
  intros K O St. destruct (flen_ok f K) as [L Lf]. unfold orphan_frame. rewrite (frame_size_ok f p stop K O) by lia. cbn [bind]. rewrite Z.min_l by lia. replace (flen f * 8) with (8 * flen f) by lia.
  assert (Ob : obeys (8 * p + 8 * flen f) p Frame_fields (frame_items f) PRet) by (apply frame_fields_obey; [exact K|lia]).
  pose proof (follow_all read data Hs Hb (8 * p + 8 * flen f) p Frame_fields (frame_items f) true) as R. rewrite R; [reflexivity| |exact O|lia]. apply Ob. split; [exact O|lia].
Qed.
Lemma frame_values f p : frame_ok f -> let l := shows (frame_items f) p in
  field_value "sync" l = Ok 2047 /\ field_value "version" l = Ok (mpeg_code (a_mpeg f)) /\ field_value "layer" l = Ok (layer_code (a_layer f)) /\ field_value "bit_rate" l = Ok (a_rate f) /\ field_value "sampling_rate" l = Ok (a_sampling f) /\
  field_value "channel_mode" l = Ok (a_mode f) /\ field_value "emphasis" l = Ok (a_emphasis f) /\ GenModel.get (lit "channel_mode") l = Some (VNum (a_mode f)).
Proof using Type.
  intros (R & S & M & _ & Em & _ & _) l. assert (V : forall m n, 0 <= n < 2 ^ Z.of_nat m -> val_of BIG_ENDIAN (rev (low m n)) = n) by (intros; apply val_of_high; assumption).
  assert (G : forall name i m n, nth_error (frame_head f) i = Some (high m name n) -> (forall j, (j < i)%nat -> match nth_error (frame_head f) j with Some (nm, _) => str_eqb nm (lit name) = false | None => True end) -> 0 <= n < 2 ^ Z.of_nat m -> GenModel.get (lit name) l = Some (VNum n)).
  { intros name i m n Hi Hj Hn. unfold l, frame_items. cbn [shows]. rewrite <- (V m n Hn). generalize dependent (shows [raw "data" (a_data f)] (p + len (IBits BIG_ENDIAN 4 (frame_head f)))). intros tl. cbn [ItemSpec.show]. clear - Hi Hj. generalize dependent (8 * p). generalize dependent i. generalize (frame_head f). intros bs. induction bs as [|[nm b] bs IH]; intros i Hi Hj a; [destruct i; discriminate Hi|]. cbn [bits_at_addr app GenModel.get]. destruct i as [|i].
    - injection Hi as -> ->. rewrite (proj2 (str_eqb_eq _ _) eq_refl). reflexivity.
    - pose proof (Hj 0%nat ltac:(lia)) as H0. cbn [nth_error] in H0. rewrite H0. apply (IH i); [exact Hi|]. intros j J. apply (Hj (S j)). lia. }
  assert (NJ : forall name i, forallb (fun x : str * list bool => negb (str_eqb (fst x) (lit name))) (firstn i (frame_head f)) = true -> forall j, (j < i)%nat -> match nth_error (frame_head f) j with Some (nm, _) => str_eqb nm (lit name) = false | None => True end).
  { intros name i Hf j J. destruct (nth_error (frame_head f) j) as [[nm b]|] eqn:E; [|exact Logic.I]. rewrite forallb_forall in Hf. specialize (Hf (nm, b)). cbn [fst] in Hf. assert (I' : In (nm, b) (firstn i (frame_head f))) by (apply nth_error_In with (n := j); rewrite nth_firstn; assumption). specialize (Hf I'). destruct (str_eqb nm (lit name)); [discriminate|reflexivity]. }
  assert (G2 : forall name i m n, nth_error (frame_head f) i = Some (high m name n) -> forallb (fun x : str * list bool => negb (str_eqb (fst x) (lit name))) (firstn i (frame_head f)) = true -> 0 <= n < 2 ^ Z.of_nat m -> GenModel.get (lit name) l = Some (VNum n)) by (intros name i m n H1 H2 H3; apply (G name i m n H1); [apply NJ, H2|exact H3]).
  unfold field_value.
  rewrite (G2 "sync"%string 0%nat 11%nat 2047 eq_refl eq_refl) by (cbn; lia). rewrite (G2 "version"%string 1%nat 2%nat _ eq_refl eq_refl) by (destruct (a_mpeg f); cbn; lia). rewrite (G2 "layer"%string 2%nat 2%nat _ eq_refl eq_refl) by (destruct (a_layer f); cbn; lia). rewrite (G2 "bit_rate"%string 4%nat 4%nat _ eq_refl eq_refl) by (cbn; lia). rewrite (G2 "sampling_rate"%string 5%nat 2%nat _ eq_refl eq_refl) by (cbn; lia). rewrite (G2 "channel_mode"%string 8%nat 2%nat _ eq_refl eq_refl) by (cbn; lia). rewrite (G2 "emphasis"%string 12%nat 2%nat _ eq_refl eq_refl) by (cbn; lia). repeat split; reflexivity.
Qed.
Lemma frame_valid f p : frame_ok f -> isValid (shows (frame_items f) p) = Ok true.
Proof using Type.
  intros K. destruct (frame_values f p K) as (V1 & V2 & V3 & V4 & V5 & _ & V7 & _). pose proof K as (R & S & _ & _ & _ & Em & _). unfold isValid. rewrite V3. cbn [bind]. replace (layer_code (a_layer f) =? 0) with false by (destruct (a_layer f); reflexivity). rewrite V1. cbn [bind]. change (negb (2047 =? 2047)) with false. cbn iota. rewrite V2. cbn [bind]. replace (mpeg_code (a_mpeg f) =? 1) with false by (destruct (a_mpeg f); reflexivity). rewrite V5. cbn [bind]. replace (a_sampling f =? 3) with false by lia. rewrite V4. cbn [bind]. replace ((a_rate f =? 0) || (a_rate f =? 15)) with false by lia. rewrite V7. cbn [bind]. replace (a_emphasis f =? 2) with false by lia. reflexivity.
Qed.
(** The frames *)
Lemma synchronized f p stop n : frame_ok f -> occurs_at (bytes_of_all (frame_items f)) data p -> 8 * (p + flen f) <= stop -> 8 <= n -> findSynchronizeBits read (8 * zlen data) stop (8 * p) n = Ok (Some 0).
Proof using Hs Hb.
  intros K O St N. destruct (flen_ok f K) as [L Lf]. unfold findSynchronizeBits. cbn [sync_loop]. replace (8 * p <? 8 * p + n) with true by lia.
  destruct (frame_first f) as (x & Ex). pose proof O as O1. rewrite Ex in O1. change (255 :: x) with ([255] ++ x) in O1. apply occ_app in O1 as [O1 _]. pose proof (occ_in _ _ _ O1) as I1. change (zlen [255]) with 1 in I1.
  destruct (searchBytesLength_correct read data [255] false p (Some (8 * p + n)) Hs ltac:(intros ->; change (zlen (@nil Z)) with 0 in I1; lia) ltac:(discriminate) ltac:(lia)) as [(i & E & F1 & F2 & F3 & F4)|[_ F]].
  - assert (i = p) as -> by (destruct (Z.eq_dec i p); [assumption|exfalso; apply (F4 p); [lia|exact O1]]). rewrite E. cbn [bind]. replace (p - p) with 0 by lia. change (0 + 0) with 0. change (0 * 8) with 0. rewrite Z.add_0_r. unfold orphan_valid. rewrite (orphan_ok f p stop K O St). rewrite (frame_valid f p K). reflexivity.
  - exfalso. apply (F p). split; [lia|]. split; [unfold search_limit; change (zlen [255]) with 1; lia|]. split; [exact O1|]. intros j J. lia.
Qed.
Definition frames_len (l : list frame) : Z := zlen (bytes_of_all (map frame_item l)).
Lemma frame_item_len f : frame_ok f -> len (frame_item f) = flen f.
Proof using Type. intros K. unfold len, frame_item. change (bytes_of (ISet (lit "frame[]") ?x)) with (bytes_of_all x). apply flen_ok, K. Qed.
Lemma frames_len_cons f l : frame_ok f -> frames_len (f :: l) = flen f + frames_len l.
Proof using Type. intros K. unfold frames_len. cbn [map]. rewrite bytes_of_all_cons, zlen_app. f_equal. apply frame_item_len, K. Qed.
Lemma frames_obey l stop p : Forall frame_ok l -> l <> [] -> 0 <= p -> stop = 8 * (p + frames_len l) -> obeys stop p Frames_fields (map frame_item l) PRet.
Proof using Hs Hb.
  intros K N P E F. pose proof F as [O St]. destruct l as [|f l]; [contradiction|]. pose proof (Forall_inv K) as Kf. pose proof (zlen_nonneg (bytes_of_all (map frame_item l))) as L0. fold (frames_len l) in L0. rewrite frames_len_cons in E by exact Kf. destruct (flen_ok f Kf) as [L Lf].
  assert (O1 : occurs_at (bytes_of_all (frame_items f)) data p) by (cbn [map] in O; rewrite bytes_of_all_cons in O; apply occ_app in O as [O _]; exact O). revert F. change (obeys stop p Frames_fields (map frame_item (f :: l)) PRet).
  unfold Frames_fields. eapply (ob_do read data) with (v := VNum 0).
  - intros _. cbv zeta. rewrite (synchronized f p stop); [reflexivity|exact Kf|exact O1|lia|unfold MAX_PADDING; lia].
  - cbn [num Z.eqb negb when]. apply ob_ask. rewrite <- flat_map_single. set (it := fun x : frame => [frame_item x]). assert (Sl : zlen (bytes_of_all (flat_map it (f :: l))) = flen f + frames_len l) by (unfold it; rewrite flat_map_single; apply frames_len_cons, Kf).
    assert (Ln : forall l', Forall frame_ok l' -> Z.of_nat (List.length l') <= frames_len l') by (induction 1 as [|g l' Kg _ IH]; [cbn; lia|]; rewrite frames_len_cons by exact Kg; destruct (flen_ok g Kg); cbn [List.length]; lia). specialize (Ln _ K). rewrite frames_len_cons in Ln by exact Kf.
    apply ob_loop; [lia|lia|]. intros d p' k D. rewrite Forall_forall in K. specialize (K d D). split; [|apply frame_obeys, K]. unfold it. rewrite bytes_of_all_cons, app_nil_r. pose proof (frame_item_len d K) as Ld. unfold len in Ld. destruct (flen_ok d K). lia.
Qed.
Definition tail_items (m : mp3) : list item := frames_part m ++ tag1_part m.
Lemma frames_part_len m : zlen (bytes_of_all (frames_part m)) = frames_len (p_frames m).
Proof using Type. unfold frames_part. destruct (p_frames m) as [|f l]; [reflexivity|]. rewrite bytes_of_all_cons, app_nil_r. reflexivity. Qed.
Lemma tag1_first t : exists x, bytes_of_all (tag1_items t) = lit "TAG" ++ x.
Proof using Type. eexists. unfold tag1_items. cbn [app]. rewrite bytes_of_all_cons. unfold txt at 1. cbn [bytes_of plain_bytes]. reflexivity. Qed.
Lemma tag2_first t : exists x, bytes_of_all (tag2_items t) = lit "ID3" ++ x.
Proof using Type. eexists. unfold tag2_items. cbn [app]. rewrite bytes_of_all_cons. unfold txt at 1. cbn [bytes_of plain_bytes]. reflexivity. Qed.
Lemma read_three p x y : occurs_at (x ++ y) data p -> zlen x = 3 -> readBytes read (8 * p) 3 = Ok x.
Proof using Hs. intros O L. apply occ_app in O as [O _]. rewrite <- L. apply (rb_occ read data Hs p x O). intros ->. discriminate L. Qed.
Lemma sub_read p : 0 <= p -> p + 3 <= zlen data -> readBytes read (8 * p) 3 = Ok (sub data p 3).
Proof using Hs. intros P L. rewrite (readBytes_serves read data) by (auto; lia). replace (8 * p / 8) with p by lia. reflexivity. Qed.
Lemma no_frames l : frames_len l = 0 -> Forall frame_ok l -> l = [].
Proof using Type. intros E K. destruct l as [|f l]; [reflexivity|]. rewrite frames_len_cons in E by exact (Forall_inv K). destruct (flen_ok f (Forall_inv K)). pose proof (zlen_nonneg (bytes_of_all (map frame_item l))). unfold frames_len in E. lia. Qed.
Lemma tail_obeys m p : mp3_ok m -> 0 <= p -> (p_tag1 m = None -> no_tag data) -> zlen data = p + zlen (bytes_of_all (tail_items m)) -> obeys (8 * zlen data) p frames_and_id3v1 (tail_items m) PRet.
Proof using Hs Hb.
  intros (_ & Kf & K1) P Nt Ld F. pose proof F as [O St]. revert F. change (obeys (8 * zlen data) p frames_and_id3v1 (tail_items m) PRet). unfold tail_items in *. rewrite bytes_of_all_app in O, St, Ld. rewrite zlen_app, frames_part_len in Ld. apply occ_app in O as [O1 O2]. rewrite frames_part_len in O2.
  assert (Ff : forall k q l, obeys (8 * zlen data) (p + frames_len (p_frames m)) k l q -> obeys (8 * zlen data) p (when (negb (8 * frames_len (p_frames m) =? 0)) (fun k => PSet (lit "frames") (Some (8 * frames_len (p_frames m))) Frames_fields (fun _ => k)) k) (frames_part m ++ l) q).
  { intros k q l H. unfold frames_part in *. pose proof (zlen_nonneg (bytes_of_all (map frame_item (p_frames m)))) as F0. fold (frames_len (p_frames m)) in F0. destruct (p_frames m) as [|f fs] eqn:Ef.
    - cbn [app when]. change (frames_len []) with 0 in *. change (negb (8 * 0 =? 0)) with false. rewrite Z.add_0_r in H. exact H.
    - assert (frames_len (f :: fs) <> 0) by (intros Z; apply no_frames in Z; [discriminate Z|exact Kf]). replace (negb (8 * frames_len (f :: fs) =? 0)) with true by lia. cbn [app when]. apply ob_set; [reflexivity|lia| |exact H]. apply frames_obey; [exact Kf|discriminate|exact P|lia]. }
  unfold frames_and_id3v1. apply ob_ask. cbv zeta. destruct (p_tag1 m) as [t|] eqn:E1; unfold tag1_part in *; rewrite E1 in *.
  - destruct K1 as [K1 U1]. pose proof (tag1_len t K1) as L1. rewrite bytes_of_all_cons, app_nil_r in Ld, O2. change (bytes_of (ISet (lit "id3v1") (tag1_items t))) with (bytes_of_all (tag1_items t)) in Ld, O2. rewrite L1 in Ld. pose proof (zlen_nonneg (bytes_of_all (map frame_item (p_frames m)))) as F0. fold (frames_len (p_frames m)) in F0.
    eapply (ob_do read data) with (v := VNum 1).
    + intros _. replace (0 <=? 8 * zlen data - 128 * 8) with true by lia. replace (8 * zlen data - 128 * 8) with (8 * (p + frames_len (p_frames m))) by lia. destruct (tag1_first t) as (x & Ex). rewrite Ex in O2. rewrite (read_three _ _ _ O2) by reflexivity. reflexivity.
    + cbn [num]. change (1 =? 1) with true. cbn iota. replace (8 * zlen data - 8 * p - 128 * 8) with (8 * frames_len (p_frames m)) by lia. apply Ff. cbn [when]. apply tag1_obeys; [exact Hs|exact Hb|exact K1|exact U1|apply ob_nil].
  - change (zlen (bytes_of_all [])) with 0 in Ld. eapply (ob_do read data) with (v := VNum 0).
    + intros _. destruct (0 <=? 8 * zlen data - 128 * 8) eqn:G; [|reflexivity]. replace (8 * zlen data - 128 * 8) with (8 * (zlen data - 128)) by lia. rewrite sub_read by lia. cbn [bind]. destruct (str_eqb (sub data (zlen data - 128) 3) (lit "TAG")) eqn:Eq; [|reflexivity]. exfalso. apply (Nt eq_refl); [lia|]. apply str_eqb_eq, Eq.
    + cbn [num]. change (0 =? 1) with false. cbn iota. replace (8 * zlen data - 8 * p - 0) with (8 * frames_len (p_frames m)) by lia. apply Ff. cbn [when]. apply ob_nil.
Qed.
Lemma mp3_first m : mp3_ok m -> bytes_of_all (mp3_items m) <> [] -> exists x y, bytes_of_all (mp3_items m) = x ++ y /\ zlen x = 3 /\ str_eqb x (lit "ID3") = match p_tag2 m with Some _ => true | None => false end.
Proof using Type.
  intros K N. unfold mp3_items, tag2_part, frames_part, tag1_part in *. destruct (p_tag2 m) as [t|].
  - destruct (tag2_first t) as (x & Ex). cbn [app]. rewrite bytes_of_all_cons. change (bytes_of (ISet (lit "id3v2") (tag2_items t))) with (bytes_of_all (tag2_items t)). rewrite Ex, <- app_assoc. exists (lit "ID3"). eexists. split; [reflexivity|]. split; reflexivity.
  - cbn [app] in *. destruct K as (_ & Kf & _). destruct (p_frames m) as [|f l].
    + cbn [app] in *. destruct (p_tag1 m) as [t|]; [|contradiction]. destruct (tag1_first t) as (x & Ex). rewrite bytes_of_all_cons. change (bytes_of (ISet (lit "id3v1") (tag1_items t))) with (bytes_of_all (tag1_items t)). rewrite Ex, <- app_assoc. exists (lit "TAG"). eexists. split; [reflexivity|]. split; reflexivity.
    + cbn [app]. rewrite bytes_of_all_cons. change (bytes_of (ISet (lit "frames") (map frame_item (f :: l)))) with (bytes_of_all (map frame_item (f :: l))). cbn [map]. rewrite bytes_of_all_cons. change (bytes_of (frame_item f)) with (bytes_of_all (frame_items f)). destruct (frame_first f) as (x & Ex). destruct (flen_ok f (Forall_inv Kf)) as [L Lf]. rewrite Ex in L |- *. rewrite <- app_assoc. destruct x as [|a [|b x]]; try (rewrite ?zlen_cons in L; change (zlen (@nil Z)) with 0 in L; lia). exists [255; a; b]. eexists. split; [cbn [app]; reflexivity|]. split; reflexivity.
Qed.
Lemma mpeg_obeys m : mp3_ok m -> data <> [] -> (p_tag1 m = None -> no_tag data) -> data = bytes_of_all (mp3_items m) -> obeys (8 * zlen data) 0 mpeg_fields (mp3_items m) PRet.
Proof using Hs Hb.
  intros K N Nt E. destruct (mp3_first m K ltac:(congruence)) as (x & y & Ex & Lx & Id). unfold mpeg_fields. eapply (ob_do read data) with (v := VBytes x).
  - intros _. change 0 with (8 * 0) at 1. rewrite (read_three 0 x y); [reflexivity| |exact Lx]. rewrite <- Ex, <- E. apply occ_self.
  - cbn [bytes]. rewrite Id. unfold mp3_items in *. fold (tail_items m) in *. rewrite bytes_of_all_app in E. unfold tag2_part in *. destruct (p_tag2 m) as [t|] eqn:E2.
    + cbn [when app]. pose proof K as (K2 & _). rewrite E2 in K2. rewrite bytes_of_all_cons, app_nil_r in E. change (bytes_of (ISet (lit "id3v2") (tag2_items t))) with (bytes_of_all (tag2_items t)) in E. apply tag2_obeys; [exact Hs|exact Hb|exact K2|]. apply tail_obeys; [exact K|pose proof (zlen_nonneg (bytes_of_all (tag2_items t))); lia|exact Nt|]. rewrite E at 1. rewrite zlen_app. lia.
    + cbn [when app] in *. change (bytes_of_all []) with (@nil Z) in E. cbn [app] in E. apply tail_obeys; [exact K|lia|exact Nt|]. rewrite E at 1. lia.
Qed.
End Read.

(** C85: what the parser of MPEG audio files shows, and the metadata taken from them. *)
From Coq Require Import String.
From Verif Require Import Base BaseProofs BitsModel BitsSpec BitsProofs StreamModel StreamSpec StreamProofs StreamProofs2 DictModel DictProofs FieldModel FieldNames ToolsModel NumSpec NumRead ChunkBase GenModel GenSpec GenProofs ItemSpec ItemProofs ItemProofs2 ZipSpec MidiSpec MidiProofs ExtractModel ExtractProofs HumanModel Id3Model Id3Spec Id3Proofs MpegModel MpegSpec MpegProofs MpegSafe MpegMeta PropertiesGifFile Lit.
From Verif Require MetaModel TextModel FloatModel.
From Verif Require Import MetaProofs2.
Open Scope Z_scope.
Ltac Zify.zify_post_hook ::= Z.div_mod_to_equations.

(** For every file: the ID3v2 tag, the frames with their headers and data, and the ID3v1 tag. *)
Theorem C85_file : forall read m, let data := bytes_of_all (mp3_items m) in serves read data -> is_bytes data -> data <> [] -> mp3_ok m -> (p_tag1 m = None -> no_tag data) ->
  MpegAudioFile read (8 * zlen data) = (shows (mp3_items m) 0, None, 8 * zlen data).
Proof. intros read m data Hs Hb Hd K Nt. unfold MpegAudioFile. apply obey_file; auto. apply mpeg_obeys; auto. Qed.
Print Assumptions C85_file.
(** Whatever the bytes. *)
Theorem C85_any : forall read data, serves read data -> ends read data -> is_bytes data -> data <> [] ->
  let '(l, e, b) := MpegAudioFile read (8 * zlen data) in tiled 0 l b /\ b <= 8 * zlen data /\ settled_file (l, e, b).
Proof. intros read data Hs He Hb Hd. apply (any_file read data Hs Hb He Hd). apply mpeg_calm; auto. Qed.
Print Assumptions C85_any.
(** ** The check of files *)
Definition same_mode (f g : frame) : bool := a_mode g =? a_mode f.
Lemma check_shown f : forall l n p, Forall frame_ok l -> check_frames n (Some (a_mode f)) (frames_shown l p) = Ok (forallb (same_mode f) (firstn n l)).
Proof.
  induction l as [|g l IH]; intros n p K; [rewrite firstn_nil; destruct n; reflexivity|]. destruct n as [|n]; [reflexivity|]. cbn [frames_shown firstn check_frames forallb]. pose proof (Forall_inv K) as Kg. rewrite frame_valid by exact Kg. cbn [bind negb]. destruct (frame_values g p Kg) as (_ & _ & _ & _ & _ & V & _). rewrite V. cbn [bind]. unfold same_mode at 1. rewrite Z.eqb_sym. destruct (a_mode g =? a_mode f); [|reflexivity]. apply IH, (Forall_inv_tail K).
Qed.
Lemma first_shown m : let l := shows (mp3_items m) 0 in
  match p_tag2 m, p_frames m, p_tag1 m with
  | Some _, _, _ => exists f r, l = f :: r /\ f_name f = lit "id3v2"
  | None, _ :: _, _ => exists f r, l = f :: r /\ f_name f = lit "frames"
  | None, [], Some _ => exists f r, l = f :: r /\ f_name f = lit "id3v1"
  | None, [], None => l = []
  end.
Proof.
  cbv zeta. unfold mp3_items, tag2_part, frames_part, tag1_part. destruct (p_tag2 m), (p_frames m), (p_tag1 m); cbn [app shows]; rewrite ?show_set; cbn [app]; try (do 2 eexists; split; reflexivity).
Qed.
(** Files with a tag first are accepted; the others when the five first frames have the same channel mode. *)
Theorem C85_valid : forall read m, let data := bytes_of_all (mp3_items m) in serves read data -> is_bytes data -> data <> [] -> mp3_ok m -> (p_tag1 m = None -> no_tag data) ->
  mpeg_validate read (8 * zlen data) = Ok (match p_tag2 m, p_frames m with None, f :: l => forallb (same_mode f) (firstn 4 l) | _, _ => true end).
Proof.
  intros read m data Hs Hb Hd K Nt. unfold mpeg_validate. unfold data. rewrite (C85_file read m Hs Hb Hd K Nt). cbn [fst]. pose proof (first_shown m) as F. cbv zeta in F. pose proof K as (_ & Kf & _). destruct (shown_parts m Kf) as (FL & _). cbv zeta in FL. destruct (p_tag2 m).
  - destruct F as (f & r & -> & ->). reflexivity.
  - destruct (p_frames m) as [|f l] eqn:Ef.
    + destruct (p_tag1 m) eqn:E1; [destruct F as (f & r & -> & ->); reflexivity|]. destruct Hd. unfold data, mp3_items. clear - F Hb. fold (mp3_items m). unfold mp3_items in *. destruct (tag2_part m ++ frames_part m ++ tag1_part m) as [|i l] eqn:E; [reflexivity|]. exfalso. revert F. cbn [shows]. unfold tag2_part, frames_part, tag1_part in E. destruct (p_tag2 m), (p_frames m), (p_tag1 m); cbn [app] in E; try discriminate E; injection E as <- <-; rewrite show_set; discriminate.
    + destruct F as (g & r & E & N). rewrite E in FL |- *. rewrite N. change (str_eqb (lit "frames") (lit "id3v2") || str_eqb (lit "frames") (lit "id3v1")) with false. cbn iota. rewrite FL. cbn [frames_shown check_frames]. pose proof (Forall_inv Kf) as K0. rewrite frame_valid by exact K0. cbn [bind negb]. destruct (frame_values f (start m) K0) as (_ & _ & _ & _ & _ & _ & _ & V). rewrite V. cbn [num]. exact (check_shown f l 4 (start m + flen f) (Forall_inv_tail Kf)).
Qed.
Print Assumptions C85_valid.
(** ** The description *)
Definition mode_text (n : Z) : string := if n =? 0 then "Stereo" else if n =? 1 then "Joint stereo" else if n =? 2 then "Dual channel" else "Single channel".
Lemma in_shown m f l : p_frames m = f :: l -> in_file "frames" (shows (mp3_items m) 0) = true.
Proof.
  intros E. unfold in_file, mp3_items. rewrite !shows_app, !existsb_app. unfold frames_part. rewrite E. cbn [shows]. rewrite show_set. cbn [app existsb f_name]. rewrite Bool.orb_true_r. reflexivity.
Qed.
(** The version, the layer, the bit rate, the sampling rate and the channel mode of the first frame. *)
Theorem C85_description : forall read m f l rate freq, let data := bytes_of_all (mp3_items m) in serves read data -> is_bytes data -> mp3_ok m -> (p_tag1 m = None -> no_tag data) -> p_frames m = f :: l ->
  humanBitSize (bit_rate_of f) = Ok rate -> humanFrequency (hertz (a_mpeg f) (a_sampling f)) = Ok freq ->
  mpeg_description (fst (fst (MpegAudioFile read (8 * zlen data)))) =
  Ok (lit "MPEG-" ++ lit (version_text (a_mpeg f)) ++ lit " layer " ++ lit (layer_text (a_layer f)) ++ lit ", " ++ rate ++ lit "/sec, " ++ freq ++ lit ", " ++ lit (mode_text (a_mode f))).
Proof.
  intros read m f l rate freq data Hs Hb K Nt Ef Er Eq. pose proof K as (_ & Kf & _). pose proof Kf as Kf'. rewrite Ef in Kf'. pose proof (Forall_inv Kf') as K0. assert (Hd : data <> []). { unfold data. intros X. apply (f_equal zlen) in X. unfold mp3_items in X. rewrite !bytes_of_all_app, !zlen_app, frames_part_len, Ef, frames_len_cons in X by exact K0. destruct (flen_ok f K0). pose proof (zlen_nonneg (bytes_of_all (tag2_part m))). pose proof (zlen_nonneg (bytes_of_all (tag1_part m))). pose proof (zlen_nonneg (bytes_of_all (map frame_item l))). unfold frames_len in X. change (zlen (@nil Z)) with 0 in X. lia. }
  unfold data. rewrite (C85_file read m Hs Hb Hd K Nt). cbn [fst]. unfold mpeg_description. rewrite (in_shown m f l Ef). destruct (shown_parts m Kf) as (FL & _). cbv zeta in FL. rewrite FL, Ef. cbn [frames_shown]. destruct (frame_values f (start m) K0) as (_ & V2 & V3 & V4 & V5 & V6 & _). pose proof K0 as (R & S & Mo & _). destruct (frame_table (a_mpeg f) (a_layer f) (a_padded f) (a_rate f) (a_sampling f) R S) as (_ & _ & Rt & Sr).
  unfold frame_description. rewrite V3, V2, V4, V5. cbn [bind]. rewrite Rt, Sr. fold (bit_rate_of f). pose proof (kbits_bounds (a_mpeg f) (a_layer f) (a_rate f) R). replace (bit_rate_of f =? 0) with false by (unfold bit_rate_of; lia). rewrite Er, Eq. cbn [bind]. rewrite V6. cbn [bind]. destruct (displays f K0) as [-> ->]. replace (channel_mode_display (a_mode f)) with (lit (mode_text (a_mode f))) by (assert (X : a_mode f = 0 \/ a_mode f = 1 \/ a_mode f = 2 \/ a_mode f = 3) by lia; destruct X as [->|[->|[->| ->]]]; reflexivity). change (lit "/sec, ") with (lit "/sec" ++ lit ", "). rewrite <- !app_assoc. reflexivity.
Qed.
Print Assumptions C85_description.
(** ** The metadata *)
Import MetaModel.
Lemma extract_kept codec e text max_count m m1 : Forall frame_ok (p_frames m) -> p_frames m <> [] -> use_frames e text root max_count (frames_shown (p_frames m) (start m)) (8 * frames_len (p_frames m)) = (m1, true) ->
  same (tag_keys ++ ["compr_rate"; "mime_type"; "endian"]%string) m1 (mpeg_metadata codec e text root max_count (shows (mp3_items m) 0)).
Proof.
  intros K N E. destruct (shown_parts m K) as (FL & SZ & G1 & G2). cbv zeta in *. unfold mpeg_metadata. eapply same_then; [|eapply sub_same; [apply mime_same'|reflexivity]]. unfold mpeg_extract. rewrite FL, SZ, G1, G2. destruct (p_frames m) as [|f l]; [contradiction|]. rewrite E. unfold andthen at 1. cbn [fst snd].
  apply andthen_same; [destruct (p_tag1 m); [eapply sub_same; [apply id3v1_same|reflexivity]|apply same_refl]|]. intros m2. apply andthen_same; [destruct (p_tag2 m); [eapply sub_same; [apply id3v2_same|reflexivity]|apply same_refl]|]. intros m3. eapply sub_same; [apply compr_same|reflexivity].
Qed.
(** The number of channels, the format, the sampling rate and the bits of the first frame; when the eleven first frames have the same version, layer and bit rate, this bit rate and the time
    the frames take with it, to a microsecond; otherwise the mean of the bit rates of frames from the fourth on, and the time the frames take with it.  Whatever the tags of the file. *)
Theorem C85_metadata : forall codec e text max_count read m f l, let data := bytes_of_all (mp3_items m) in serves read data -> is_bytes data -> mp3_ok m -> (p_tag1 m = None -> no_tag data) -> p_frames m = f :: l ->
  writes e -> 1 <= max_count -> let size := 8 * zlen (bytes_of_all (frames_part m)) in size <= 2 ^ 40 ->
  let md := mpeg_metadata codec e text root max_count (fst (fst (MpegAudioFile read (8 * zlen data)))) in
  getValues md (lit "nb_channel") = Ok [MInt (if a_mode f =? 3 then 1 else 2)] /\ (kept_text e (format_text f) -> getValues md (lit "format_version") = Ok [MStr (format_text f)]) /\
  getValues md (lit "sample_rate") = Ok [MInt (hertz (a_mpeg f) (a_sampling f))] /\ getValues md (lit "bits_per_sample") = Ok [MInt 16] /\
  (Forall (alike f) (firstn 10 l) -> getValues md (lit "bit_rate") = Ok [MInt (bit_rate_of f)] /\
     exists us, Z.abs (us * bit_rate_of f - 1000000 * size) < bit_rate_of f /\ getValues md (lit "duration") = Ok (in_year us)) /\
  (~ Forall (alike f) (firstn 10 l) -> let k := firstn (Z.to_nat max_count) (skipn 3 (f :: l)) in k <> [] ->
     exists rn rd, 0 < rd /\ FloatModel.fl (rate_sum k) (zlen k) = (rn, rd) /\ getValues md (lit "bit_rate") = Ok [MFloat (FNum rn (Z.to_pos rd))] /\
     exists us, Z.abs (us * rn - 1000000 * (size * rd)) < rn /\ getValues md (lit "duration") = Ok (in_year us)).
Proof.
  intros codec e text max_count read m f l data Hs Hb K Nt Ef W Mc size Sz md. pose proof K as (_ & Kf & _). pose proof Kf as Kf'. rewrite Ef in Kf'. pose proof (Forall_inv Kf') as K0. assert (Hd : data <> []). { unfold data. intros X. apply (f_equal zlen) in X. unfold mp3_items in X. rewrite !bytes_of_all_app, !zlen_app, frames_part_len, Ef, frames_len_cons in X by exact K0. destruct (flen_ok f K0). pose proof (zlen_nonneg (bytes_of_all (tag2_part m))). pose proof (zlen_nonneg (bytes_of_all (tag1_part m))). pose proof (zlen_nonneg (bytes_of_all (map frame_item l))). unfold frames_len in X. change (zlen (@nil Z)) with 0 in X. lia. }
  unfold md. clear md. unfold data. rewrite (C85_file read m Hs Hb Hd K Nt). cbn [fst]. assert (Es : size = 8 * frames_len (p_frames m)) by (unfold size; rewrite frames_part_len; reflexivity). pose proof (zlen_nonneg (bytes_of_all (frames_part m))).
  destruct (frames_told e text max_count f l (start m) size W K0 (Forall_inv_tail Kf') ltac:(unfold size in *; lia) Mc) as (m1 & E & _ & G1 & G2 & G3 & G4 & G5 & G6). pose proof (extract_kept codec e text max_count m m1 Kf) as S. rewrite Ef in S. specialize (S ltac:(discriminate)). rewrite Ef in Es. rewrite <- Es in S. specialize (S E).
  set (md := mpeg_metadata _ _ _ _ _ _) in *. clearbody md. split; [apply (kept _ m1 md "nb_channel"%string _ S eq_refl G1)|]. split; [intros Kt; apply (kept _ m1 md "format_version"%string _ S eq_refl (G2 Kt))|]. split; [apply (kept _ m1 md "sample_rate"%string _ S eq_refl G3)|]. split; [apply (kept _ m1 md "bits_per_sample"%string _ S eq_refl G4)|]. split.
  - intros A. destruct (G5 A) as (B1 & us & B2 & B3). split; [apply (kept _ m1 md "bit_rate"%string _ S eq_refl B1)|]. exists us. split; [exact B2|]. apply (kept _ m1 md "duration"%string _ S eq_refl B3).
  - intros A Nk. destruct (G6 A Nk) as (rn & rd & B0 & B1 & B2 & us & B3 & B4). exists rn, rd. split; [exact B0|]. split; [exact B1|]. split; [apply (kept _ m1 md "bit_rate"%string _ S eq_refl B2)|]. exists us. split; [exact B3|]. apply (kept _ m1 md "duration"%string _ S eq_refl B4).
Qed.
Print Assumptions C85_metadata.
(** ** The size of the content *)
Section Content.
Context (read : read_fun) (data : list Z) (Hs : serves read data) (Hb : is_bytes data).
Lemma not_frame stop q : 0 <= q -> stop <= 8 * zlen data -> (forall b x, sub data q (zlen data - q) = b :: x -> b <> 255) -> match orphan_frame read (8 * zlen data) stop (8 * q) with Ok (_, l) => isValid l <> Ok true | Err _ => True end.
Proof using Hs Hb.
  intros Q St N. unfold orphan_frame, frame_size. destruct (stop <? 8 * q + 11) eqn:E1; [exact Logic.I|]. destruct (stop <? 8 * q + 20) eqn:E2; [exact Logic.I|]. cbn [bind]. match goal with |- match bind ?x _ with _ => _ end => destruct x as [n|]; cbn [bind]; [|exact Logic.I] end.
  assert (L2 : q + 2 <= zlen data) by lia. assert (X : exists b c, occurs_at [b; c] data q /\ b <> 255 /\ is_byte b /\ is_byte c).
  { pose proof (zlen_sub_exact data q 2 Q ltac:(lia) ltac:(lia)) as Ls. destruct (sub data q 2) as [|b [|c [|]]] eqn:E; try (exfalso; rewrite ?zlen_cons in Ls; change (zlen (@nil Z)) with 0 in Ls; try (pose proof (zlen_nonneg l)); lia). exists b, c. assert (Ob : occurs_at [b; c] data q) by (split; [lia|]; split; [change (zlen [b; c]) with 2; lia|exact E]). split; [exact Ob|].
    assert (Bs : is_bytes [b; c]) by (rewrite <- E; apply is_bytes_sub, Hb).
    split; [|split; [exact (Forall_inv Bs)|exact (Forall_inv (Forall_inv_tail Bs))]]. unfold sub in E, N. replace (Z.to_nat 2) with 2%nat in E by reflexivity. destruct (skipn (Z.to_nat q) data) as [|b' [|c' r]] eqn:Er; try discriminate E. cbn [firstn] in E. injection E as -> ->. destruct (Z.to_nat (zlen data - q)) as [|k] eqn:Ek; [lia|]. eapply N. reflexivity. }
  destruct X as (b & c & O & Nb & Ib & Ic). unfold Frame_fields. unfold bits at 1. set (k := bits 2 "version" _). set (s := Z.min (n * 8) (stop - 8 * q)). destruct (8 * q + s <? 8 * q + 11) eqn:Es.
  - cbn [GenModel.run fsize]. replace (0 <=? 11) with true by reflexivity. rewrite Es. cbn [fst snd]. unfold isValid, field_value. cbn [GenModel.get bind]. discriminate.
  - rewrite (step_bits read data Hs Hb (8 * zlen data) (lit "sync") BIG_ENDIAN [b; c] (bits_be [b; c]) (bits_be [b] ++ firstn 3 (bits_be [c])) 11 (fun _ => k) true q 0 (8 * q) (8 * q + 11)); [|discriminate|exact O|reflexivity|reflexivity|lia|lia|change (zlen [b; c]) with 2; lia|lia|lia|lia].
    cbn [val_of]. rewrite val_be_app, val_be_byte by exact Ib. change (zlen (firstn 3 (bits_be [c]))) with 3. pose proof (val_be_bound (firstn 3 (bits_be [c]))) as B3. change (zlen (firstn 3 (bits_be [c]))) with 3 in B3. set (w := val_be (firstn 3 (bits_be [c]))) in *. destruct (run read (8 * zlen data) k false (8 * q + s) (8 * q + 11)) as [[l e] z]. cbn [put fst snd].
    unfold isValid. destruct (field_value "layer" _) as [y|]; cbn [bind]; [|discriminate]. destruct (y =? 0); [discriminate|]. unfold field_value at 1. cbn [GenModel.get]. change (str_eqb (lit "sync") (lit "sync")) with true. cbn iota. cbn [num bind]. unfold is_byte in Ib. replace (negb (b * 2 ^ 3 + w =? 2047)) with true; [discriminate|]. change (2 ^ 3) with 8 in *. lia.
Qed.
Context (He : ends read data).
Lemma content_frames stop : stop <= 8 * zlen data -> forall l q fuel, 0 <= q -> Forall frame_ok l -> occurs_at (bytes_of_all (map frame_item l)) data q -> 8 * (q + frames_len l) <= stop -> 8 * (q + frames_len l) <= MAX_FILESIZE -> (List.length l < fuel)%nat ->
  (forall b x, sub data (q + frames_len l) (zlen data - (q + frames_len l)) = b :: x -> b <> 255) -> content_loop read (8 * zlen data) stop fuel (8 * q) = Ok (8 * (q + frames_len l)).
Proof using Hs Hb.
  intros St. induction l as [|f l IH]; intros q fuel Q K O B M Fu N.
  - change (frames_len []) with 0 in *. rewrite Z.add_0_r in *. destruct fuel as [|fuel]; [cbn in Fu; lia|]. cbn [content_loop]. pose proof (not_frame stop q Q St N) as X. destruct (orphan_frame _ _ _ _) as [[n k]|]; [|reflexivity]. destruct (isValid k) as [[|]|]; [destruct (X eq_refl)|reflexivity|reflexivity].
  - pose proof (Forall_inv K) as Kf. rewrite frames_len_cons in * by exact Kf. pose proof (zlen_nonneg (bytes_of_all (map frame_item l))) as L0. fold (frames_len l) in L0. destruct (flen_ok f Kf) as [L Lf]. cbn [map] in O. rewrite bytes_of_all_cons in O. apply occ_app in O as [O1 O2]. change (bytes_of (frame_item f)) with (bytes_of_all (frame_items f)) in O1, O2. rewrite L in O2.
    destruct fuel as [|fuel]; [cbn in Fu; lia|]. cbn [content_loop]. rewrite (orphan_ok read data Hs Hb f q stop Kf O1) by lia. rewrite frame_valid by exact Kf. replace (MAX_FILESIZE <? 8 * q + 8 * flen f) with false by lia. replace (8 * q + 8 * flen f) with (8 * (q + flen f)) by lia. rewrite IH; [f_equal; lia|lia|exact (Forall_inv_tail K)|exact O2|lia|lia|cbn [List.length] in Fu; lia|]. intros b x E. apply (N b x). rewrite <- E. f_equal; lia.
Qed.
(** The first frame is shown, whatever follows. *)
Lemma frames_start f l stop p : frame_ok f -> 0 <= p -> occurs_at (bytes_of_all (frame_items f)) data p -> 8 * (p + flen f) <= stop -> stop <= 8 * zlen data -> stop = 8 * (p + l) ->
  exists k e z, run read (8 * zlen data) Frames_fields true stop (8 * p) = (G (lit "frame[]") (8 * p) (8 * flen f) (shows (frame_items f) p) None :: k, e, z).
Proof using Hs Hb.
  intros K P O B St E. destruct (flen_ok f K) as [L Lf]. assert (Ob : exists q, obeys read data stop p Frames_fields [frame_item f] q).
  { eexists. unfold Frames_fields. eapply (ob_do read data) with (v := VNum 0).
    - intros _. cbv zeta. rewrite (synchronized read data Hs Hb f p stop); [reflexivity|exact K|exact O|lia|unfold MAX_PADDING; lia].
    - cbn [num Z.eqb negb when]. apply ob_ask. cbn [loop]. apply ob_ask. replace (stop <=? 8 * p) with false by lia. apply frame_obeys; auto. }
  destruct Ob as (q & Ob). assert (Fi : fits data stop p [frame_item f]) by (unfold fits; rewrite bytes_of_all_cons, app_nil_r; change (bytes_of (frame_item f)) with (bytes_of_all (frame_items f)); split; [exact O|lia]). pose proof (follow read data Hs Hb _ _ _ _ _ (Ob Fi) true (proj1 Fi) ltac:(destruct Fi; lia)) as R. rewrite R. unfold puts. cbn [shows]. unfold frame_item at 1. rewrite show_set. cbn [app]. change (bytes_of_all [frame_item f]) with (bytes_of_all (frame_items f) ++ []). do 3 eexists. rewrite L. reflexivity.
Qed.
Lemma frames_size f l n p rest : frame_ok f -> Forall frame_ok l -> 0 <= p -> occurs_at (bytes_of_all (map frame_item (f :: l)) ++ rest) data p -> p + frames_len (f :: l) + zlen rest = zlen data -> 8 * (p + frames_len (f :: l)) <= 8 * p + 8 * n <= 8 * zlen data -> 8 * (p + frames_len (f :: l)) <= MAX_FILESIZE ->
  (forall b x, rest = b :: x -> b <> 255) -> exists k e z, run read (8 * zlen data) Frames_fields true (8 * p + 8 * n) (8 * p) = (k, e, z) /\
  frames_content_size read (8 * zlen data) (G (lit "frames") (8 * p) (8 * n) k e) = Ok (Some (8 * (p + frames_len (f :: l)) + (if str_eqb (firstn 3 rest) (lit "TAG") then 1024 else 0))).
Proof using Hs Hb He.
  intros K Kl P O Ld B M N. pose proof O as O'. apply occ_app in O' as [O1 O2]. fold (frames_len (f :: l)) in O2. cbn [map] in O1. rewrite bytes_of_all_cons in O1. apply occ_app in O1 as [Of Ol]. change (bytes_of (frame_item f)) with (bytes_of_all (frame_items f)) in Of, Ol. destruct (flen_ok f K) as [L Lf]. rewrite L in Ol. rewrite frames_len_cons in * by exact K. pose proof (zlen_nonneg (bytes_of_all (map frame_item l))) as L0. fold (frames_len l) in L0.
  destruct (frames_start f n (8 * p + 8 * n) p K P Of ltac:(lia) ltac:(lia) ltac:(lia)) as (k & e & z & R). do 3 eexists. split; [exact R|]. cbn [frames_content_size find]. change (str_eqb (lit "frame[]") (lit "frame[]")) with true. cbn iota. cbn [f_size]. replace (8 * p + 8 * flen f) with (8 * (p + flen f)) by lia.
  assert (Er : sub data (p + flen f + frames_len l) (zlen data - (p + flen f + frames_len l)) = rest) by (destruct O2 as (_ & _ & O2); replace (zlen data - (p + flen f + frames_len l)) with (zlen rest) by lia; rewrite <- Z.add_assoc; exact O2).
  assert (Lq : forall l', Forall frame_ok l' -> Z.of_nat (List.length l') <= frames_len l') by (induction 1 as [|g l' Kg _ IH]; [cbn; lia|]; rewrite frames_len_cons by exact Kg; destruct (flen_ok g Kg); cbn [List.length]; lia). specialize (Lq l Kl).
  rewrite content_frames with (l := l); [|lia|lia|exact Kl|exact Ol|lia|lia|lia|intros b x E; apply (N b x); rewrite <- E; symmetry; exact Er]. cbn [bind]. replace (8 * (p + (flen f + frames_len l))) with (8 * (p + flen f + frames_len l)) by lia. set (q := p + flen f + frames_len l) in *.
  assert (R3 : match readBytes read (8 * q) 3 with Ok b => if str_eqb b (lit "TAG") then 8 * q + 128 * 8 else 8 * q | Err _ => 8 * q end = 8 * q + (if str_eqb (firstn 3 rest) (lit "TAG") then 1024 else 0)).
  { destruct (Z_le_dec (q + 3) (zlen data)) as [Le|Gt].
    - rewrite (sub_read read data) by (auto; lia). replace (sub data q 3) with (firstn 3 rest); [destruct (str_eqb _ _); lia|]. rewrite <- Er. unfold sub. rewrite firstn_firstn. f_equal. change (Z.to_nat 3) with 3%nat. lia.
    - assert (Sh : str_eqb (firstn 3 rest) (lit "TAG") = false). { destruct (str_eqb (firstn 3 rest) (lit "TAG")) eqn:X; [|reflexivity]. apply str_eqb_eq in X. apply (f_equal (@zlen Z)) in X. change (zlen (lit "TAG")) with 3 in X. unfold zlen in X. rewrite firstn_length in X. unfold zlen in Ld, Gt. unfold q in Gt. lia. }
      rewrite Sh. unfold readBytes. rewrite He by lia. cbn [bind]. lia. }
  rewrite R3. reflexivity.
Qed.
End Content.
(** The size of the content: everything up to the end of the ID3v1 tag, or of the last frame when there is none, whatever follows as long as it is not a frame nor a tag; for at most 200 MB.
    A file with bytes after the tag or the frames must not have "TAG" 128 bytes before its end. *)
Theorem C85_content_size : forall read m f l rest, let data := bytes_of_all (mp3_items m) ++ rest in serves read data -> ends read data -> is_bytes data -> mp3_ok m -> p_frames m = f :: l ->
  8 * zlen (bytes_of_all (tag2_part m ++ frames_part m)) <= 200 * 1024 * 1024 * 8 ->
  (p_tag1 m = None \/ rest <> [] -> no_tag data) -> (p_tag1 m = None -> forall b x, rest = b :: x -> b <> 255 /\ firstn 3 rest <> lit "TAG") ->
  mpeg_content_size read (8 * zlen data) = Ok (Some (8 * zlen (bytes_of_all (mp3_items m)))).
Proof.
  intros read m f l rest data Hs He Hb K Ef Mx Nt Nr. pose proof K as (K2 & Kf & K1). pose proof Kf as Kf'. rewrite Ef in Kf'. pose proof (Forall_inv Kf') as K0. destruct (flen_ok f K0) as [L Lf].
  set (p := zlen (bytes_of_all (tag2_part m))) in *. pose proof (zlen_nonneg (bytes_of_all (tag2_part m))) as P0. fold p in P0. set (rest' := bytes_of_all (tag1_part m) ++ rest). assert (Ed : data = bytes_of_all (tag2_part m) ++ bytes_of_all (map frame_item (f :: l)) ++ rest'). { unfold data, mp3_items, rest'. rewrite !bytes_of_all_app, <- !app_assoc. do 2 f_equal. unfold frames_part. rewrite Ef. rewrite bytes_of_all_cons, app_nil_r. reflexivity. }
  rewrite bytes_of_all_app, zlen_app, frames_part_len, Ef in Mx. fold p in Mx. assert (O : occurs_at (bytes_of_all (map frame_item (f :: l)) ++ rest') data p) by (pose proof (occ_pre (bytes_of_all (tag2_part m)) (bytes_of_all (map frame_item (f :: l)) ++ rest') []) as X; rewrite app_nil_r, <- Ed in X; exact X).
  assert (Ld : p + frames_len (f :: l) + zlen rest' = zlen data) by (rewrite Ed, !zlen_app; fold p; unfold frames_len; lia). pose proof (zlen_nonneg rest') as Lr. assert (L0 : flen f <= frames_len (f :: l)) by (rewrite frames_len_cons by exact K0; pose proof (zlen_nonneg (bytes_of_all (map frame_item l))); unfold frames_len; lia).
  (* the field set of frames *)
  assert (Has : exists has : bool, (do b <- readBytes read (8 * zlen data - 128 * 8) 3; Ok (VNum (if str_eqb b (lit "TAG") then 1 else 0))) = Ok (VNum (if has then 1 else 0)) /\ 0 <= 8 * zlen data - 128 * 8 /\ (has = true -> p + frames_len (f :: l) <= zlen data - 128) \/ 8 * zlen data - 128 * 8 < 0 /\ has = false).
  { destruct (Z_le_dec 0 (8 * zlen data - 128 * 8)) as [Ge|Lt]; [|exists false; right; split; [lia|reflexivity]]. replace (8 * zlen data - 128 * 8) with (8 * (zlen data - 128)) by lia. rewrite (sub_read read data) by (auto; lia). cbn [bind]. exists (str_eqb (sub data (zlen data - 128) 3) (lit "TAG")). left. split; [destruct (str_eqb _ _); reflexivity|]. split; [lia|]. intros T. apply str_eqb_eq in T.
    destruct (p_tag1 m) as [t|] eqn:E1; [|exfalso; apply (Nt (or_introl eq_refl)); [lia|exact T]]. assert (Rn : rest = [] \/ rest <> []) by (clear; destruct rest; [left; reflexivity|right; discriminate]). destruct Rn as [Rn|Rn]; [|exfalso; apply (Nt (or_intror Rn)); [lia|exact T]]. unfold rest', tag1_part in Ld. rewrite E1 in Ld. rewrite Rn, app_nil_r, bytes_of_all_cons, app_nil_r in Ld. change (bytes_of (ISet (lit "id3v1") (tag1_items t))) with (bytes_of_all (tag1_items t)) in Ld. rewrite tag1_len in Ld by (destruct K1; assumption). lia. }
  destruct Has as (has & Hh). set (n := zlen data - p - if has then 128 else 0). assert (Bn : 8 * (p + frames_len (f :: l)) <= 8 * p + 8 * n <= 8 * zlen data) by (unfold n; destruct Hh as [(_ & G & T)|[G ->]]; [destruct has; [specialize (T eq_refl)|]; lia|lia]).
  assert (N' : forall b x, rest' = b :: x -> b <> 255). { unfold rest', tag1_part. destruct (p_tag1 m) as [t|] eqn:E1; [|cbn [app]; intros b x E; apply (Nr eq_refl b x E)]. destruct (tag1_first t) as (x & Ex). intros b y. rewrite bytes_of_all_cons. change (bytes_of (ISet (lit "id3v1") (tag1_items t))) with (bytes_of_all (tag1_items t)). rewrite Ex. cbn [lit app]. intros E. injection E as <- _. discriminate. }
  destruct (frames_size read data Hs Hb He f l n p rest' K0 (Forall_inv_tail Kf') P0 O Ld Bn Mx N') as (k & e & z & R & Cs).
  assert (Eq : forall first, exists e' z' r, run read (8 * zlen data) frames_and_id3v1 first (8 * zlen data) (8 * p) = (G (lit "frames") (8 * p) (8 * n) k e :: r, e', z')).
  { intros first. unfold frames_and_id3v1. cbn [GenModel.run]. assert (X : (if 0 <=? 8 * zlen data - 128 * 8 then do b <- readBytes read (8 * zlen data - 128 * 8) 3; Ok (VNum (if str_eqb b (lit "TAG") then 1 else 0)) else Ok (VNum 0)) = Ok (VNum (if has then 1 else 0))) by (destruct Hh as [(E & G & _)|[G ->]]; [replace (0 <=? 8 * zlen data - 128 * 8) with true by lia; exact E|replace (0 <=? 8 * zlen data - 128 * 8) with false by lia; reflexivity]).
    rewrite X. cbn [num]. replace (8 * zlen data - 8 * p - (if (if has then 1 else 0) =? 1 then 128 * 8 else 0)) with (8 * n) by (unfold n; destruct has; cbn [Z.eqb Pos.eqb]; lia). replace (negb (8 * n =? 0)) with true by lia. cbn [when].
    rewrite (step_set read (8 * zlen data) (lit "frames") (8 * n) Frames_fields _ first (8 * zlen data) (8 * p) k e z (8 * p + 8 * n)); [|exact R|lia|reflexivity|lia]. match goal with |- context [put _ ?x] => destruct x as [[r e'] z'] end. do 3 eexists. reflexivity. }
  assert (Tg : zlen (bytes_of_all (mp3_items m)) = p + frames_len (f :: l) + (if str_eqb (firstn 3 rest') (lit "TAG") then 128 else 0)).
  { unfold mp3_items. rewrite !bytes_of_all_app, !zlen_app, frames_part_len, Ef. fold p. unfold rest', tag1_part. destruct (p_tag1 m) as [t|] eqn:E1.
    - destruct (tag1_first t) as (x & Ex). rewrite bytes_of_all_cons, app_nil_r. change (bytes_of (ISet (lit "id3v1") (tag1_items t))) with (bytes_of_all (tag1_items t)). rewrite tag1_len by (destruct K1; assumption). rewrite Ex. change (firstn 3 ((lit "TAG" ++ x) ++ rest)) with (lit "TAG"). change (str_eqb (lit "TAG") (lit "TAG")) with true. cbn iota. lia.
    - cbn [app bytes_of_all flat_map]. change (zlen (@nil Z)) with 0. destruct (str_eqb (firstn 3 rest) (lit "TAG")) eqn:T; [|lia]. exfalso. apply str_eqb_eq in T. destruct rest as [|b x]; [discriminate T|]. exact (proj2 (Nr eq_refl b x eq_refl) T). }
  unfold mpeg_content_size, MpegAudioFile, mpeg_fields. cbn [GenModel.run].
  assert (R3 : readBytes read 0 3 = Ok (firstn 3 data)). { change 0 with (8 * 0) at 1. rewrite (sub_read read data) by (auto; lia). reflexivity. }
  rewrite R3. cbn [bind bytes]. unfold tag2_part in p, Ed. destruct (p_tag2 m) as [t|] eqn:E2.
  - destruct (tag2_first t) as (x & Ex). rewrite bytes_of_all_cons, app_nil_r in Ed. change (bytes_of (ISet (lit "id3v2") (tag2_items t))) with (bytes_of_all (tag2_items t)) in Ed. assert (F3 : firstn 3 data = lit "ID3") by (rewrite Ed, Ex; reflexivity). rewrite F3. change (str_eqb (lit "ID3") (lit "ID3")) with true. cbn [when].
    assert (Ep : p = zlen (bytes_of_all (tag2_items t))) by (unfold p; rewrite bytes_of_all_cons, app_nil_r; reflexivity). assert (Ob : obeys read data (8 * zlen data) 0 (ID3v2 frames_and_id3v1) [ISet (lit "id3v2") (tag2_items t)] frames_and_id3v1) by (apply tag2_obeys; [exact Hs|exact Hb|exact K2|apply ob_nil]).
    assert (Fi : fits data (8 * zlen data) 0 [ISet (lit "id3v2") (tag2_items t)]). { unfold fits. rewrite bytes_of_all_cons, app_nil_r. change (bytes_of (ISet (lit "id3v2") (tag2_items t))) with (bytes_of_all (tag2_items t)). split; [rewrite Ed; apply (occ_pre [])|lia]. }
    pose proof (follow read data Hs Hb _ _ _ _ _ (Ob Fi) true (proj1 Fi) ltac:(destruct Fi; lia)) as Rn. change (8 * 0) with 0 in Rn. rewrite Rn. unfold puts. rewrite bytes_of_all_cons, app_nil_r. change (bytes_of (ISet (lit "id3v2") (tag2_items t))) with (bytes_of_all (tag2_items t)). rewrite Z.add_0_l, <- Ep. destruct (Eq (after_items [ISet (lit "id3v2") (tag2_items t)] true)) as (e' & z' & r & ->). cbn [fst snd shows]. rewrite show_set. cbn [app f_name]. change (str_eqb (lit "id3v2") (lit "frames")) with false. change (str_eqb (lit "frames") (lit "frames")) with true. cbn iota. rewrite Cs. do 2 f_equal. rewrite Tg. destruct (str_eqb _ _); lia.
  - assert (Ep : p = 0) by reflexivity. assert (F3 : str_eqb (firstn 3 data) (lit "ID3") = false). { change (bytes_of_all []) with (@nil Z) in Ed. cbn [app map] in Ed. destruct (frame_first f) as (x & Ex). rewrite bytes_of_all_cons in Ed. change (bytes_of (frame_item f)) with (bytes_of_all (frame_items f)) in Ed. rewrite Ex in Ed. rewrite Ed. reflexivity. }
    rewrite F3. cbn [when]. destruct (Eq true) as (e' & z' & r & E). rewrite Ep in E. change (8 * 0) with 0 in E. rewrite E. cbn [f_name]. change (str_eqb (lit "frames") (lit "frames")) with true. cbn iota. rewrite Ep in Cs. change (8 * 0) with 0 in Cs. rewrite Cs. do 2 f_equal. rewrite Tg, Ep. destruct (str_eqb _ _); lia.
Qed.
Print Assumptions C85_content_size.
(** ** Files that meet the hypotheses *)
Definition small (rate mode : Z) : frame :=
  {| a_mpeg := Mpeg25; a_layer := Layer3; a_crc := true; a_rate := rate; a_sampling := 2; a_padded := false; a_ext := false; a_mode := mode; a_mode_ext := 1; a_copyright := true; a_original := false; a_emphasis := 1;
     a_data := repeat 5 (Z.to_nat (frame_len Mpeg25 Layer3 rate 2 false - 4)) |}.
Definition song1 : tag1 := {| t_song := lit "Blue" ++ repeat 0 26; t_author := lit "Someone" ++ repeat 32 23; t_album := repeat 0 30; t_year := lit "1999"; t_comment := Track1 (lit "Hello" ++ repeat 0 23) 7; t_genre := 17 |}.
Definition song2 : tag2 :=
  {| g_ver := 3; g_exp := false; g_frames := [{| f_tag := lit "TIT2"; f_alter := false; f_file := true; f_ro := false; f_packed := false; f_content := Words Latin (lit "Blue") |};
     {| f_tag := lit "COMM"; f_alter := false; f_file := false; f_ro := false; f_packed := false; f_content := Remark Wide_le (lit "eng") [97; 0] [98; 0; 99; 0] |}]; g_padding := Some 5%nat |}.
Definition blue : mp3 := {| p_tag2 := Some song2; p_frames := [small 1 3; small 1 3; small 4 3; small 2 3; small 1 3]; p_tag1 := Some song1 |}.
Lemma small_ok rate mode : In rate [1; 2; 4] -> 0 <= mode < 4 -> frame_ok (small rate mode).
Proof. intros I M. unfold frame_ok, small. cbn [a_rate a_sampling a_mode a_mode_ext a_emphasis a_data a_mpeg a_layer a_padded]. repeat split; try lia; try (destruct I as [<-|[<-|[<-|[]]]]; (discriminate || reflexivity || (vm_compute; discriminate))). Qed.
Lemma blue_ok : mp3_ok blue.
Proof.
  split; [|split].
  - split; [cbn; lia|]. split; [|vm_compute; reflexivity]. constructor; [|constructor; [|constructor]].
    + split; [change (Forall tag_char [84; 73; 84; 50]); repeat constructor; unfold tag_char; lia|]. split; [reflexivity|]. split; [vm_compute; split; reflexivity|]. split; [|intros X; destruct (X eq_refl)]. split; [exists (lit "IT2"); reflexivity|]. split; [|vm_compute; discriminate]. intros I. unfold special in I. cbn [In map] in I. repeat (destruct I as [I|I]; [vm_compute in I; discriminate I|]). destruct I.
    + split; [change (Forall tag_char [67; 79; 77; 77]); repeat constructor; unfold tag_char; lia|]. split; [reflexivity|]. split; [vm_compute; split; reflexivity|]. split; [|intros X; destruct (X eq_refl)]. split; [left; reflexivity|]. split; [reflexivity|]. split; [split; [reflexivity|]|vm_compute; discriminate]. intros y z E. destruct y as [|a [|b y]]; cbn [app] in E; [discriminate E|injection E as _ E; discriminate E|]. injection E as _ _ E. destruct y; discriminate E.
  - repeat constructor; apply small_ok; cbn [In]; try lia; tauto.
  - split; [|split; [cbn; lia|exact Logic.I]]. repeat split; try (vm_compute; reflexivity); cbn; lia.
Qed.
Lemma bytes_checked l : forallb (fun b => (0 <=? b) && (b <? 256)) l = true -> is_bytes l.
Proof. intros H. apply Forall_forall. rewrite forallb_forall in H. intros b I. specialize (H b I). unfold is_byte. lia. Qed.
Definition blue_bytes : list Z := Eval vm_compute in bytes_of_all (mp3_items blue).
Example C85_ex : mp3_ok blue /\ is_bytes (bytes_of_all (mp3_items blue)) /\ zlen (bytes_of_all (mp3_items blue)) = 842 /\ ~ Forall (alike (small 1 3)) (firstn 10 (tl (p_frames blue))) /\ firstn 2 (skipn 3 (p_frames blue)) <> [] /\
  fst (fst (MpegAudioFile (string_read blue_bytes) (8 * zlen blue_bytes))) = shows (mp3_items blue) 0 /\ mpeg_content_size (string_read (blue_bytes ++ [1; 2])) (8 * zlen (blue_bytes ++ [1; 2])) = Ok (Some (8 * 842)) /\
  mpeg_description (shows (mp3_items blue) 0) = Ok (lit "MPEG-2.5 layer III, 8.0 Kbit/sec, 8.0 kHz, Single channel").
Proof.
  split; [exact blue_ok|]. split; [apply bytes_checked; vm_compute; reflexivity|]. split; [vm_compute; reflexivity|]. split; [intros F; apply Forall_inv_tail, Forall_inv in F; destruct F as (_ & _ & F); discriminate F|]. split; [discriminate|]. repeat split; vm_compute; reflexivity.
Qed.
Definition latin : TextModel.codec_fun := fun _ b => inl b.
Example C85_values : writes plain_env /\ kept_text plain_env (format_text (small 1 3)) /\
  let m := mpeg_metadata latin plain_env (fun _ => []) root 250 (shows (mp3_items blue) 0) in getValues m (lit "sample_rate") = Ok [MInt 8000] /\ getValues m (lit "title") = Ok [MStr (lit "Blue")] /\ getValues m (lit "author") = Ok [MStr (lit "Someone")] /\
  getValues m (lit "comment") = Ok [MStr (lit "Hello"); MStr [97; 58; 32; 98; 0; 99]] /\ getValues m (lit "track_number") = Ok [MInt 7].
Proof. split; [intros h v; eexists; reflexivity|]. split; [repeat split; [discriminate|right; vm_compute; discriminate]|]. repeat split; vm_compute; reflexivity. Qed.
(** Only the first eleven frames are compared: a file whose later frames have another bit rate is told to have a constant bit rate, and its duration is wrong: here 6.552 seconds for 2.232. *)
Definition later : mp3 := {| p_tag2 := None; p_frames := repeat (small 1 0) 11 ++ repeat (small 4 0) 20; p_tag1 := None |}.
Theorem C85_duration_refuted : exists m f, mp3_ok m /\ Forall (fun g => a_mpeg g = a_mpeg f /\ a_layer g = a_layer f /\ a_sampling g = a_sampling f) (p_frames m) /\ let data := bytes_of_all (mp3_items m) in no_tag data /\
  getValues (mpeg_metadata latin plain_env (fun _ => []) root 250 (fst (fst (MpegAudioFile (string_read data) (8 * zlen data))))) (lit "duration") = Ok [MTimedelta 6552000] /\
  zlen (p_frames m) * samples (a_mpeg f) (a_layer f) * 1000000 = 2232000 * hertz (a_mpeg f) (a_sampling f).
Proof.
  exists later, (small 1 0). split; [split; [exact Logic.I|split; [|exact Logic.I]]; apply Forall_app; split; apply Forall_forall; intros f I; apply repeat_spec in I; subst f; apply small_ok; cbn [In]; lia || tauto|]. split; [apply Forall_app; split; apply Forall_forall; intros f I; apply repeat_spec in I; subst f; repeat split|].
  cbv zeta. split; [intros _; vm_compute; discriminate|]. split; [vm_compute; reflexivity|vm_compute; reflexivity].
Qed.
Print Assumptions C85_duration_refuted.
(** The size of the content is counted from the start of the frames as if the first one were there: when bytes come before it, the content is cut after one frame. *)
Theorem C85_padding_refuted : exists m pad, mp3_ok m /\ p_tag2 m = None /\ p_tag1 m = None /\ let data := pad ++ bytes_of_all (mp3_items m) in
  frame_list (fst (fst (MpegAudioFile (string_read data) (8 * zlen data)))) = frames_shown (p_frames m) (zlen pad) /\ zlen data = 145 /\ mpeg_content_size (string_read data) (8 * zlen data) = Ok (Some (8 * 72)).
Proof.
  exists {| p_tag2 := None; p_frames := [small 1 0; small 1 0]; p_tag1 := None |}, [0]. split; [split; [exact Logic.I|split; [|exact Logic.I]]; repeat constructor; apply small_ok; cbn [In]; lia || tauto|]. repeat split; vm_compute; reflexivity.
Qed.
Print Assumptions C85_padding_refuted.

(** C87: what the parser of Sun and NeXT sounds (.au) shows, and the metadata taken from them. *)
From Coq Require Import String.
From Verif Require Import Base BaseProofs BitsModel BitsSpec BitsProofs StreamModel StreamSpec StreamProofs StreamProofs2 DictModel DictProofs FieldModel FieldNames ToolsModel NumSpec NumRead ChunkBase GenModel GenSpec GenProofs ItemSpec ItemProofs ItemProofs2 ExtractModel ExtractProofs AuModel AuSpec Lit.
From Verif Require MetaModel RasterModel MpegModel TextModel PropertiesGifFile PropertiesId3 PropertiesRaster.
From Verif Require Import MetaProofs2 MpegMeta.
Open Scope Z_scope.
Ltac Zify.zify_post_hook ::= Z.div_mod_to_equations.

Section Read.
Context (read : read_fun) (data : list Z) (Hs : serves read data) (Hb : is_bytes data).
Notation obeys := (obeys read data).
Ltac obn := apply (ob_plain read data); [split; [discriminate|split; [lia|unfold u32_ok in *; first [assumption|lia]]]|reflexivity|]; cbn [plain_val num].
Lemma au_obeys s told stop : au_ok s -> u32_ok told -> Z.min told ((stop - 8 * (24 + zlen (s_info s))) / 8) = zlen (s_sound s) -> obeys stop 0 au_fields (au_items s told) PRet.
Proof using Type.
  intros (K1 & K2 & K3 & Li & N & Ls) T M. pose proof (zlen_nonneg (s_info s)) as Z0. unfold au_fields, u32, au_items, be4. cbn [app]. apply (ob_plain read data); [split; vm_compute; discriminate|reflexivity|]. change (2 ^ 32) with 4294967296 in *. do 5 obn.
  apply ob_ask. unfold len. cbn [bytes_of plain_bytes]. rewrite !zlen_uint. change (zlen (lit ".snd")) with 4. cbv zeta. replace (8 * (0 + 4 + Z.of_nat 4 + Z.of_nat 4 + Z.of_nat 4 + Z.of_nat 4 + Z.of_nat 4) / 8) with 24 by lia. replace (24 + zlen (s_info s) - 24) with (zlen (s_info s)) by lia.
  assert (F : forall p, p = 24 + zlen (s_info s) -> obeys stop p (PAsk (fun stop a => emit (lit "audio_data") (KBytes (Z.min told ((stop - a) / 8))); PRet)) [I (lit "audio_data") (SBytes (s_sound s))] PRet).
  { intros p ->. apply ob_ask. rewrite M. apply (ob_plain read data); [split; [exact N|change (2 ^ 64) with 18446744073709551616; lia]|reflexivity|apply ob_nil]. }
  revert Li F. destruct (s_info s) as [|b x]; intros Li F; [change (0 <? zlen (@nil Z)) with false; cbn [when app]; apply F; reflexivity|]. assert (1 <= zlen (b :: x)) by (rewrite zlen_cons; pose proof (zlen_nonneg x); lia). replace (0 <? zlen (b :: x)) with true by lia. cbn [when app].
  apply (ob_plain read data); [split; [discriminate|exact Li]|reflexivity|]. apply F. unfold len. cbn [bytes_of plain_bytes]. lia.
Qed.
End Read.
Lemma au_len_eq s told : zlen (bytes_of_all (au_items s told)) = au_len s.
Proof.
  unfold au_items, au_len. rewrite !bytes_of_all_app, !zlen_app. change (zlen (bytes_of_all [_; _; _; _; _; _])) with 24. rewrite (bytes_of_all_cons (I (lit "audio_data") _)). cbn [bytes_of plain_bytes]. change (bytes_of_all []) with (@nil Z). rewrite app_nil_r. destruct (s_info s) as [|b x]; [reflexivity|]. rewrite bytes_of_all_cons. cbn [bytes_of plain_bytes]. change (bytes_of_all []) with (@nil Z). rewrite app_nil_r. lia.
Qed.
(** For every sound, whatever follows it *)
Theorem C87_file : forall read s rest, let data := bytes_of_all (au_items s (zlen (s_sound s))) ++ rest in serves read data -> is_bytes data -> au_ok s ->
  AuFile read (8 * zlen data) = (shows (au_items s (zlen (s_sound s))) 0, None, 8 * au_len s).
Proof.
  intros read s rest data Hs Hb K. unfold AuFile. rewrite <- (au_len_eq s (zlen (s_sound s))). apply (obey_all read data Hs Hb); [|apply (occ_pre [])]. apply au_obeys; [exact K|split; [apply zlen_nonneg|apply K]|]. unfold data. rewrite zlen_app, au_len_eq. unfold au_len. pose proof (zlen_nonneg rest). lia.
Qed.
Print Assumptions C87_file.
(** For every sound whose size is told greater than it is, as the one of a sound not yet ended is (2^32 - 1): the sound is all of the rest of the file *)
Theorem C87_unknown : forall read s told, let data := bytes_of_all (au_items s told) in serves read data -> is_bytes data -> au_ok s -> zlen (s_sound s) <= told < 2 ^ 32 ->
  AuFile read (8 * zlen data) = (shows (au_items s told) 0, None, 8 * au_len s).
Proof.
  intros read s told data Hs Hb K T. unfold AuFile. rewrite <- (au_len_eq s told). apply (obey_all read data Hs Hb); [|apply occ_self]. apply au_obeys; [exact K|split; [pose proof (zlen_nonneg (s_sound s)); lia|apply T]|]. unfold data. rewrite au_len_eq. unfold au_len. lia.
Qed.
Print Assumptions C87_unknown.
(** Every file: the fields follow each other from the start and end inside the file. *)
Theorem C87_any : forall read data, serves read data -> ends read data -> is_bytes data -> data <> [] ->
  let '(l, e, b) := AuFile read (8 * zlen data) in tiled 0 l b /\ b <= 8 * zlen data /\ settled_file (l, e, b).
Proof.
  intros read data Hs He Hb Hd. apply (any_file read data Hs Hb He Hd). unfold au_fields, u32. do 6 calm_step. apply safe_ask. intros stop a A M. cbv zeta. destruct (0 <? _); cbn [when]; [calm_step|]; apply safe_ask; intros; repeat calm_step.
Qed.
Print Assumptions C87_any.
(** Sounds of one or two channels are accepted, and no other; the size of the content is the one of the sound and what precedes it. *)
Theorem C87_valid : forall read s rest, let data := bytes_of_all (au_items s (zlen (s_sound s))) ++ rest in serves read data -> is_bytes data -> au_ok s ->
  let l := fst (fst (AuFile read (8 * zlen data))) in au_validate read l = Ok ((s_channels s =? 1) || (s_channels s =? 2)) /\ au_content_size l = Ok (8 * au_len s).
Proof.
  intros read s rest data Hs Hb K. unfold data. rewrite C87_file by assumption. cbn [fst]. cbv zeta. split.
  - unfold au_validate. assert (O : occurs_at (lit ".snd") data 0) by (unfold data, au_items; cbn [app]; rewrite bytes_of_all_cons, <- app_assoc; exact (occ_pre [] (lit ".snd") _)). pose proof (rb_occ read data Hs 0 _ O ltac:(discriminate)) as R. change (8 * 0) with 0 in R. change (zlen (lit ".snd")) with 4 in R. rewrite R. cbn [bind]. reflexivity.
  - unfold au_content_size. change (RasterModel.value "data_ofs" (shows (au_items s (zlen (s_sound s))) 0)) with (Ok (24 + zlen (s_info s))). change (RasterModel.value "data_size" (shows (au_items s (zlen (s_sound s))) 0)) with (Ok (zlen (s_sound s))). cbn [bind]. unfold au_len. f_equal. lia.
Qed.
Print Assumptions C87_valid.
(** When the size is not told (2^32 - 1), the size of the content is more than 4 gigabytes, whatever the file (au.py:90-91), though the sound is shown up to the end of the file. *)
Theorem C87_unknown_refuted : forall read s, let data := bytes_of_all (au_items s (2 ^ 32 - 1)) in serves read data -> is_bytes data -> au_ok s -> zlen (s_sound s) < 2 ^ 32 - 1 ->
  exists n, au_content_size (fst (fst (AuFile read (8 * zlen data)))) = Ok n /\ 8 * zlen data < n.
Proof.
  intros read s data Hs Hb K L. assert (Ls : zlen (s_sound s) < 2 ^ 32) by apply K. unfold data. rewrite C87_unknown by (try assumption; change (2 ^ 32) with 4294967296 in *; lia). cbn [fst]. exists ((24 + zlen (s_info s) + (2 ^ 32 - 1)) * 8). split; [reflexivity|]. rewrite au_len_eq. unfold au_len. change (2 ^ 32) with 4294967296 in *. lia.
Qed.
Print Assumptions C87_unknown_refuted.
(** ** Metadata *)
Import MetaModel.
Lemma info_of k : match find (fun x => fst x =? k) encodings with Some x => option_map snd (codec_info k) = Some (snd x) | None => codec_info k = None end.
Proof. destruct k as [|p|p]; try reflexivity. do 5 (destruct p as [p|p|]; try reflexivity). Qed.
Lemma bits_of k : getBitsPerSample k = option_map snd (find (fun x => fst x =? k) sample_bits).
Proof. destruct k as [|p|p]; try reflexivity. do 5 (destruct p as [p|p|]; try reflexivity). Qed.
Lemma step_q e ks m key d v : writes e -> same ks root m -> find_data root (lit key) = Some d -> d_conv d = None -> d_values d = [] -> forallb (fun k => negb (str_eqb (lit k) (lit key))) ks = true ->
  match d_type d with Some ts => existsb (isinstance v) ts | None => true end = true -> quantity v ->
  exists m', assign e m [(key, v)] = (m', true) /\ same (ks ++ [key]) root m' /\ getValues m' (lit key) = Ok (if passes d v then [v] else []) /\ same [key] m m'.
Proof.
  intros W S D C V F T Q. destruct (step_arg e ks m key d v (AVal v) W S D C V F T Q (or_introl eq_refl)) as (m' & E & S' & G & U). exists m'. cbn [assign]. rewrite E. repeat (split; [reflexivity||assumption|]). exact U.
Qed.
Lemma none_found m key : getValues m (lit key) = Ok [] -> has_key m key = false.
Proof. unfold getValues, has_key, MetaModel.has. destruct (getItems m (lit key)) as [l|]; [|discriminate]. cbn [bind]. intros E. injection E as E. destruct l; [reflexivity|discriminate]. Qed.
Definition bits_told (k : Z) : list mval := match find (fun x => fst x =? k) sample_bits with Some (_, b) => [MInt b] | None => [] end.
Theorem C87_metadata : forall e read s rest, let data := bytes_of_all (au_items s (zlen (s_sound s))) ++ rest in writes e -> serves read data -> is_bytes data -> au_ok s -> let m := au_metadata e (fst (fst (AuFile read (8 * zlen data)))) in
  getValues m (lit "sample_rate") = Ok (in_limits 1000 192000 (s_rate s)) /\ getValues m (lit "nb_channel") = Ok (in_limits 1 8 (s_channels s)) /\ getValues m (lit "bits_per_sample") = Ok (bits_told (s_codec s)) /\
  (forall name, In (s_codec s, name) encodings -> kept_text e (lit name) -> getValues m (lit "compression") = Ok [MStr (lit name)]) /\
  (forall text, s_info s <> [] -> PropertiesId3.trimmed (s_info s) text -> kept_text e text -> getValues m (lit "comment") = Ok [MStr text]) /\
  (forall bits, In (s_codec s, bits) sample_bits -> 1000 <= s_rate s <= 192000 -> 1 <= s_channels s <= 8 -> let bit_rate := s_rate s * s_channels s * bits in
     getValues m (lit "bit_rate") = Ok [MInt bit_rate] /\ exists us, Z.abs (us * bit_rate - 1000000 * (8 * zlen (s_sound s))) < bit_rate /\ getValues m (lit "duration") = Ok (in_year us)).
Proof.
  intros e read s rest data W Hs Hb K. unfold data. rewrite C87_file by assumption. cbn [fst]. cbv zeta. clear data Hs Hb. set (l := shows (au_items s (zlen (s_sound s))) 0). assert (Sz : size_of (lit "audio_data") l = Some (8 * zlen (s_sound s))) by (unfold l, au_items, be4; cbn [app]; destruct (s_info s); reflexivity).
  assert (In_ : GenModel.get (lit "info") l = match s_info s with [] => None | x => Some (VBytes x) end) by (unfold l, au_items, be4; cbn [app]; destruct (s_info s); reflexivity).
  remember (au_metadata e l) as mm eqn:Em. symmetry in Em. revert Em. unfold au_metadata, au_extract, ask. rewrite Sz, In_. change (GenModel.get (lit "sample_rate") l) with (Some (VNum (s_rate s))). change (GenModel.get (lit "channels") l) with (Some (VNum (s_channels s))). change (GenModel.get (lit "codec") l) with (Some (VNum (s_codec s))). cbn [num].
  destruct (step_q e [] root "sample_rate" _ (MInt (s_rate s)) W (same_refl _ _) eq_refl eq_refl eq_refl eq_refl eq_refl Logic.I) as (m1 & A1 & T1 & V1 & S1). rewrite A1. unfold andthen at 1. cbn [fst snd].
  destruct (step_q e _ m1 "nb_channel" _ (MInt (s_channels s)) W T1 eq_refl eq_refl eq_refl eq_refl eq_refl Logic.I) as (m2 & A2 & T2 & V2 & S2). rewrite A2. unfold andthen at 1. cbn [fst snd].
  destruct (PropertiesRaster.step_told e _ m2 "compression" (RasterModel.enum (option_map snd (codec_info (s_codec s))) (s_codec s)) W T2) as (m3 & A3 & T3 & V3 & S3); [eexists; split; [reflexivity|split; [reflexivity|split; [left; reflexivity|split; reflexivity]]]|reflexivity|]. rewrite A3. unfold andthen at 1. cbn [fst snd].
  match goal with |- context [andthen (match match s_info s with [] => None | _ => _ end with Some v => _ | None => _ end) _] => idtac end.
  assert (X : exists m4, match match s_info s with [] => None | x => Some (VBytes x) end with Some v => assign e m3 [("comment"%string, MStr (TextModel.strip MpegModel.blank (bytes v)))] | None => (m3, true) end = (m4, true) /\ same (["sample_rate"; "nb_channel"; "compression"; "comment"]%string) root m4 /\ same ["comment"%string] m3 m4 /\
    (forall text, s_info s <> [] -> PropertiesId3.trimmed (s_info s) text -> kept_text e text -> getValues m4 (lit "comment") = Ok [MStr text])).
  { destruct (s_info s) as [|b x]; [exists m3; split; [reflexivity|]; split; [apply (same_trans _ ["comment"%string] _ _ _ T3), same_refl|]; split; [apply same_refl|]; intros text N; contradiction|].
    destruct (PropertiesRaster.step_told e _ m3 "comment" (TextModel.strip MpegModel.blank (b :: x)) W T3) as (m4 & A4 & T4 & V4 & S4); [eexists; split; [reflexivity|split; [reflexivity|split; [right; reflexivity|split; reflexivity]]]|reflexivity|].
    exists m4. split; [exact A4|]. split; [exact T4|]. split; [exact S4|]. intros text _ Tr Kt. rewrite (PropertiesId3.strip_trimmed _ _ Tr) in V4. apply V4, Kt. }
  destruct X as (m4 & A4 & T4 & S4 & V4). rewrite A4. unfold andthen at 1. cbn [fst snd].
  assert (X : exists m5, match getBitsPerSample (s_codec s) with Some b => assign e m4 [("bits_per_sample"%string, MInt b)] | None => (m4, true) end = (m5, true) /\ same (["sample_rate"; "nb_channel"; "compression"; "comment"; "bits_per_sample"]%string) root m5 /\ same ["bits_per_sample"%string] m4 m5 /\
    getValues m5 (lit "bits_per_sample") = Ok (bits_told (s_codec s))).
  { rewrite bits_of. unfold bits_told. destruct (find _ sample_bits) as [[k b]|] eqn:Fd; cbn [option_map snd].
    - destruct (step_q e _ m4 "bits_per_sample" _ (MInt b) W T4 eq_refl eq_refl eq_refl eq_refl eq_refl Logic.I) as (m5 & A5 & T5 & V5 & S5). exists m5. split; [exact A5|]. split; [exact T5|]. split; [exact S5|]. rewrite V5. apply find_some in Fd as [Fd _]. unfold sample_bits in Fd. cbn [In] in Fd. repeat (destruct Fd as [Fd|Fd]; [injection Fd as <- <-; reflexivity|]). destruct Fd.
    - exists m4. split; [reflexivity|]. split; [apply (same_trans _ ["bits_per_sample"%string] _ _ _ T4), same_refl|]. split; [apply same_refl|]. eapply (kept _ _ _ _ _ T4); [reflexivity|]. eapply root_empty; reflexivity. }
  destruct X as (m5 & A5 & T5 & S5 & V5). rewrite A5. unfold andthen at 1. cbn [fst snd].
  assert (L1 : getValues m5 (lit "sample_rate") = Ok (in_limits 1000 192000 (s_rate s))).
  { pose proof (same_trans _ _ _ _ _ S4 S5) as U3. pose proof (same_trans _ _ _ _ _ S3 U3) as U2. pose proof (same_trans _ _ _ _ _ S2 U2) as U1. eapply (kept _ _ _ _ _ U1); [reflexivity|]. rewrite V1. unfold passes, in_limits. cbn [d_filter mk_data filter_ok number fl_lt]. rewrite !Z.mul_1_r. destruct (s_rate s <? 1000) eqn:B1; [replace (1000 <=? s_rate s) with false by lia; reflexivity|]. replace (1000 <=? s_rate s) with true by lia. destruct (192000 <? s_rate s) eqn:B2; [replace (s_rate s <=? 192000) with false by lia; reflexivity|]. replace (s_rate s <=? 192000) with true by lia. reflexivity. }
  assert (L2 : getValues m5 (lit "nb_channel") = Ok (in_limits 1 8 (s_channels s))).
  { pose proof (same_trans _ _ _ _ _ S4 S5) as U3. pose proof (same_trans _ _ _ _ _ S3 U3) as U2. eapply (kept _ _ _ _ _ U2); [reflexivity|]. rewrite V2. unfold passes, in_limits. cbn [d_filter mk_data filter_ok number fl_lt]. rewrite !Z.mul_1_r. destruct (s_channels s <? 1) eqn:B1; [replace (1 <=? s_channels s) with false by lia; reflexivity|]. replace (1 <=? s_channels s) with true by lia. destruct (8 <? s_channels s) eqn:B2; [replace (s_channels s <=? 8) with false by lia; reflexivity|]. replace (s_channels s <=? 8) with true by lia. reflexivity. }
  assert (L3 : forall name, In (s_codec s, name) encodings -> kept_text e (lit name) -> getValues m5 (lit "compression") = Ok [MStr (lit name)]).
  { intros name I Kt. pose proof (same_trans _ _ _ _ _ S4 S5) as U3. eapply (kept _ _ _ _ _ U3); [reflexivity|]. replace (RasterModel.enum _ _) with (lit name) in V3; [apply V3, Kt|]. unfold encodings in I. cbn [In] in I. repeat (destruct I as [I|I]; [injection I as <- <-; reflexivity|]). destruct I. }
  assert (L4 : forall text, s_info s <> [] -> PropertiesId3.trimmed (s_info s) text -> kept_text e text -> getValues m5 (lit "comment") = Ok [MStr text]) by (intros text N Tr Kt; eapply (kept _ _ _ _ _ S5); [reflexivity|apply (V4 text N Tr Kt)]).
  clear A1 A2 A3 A4 A5 V1 V2 V3 V4 S1 S2 S3 S4 S5 T1 T2 T3 T4 m1 m2 m3 m4.
  (* the rest changes the bit rate, the duration, the rate of compression, the type and the endian *)
  assert (X : exists m6, computeBitRate e m5 = (m6, true) /\ same ["bit_rate"%string] m5 m6 /\ (forall bits, In (s_codec s, bits) sample_bits -> 1000 <= s_rate s <= 192000 -> 1 <= s_channels s <= 8 -> getValues m6 (lit "bit_rate") = Ok [MInt (s_rate s * s_channels s * bits)]) /\
    (getValues m6 (lit "bit_rate") = Ok [] \/ exists r, getValues m6 (lit "bit_rate") = Ok [MInt r] /\ 1000 <= r)).
  { assert (Nil : getValues m5 (lit "bit_rate") = Ok []) by (eapply (kept _ _ _ _ _ T5); [reflexivity|]; eapply root_empty; reflexivity).
    unfold computeBitRate. unfold in_limits in L1, L2. unfold bits_told in V5.
    destruct (find _ sample_bits) as [[k b]|] eqn:Fd. 2:{ rewrite (none_found _ _ V5). cbn [negb orb]. exists m5. split; [reflexivity|]. split; [apply same_refl|]. split; [|left; exact Nil]. intros bits I. exfalso. apply (find_none _ _ Fd) in I. cbn [fst] in I. lia. }
    destruct (int_found _ _ _ V5) as [-> ->]. destruct ((1 <=? s_channels s) && (s_channels s <=? 8)) eqn:C2. 2:{ rewrite (none_found _ _ L2). cbn [negb orb]. exists m5. split; [reflexivity|]. split; [apply same_refl|]. split; [lia|left; exact Nil]. }
    destruct (int_found _ _ _ L2) as [-> ->]. destruct ((1000 <=? s_rate s) && (s_rate s <=? 192000)) eqn:C1. 2:{ rewrite (none_found _ _ L1). cbn [negb orb]. exists m5. split; [reflexivity|]. split; [apply same_refl|]. split; [lia|left; exact Nil]. }
    destruct (int_found _ _ _ L1) as [-> ->]. cbn [negb orb]. remember (b * s_channels s * s_rate s) as r eqn:Er. apply find_some in Fd as [Fd Ek]. cbn [fst] in Ek. assert (Bb : 8 <= b <= 64) by (clear - Fd; unfold sample_bits in Fd; cbn [In] in Fd; repeat (destruct Fd as [Fd|Fd]; [injection Fd as <- <-; lia|]); destruct Fd). assert (R : 1000 <= r <= 98304000) by (assert (D1 : 1000 <= s_rate s <= 192000) by lia; assert (D2 : 1 <= s_channels s <= 8) by lia; rewrite Er; clear - Bb D1 D2; assert (8 <= b * s_channels s <= 512) by nia; nia).
    destruct (step_q e _ m5 "bit_rate" _ (MInt r) W T5 eq_refl eq_refl eq_refl eq_refl eq_refl Logic.I) as (m6 & A6 & T6 & V6 & S6). assert (V6' : getValues m6 (lit "bit_rate") = Ok [MInt r]) by (rewrite V6; unfold passes; cbn [d_filter mk_data filter_ok number fl_lt]; rewrite !Z.mul_1_r; replace (r <? 1) with false by lia; replace (524288000 <? r) with false by lia; reflexivity).
    exists m6. split; [exact A6|]. split; [exact S6|]. split; [|right; exists r; split; [exact V6'|lia]]. intros bits I _ _. rewrite V6'. do 3 f_equal. apply Z.eqb_eq in Ek. subst k. assert (b = bits) as ->; [|rewrite Er; ring].
    clear - Fd I. unfold sample_bits in *. cbn [In] in *. repeat (destruct Fd as [Fd|Fd]; [injection Fd as Fk <-; rewrite <- Fk in I; clear Fk; repeat (destruct I as [I|I]; [first [discriminate I|injection I as <-; reflexivity]|]); destruct I|]). destruct Fd. }
  destruct X as (m6 & A6 & S6 & V6 & O6). rewrite A6. unfold andthen at 1. cbn [fst snd]. pose proof (same_trans _ _ _ _ _ T5 S6) as T6.
  assert (Zs : 0 <= 8 * zlen (s_sound s) <= 2 ^ 53) by (destruct K as (_ & _ & _ & _ & _ & K); pose proof (zlen_nonneg (s_sound s)); change (2 ^ 32) with 4294967296 in K; change (2 ^ 53) with 9007199254740992; lia).
  assert (X : exists m7, (if has_key m6 "bit_rate" then match MpegModel.timedelta_seconds (MpegModel.seconds_of (8 * zlen (s_sound s)) (int_of m6 "bit_rate", 1)) with Ok d => assign e m6 [("duration"%string, MTimedelta d)] | Err _ => (m6, false) end else (m6, true)) = (m7, true) /\ same ["duration"%string] m6 m7 /\
    (forall r, getValues m6 (lit "bit_rate") = Ok [MInt r] -> exists us, Z.abs (us * r - 1000000 * (8 * zlen (s_sound s))) < r /\ getValues m7 (lit "duration") = Ok (in_year us))).
  { destruct O6 as [O6|(r & O6 & R)]; [rewrite (none_found _ _ O6); exists m6; split; [reflexivity|]; split; [apply same_refl|]; intros r X; rewrite O6 in X; discriminate|]. destruct (int_found _ _ _ O6) as [-> ->].
    destruct (duration_close (8 * zlen (s_sound s)) r 1 Zs) as (us & -> & U0 & Us); [lia|lia|destruct K as (_ & _ & _ & _ & _ & K); change (2 ^ 32) with 4294967296 in K; change (2 ^ 31) with 2147483648; lia|].
    destruct (step_q e _ m6 "duration" _ (MTimedelta us) W T6 eq_refl eq_refl eq_refl eq_refl eq_refl Logic.I) as (m7 & A7 & T7 & V7 & S7). exists m7. split; [exact A7|]. split; [exact S7|]. intros r' X. rewrite O6 in X. injection X as <-. exists us. split; [rewrite Z.mul_1_r in Us; exact Us|]. rewrite V7.
    unfold passes, in_year. cbn [d_filter mk_data filter_ok]. unfold HumanModel.us_per_day. replace (365 * 86400000000) with 31536000000000 by reflexivity. replace (negb (us <? 1000)) with (1000 <=? us) by lia. replace (negb (31536000000000 <? us)) with (us <=? 31536000000000) by lia. reflexivity. }
  destruct X as (m7 & A7 & S7 & V7). rewrite A7. unfold andthen at 1. cbn [fst snd]. pose proof (same_trans _ _ _ _ _ T6 S7) as T7. pose proof (compr_same e m7 (8 * zlen (s_sound s))) as S8. set (m8 := fst (MpegModel.audio_compr_rate e m7 (8 * zlen (s_sound s)))) in *. pose proof (same_trans _ _ _ _ _ T7 S8) as T8. pose proof (mime_step e _ m8 (lit "audio/basic") (lit "Big endian") T8 eq_refl) as S9.
  pose proof (same_trans _ _ _ _ _ S8 S9) as U7. pose proof (same_trans _ _ _ _ _ S7 U7) as U6. pose proof (same_trans _ _ _ _ _ S6 U6) as U5. intros <-.
  split; [eapply (kept _ _ _ _ _ U5); [reflexivity|exact L1]|]. split; [eapply (kept _ _ _ _ _ U5); [reflexivity|exact L2]|]. split; [eapply (kept _ _ _ _ _ U5); [reflexivity|exact V5]|]. split; [intros name I Kt; eapply (kept _ _ _ _ _ U5); [reflexivity|apply (L3 name I Kt)]|]. split; [intros text N Tr Kt; eapply (kept _ _ _ _ _ U5); [reflexivity|apply (L4 text N Tr Kt)]|].
  intros bits I R C. pose proof (V6 bits I R C) as G. split; [eapply (kept _ _ _ _ _ U6); [reflexivity|exact G]|]. destruct (V7 _ G) as (us & Us & Gd). exists us. split; [exact Us|]. eapply (kept _ _ _ _ _ U7); [reflexivity|exact Gd].
Qed.
Print Assumptions C87_metadata.
(** ** Concrete sounds *)
Definition beep : au := Au 3 8000 2 (lit "Beep" ++ [0; 0; 0; 0]) [0; 1; 0; 255; 128; 0; 0; 7].
Definition phone : au := Au 1 8000 1 [] [255; 127].
Example C87_sounds : au_ok beep /\ au_ok phone /\ PropertiesId3.trimmed (s_info beep) (lit "Beep") /\ In (s_codec beep, 16) sample_bits /\ In (s_codec phone, "8-bit ISDN u-law"%string) encodings /\ zlen (s_sound phone) < 2 ^ 32 - 1 /\
  (let data := bytes_of_all (au_items beep 8) ++ [9] in AuFile (string_read data) (8 * zlen data) = (shows (au_items beep 8) 0, None, 320)) /\
  (let data := bytes_of_all (au_items phone (2 ^ 32 - 1)) in AuFile (string_read data) (8 * zlen data) = (shows (au_items phone (2 ^ 32 - 1)) 0, None, 208)).
Proof.
  split; [unfold au_ok, u32_ok; repeat split; try (vm_compute; (reflexivity || discriminate))|]. split; [unfold au_ok, u32_ok; repeat split; try (vm_compute; (reflexivity || discriminate))|].
  split; [exists [], [0; 0; 0; 0]; split; [reflexivity|]; split; [apply Forall_nil|]; split; [do 4 (apply Forall_cons; [right; reflexivity|]); apply Forall_nil|]; split; [intros c t E; injection E as <- _; split; discriminate|]; intros t c E; apply (f_equal (fun l => last l 0)) in E; rewrite last_last in E; vm_compute in E; subst c; split; discriminate|].
  split; [cbn; tauto|]. split; [cbn; tauto|]. split; [reflexivity|]. split; vm_compute; reflexivity.
Qed.
Example C87_texts : writes PropertiesGifFile.plain_env /\ kept_text PropertiesGifFile.plain_env (lit "Beep") /\ kept_text PropertiesGifFile.plain_env (lit "8-bit ISDN u-law").
Proof. split; [intros h v; eexists; reflexivity|]. split; (split; [discriminate|split; [vm_compute; reflexivity|split; [vm_compute; reflexivity|right; vm_compute; discriminate]]]). Qed.

(** C88: the metadata of AIFF and AIFC sounds. *)
From Coq Require Import String.
From Verif Require Import Base BaseProofs BitsModel BitsSpec StreamModel StreamSpec DictModel DictProofs FieldModel NumSpec GenModel GenSpec ItemSpec ItemProofs ItemProofs2 ExtractModel ExtractProofs AiffModel AiffSpec AiffProofs AiffMetaModel FloatProofs Lit.
From Verif Require BitsProofs MetaModel RasterModel MpegModel TextModel FloatModel PropertiesGifFile PropertiesRaster PropertiesAu PropertiesAiff.
From Verif Require Import MetaProofs2 MpegMeta.
Open Scope Z_scope.
Ltac Zify.zify_post_hook ::= Z.div_mod_to_equations.
Import MetaModel.

(** The 80 bits are those of the whole number [v]: [v] is 1.fraction * 2 ^ k, for the exponent [k]. *)
Definition rate_is (v : Z) (r : rate) : Prop :=
  r_sign r = false /\ exists k, 0 <= k <= 63 /\ val_of BE (r_exp r) = 16383 + k /\ 2 ^ 63 + val_of BE (r_frac r) = v * 2 ^ (63 - k).

(** A fraction that is a number of 53 bits over a power of two is not rounded. *)
Lemma fl_exact p q j k : 0 <= p -> 0 < q -> 0 <= j <= 2 ^ 53 -> 0 <= k -> p * 2 ^ k = j * q -> fst (FloatModel.fl p q) * q = p * snd (FloatModel.fl p q).
Proof.
  intros P Q J K E. assert (D : 0 < 2 ^ k) by (apply Z.pow_pos_nonneg; lia). pose proof (fl_mono p q j (2 ^ k) P Q ltac:(lia) D ltac:(lia)) as M1. pose proof (fl_mono j (2 ^ k) p q ltac:(lia) D P Q ltac:(lia)) as M2. pose proof (fl_dyadic j k J K) as X.
  destruct (fl_pos p q P Q) as [A0 A1]. destruct (fl_pos j (2 ^ k) ltac:(lia) D) as [B0 B1]. set (a := fst (FloatModel.fl p q)) in *. set (b := snd (FloatModel.fl p q)) in *. set (c := fst (FloatModel.fl j (2 ^ k))) in *. set (d := snd (FloatModel.fl j (2 ^ k))) in *. set (w := 2 ^ k) in *. clearbody a b c d w.
  assert (Y : a * d = c * b) by lia. apply (Z.mul_cancel_r _ _ (d * w)); [nia|]. replace (a * q * (d * w)) with (a * d * q * w) by ring. rewrite Y. replace (c * b * q * w) with (c * w * (b * q)) by ring. rewrite X. replace (j * d * (b * q)) with (j * q * (b * d)) by ring. rewrite <- E. ring.
Qed.
Lemma float80_exact v r : 1000 <= v <= 192000 -> rate_ok r -> rate_is v r -> exists n d, 0 < d /\ n = v * d /\ float80 (val_of BE [r_sign r]) (val_of BE (r_exp r)) (val_of BE (r_frac r)) = Some (n, d).
Proof.
  intros V [_ L] (Sg & k & K & E & Fr). unfold float80. rewrite Sg, E. change (val_of BE [false] =? 0) with true. cbn iota. set (m := val_of BE (r_frac r)) in *.
  assert (M : 0 <= m < 2 ^ 63) by (rewrite <- L; exact (BitsProofs.val_be_bound (r_frac r))).
  assert (P : 0 < 2 ^ k) by (apply Z.pow_pos_nonneg; lia). assert (PP : 2 ^ k * 2 ^ (63 - k) = 2 ^ 63) by (rewrite <- Z.pow_add_r by lia; f_equal; lia). assert (P2 : 0 < 2 ^ (63 - k)) by (apply Z.pow_pos_nonneg; lia).
  assert (Kb : k <= 17). { destruct (Z_le_gt_dec k 17) as [|G]; [assumption|exfalso]. assert (2 ^ 18 <= 2 ^ k) by (apply Z.pow_le_mono_r; lia). change (2 ^ 18) with 262144 in *. nia. }
  assert (Q : 2 ^ 46 * 2 ^ (17 - k) = 2 ^ (63 - k)) by (rewrite <- Z.pow_add_r by lia; f_equal; lia). assert (P3 : 0 < 2 ^ (17 - k)) by (apply Z.pow_pos_nonneg; lia).
  set (j := v * 2 ^ (17 - k) - 2 ^ 17). assert (Mj : m = j * 2 ^ 46) by (unfold j; change (2 ^ 63) with (2 ^ 46 * 2 ^ 17) in Fr; nia). assert (J : 0 <= j < 2 ^ 17) by (change (2 ^ 63) with (2 ^ 46 * 2 ^ 17) in M; change (2 ^ 46) with 70368744177664 in *; change (2 ^ 17) with 131072 in *; nia).
  clearbody j. change (2 ^ 17) with 131072 in *.
  pose proof (fl_exact m (2 ^ 63) j 17 ltac:(lia) ltac:(reflexivity) ltac:(change (2 ^ 53) with 9007199254740992; lia) ltac:(lia) ltac:(rewrite Mj; change (2 ^ 63) with (2 ^ 46 * 2 ^ 17); ring)) as X1.
  destruct (fl_pos m (2 ^ 63) ltac:(lia) ltac:(reflexivity)) as [A0 A1]. set (a := fst (FloatModel.fl m (2 ^ 63))) in *. set (b := snd (FloatModel.fl m (2 ^ 63))) in *. clearbody a b.
  assert (X2 : a * 131072 = j * b) by (rewrite Mj in X1; change (2 ^ 63) with 9223372036854775808 in X1; change (2 ^ 46) with 70368744177664 in X1; nia).
  pose proof (fl_exact (b + a) b (131072 + j) 17 ltac:(lia) A1 ltac:(change (2 ^ 53) with 9007199254740992; lia) ltac:(lia) ltac:(change (2 ^ 17) with 131072; lia)) as Y1.
  destruct (fl_pos (b + a) b ltac:(lia) A1) as [C0 C1]. set (c := fst (FloatModel.fl (b + a) b)) in *. set (d := snd (FloatModel.fl (b + a) b)) in *. clearbody c d.
  assert (Y2 : c * 131072 = (131072 + j) * d). { apply (Z.mul_cancel_r _ _ b); [lia|]. replace (c * 131072 * b) with (c * b * 131072) by ring. rewrite Y1. replace ((b + a) * d * 131072) with ((131072 * b + a * 131072) * d) by ring. rewrite X2. ring. }
  replace (16383 + k - 16383) with k by lia. replace (1024 <=? k) with false by lia. replace (0 <=? k) with true by lia. exists (c * 2 ^ k), d. split; [exact C1|]. split; [|reflexivity].
  assert (Z1 : (131072 + j) * 2 ^ k = v * 131072). { apply (Z.mul_cancel_r _ _ (2 ^ 46 * 2 ^ (17 - k))); [nia|]. rewrite Q at 1. replace ((131072 + j) * 2 ^ k * 2 ^ (63 - k)) with ((131072 + j) * (2 ^ k * 2 ^ (63 - k))) by ring. rewrite PP. change (2 ^ 63) with (131072 * 2 ^ 46). replace ((131072 + j) * (131072 * 2 ^ 46)) with (131072 * (131072 * 2 ^ 46 + j * 2 ^ 46)) by ring. rewrite <- Mj. change (131072 * 2 ^ 46) with (2 ^ 63). rewrite Fr, <- Q. ring. }
  apply (Z.mul_cancel_r _ _ 131072); [lia|]. replace (c * 2 ^ k * 131072) with (c * 131072 * 2 ^ k) by ring. rewrite Y2. replace ((131072 + j) * d * 2 ^ k) with ((131072 + j) * 2 ^ k * d) by ring. rewrite Z1. ring.
Qed.
Lemma float_found m n d : getValues m (lit "sample_rate") = Ok [MFloat (FNum n d)] -> has_key m "sample_rate" = true /\ rate_of m = Some (n, Zpos d).
Proof.
  unfold getValues, has_key, MetaModel.has, rate_of, getItem. destruct (getItems m (lit "sample_rate")) as [l|]; [|discriminate]. cbn [bind]. intros E. injection E as E. destruct l as [|[v t] [|]]; try discriminate E. cbn [map fst] in E. injection E as ->. split; reflexivity.
Qed.
Definition not_common (c : chunk) : Prop := match c with Common _ _ _ _ _ => False | _ => True end.
Lemma group_common z l pre ch sa bi r codec post : Forall not_common pre ->
  group (lit "common") (shows (head_items z l) 0 ++ show_chunks (pre ++ Common ch sa bi r codec :: post) 12) = Some (shows (chunk_items (Common ch sa bi r codec)) (12 + zlen (chunks_bytes pre))).
Proof.
  intros N. unfold group, head_items, be. cbn [shows ItemSpec.show app find]. generalize 12. induction N as [|c pre Nc N IH]; intros p; cbn [app show_chunks find].
  - change (str_eqb (name_of (Common ch sa bi r codec)) (lit "common")) with true. cbn iota. change (zlen (chunks_bytes [])) with 0. rewrite Z.add_0_r. reflexivity.
  - replace (str_eqb (name_of c) (lit "common")) with false by (destruct c as [| |[|]| | | |]; [destruct Nc|reflexivity..]). rewrite IH. unfold chunks_bytes. cbn [flat_map]. rewrite zlen_app, Z.add_assoc. reflexivity.
Qed.
(** The metadata of a file with a description: the channels, the bits of a sample, the rate and the bit rate exactly, the duration to a microsecond, and the compression of AIFC files. *)
Theorem C88_metadata : forall e read z pre ch sa bi r codec post v, let c := Common ch sa bi r codec in let l := pre ++ c :: post in let data := aiff z l in
  writes e -> serves read data -> is_bytes data -> Forall chunk_ok l -> 4 + zlen (chunks_bytes l) < 2 ^ 32 -> Forall not_common pre -> 1 <= ch <= 8 -> 1 <= bi <= 64 -> 1000 <= v <= 192000 -> rate_is v r ->
  let m := aiff_metadata e (fst (fst (AiffFile read (8 * zlen data)))) in
  getValues m (lit "nb_channel") = Ok [MInt ch] /\ getValues m (lit "bits_per_sample") = Ok [MInt bi] /\
  (exists n d, n = v * Zpos d /\ getValues m (lit "sample_rate") = Ok [MFloat (FNum n d)]) /\
  (exists n d, n = v * ch * bi * Zpos d /\ getValues m (lit "bit_rate") = Ok [MFloat (FNum n d)]) /\
  (exists us, Z.abs (us * v - 1000000 * sa) < v /\ getValues m (lit "duration") = Ok (in_year us)) /\
  (forall x name text, codec = Some (x, name) -> In (x, text) compressions -> kept_text e text -> getValues m (lit "compression") = Ok [MStr text]).
Proof.
  intros e read z pre ch sa bi r codec post v c l data W Hs Hb K Sz Np Hc Hbi Hv Hr. cbv zeta. assert (Kc : chunk_ok c) by (apply (proj1 (Forall_forall _ _) K); unfold l; apply in_or_app; right; left; reflexivity). destruct Kc as (_ & K1 & K2 & K3 & Rk & Kcd). unfold data. rewrite PropertiesAiff.C88_file by assumption. cbn [fst]. clear data Hs Hb.
  destruct (float80_exact v r Hv Rk Hr) as (n & d & D0 & Nd & Fl). remember (aiff_metadata e _) as mm eqn:Em. symmetry in Em. revert Em. unfold aiff_metadata, aiff_extract. change (show_chunks l 12) with (show_chunks (pre ++ Common ch sa bi r codec :: post) 12). rewrite group_common by exact Np. set (p := 12 + zlen (chunks_bytes pre)). set (info := shows (chunk_items c) p). change (shows (chunk_items (Common ch sa bi r codec)) p) with info.
  assert (G1 : GenModel.get (lit "nb_channel") info = Some (VNum ch)) by reflexivity. assert (G2 : GenModel.get (lit "sample_size") info = Some (VNum bi)) by reflexivity. assert (G3 : GenModel.get (lit "nb_sample") info = Some (VNum sa)) by reflexivity.
  assert (G4 : rate_value info = Some (n, d)) by (rewrite <- Fl; reflexivity).
  assert (G5 : GenModel.get (lit "codec") info = match codec with Some (x, _) => Some (VBytes x) | None => None end) by (destruct codec as [[x nm]|]; reflexivity).
  clearbody info. unfold useCommon, ask. rewrite G1, G2, G3, G4, G5. cbn [num fst snd].
  destruct (PropertiesAu.step_q e [] root "nb_channel" _ (MInt ch) W (same_refl _ _) eq_refl eq_refl eq_refl eq_refl eq_refl Logic.I) as (m1 & A1 & T1 & V1 & S1). rewrite A1. unfold andthen at 1. cbn [fst snd].
  destruct (PropertiesAu.step_q e _ m1 "bits_per_sample" _ (MInt bi) W T1 eq_refl eq_refl eq_refl eq_refl eq_refl Logic.I) as (m2 & A2 & T2 & V2 & S2). rewrite A2. unfold andthen at 1. cbn [fst snd].
  destruct (PropertiesAu.step_q e _ m2 "sample_rate" _ (MFloat (FNum n (Z.to_pos d))) W T2 eq_refl eq_refl eq_refl eq_refl eq_refl Logic.I) as (m3 & A3 & T3 & V3 & S3). rewrite A3. unfold andthen at 1. cbn [fst snd].
  assert (V3' : getValues m3 (lit "sample_rate") = Ok [MFloat (FNum n (Z.to_pos d))]). { rewrite V3. unfold passes. cbn [d_filter mk_data filter_ok number fl_lt]. rewrite !Z.mul_1_r, Z2Pos.id by lia. replace (n <? 1000 * d) with false by nia. replace (192000 * d <? n) with false by nia. reflexivity. }
  destruct (float_found _ _ _ V3') as [_ R3]. rewrite Z2Pos.id in R3 by lia. rewrite R3. cbn [fst]. replace (n =? 0) with false by nia.
  assert (Sa : 0 <= sa < 4294967296) by exact K2.
  destruct (duration_close sa n d) as (us & -> & U0 & Us); [change (2 ^ 53) with 9007199254740992; lia|nia|lia|change (2 ^ 31) with 2147483648; nia|].
  destruct (PropertiesAu.step_q e _ m3 "duration" _ (MTimedelta us) W T3 eq_refl eq_refl eq_refl eq_refl eq_refl Logic.I) as (m4 & A4 & T4 & V4 & S4). rewrite A4. unfold andthen at 1. cbn [fst snd].
  assert (X : exists m5, fst (match match codec with Some (x, _) => Some (VBytes x) | None => None end with Some v => assign e m4 [("compression"%string, MStr (codec_display (bytes v)))] | None => (m4, true) end) = m5 /\ same ["compression"%string] m4 m5 /\
    (forall x name text, codec = Some (x, name) -> In (x, text) compressions -> kept_text e text -> getValues m5 (lit "compression") = Ok [MStr text])).
  { destruct codec as [[x nm]|]; [|exists m4; split; [reflexivity|split; [apply same_refl|discriminate]]]. destruct (PropertiesRaster.step_told e _ m4 "compression" (codec_display x) W T4) as (m5 & A5 & T5 & V5 & S5); [eexists; split; [reflexivity|split; [reflexivity|split; [left; reflexivity|split; reflexivity]]]|reflexivity|].
    exists m5. cbn [bytes]. rewrite A5. split; [reflexivity|]. split; [exact S5|]. intros x' name text E I Kt. injection E as <- _. assert (Dx : codec_display x = text) by (cbn [compressions In] in I; repeat (destruct I as [I|I]; [injection I as <- <-; reflexivity|]); destruct I). rewrite Dx in V5. apply V5, Kt. }
  destruct X as (m5 & -> & S5 & V5). pose proof (same_trans _ _ _ _ _ T4 S5) as T5.
  pose proof (same_trans _ _ _ _ _ S4 S5) as U3. pose proof (same_trans _ _ _ _ _ S3 U3) as U2. pose proof (same_trans _ _ _ _ _ S2 U2) as U1.
  assert (L1 : getValues m5 (lit "nb_channel") = Ok [MInt ch]). { eapply (kept _ _ _ _ _ U1); [reflexivity|]. rewrite V1. unfold passes. cbn [d_filter mk_data filter_ok number fl_lt]. rewrite !Z.mul_1_r. replace (ch <? 1) with false by lia. replace (8 <? ch) with false by lia. reflexivity. }
  assert (L2 : getValues m5 (lit "bits_per_sample") = Ok [MInt bi]). { eapply (kept _ _ _ _ _ U2); [reflexivity|]. rewrite V2. unfold passes. cbn [d_filter mk_data filter_ok number fl_lt]. rewrite !Z.mul_1_r. replace (bi <? 1) with false by lia. replace (64 <? bi) with false by lia. reflexivity. }
  assert (L3 : getValues m5 (lit "sample_rate") = Ok [MFloat (FNum n (Z.to_pos d))]) by (eapply (kept _ _ _ _ _ U3); [reflexivity|exact V3']).
  assert (L4 : getValues m5 (lit "duration") = Ok (in_year us)). { eapply (kept _ _ _ _ _ S5); [reflexivity|]. rewrite V4. unfold passes, in_year. cbn [d_filter mk_data filter_ok]. unfold HumanModel.us_per_day. replace (365 * 86400000000) with 31536000000000 by reflexivity. replace (negb (us <? 1000)) with (1000 <=? us) by lia. replace (negb (31536000000000 <? us)) with (us <=? 31536000000000) by lia. reflexivity. }
  unfold computeBitRate. destruct (int_found _ _ _ L1) as [-> ->]. destruct (int_found _ _ _ L2) as [-> ->]. destruct (float_found _ _ _ L3) as [-> ->]. cbn [negb orb fst snd]. rewrite Z2Pos.id by lia.
  assert (N0 : 0 <= n) by nia. assert (B1 : 1 <= bi * ch <= 512) by nia. assert (B0 : 0 <= bi * ch * n) by (apply Z.mul_nonneg_nonneg; lia). assert (B2 : 1 <= bi * ch * v <= 512 * 192000) by (clear - B1 Hv; nia). pose proof (fl_exact (bi * ch * n) d (bi * ch * v) 0 B0 D0 ltac:(change (2 ^ 53) with 9007199254740992; lia) ltac:(lia) ltac:(rewrite Nd; ring)) as Bx. destruct (fl_pos (bi * ch * n) d B0 D0) as [Q0 Q1]. set (bn := fst (FloatModel.fl (bi * ch * n) d)) in *. set (bd := snd (FloatModel.fl (bi * ch * n) d)) in *. clearbody bn bd.
  assert (By : bn = v * ch * bi * bd) by (apply (Z.mul_cancel_r _ _ d); [lia|]; rewrite Bx, Nd; ring). assert (Pr : 1 <= v * ch * bi <= 192000 * 8 * 64) by (replace (v * ch * bi) with (bi * ch * v) by ring; lia). set (w := v * ch * bi) in *. clearbody w.
  destruct (PropertiesAu.step_q e _ m5 "bit_rate" _ (MFloat (FNum bn (Z.to_pos bd))) W T5 eq_refl eq_refl eq_refl eq_refl eq_refl Logic.I) as (m6 & A6 & T6 & V6 & S6). rewrite A6. cbn [fst].
  pose proof (mime_step e _ m6 (lit "audio/x-aiff") (lit "Big endian") T6 eq_refl) as S7. pose proof (same_trans _ _ _ _ _ S6 S7) as U5. intros <-.
  split; [eapply (kept _ _ _ _ _ U5); [reflexivity|exact L1]|]. split; [eapply (kept _ _ _ _ _ U5); [reflexivity|exact L2]|].
  split; [exists n, (Z.to_pos d); split; [rewrite Z2Pos.id by lia; exact Nd|eapply (kept _ _ _ _ _ U5); [reflexivity|exact L3]]|].
  split; [exists bn, (Z.to_pos bd); split; [rewrite Z2Pos.id by lia; exact By|]; eapply (kept _ _ _ _ _ S7); [reflexivity|]; rewrite V6; unfold passes; cbn [d_filter mk_data filter_ok number fl_lt]; rewrite !Z.mul_1_r, Z2Pos.id by lia; replace (bn <? 1 * bd) with false by nia; replace (524288000 * bd <? bn) with false by nia; reflexivity|].
  split; [exists us; split; [|eapply (kept _ _ _ _ _ U5); [reflexivity|exact L4]]|].
  - rewrite Nd in Us. replace (us * (v * d) - 1000000 * (sa * d)) with ((us * v - 1000000 * sa) * d) in Us by ring. rewrite Z.abs_mul, (Z.abs_eq d) in Us by lia. nia.
  - intros x name text E I Kt. eapply (kept _ _ _ _ _ U5); [reflexivity|exact (V5 x name text E I Kt)].
Qed.
Print Assumptions C88_metadata.
(** The files of PropertiesAiff.v *)
Example C88_described : rate_is 44100 PropertiesAiff.cd_rate /\ Forall not_common [Version 2726318400] /\ In (lit "sowt", lit "Little-endian, no compression") compressions /\
  writes PropertiesGifFile.plain_env /\ kept_text PropertiesGifFile.plain_env (lit "Little-endian, no compression") /\
  (let m := aiff_metadata PropertiesGifFile.plain_env (fst (fst (AiffFile (string_read (aiff false PropertiesAiff.cd)) (8 * zlen (aiff false PropertiesAiff.cd))))) in getValues m (lit "nb_channel") = Ok [MInt 2] /\ getValues m (lit "duration") = Ok []).
Proof.
  split; [split; [reflexivity|]; exists 15; split; [lia|]; split; vm_compute; reflexivity|]. split; [apply Forall_cons; [exact Logic.I|apply Forall_nil]|]. split; [do 5 right; left; reflexivity|]. split; [intros h v; eexists; reflexivity|].
  split; [split; [discriminate|split; [vm_compute; reflexivity|split; [vm_compute; reflexivity|right; vm_compute; discriminate]]]|]. split; vm_compute; reflexivity.
Qed.

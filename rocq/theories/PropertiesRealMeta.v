(** C89: the metadata of RealAudio sounds. *)
From Coq Require Import String.
From Verif Require Import Base BaseProofs BitsModel BitsSpec StreamModel StreamSpec DictModel DictProofs FieldModel NumSpec GenModel GenSpec ItemSpec ItemProofs ItemProofs2 ExtractModel ExtractProofs RealModel RealSpec RealMetaModel Lit.
From Verif Require MetaModel RasterModel MpegModel AiffMetaModel HumanModel PropertiesRaster PropertiesAu PropertiesReal.
From Verif Require Import MetaProofs2 MpegMeta.
Open Scope Z_scope.
Ltac Zify.zify_post_hook ::= Z.div_mod_to_equations.
Import MetaModel.

Definition version_of (r : real) : Z := match r with Real3 _ _ _ _ _ _ => 3 | Real4 _ _ _ _ _ _ _ _ _ _ _ => 4 end.
Definition texts_of (r : real) : texts := match r with Real3 _ _ t _ _ _ => t | Real4 _ _ _ _ _ _ _ _ _ t _ => t end.
Definition codec_of (r : real) : list Z := match r with Real3 _ _ _ _ c _ => c | Real4 _ _ _ _ _ _ _ c _ _ _ => c end.
(** Sounds of the version 3 have one channel and 8000 samples a second. *)
Definition rate_told (r : real) : Z := match r with Real3 _ _ _ _ _ _ => 8000 | Real4 _ _ _ n _ _ _ _ _ _ _ => n_rate n end.
Definition channels_told (r : real) : Z := match r with Real3 _ _ _ _ _ _ => 1 | Real4 _ _ _ n _ _ _ _ _ _ _ => n_channels n end.
(** Bits a second of the codecs known *)
Definition codec_rates : list (list Z * Z) := [(lit "28_8", 15200); (lit "14_4", 8000); (lit "lpcJ", 8000)].

Ltac txt := eexists; split; [reflexivity|split; [reflexivity|split; [first [left; reflexivity|right; reflexivity]|split; reflexivity]]].
Lemma texts_told e m t info : writes e -> m = root -> GenModel.get (lit "title") info = Some (VBytes (t_title t)) -> GenModel.get (lit "author") info = Some (VBytes (t_author t)) -> GenModel.get (lit "copyright") info = Some (VBytes (t_copyright t)) -> GenModel.get (lit "comment") info = Some (VBytes (t_comment t)) ->
  exists m', fst (useMetadata e m info) = m' /\ same ["title"; "author"; "copyright"; "comment"]%string root m' /\
  (kept_text e (t_title t) -> getValues m' (lit "title") = Ok [MStr (t_title t)]) /\ (kept_text e (t_author t) -> getValues m' (lit "author") = Ok [MStr (t_author t)]) /\
  (kept_text e (t_copyright t) -> getValues m' (lit "copyright") = Ok [MStr (t_copyright t)]) /\ (kept_text e (t_comment t) -> getValues m' (lit "comment") = Ok [MStr (t_comment t)]).
Proof.
  intros W -> G1 G2 G3 G4. unfold useMetadata, tell. rewrite G1, G2, G3, G4. cbn [bytes].
  destruct (PropertiesRaster.step_told e [] root "title" (t_title t) W (same_refl _ _)) as (m1 & A1 & T1 & V1 & S1); [txt|reflexivity|]. rewrite A1. unfold andthen at 1. cbn [fst snd].
  destruct (PropertiesRaster.step_told e _ m1 "author" (t_author t) W T1) as (m2 & A2 & T2 & V2 & S2); [txt|reflexivity|]. rewrite A2. unfold andthen at 1. cbn [fst snd].
  destruct (PropertiesRaster.step_told e _ m2 "copyright" (t_copyright t) W T2) as (m3 & A3 & T3 & V3 & S3); [txt|reflexivity|]. rewrite A3. unfold andthen at 1. cbn [fst snd].
  destruct (PropertiesRaster.step_told e _ m3 "comment" (t_comment t) W T3) as (m4 & A4 & T4 & V4 & S4); [txt|reflexivity|]. rewrite A4. unfold andthen at 1. cbn [fst snd].
  exists m4. split; [reflexivity|]. split; [exact T4|]. pose proof (same_trans _ _ _ _ _ S3 S4) as U2. pose proof (same_trans _ _ _ _ _ S2 U2) as U1.
  split; [intros K; eapply (kept _ _ _ _ _ U1); [reflexivity|auto]|]. split; [intros K; eapply (kept _ _ _ _ _ U2); [reflexivity|auto]|]. split; [intros K; eapply (kept _ _ _ _ _ S4); [reflexivity|auto]|]. exact V4.
Qed.
(** The rate of the codec *)
Definition rate_values (c : list Z) : list mval := match find (fun x => str_eqb (fst x) c) codec_rates with Some x => [MInt (snd x)] | None => [] end.
Lemma root_told e r m : writes e -> real_ok r -> same ["title"; "author"; "copyright"; "comment"]%string root m -> let l := shows (real_items r) 0 in
  exists m', fst (useRoot e m l) = m' /\ same ["bits_per_sample"; "sample_rate"; "nb_channel"; "compression"; "bit_rate"]%string m m' /\
  getValues m' (lit "bits_per_sample") = Ok [MInt 16] /\ getValues m' (lit "sample_rate") = Ok (in_limits 1000 192000 (rate_told r)) /\ getValues m' (lit "nb_channel") = Ok (in_limits 1 8 (channels_told r)) /\
  (kept_text e (codec_of r) -> getValues m' (lit "compression") = Ok [MStr (codec_of r)]) /\ getValues m' (lit "bit_rate") = Ok (rate_values (codec_of r)).
Proof.
  intros W K T0 l. unfold useRoot, ask.
  assert (Gv : GenModel.get (lit "version") l = Some (VNum (version_of r))) by (destruct r; reflexivity). assert (Gc : GenModel.get (lit "FourCC") l = Some (VBytes (codec_of r))) by (destruct r; reflexivity).
  assert (Gr : version_of r = 4 -> GenModel.get (lit "sample_rate") l = Some (VNum (rate_told r)) /\ GenModel.get (lit "channels") l = Some (VNum (channels_told r))) by (destruct r; [discriminate|split; reflexivity]).
  rewrite Gv, Gc. cbn [num bytes].
  destruct (PropertiesAu.step_q e _ m "bits_per_sample" _ (MInt 16) W T0 eq_refl eq_refl eq_refl eq_refl eq_refl Logic.I) as (m1 & A1 & T1 & V1 & S1). rewrite A1. unfold andthen at 1. cbn [fst snd].
  destruct (PropertiesAu.step_q e _ m1 "sample_rate" _ (MInt (rate_told r)) W T1 eq_refl eq_refl eq_refl eq_refl eq_refl Logic.I) as (m2 & A2 & T2 & V2 & S2).
  destruct (PropertiesAu.step_q e _ m2 "nb_channel" _ (MInt (channels_told r)) W T2 eq_refl eq_refl eq_refl eq_refl eq_refl Logic.I) as (m3 & A3 & T3 & V3 & S3).
  match goal with |- context [andthen (if negb (version_of r =? 3) then ?x else ?y) _] => replace (if negb (version_of r =? 3) then x else y) with (m3, true) end.
  2:{ destruct r; cbn [version_of rate_told channels_told] in *; [change (3 =? 3) with true|change (4 =? 3) with false; destruct (Gr eq_refl) as [-> ->]]; cbn [negb num]; rewrite A2; unfold andthen; cbn [fst snd]; rewrite A3; reflexivity. }
  unfold andthen at 1. cbn [fst snd].
  assert (X : exists m5, fst (match codec_of r with [] => (m3, true) | f => andthen (assign e m3 [("compression"%string, MStr f)]) (fun m => match find (fun x => str_eqb (lit (fst x)) f) fourcc_to_bitrate with Some x => assign e m [("bit_rate"%string, MInt (snd x))] | None => (m, true) end) end) = m5 /\
    same ["compression"; "bit_rate"]%string m3 m5 /\ (kept_text e (codec_of r) -> getValues m5 (lit "compression") = Ok [MStr (codec_of r)]) /\ getValues m5 (lit "bit_rate") = Ok (rate_values (codec_of r))).
  { assert (Nil : forall m5, same ["compression"%string] m3 m5 -> getValues m5 (lit "bit_rate") = Ok []) by (intros m5 S5; eapply (kept _ _ _ _ _ S5); [reflexivity|]; eapply (kept _ _ _ _ _ T3); [reflexivity|]; eapply root_empty; reflexivity).
    clear Gc Gv Gr. destruct (codec_of r) as [|b c] eqn:Ec. { exists m3. split; [reflexivity|]. split; [apply same_refl|]. split; [intros [N _]; contradiction|]. exact (Nil m3 (same_refl _ _)). }
    cbv iota beta zeta. rewrite <- Ec. clear Ec b c. set (f := codec_of r). clearbody f.
    destruct (PropertiesRaster.step_told e _ m3 "compression" f W T3) as (m4 & A4 & T4 & V4 & S4); [txt|reflexivity|]. rewrite A4. unfold andthen at 1. cbn [fst snd].
    assert (F : find (fun x => str_eqb (lit (fst x)) f) fourcc_to_bitrate = None /\ rate_values f = [] \/ exists x, find (fun x => str_eqb (lit (fst x)) f) fourcc_to_bitrate = Some x /\ rate_values f = [MInt (snd x)] /\ 1 <= snd x <= 15200).
    { unfold rate_values, codec_rates, fourcc_to_bitrate. cbn [find fst snd]. repeat (match goal with |- context [str_eqb ?a f] => destruct (str_eqb a f) end; [right; eexists; split; [reflexivity|split; [reflexivity|cbn [snd]; lia]]|]). left. split; reflexivity. }
    destruct F as [[-> ->]|(x & -> & -> & Bx)].
    - exists m4. split; [reflexivity|]. split; [exact (same_trans _ _ _ _ _ S4 (same_refl ["bit_rate"%string] m4))|]. split; [exact V4|exact (Nil m4 S4)].
    - destruct (PropertiesAu.step_q e _ m4 "bit_rate" _ (MInt (snd x)) W T4 eq_refl eq_refl eq_refl eq_refl eq_refl Logic.I) as (m5 & A5 & T5 & V5 & S5). rewrite A5. exists m5. split; [reflexivity|]. split; [exact (same_trans _ _ _ _ _ S4 S5)|]. split; [intros Kt; eapply (kept _ _ _ _ _ S5); [reflexivity|auto]|].
      rewrite V5. unfold passes. cbn [d_filter mk_data filter_ok number fl_lt]. rewrite !Z.mul_1_r. replace (snd x <? 1) with false by lia. replace (524288000 <? snd x) with false by lia. reflexivity. }
  destruct X as (m5 & E5 & S5 & V5 & R5). exists m5. pose proof (same_trans _ _ _ _ _ S3 S5) as U2. pose proof (same_trans _ _ _ _ _ S2 U2) as U1. split; [exact E5|]. split; [exact (same_trans _ _ _ _ _ S1 U1)|].
  split; [eapply (kept _ _ _ _ _ U1); [reflexivity|rewrite V1; reflexivity]|].
  split; [eapply (kept _ _ _ _ _ U2); [reflexivity|]; rewrite V2; unfold passes; cbn [d_filter mk_data filter_ok number fl_lt]; rewrite !Z.mul_1_r; unfold in_limits; destruct (rate_told r <? 1000) eqn:B1; [replace (1000 <=? rate_told r) with false by lia; reflexivity|replace (1000 <=? rate_told r) with true by lia; destruct (192000 <? rate_told r) eqn:B2; [replace (rate_told r <=? 192000) with false by lia|replace (rate_told r <=? 192000) with true by lia]; reflexivity]|].
  split; [eapply (kept _ _ _ _ _ S5); [reflexivity|]; rewrite V3; unfold passes; cbn [d_filter mk_data filter_ok number fl_lt]; rewrite !Z.mul_1_r; unfold in_limits; destruct (channels_told r <? 1) eqn:B1; [replace (1 <=? channels_told r) with false by lia; reflexivity|replace (1 <=? channels_told r) with true by lia; destruct (8 <? channels_told r) eqn:B2; [replace (channels_told r <=? 8) with false by lia|replace (channels_told r <=? 8) with true by lia]; reflexivity]|].
  split; [exact V5|exact R5].
Qed.
(** The metadata of every sound: the texts, the codec, the version, the rate and the channels when they are in the limits of the metadata; for the codecs known, the bits a second, and the duration to a microsecond; for the others neither. *)
Theorem C89_metadata : forall e read r rest, let data := bytes_of_all (real_items r) ++ rest in writes e -> serves read data -> is_bytes data -> real_ok r ->
  let m := real_metadata e (fst (fst (RealAudioFile read (8 * zlen data)))) in let t := texts_of r in
  (kept_text e (t_title t) -> getValues m (lit "title") = Ok [MStr (t_title t)]) /\ (kept_text e (t_author t) -> getValues m (lit "author") = Ok [MStr (t_author t)]) /\
  (kept_text e (t_copyright t) -> getValues m (lit "copyright") = Ok [MStr (t_copyright t)]) /\ (kept_text e (t_comment t) -> getValues m (lit "comment") = Ok [MStr (t_comment t)]) /\
  getValues m (lit "bits_per_sample") = Ok [MInt 16] /\ getValues m (lit "sample_rate") = Ok (in_limits 1000 192000 (rate_told r)) /\ getValues m (lit "nb_channel") = Ok (in_limits 1 8 (channels_told r)) /\
  (kept_text e (codec_of r) -> getValues m (lit "compression") = Ok [MStr (codec_of r)]) /\
  (let v := lit "Real audio version " ++ [48 + version_of r] in kept_text e v -> getValues m (lit "format_version") = Ok [MStr v]) /\
  (forall bit_rate, In (codec_of r, bit_rate) codec_rates -> getValues m (lit "bit_rate") = Ok [MInt bit_rate] /\ exists us, Z.abs (us * bit_rate - 1000000 * (8 * zlen (sound_of r))) < bit_rate /\ getValues m (lit "duration") = Ok (in_year us)) /\
  (~ In (codec_of r) (map fst codec_rates) -> getValues m (lit "bit_rate") = Ok [] /\ getValues m (lit "duration") = Ok []).
Proof.
  intros e read r rest data W Hs Hb K. cbv zeta. unfold data. rewrite PropertiesReal.C89_file by assumption. cbn [fst]. clear data Hs Hb. set (l := shows (real_items r) 0). remember (real_metadata e l) as mm eqn:Em. symmetry in Em. revert Em.
  assert (Gv : GenModel.get (lit "version") l = Some (VNum (version_of r))) by (destruct r; reflexivity).
  assert (Gm : exists info, AiffMetaModel.group (lit "metadata") l = Some info /\ GenModel.get (lit "title") info = Some (VBytes (t_title (texts_of r))) /\ GenModel.get (lit "author") info = Some (VBytes (t_author (texts_of r))) /\ GenModel.get (lit "copyright") info = Some (VBytes (t_copyright (texts_of r))) /\ GenModel.get (lit "comment") info = Some (VBytes (t_comment (texts_of r)))) by (destruct r; eexists; (split; [reflexivity|]); repeat split; reflexivity).
  assert (Gs : real_size (version_of r) l = Some (zlen (sound_of r))).
  { destruct r; [reflexivity|]. unfold real_size. change (version_of _ =? 3) with false. cbn iota. match goal with |- _ = Some (zlen (sound_of ?x)) => set (hl := head_len x); change (GenModel.get (lit "filesize") l) with (Some (VNum (hl + zlen (sound_of x) - 40))); change (GenModel.get (lit "headersize") l) with (Some (VNum (hl - 16))) end. cbn [num]. f_equal. clearbody hl. lia. }
  destruct Gm as (info & Gi & G1 & G2 & G3 & G4). unfold real_metadata, real_extract. unfold ask. rewrite Gv. cbn [num]. cbv zeta. rewrite Gi, Gs.
  destruct (texts_told e root (texts_of r) info W eq_refl G1 G2 G3 G4) as (m1 & -> & T1 & X1 & X2 & X3 & X4).
  destruct (root_told e r m1 W K T1) as (m2 & E2 & S2 & Y1 & Y2 & Y3 & Y4 & Y5). fold l in E2. rewrite E2. pose proof (same_trans _ _ _ _ _ T1 S2) as T2.
  replace (RasterModel.enum None (version_of r)) with [48 + version_of r] by (destruct r; reflexivity). set (fv := lit "Real audio version " ++ [48 + version_of r]).
  destruct (PropertiesRaster.step_told e _ m2 "format_version" fv W T2) as (m3 & A3 & T3 & V3 & S3); [txt|reflexivity|]. rewrite A3. unfold andthen at 1. cbn [fst snd].
  assert (Y5' : getValues m3 (lit "bit_rate") = Ok (rate_values (codec_of r))) by (eapply (kept _ _ _ _ _ S3); [reflexivity|exact Y5]).
  assert (Nil : getValues m3 (lit "duration") = Ok []) by (eapply (kept _ _ _ _ _ T3); [reflexivity|]; eapply root_empty; reflexivity).
  assert (Ls : 0 <= zlen (sound_of r) < 2147483648) by (destruct K as [K _]; change (2 ^ 31) with 2147483648 in K; pose proof (zlen_nonneg (sound_of r)); lia). set (n := zlen (sound_of r)) in *. clearbody n.
  match goal with |- context [with_mime e (fst ?x)] => assert (X : exists m5, fst x = m5 /\ same ["duration"; "compr_rate"; "track_total"]%string m3 m5 /\
    (forall bit_rate, rate_values (codec_of r) = [MInt bit_rate] -> 8000 <= bit_rate -> exists us, Z.abs (us * bit_rate - 1000000 * (8 * n)) < bit_rate /\ getValues m5 (lit "duration") = Ok (in_year us)) /\ (rate_values (codec_of r) = [] -> getValues m5 (lit "duration") = Ok [])) end.
  { destruct (n =? 0) eqn:N0. { exists m3. split; [reflexivity|]. split; [apply same_refl|]. split; [|intros _; exact Nil]. intros b _ B. exists 0. split; [lia|exact Nil]. }
    assert (Rv : rate_values (codec_of r) = [] \/ exists b, rate_values (codec_of r) = [MInt b] /\ 8000 <= b).
    { unfold rate_values, codec_rates. cbn [find fst snd]. repeat (match goal with |- context [str_eqb ?a ?f] => destruct (str_eqb a f) end; [right; eexists; split; [reflexivity|cbn [snd]; lia]|]). left. reflexivity. }
    destruct Rv as [Rv|(b & Rv & B)]; rewrite Rv in Y5' |- *.
    - rewrite (PropertiesAu.none_found _ _ Y5'). unfold andthen. cbn [fst snd]. pose proof (compr_same e m3 (n * 8)) as S4. eexists. split; [reflexivity|]. split; [exact (same_trans _ _ _ _ _ (same_refl ["duration"%string] m3) S4)|]. split; [discriminate|]. intros _. eapply (kept _ _ _ _ _ S4); [reflexivity|exact Nil].
    - destruct (int_found _ _ _ Y5') as [-> ->]. destruct (duration_close (n * 8) b 1) as (us & -> & U0 & Us); [change (2 ^ 53) with 9007199254740992; lia|lia|lia|change (2 ^ 31) with 2147483648; lia|].
      destruct (PropertiesAu.step_q e _ m3 "duration" _ (MTimedelta us) W T3 eq_refl eq_refl eq_refl eq_refl eq_refl Logic.I) as (m4 & A4 & T4 & V4 & S4). rewrite A4. unfold andthen. cbn [fst snd]. pose proof (compr_same e m4 (n * 8)) as S5. eexists. split; [reflexivity|]. split; [exact (same_trans _ _ _ _ _ S4 S5)|]. split; [|discriminate].
      intros b' E _. injection E as <-. exists us. split; [lia|]. eapply (kept _ _ _ _ _ S5); [reflexivity|]. rewrite V4. unfold passes, in_year. cbn [d_filter mk_data filter_ok]. unfold HumanModel.us_per_day. replace (365 * 86400000000) with 31536000000000 by reflexivity. replace (negb (us <? 1000)) with (1000 <=? us) by lia. replace (negb (31536000000000 <? us)) with (us <=? 31536000000000) by lia. reflexivity. }
  destruct X as (m5 & -> & S5 & D1 & D2). pose proof (same_trans _ _ _ _ _ T3 S5) as T5. pose proof (mime_step e _ m5 (lit "audio/x-realaudio") (lit "Big endian") T5 eq_refl) as S6. intros <-.
  pose proof (same_trans _ _ _ _ _ S5 S6) as U3. pose proof (same_trans _ _ _ _ _ S3 U3) as U2. pose proof (same_trans _ _ _ _ _ S2 U2) as U1.
  split; [intros Kt; eapply (kept _ _ _ _ _ U1); [reflexivity|auto]|]. split; [intros Kt; eapply (kept _ _ _ _ _ U1); [reflexivity|auto]|]. split; [intros Kt; eapply (kept _ _ _ _ _ U1); [reflexivity|auto]|]. split; [intros Kt; eapply (kept _ _ _ _ _ U1); [reflexivity|auto]|].
  split; [eapply (kept _ _ _ _ _ U2); [reflexivity|exact Y1]|]. split; [eapply (kept _ _ _ _ _ U2); [reflexivity|exact Y2]|]. split; [eapply (kept _ _ _ _ _ U2); [reflexivity|exact Y3]|]. split; [intros Kt; eapply (kept _ _ _ _ _ U2); [reflexivity|auto]|]. split; [intros Kt; eapply (kept _ _ _ _ _ U3); [reflexivity|auto]|].
  split.
  - intros b I. assert (Rb : rate_values (codec_of r) = [MInt b] /\ 8000 <= b) by (cbn [codec_rates In] in I; repeat (destruct I as [I|I]; [injection I as <- <-; split; [reflexivity|lia]|]); destruct I). destruct Rb as [Rb B]. split; [eapply (kept _ _ _ _ _ U3); [reflexivity|rewrite Y5', Rb; reflexivity]|]. destruct (D1 b Rb B) as (us & Us & Gd). exists us. split; [exact Us|]. eapply (kept _ _ _ _ _ S6); [reflexivity|exact Gd].
  - intros N. assert (Rn : rate_values (codec_of r) = []). { unfold rate_values. destruct (find (fun x => str_eqb (fst x) (codec_of r)) codec_rates) as [x|] eqn:F; [|reflexivity]. exfalso. apply find_some in F as [F E]. apply str_eqb_eq in E. apply N. rewrite <- E. apply in_map, F. }
    split; [eapply (kept _ _ _ _ _ U3); [reflexivity|rewrite Y5', Rn; reflexivity]|]. eapply (kept _ _ _ _ _ S6); [reflexivity|exact (D2 Rn)].
Qed.
Print Assumptions C89_metadata.
(** The sounds of C89_sounds are of codecs known, so that their duration is told: 3 bytes at 8000 bits a second last 3 milliseconds. *)
Example C89_described : In (codec_of PropertiesReal.tune3, 8000) codec_rates /\ In (codec_of PropertiesReal.tune4, 15200) codec_rates /\ in_year 3000 = [MTimedelta 3000] /\ rate_told PropertiesReal.tune4 = 8000 /\
  (forall us, Z.abs (us * 8000 - 1000000 * (8 * zlen (sound_of PropertiesReal.tune3))) < 8000 -> us = 3000) /\ ~ In (lit "sipr") (map fst codec_rates).
Proof.
  split; [right; right; left; reflexivity|]. split; [left; reflexivity|]. split; [reflexivity|]. split; [reflexivity|]. split; [intros us; change (zlen (sound_of PropertiesReal.tune3)) with 3; lia|]. cbn. intros [X|[X|[X|[]]]]; discriminate X.
Qed.

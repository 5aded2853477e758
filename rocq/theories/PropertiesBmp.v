(** C80: what the parser of BMP pictures shows, and the metadata taken from them. *)
From Coq Require Import String.
From Verif Require Import Base BaseProofs BitsModel BitsSpec BitsProofs StreamModel StreamSpec StreamProofs StreamProofs2 DictModel DictProofs FieldModel FieldNames ToolsModel NumSpec NumRead ChunkBase GenModel GenSpec GenProofs ItemSpec ItemProofs ItemProofs2 ZipSpec ExtractModel ExtractProofs BmpModel BmpSpec BmpProofs Lit.
From Verif Require MetaModel.
Open Scope Z_scope.
Ltac Zify.zify_post_hook ::= Z.div_mod_to_equations.

(** For every picture of Windows 3 or 4, whatever follows it in the file: its header, its palette, the bytes skipped before the pixels, the lines of pixels from the last one to
    the first, or the compressed pixels. *)
Theorem C80_file : forall read b rest, let data := bytes_of_all (bmp_items b) ++ rest in serves read data -> is_bytes data -> bmp_ok b ->
  BmpFile read (8 * zlen data) = (shows (bmp_items b) 0, None, 8 * file_size b).
Proof.
  intros read b rest data Hs Hb K. assert (R : zlen (b_reserved b) = 4) by apply K. unfold BmpFile. rewrite <- (bmp_len b R). apply (obey_all read data Hs Hb); [|apply (occ_pre [])]. apply file_obeys; auto. unfold data. rewrite zlen_app, (bmp_len b R). pose proof (zlen_nonneg rest). lia.
Qed.
Print Assumptions C80_file.
(** Every file: the fields follow each other from the start and end inside the file, and the loops end. *)
Section Ends.
Context (read : read_fun) (data : list Z) (Hs : serves read data) (Hb : is_bytes data) (He : ends read data) (Hd : data <> []).
Notation safe := (safe read data).
Lemma padding_safe n k : (forall m, safe m k) -> forall m, safe m (padding n k).
Proof using All. intros K m. unfold padding. destruct (n <=? 0) eqn:N; [apply safe_err; discriminate|]. destruct (n mod 8 =? 0); calm_step; apply K. Qed.
Lemma times_safe body : (forall k, (forall m, safe m k) -> forall m, safe m (body k)) -> forall n k, (forall m, safe m k) -> forall m, safe m (times body n k).
Proof using Type. intros B. induction n as [|n IH]; intros k K; [exact K|]. cbn [times]. apply B, IH, K. Qed.
Lemma pixel_safe c k : (forall m, safe m k) -> forall m, safe m (pixel_field c k).
Proof using All. intros K m. destruct c; cbn [pixel_field pixel_size]; unfold RGB_fields; try (calm_step; apply K). apply safe_set; [repeat calm_step|intros _; apply K]. Qed.
Lemma line_safe name w c k : (forall m, safe m k) -> forall m, safe m (ImageLine name w c k).
Proof using All.
  intros K m. unfold ImageLine. apply safe_set; [|intros _; apply K]. apply times_safe; [apply pixel_safe|]. intros m'. apply safe_ask. intros stop a A M. destruct (negb _); cbn [when]; [apply padding_safe; intros; apply safe_ret|apply safe_ret].
Qed.
Lemma lines_safe w c : forall n k, (forall m, safe m k) -> forall m, safe m (image_lines w c n k).
Proof using All. induction n as [|n IH]; intros k K; [exact K|]. cbn [image_lines]. apply line_safe, IH, K. Qed.
Lemma xyz_safe name k : (forall m, safe m k) -> forall m, safe m (CIEXYZ name k).
Proof using All. intros K m. unfold CIEXYZ, u32. apply safe_open; try assumption; [repeat calm_step|intros ?; apply K]. Qed.
Lemma header_safe m : safe m BmpHeader_fields.
Proof using All.
  unfold BmpHeader_fields, u32. do 5 calm_step. destruct (_ <? 40); [apply safe_ret|]. do 6 calm_step. destruct (_ <? 108); [apply safe_ret|]. do 5 calm_step. do 3 (apply xyz_safe; intros ?). repeat calm_step.
Qed.
Lemma palette_safe name size n k : (forall m, safe m k) -> forall m, safe m (Palette name size RGBA_fields n k).
Proof using All.
  intros K m. unfold Palette. destruct (n <=? 0); [apply safe_err; discriminate|]. apply safe_set; [|intros _; apply K]. apply times_safe; [|intros; apply safe_ret]. intros k' K' m'. apply safe_set; [unfold RGBA_fields; repeat calm_step|intros _; apply K'].
Qed.
Lemma image_safe name size h m : safe m (parseImageData name size h PRet).
Proof using All.
  unfold parseImageData, need. cbv zeta. assert (R : forall m, safe m (emit name (KBytes size); PRet)) by (intros m'; calm_step; apply safe_ret). destruct (_ || _); [|apply R]. do 3 (destruct (get _ _); [|apply safe_err; discriminate]). destruct (pixel_class _); [|apply R].
  apply safe_set; [|intros; apply safe_ret]. unfold ImagePixels_fields. apply lines_safe. intros m'. apply safe_ask. intros stop a A M. destruct (negb _); cbn [when]; repeat calm_step.
Qed.
End Ends.
Theorem C80_any : forall read data, serves read data -> ends read data -> is_bytes data -> data <> [] ->
  let '(l, e, b) := BmpFile read (8 * zlen data) in tiled 0 l b /\ b <= 8 * zlen data /\ settled_file (l, e, b).
Proof.
  intros read data Hs He Hb Hd. apply (any_file read data Hs Hb He Hd). unfold bmp_fields. do 4 calm_step. apply safe_open; auto; [apply header_safe; auto|]. intros h. unfold need. destruct (get _ _); [|apply safe_err; discriminate]. cbv zeta.
  assert (P : forall ds fs m, safe read data m (PAsk (fun _ a => seekByte ds a (PAsk (fun _ a => parseImageData (lit "pixels") (Z.min (fs - ds) ((8 * zlen data - a) / 8)) h PRet))))).
  { intros ds fs m'. apply safe_ask. intros stop a A M. unfold seekByte. destruct (_ <? 0); [apply safe_err; discriminate|]. assert (I : forall m, safe read data m (PAsk (fun _ a => parseImageData (lit "pixels") (Z.min (fs - ds) ((8 * zlen data - a) / 8)) h PRet))) by (intros m''; apply safe_ask; intros; apply image_safe; auto). destruct (0 <? _); cbn [when]; [apply padding_safe; auto|apply I]. }
  destruct (negb _); cbn [when]; [apply palette_safe; auto|apply P].
Qed.
Print Assumptions C80_any.
(** Every picture with one plane is accepted, whatever the bytes that follow its header; every other one is refused. *)
Theorem C80_valid : forall read b rest, let data := bytes_of_all (bmp_items b) ++ rest in serves read data -> is_bytes data -> bmp_ok b ->
  bmp_validate read = Ok (h_planes (b_header b) =? 1).
Proof.
  intros read b rest data Hs Hb (R & H & F & _). destruct H as (H1 & H2 & H3 & _). assert (O : occurs_at (bytes_of_all (bmp_items b)) data 0) by apply (occ_pre []). unfold bmp_items, le in O. cbn [app] in O.
  rewrite !bytes_of_all_cons in O. change (bytes_of (ISet ?n ?l)) with (bytes_of_all l) in O. unfold header_items, le in O. cbn [app] in O. rewrite !bytes_of_all_cons in O. rewrite <- !app_assoc in O. cbn [bytes_of plain_bytes] in O. rewrite !occ_app in O. rewrite !zlen_uint, R in O. change (zlen (lit "BM")) with 2 in O.
  destruct O as (O1 & _ & _ & _ & O2 & _ & _ & O3 & _). set (p1 := 0 + 2 + Z.of_nat 4 + 4 + Z.of_nat 4) in *. assert (p1 = 14) by (unfold p1; lia). set (p2 := p1 + Z.of_nat 4 + Z.of_nat 4 + Z.of_nat 4) in *. assert (p2 = 26) by (unfold p2; lia).
  unfold bmp_validate. pose proof (rb_occ read data Hs 0 _ O1 ltac:(discriminate)) as R1. change (8 * 0) with 0 in R1. change (zlen (lit "BM")) with 2 in R1. rewrite R1. cbn [bind]. change (str_eqb (lit "BM") (lit "BM")) with true. cbn [negb].
  pose proof (read_num read data Hs Hb LITTLE_ENDIAN 4 32 (match h_v4 (b_header b) with Some _ => 108 | None => 40 end) p1 ltac:(discriminate) ltac:(lia) ltac:(lia) ltac:(change (2 ^ 32) with 4294967296; destruct (h_v4 _); lia) O2) as R2. replace (8 * p1) with 112 in R2 by lia. rewrite R2. cbn [bind]. replace (negb _) with false by (destruct (h_v4 _); reflexivity).
  pose proof (read_num read data Hs Hb LITTLE_ENDIAN 2 16 (h_planes (b_header b)) p2 ltac:(discriminate) ltac:(lia) ltac:(lia) ltac:(lia) O3) as R3. replace (8 * p2) with 208 in R3 by lia. rewrite R3. reflexivity.
Qed.
Print Assumptions C80_valid.
(** A header of an unknown size, as those of Windows 98 (124 bytes) and of OS/2 2 (64 bytes): the file is not refused with a reason: validate asks for a field of the file that is
    in its header, and raises MissingField (bmp.py:167). *)
Theorem C80_version5_refuted : forall read data s, serves read data -> is_bytes data -> ~ In s [12; 40; 108] -> 0 <= s < 2 ^ 32 -> occurs_at (lit "BM") data 0 -> occurs_at (uint LITTLE_ENDIAN 4 s) data 14 ->
  bmp_validate read = Err MissingField.
Proof.
  intros read data s Hs Hb N S O1 O2. unfold bmp_validate. pose proof (rb_occ read data Hs 0 _ O1 ltac:(discriminate)) as R1. change (8 * 0) with 0 in R1. change (zlen (lit "BM")) with 2 in R1. rewrite R1. cbn [bind]. change (str_eqb (lit "BM") (lit "BM")) with true. cbn [negb].
  pose proof (read_num read data Hs Hb LITTLE_ENDIAN 4 32 _ 14 ltac:(discriminate) ltac:(lia) ltac:(lia) S O2) as R2. change (8 * 14) with 112 in R2. rewrite R2. cbn [bind]. cbn [In] in N. replace (negb _) with true by lia. reflexivity.
Qed.
Print Assumptions C80_version5_refuted.
Example C80_version5 : let data := lit "BM" ++ uint LITTLE_ENDIAN 4 200 ++ [0; 0; 0; 0] ++ uint LITTLE_ENDIAN 4 138 ++ uint LITTLE_ENDIAN 4 124 ++ List.repeat 0 120 in
  ~ In 124 [12; 40; 108] /\ occurs_at (lit "BM") data 0 /\ occurs_at (uint LITTLE_ENDIAN 4 124) data 14 /\ bmp_validate (string_read data) = Err MissingField.
Proof. cbn [In]. split; [lia|]. split; [vm_compute; repeat split; discriminate|]. split; [vm_compute; repeat split; discriminate|]. vm_compute; reflexivity. Qed.
Lemma header_group b : exists p, group (lit "header") (shows (bmp_items b) 0) = Some (shows (header_items (b_header b)) p).
Proof. unfold bmp_items, le. cbn [app shows]. rewrite show_set. eexists. reflexivity. Qed.
(** The description and the size of the content. *)
Theorem C80_description : forall b, bmp_description (shows (bmp_items b) 0) = Ok (lit "Microsoft Bitmap version " ++ (match h_v4 (b_header b) with Some _ => lit "4" | None => lit "3" end)).
Proof.
  intros b. unfold bmp_description. destruct (header_group b) as [p E].
  rewrite E. unfold getFormatVersion, header_items. destruct (h_v4 (b_header b)) as [v|]; [|reflexivity]. unfold v4_items. destruct (v_masks v) as [[[? ?] ?] ?], (v_gamma v) as [[? ?] ?], (v_red v) as [[? ?] ?], (v_green v) as [[? ?] ?], (v_blue v) as [[? ?] ?]. reflexivity.
Qed.
Print Assumptions C80_description.
Theorem C80_content_size : forall b, bmp_content_size (shows (bmp_items b) 0) = Ok (8 * file_size b).
Proof. intros b. unfold bmp_content_size. change (get (lit "file_size") (shows (bmp_items b) 0)) with (Some (VNum (file_size b))). cbn [num]. f_equal. lia. Qed.
Print Assumptions C80_content_size.
(** The metadata of a picture: the numbers of its header, each when it is in the limits of its key. *)
Import MetaModel.
Definition colours (h : header) : list mval := if (1 <=? h_bpp h) && (h_bpp h <=? 8) then in_limits 1 16777216 (h_used h) else [].
Lemma bmp_meta e l h p : writes e -> header_ok h -> group (lit "header") l = Some (shows (header_items h) p) -> let m := bmp_metadata e l in
  getValues m (lit "width") = Ok (in_limits 1 20000 (h_width h)) /\ getValues m (lit "height") = Ok (in_limits 1 20000 (h_height h)) /\
  getValues m (lit "bits_per_pixel") = Ok (in_limits 1 256 (h_bpp h)) /\ getValues m (lit "nb_colors") = Ok (colours h) /\
  getValues m (lit "width_dpi") = Ok (in_limits 1 10000 (h_xdpi h)) /\ getValues m (lit "height_dpi") = Ok (in_limits 1 10000 (h_ydpi h)).
Proof.
  intros W Hk Gr. assert (B0 : 0 <= h_bpp h) by apply Hk. cbv zeta. remember (bmp_metadata e l) as mm eqn:Em0. symmetry in Em0. revert Em0. unfold bmp_metadata, bmp_extract. rewrite Gr. unfold ask. pose proof (header_get h p) as G.
  rewrite (G "width"%string (h_width h)) by (vm_compute; tauto). cbn [num]. assert (Ik : forall key lo hi d, find_data root (lit key) = Some d -> d_values d = [] -> d_type d = Some [TInt] -> d_filter d = Some (NumberFilter (FNum lo 1) (FNum hi 1)) -> d_conv d = None -> int_key key lo hi) by (intros; eexists; eauto 6).
  destruct (step_int e [] root "width" (h_width h) 1 20000 W (same_refl _ _)) as (m1 & A1 & T1 & V1 & _); [eapply Ik; reflexivity|reflexivity|]. rewrite A1. unfold andthen at 1. cbn [fst snd].
  rewrite (G "height"%string (h_height h)) by (vm_compute; tauto). cbn [num]. destruct (step_int e _ m1 "height" (h_height h) 1 20000 W T1) as (m2 & A2 & T2 & V2 & S2); [eapply Ik; reflexivity|reflexivity|]. rewrite A2. unfold andthen at 1. cbn [fst snd].
  rewrite (G "bpp"%string (h_bpp h)) by (vm_compute; tauto). cbn [num]. cbn [app] in T2.
  match goal with |- context [andthen (if h_bpp h =? 0 then ?x else ?y) ?k] => assert (X : exists m3, (if h_bpp h =? 0 then x else y) = (m3, true) /\ same ["width"; "height"; "nb_colors"; "bits_per_pixel"]%string root m3 /\ same ["nb_colors"; "bits_per_pixel"]%string m2 m3 /\ getValues m3 (lit "bits_per_pixel") = Ok (in_limits 1 256 (h_bpp h)) /\ getValues m3 (lit "nb_colors") = Ok (colours h)) end.
  { assert (Em : forall key d, find_data root (lit key) = Some d -> d_values d = [] -> forallb (fun k => negb (str_eqb (lit k) (lit key))) ["width"; "height"]%string = true -> getValues m2 (lit key) = Ok []) by (intros key d D Vd F; eapply (kept _ _ _ _ _ T2 F), root_empty; eauto).
    assert (Lg : forall ks, same ks root m2 -> incl ks ["width"; "height"; "nb_colors"; "bits_per_pixel"]%string -> same ["width"; "height"; "nb_colors"; "bits_per_pixel"]%string root m2) by (intros ks S Inc k N; apply S; intros I; apply N; apply in_map_iff in I as (x & <- & I); apply in_map, Inc, I).
    destruct (h_bpp h =? 0) eqn:Z0. { exists m2. split; [reflexivity|]. split; [apply (Lg _ T2); intros x [<-|[<-|[]]]; cbn [In]; tauto|]. split; [apply same_refl|]. unfold in_limits, colours. replace (1 <=? h_bpp h) with false by lia. cbn [andb]. split; eapply Em; reflexivity. }
    unfold has_field. rewrite (G "used_colors"%string (h_used h)) by (vm_compute; tauto). rewrite andb_true_r. cbn [num]. unfold colours. replace (1 <=? h_bpp h) with true by lia. cbn [andb]. destruct (h_bpp h <=? 8).
    - destruct (step_int e _ m2 "nb_colors" (h_used h) 1 16777216 W T2) as (m3 & A3 & T3 & V3 & S3); [eapply Ik; reflexivity|reflexivity|]. rewrite A3. unfold andthen at 1. cbn [fst snd]. cbn [app] in T3. destruct (step_int e _ m3 "bits_per_pixel" (h_bpp h) 1 256 W T3) as (m4 & A4 & T4 & V4 & S4); [eapply Ik; reflexivity|reflexivity|].
      exists m4. split; [exact A4|]. split; [exact T4|]. split; [exact (same_trans _ _ _ _ _ S3 S4)|]. split; [exact V4|]. eapply (kept _ _ _ _ _ S4); [reflexivity|exact V3].
    - unfold andthen at 1. cbn [fst snd]. destruct (step_int e _ m2 "bits_per_pixel" (h_bpp h) 1 256 W T2) as (m4 & A4 & T4 & V4 & S4); [eapply Ik; reflexivity|reflexivity|]. exists m4. split; [exact A4|].
      assert (Wk : forall ks ks' a b, same ks a b -> incl ks ks' -> same ks' a b) by (intros ks ks' a b S Inc k N; apply S; intros I; apply N; apply in_map_iff in I as (x & <- & I); apply in_map, Inc, I). cbn [app] in T4.
      split; [apply (Wk _ _ _ _ T4); intros x [<-|[<-|[<-|[]]]]; cbn [In]; tauto|]. split; [apply (Wk _ _ _ _ S4); intros x [<-|[]]; cbn [In]; tauto|]. split; [exact V4|]. eapply (kept _ _ _ _ _ S4); [reflexivity|]. eapply Em; reflexivity. }
  destruct X as (m3 & A3 & T3 & S3 & V3 & V3'). rewrite A3. unfold andthen at 1. cbn [fst snd].
  rewrite (G "compression"%string (h_compression h)) by (vm_compute; tauto). cbn [num].
  assert (X : forall v w, exists m4, assign e m3 [("compression"%string, MStr v); ("format_version"%string, MStr w)] = (m4, true) /\ same ["width"; "height"; "nb_colors"; "bits_per_pixel"; "compression"; "format_version"]%string root m4 /\ same ["compression"; "format_version"]%string m3 m4).
  { intros v w. destruct (step_plain e _ m3 "compression" (MStr v) W Logic.I T3) as (m4 & A4 & T4 & S4); [eexists; split; reflexivity|reflexivity|]. destruct (step_plain e _ m4 "format_version" (MStr w) W Logic.I T4) as (m5 & A5 & T5 & S5); [eexists; split; reflexivity|reflexivity|].
    exists m5. split; [|split; [exact T5|exact (same_trans _ _ _ _ _ S4 S5)]]. cbn [assign] in *. destruct (setattr e m3 _ _) as [x|]; [|discriminate]. apply (f_equal fst) in A4. cbn [fst] in A4. subst x. exact A5. }
  match goal with |- context [assign e m3 [(_, MStr ?v); (_, MStr ?w)]] => destruct (X v w) as (m4 & A4 & T4 & S4) end. clear X. rewrite A4. unfold andthen at 1. cbn [fst snd]. cbn [app] in T4, S4.
  rewrite (G "horizontal_dpi"%string (h_xdpi h)) by (vm_compute; tauto). cbn [num]. destruct (step_int e _ m4 "width_dpi" (h_xdpi h) 1 10000 W T4) as (m5 & A5 & T5 & V5 & S5); [eapply Ik; reflexivity|reflexivity|]. rewrite A5. unfold andthen at 1. cbn [fst snd].
  rewrite (G "vertical_dpi"%string (h_ydpi h)) by (vm_compute; tauto). cbn [num]. destruct (step_int e _ m5 "height_dpi" (h_ydpi h) 1 10000 W T5) as (m6 & A6 & T6 & V6 & S6); [eapply Ik; reflexivity|reflexivity|]. rewrite A6. unfold andthen at 1. cbn [fst snd].
  assert (X : exists m7, match size_of (lit "pixels") l with Some s => computeComprRate e m6 s | None => (m6, true) end = (m7, true) /\ same ["compr_rate"%string] m6 m7).
  { destruct (size_of _ _); [|exists m6; split; [reflexivity|apply same_refl]]. eapply rate_step; [exact W|exact T6|reflexivity]. }
  destruct X as (m7 & A7 & S7). rewrite A7. cbn [fst]. pose proof (same_trans _ _ _ _ _ T6 S7) as T7. pose proof (mime_step e _ m7 (lit "image/x-ms-bmp") (lit "Little endian") T7 eq_refl) as S8.
  pose proof (same_trans _ _ _ _ _ S7 S8) as U6. pose proof (same_trans _ _ _ _ _ S6 U6) as U5. pose proof (same_trans _ _ _ _ _ S5 U5) as U4. pose proof (same_trans _ _ _ _ _ S4 U4) as U3. pose proof (same_trans _ _ _ _ _ S3 U3) as U2. pose proof (same_trans _ _ _ _ _ S2 U2) as U1.
  intros <-. split; [eapply (kept _ _ _ _ _ U1); [reflexivity|exact V1]|]. split; [eapply (kept _ _ _ _ _ U2); [reflexivity|exact V2]|]. split; [eapply (kept _ _ _ _ _ U3); [reflexivity|exact V3]|]. split; [eapply (kept _ _ _ _ _ U3); [reflexivity|exact V3']|]. split; [eapply (kept _ _ _ _ _ U5); [reflexivity|exact V5]|]. eapply (kept _ _ _ _ _ U6); [reflexivity|exact V6].
Qed.
Theorem C80_metadata : forall e read b rest, let data := bytes_of_all (bmp_items b) ++ rest in writes e -> serves read data -> is_bytes data -> bmp_ok b ->
  let h := b_header b in let m := bmp_metadata e (fst (fst (BmpFile read (8 * zlen data)))) in
  getValues m (lit "width") = Ok (in_limits 1 20000 (h_width h)) /\ getValues m (lit "height") = Ok (in_limits 1 20000 (h_height h)) /\
  getValues m (lit "bits_per_pixel") = Ok (in_limits 1 256 (h_bpp h)) /\ getValues m (lit "nb_colors") = Ok (colours h) /\
  getValues m (lit "width_dpi") = Ok (in_limits 1 10000 (h_xdpi h)) /\ getValues m (lit "height_dpi") = Ok (in_limits 1 10000 (h_ydpi h)).
Proof.
  intros e read b rest data W Hs Hb K. unfold data. rewrite C80_file by assumption. cbn [fst]. destruct (header_group b) as [p E]. apply (bmp_meta e _ _ p W); [apply K|exact E].
Qed.
Print Assumptions C80_metadata.
(** The resolution is stored in pixels per metre, and is given as a number of dots per inch (image.py:46-47): a picture of 72 dots per inch is said to have 2835, and one of 300
    dots per inch (11811 pixels per metre) to have none. *)
Theorem C80_dpi_refuted : forall e read b rest, let data := bytes_of_all (bmp_items b) ++ rest in writes e -> serves read data -> is_bytes data -> bmp_ok b -> h_xdpi (b_header b) = 2835 -> h_ydpi (b_header b) = 11811 ->
  let m := bmp_metadata e (fst (fst (BmpFile read (8 * zlen data)))) in getValues m (lit "width_dpi") = Ok [MInt 2835] /\ getValues m (lit "height_dpi") = Ok [].
Proof. intros e read b rest data W Hs Hb K X Y m. destruct (C80_metadata e read b rest W Hs Hb K) as (_ & _ & _ & _ & A & B). rewrite X in A. rewrite Y in B. split; assumption. Qed.
Print Assumptions C80_dpi_refuted.
(** The colors are stored as blue, green and red, in pixels of 24 bits and in palettes; the first byte is shown as the red one and the third as the blue one (common.py:4-33). *)
Theorem C80_colours_refuted : forall red green blue p, 0 <= red < 256 -> 0 <= green < 256 -> 0 <= blue < 256 ->
  let v := blue + 256 * green + 65536 * red in let swapped := [VNum blue; VNum green; VNum red] in
  bytes_of (dot_item 24 v) = [blue; green; red] /\ bytes_of (color_item v) = [blue; green; red; 0] /\
  (forall i, In i [dot_item 24 v; color_item v] -> exists l s, ItemSpec.show i p = [G (f_name (hd (F [] 0 0 (VNum 0)) (ItemSpec.show i p))) (8 * p) s l None] /\ map (fun name => GenModel.get (lit name) l) ["red"; "green"; "blue"]%string = map Some swapped).
Proof.
  intros r g b p R G B v swapped. assert (E1 : v mod 256 = b) by (unfold v; lia). assert (E2 : v / 256 mod 256 = g) by (unfold v; lia). assert (E3 : v / 65536 = r) by (unfold v; lia). assert (E4 : v / 65536 mod 256 = r) by lia. assert (E5 : v / 16777216 = 0) by (unfold v; lia).
  assert (D : dot_item 24 v = ISet (lit "pixel[]") [le 1 "red" b; le 1 "green" g; le 1 "blue" r]) by (unfold dot_item; change (24 =? 32) with false; change (24 =? 24) with true; cbn iota; rewrite E1, E2, E3; reflexivity).
  assert (C : color_item v = ISet (lit "color[]") [le 1 "red" b; le 1 "green" g; le 1 "blue" r; le 1 "alpha" 0]) by (unfold color_item; rewrite E1, E2, E4, E5; reflexivity). rewrite D, C.
  assert (U : forall x, 0 <= x < 256 -> uint LITTLE_ENDIAN 1 x = [x]) by (intros x X; unfold uint; cbn; f_equal; lia). unfold le. split; [cbn [bytes_of plain_bytes flat_map app]; rewrite !U by lia; reflexivity|]. split; [cbn [bytes_of plain_bytes flat_map app]; rewrite !U by lia; reflexivity|].
  intros i [<-|[<-|[]]]; rewrite show_set; cbn [hd f_name]; eexists; eexists; split; reflexivity.
Qed.
Print Assumptions C80_colours_refuted.
(** The first of two pixels of four bits is the high half of the byte; the low one is shown first (bmp.py:20-24). *)
Definition values (l : list fld) : list val := flat_map (fun f => match f with F _ _ _ v => [v] | G _ _ _ _ _ => [] end) l.
Theorem C80_nibbles_refuted : forall left right p, 0 <= left < 16 -> 0 <= right < 16 -> let stored := IBits LITTLE_ENDIAN 1 (nibbles [right; left]) in
  bytes_of stored = [16 * left + right] /\ map f_name (ItemSpec.show stored p) = [lit "pixel[]"; lit "pixel[]"] /\ values (ItemSpec.show stored p) = [VNum right; VNum left].
Proof.
  intros a b p A B. assert (C : forallb (fun x => forallb (fun y => match bytes_of (IBits LITTLE_ENDIAN 1 (nibbles [y; x])) with [v] => v =? 16 * x + y | _ => false end && match values (ItemSpec.show (IBits LITTLE_ENDIAN 1 (nibbles [y; x])) 0) with [VNum u; VNum v] => (u =? y) && (v =? x) | _ => false end) (map Z.of_nat (seq 0 16))) (map Z.of_nat (seq 0 16)) = true) by (vm_compute; reflexivity).
  rewrite forallb_forall in C. assert (I : forall x, 0 <= x < 16 -> In x (map Z.of_nat (seq 0 16))) by (intros x X; apply in_map_iff; exists (Z.to_nat x); split; [lia|apply in_seq; lia]). specialize (C a (I a A)). rewrite forallb_forall in C. specialize (C b (I b B)). apply andb_prop in C as [C D]. cbv zeta.
  split; [destruct (bytes_of _) as [|v [|]]; try discriminate C; f_equal; lia|]. split; [reflexivity|]. change (values (ItemSpec.show (IBits LITTLE_ENDIAN 1 (nibbles [b; a])) p)) with (values (ItemSpec.show (IBits LITTLE_ENDIAN 1 (nibbles [b; a])) 0)).
  destruct (values _) as [|[u|] [|[v|] [|]]]; try discriminate D. apply andb_prop in D as [D1 D2]. f_equal; [f_equal; lia|]. f_equal. f_equal. lia.
Qed.
Print Assumptions C80_nibbles_refuted.
(** The header of OS/2 has a width and a height of 16 bits each; they are read as 32 bits, and the number of planes is taken after the header, from the palette or the pixels: the
    picture is refused unless these bytes are 1 and 0 (bmp.py:82-90, 162-169). *)
Theorem C80_core_refuted : forall read data width height bpp next, serves read data -> is_bytes data -> 0 <= width < 2 ^ 16 -> 0 <= height < 2 ^ 16 -> 0 <= bpp < 2 ^ 16 -> 0 <= next < 2 ^ 16 -> occurs_at (lit "BM") data 0 ->
  occurs_at (uint LITTLE_ENDIAN 4 12 ++ uint LITTLE_ENDIAN 2 width ++ uint LITTLE_ENDIAN 2 height ++ uint LITTLE_ENDIAN 2 1 ++ uint LITTLE_ENDIAN 2 bpp ++ uint LITTLE_ENDIAN 2 next) data 14 ->
  bmp_validate read = Ok (next =? 1).
Proof.
  intros read data w h bpp n Hs Hb Hw Hh Hbpp Hn O1 O. rewrite !occ_app, !zlen_uint in O. destruct O as (O2 & _ & _ & _ & _ & O3).
  unfold bmp_validate. pose proof (rb_occ read data Hs 0 _ O1 ltac:(discriminate)) as R1. change (8 * 0) with 0 in R1. change (zlen (lit "BM")) with 2 in R1. rewrite R1. cbn [bind]. change (str_eqb (lit "BM") (lit "BM")) with true. cbn [negb].
  pose proof (read_num read data Hs Hb LITTLE_ENDIAN 4 32 12 14 ltac:(discriminate) ltac:(lia) ltac:(lia) ltac:(lia) O2) as R2. change (8 * 14) with 112 in R2. rewrite R2. cbn [bind]. change (negb _) with false. cbn iota.
  pose proof (read_num read data Hs Hb LITTLE_ENDIAN 2 16 n _ ltac:(discriminate) ltac:(lia) ltac:(lia) ltac:(lia) O3) as R3. change (8 * _) with 208 in R3. rewrite R3. reflexivity.
Qed.
Print Assumptions C80_core_refuted.
Example C80_core : let data := lit "BM" ++ uint LITTLE_ENDIAN 4 34 ++ [0; 0; 0; 0] ++ uint LITTLE_ENDIAN 4 26 ++ uint LITTLE_ENDIAN 4 12 ++ uint LITTLE_ENDIAN 2 2 ++ uint LITTLE_ENDIAN 2 1 ++ uint LITTLE_ENDIAN 2 1 ++ uint LITTLE_ENDIAN 2 24 ++ [255; 0; 0; 0; 0; 255; 0; 0] in
  occurs_at (uint LITTLE_ENDIAN 4 12 ++ uint LITTLE_ENDIAN 2 2 ++ uint LITTLE_ENDIAN 2 1 ++ uint LITTLE_ENDIAN 2 1 ++ uint LITTLE_ENDIAN 2 24 ++ uint LITTLE_ENDIAN 2 255) data 14 /\ bmp_validate (string_read data) = Ok false.
Proof. split; [vm_compute; repeat split; discriminate|vm_compute; reflexivity]. Qed.
(** A picture stored from its first line to its last one: its height is negative, and is read as a number near 2^32: the first line is shown as line 4294967295 - height, the
    pixels end with an error, and no height is found (bmp.py:51-56, 86). *)
Definition upside_ok (b : bmp) (ls : list line) : Prop :=
  let h := b_header b in start_ok b /\ In (h_compression h) [0; 3] /\ In (h_bpp h) [4; 8; 24; 32] /\ 1 <= h_width h /\ 1 <= zlen ls < 2 ^ 31 /\ h_height h = 2 ^ 32 - zlen ls /\ Forall (line_ok (h_bpp h) (h_width h)) ls /\
  b_image b = Lines ls [] /\ file_size b < 2 ^ 32.
Theorem C80_topdown_refuted : forall e read b ls, let h := b_header b in let data := bytes_of_all (bmp_items b) in writes e -> serves read data -> is_bytes data -> upside_ok b ls ->
  let shown := shows (start_items b (file_size b)) 0 ++ [G (lit "pixels") (8 * data_start b) (8 * (file_size b - data_start b)) (shows (numbered_from (h_bpp h) (2 ^ 32 - zlen ls) ls) (data_start b)) (Some StopIteration)] in
  BmpFile read (8 * zlen data) = (shown, None, 8 * zlen data) /\ getValues (bmp_metadata e shown) (lit "height") = Ok [].
Proof.
  intros e read b ls h data W Hs Hb (St & C & B & Wd & L & He & K & Im & F) shown. assert (R : zlen (b_reserved b) = 4) by apply St. assert (Hk : header_ok h) by apply St. fold h in C, B, Wd, He, K. pose proof (data_start_pos b) as Dp. change (2 ^ 32) with 4294967296 in *. change (2 ^ 31) with 2147483648 in *.
  assert (Zd : zlen data = file_size b) by (unfold data; apply bmp_len, R). destruct (pixel_class_in _ B) as [c Pc]. pose proof (lines_len _ _ _ B Wd K) as Ll. set (size := file_size b - data_start b) in *.
  assert (Eb : bytes_of_all (image_items (h_bpp h) (b_image b)) = bytes_of_all (numbered (h_bpp h) ls)) by (rewrite Im; cbn [image_items some_bytes_item]; rewrite app_nil_r, bytes_of_all_cons, app_nil_r; reflexivity).
  assert (Sz : size = zlen (bytes_of_all (numbered (h_bpp h) ls))) by (unfold size, file_size; fold h; rewrite Eb; lia).
  assert (Ed : data = bytes_of_all (start_items b (file_size b)) ++ bytes_of_all (numbered (h_bpp h) ls)) by (unfold data; rewrite bmp_start, bytes_of_all_app; fold h; rewrite Eb; reflexivity).
  assert (O : occurs_at (bytes_of_all (start_items b (file_size b)) ++ bytes_of_all (numbered (h_bpp h) ls)) data 0) by (rewrite <- Ed; apply occ_self). apply occ_app in O as [O1 O2]. rewrite start_len in O2 by exact R.
  pose proof (start_obeys read data b (file_size b) (8 * zlen data) St ltac:(lia) ltac:(split; [exact O1|rewrite start_len by exact R; lia])) as Fo. pose proof (follow read data Hs Hb _ _ _ _ _ Fo true O1 ltac:(rewrite start_len by exact R; lia)) as Run. rewrite start_len in Run by exact R. change (8 * 0) with 0 in Run.
  split.
  - unfold BmpFile. rewrite Run. replace (after_items (start_items b (file_size b)) true) with false by reflexivity. fold h. replace (Z.min (file_size b - data_start b) ((8 * zlen data - 8 * data_start b) / 8)) with size by (unfold size in *; lia). unfold parseImageData, has_field, need. pose proof (header_get h 14) as G.
    rewrite (G "width"%string (h_width h)) by (vm_compute; tauto). rewrite (G "height"%string (h_height h)) by (vm_compute; tauto). rewrite (G "bpp"%string (h_bpp h)) by (vm_compute; tauto). rewrite (G "compression"%string (h_compression h)) by (vm_compute; tauto).
    cbn iota. cbn [negb orb num]. clear G. replace ((h_compression h =? 0) || (h_compression h =? 3)) with true by (destruct C as [<-|[<-|[]]]; reflexivity). rewrite Pc. cbn [GenModel.run]. replace (size * 8 <=? 0) with false by lia. change (0 + data_start b) with (data_start b). replace (8 * zlen data <=? 8 * data_start b) with false by (unfold size in *; lia). cbn [orb andb].
    replace (Z.min (size * 8) (8 * zlen data - 8 * data_start b)) with (8 * size) by (unfold size in *; lia). unfold ImagePixels_fields.
    match goal with |- context [image_lines (h_width h) c (Z.to_nat (h_height h)) ?k] => pose proof (lines_from read data (h_bpp h) (h_width h) c ls k B Pc Wd K (Z.to_nat (h_height h)) (8 * data_start b + 8 * size) (data_start b) ltac:(unfold zlen in *; lia)) as Fl end.
    rewrite Z2Nat.id in Fl by lia. rewrite He in Fl at 2. assert (Ol : occurs_at (bytes_of_all (numbered_from (h_bpp h) (4294967296 - zlen ls) ls)) data (data_start b)) by (rewrite from_bytes; exact O2).
    specialize (Fl ltac:(split; [exact Ol|rewrite from_len; lia])). rewrite (follow read data Hs Hb _ _ _ _ _ Fl true Ol ltac:(rewrite from_len; lia)). rewrite from_len, <- Sz. replace (after_items _ true) with false by (destruct ls; [cbn in L; lia|reflexivity]).
    destruct (Z.to_nat (h_height h) - List.length ls)%nat as [|n] eqn:En; [unfold zlen in *; lia|]. cbn [image_lines]. unfold ImageLine. cbn [GenModel.run]. replace (alignValue _ 32 <=? 0) with false. 2:{ assert (1 <= pixel_size c) by (destruct c; cbn; lia). assert (0 < alignValue (h_width h * pixel_size c) 32) by (unfold alignValue; destruct (negb _) eqn:E; nia). lia. }
    replace (8 * data_start b + 8 * size <=? 8 * (data_start b + size)) with true by lia. cbn [orb]. unfold puts. cbn [fst snd put]. rewrite !app_nil_r. unfold put. cbn [fst snd]. fold size. unfold shown. f_equal. unfold size in *; lia.
  - assert (Gs : exists p, group (lit "header") shown = Some (shows (header_items h) p)) by (unfold shown, start_items, le; cbn [app shows]; rewrite show_set; eexists; reflexivity). destruct Gs as [p Gs]. destruct (bmp_meta e shown h p W Hk Gs) as (_ & V & _). rewrite V. unfold in_limits. replace (h_height h <=? 20000) with false by lia. rewrite andb_false_r. reflexivity.
Qed.
Print Assumptions C80_topdown_refuted.
(** ** Concrete pictures *)
Definition small (bpp width height used : Z) (v : option v4) : header := Header width height 1 bpp 0 0 2835 11811 used 0 v.
Definition four : bmp := Bmp [0; 0; 0; 0] (small 4 3 2 2 None) [255; 16777215] [7; 7] (Lines [Line [1; 0; 1] 0 [0; 0]; Line [0; 1; 1] 15 [9; 9]] []).
Definition eight : bmp := Bmp [0; 0; 0; 0] (small 8 2 1 1 (Some (V4 (1, 2, 3, 4) 5 (6, 7, 8) (9, 10, 11) (12, 13, 14) (15, 16, 17)))) [65280] [] (Lines [Line [0; 0] 0 [0; 0]] [0; 0]).
Definition rgb (height : Z) : bmp := Bmp [0; 0; 0; 0] (small 24 1 height 0 None) [] [] (Lines [Line [255] 0 [0]; Line [16711680] 0 [0]] []).
Definition packed : bmp := Bmp [0; 0; 0; 0] (Header 4 4 1 8 1 3 0 0 1 1 None) [0] [] (Packed [4; 0; 0; 1]).
Ltac pic := repeat match goal with
  | |- Forall _ (dots _) => cbn [dots] | |- True => exact Logic.I | |- let _ := _ in _ => cbv zeta | |- is_bytes _ => unfold is_bytes | |- is_byte _ => unfold is_byte
  | |- _ /\ _ => split | |- Forall _ (_ :: _) => constructor | |- Forall _ [] => constructor | |- In _ _ => cbn [In]; tauto
  | |- ?a < ?b => vm_compute; reflexivity | |- ?a <= ?b => vm_compute; discriminate | |- _ = _ => vm_compute; reflexivity | |- _ <> _ => discriminate end.
Example C80_pictures : bmp_ok four /\ bmp_ok eight /\ bmp_ok (rgb 2) /\ bmp_ok packed /\
  forall b, In b [four; eight; rgb 2; packed] -> BmpFile (string_read (bytes_of_all (bmp_items b))) (8 * zlen (bytes_of_all (bmp_items b))) = (shows (bmp_items b) 0, None, 8 * file_size b).
Proof.
  split. { unfold bmp_ok, header_ok, u32_ok, four, small. cbn [b_header b_image b_palette b_reserved h_width h_height h_planes h_bpp h_compression h_image_size h_xdpi h_ydpi h_used h_important h_v4]. unfold line_ok. cbn [dots half pad]. pic. }
  split. { unfold bmp_ok, header_ok, u32_ok, eight, small, v4_ok, xyz_ok. cbn [b_header b_image b_palette b_reserved h_width h_height h_planes h_bpp h_compression h_image_size h_xdpi h_ydpi h_used h_important h_v4 v_masks v_space v_red v_green v_blue v_gamma]. unfold line_ok, u32_ok. cbn [dots half pad]. pic. }
  split. { unfold bmp_ok, header_ok, u32_ok, rgb, small. cbn [b_header b_image b_palette b_reserved h_width h_height h_planes h_bpp h_compression h_image_size h_xdpi h_ydpi h_used h_important h_v4]. unfold line_ok. cbn [dots half pad]. pic. }
  split. { unfold bmp_ok, header_ok, u32_ok, packed. cbn [b_header b_image b_palette b_reserved h_width h_height h_planes h_bpp h_compression h_image_size h_xdpi h_ydpi h_used h_important h_v4]. pic. intros X. cbn [In] in X. lia. }
  intros b [<-|[<-|[<-|[<-|[]]]]]; vm_compute; reflexivity.
Qed.
Example C80_lines : map f_name (shows (bmp_items (rgb 2)) 0) = map lit ["signature"; "file_size"; "reserved"; "data_start"; "header"; "pixels"]%string /\ option_map (map f_name) (group (lit "pixels") (shows (bmp_items (rgb 2)) 0)) = Some (map lit ["line[1]"; "line[0]"]%string).
Proof. split; vm_compute; reflexivity. Qed.
Example C80_upside : upside_ok (rgb 4294967294) [Line [255] 0 [0]; Line [16711680] 0 [0]] /\ bmp_validate (string_read (bytes_of_all (bmp_items (rgb 4294967294)))) = Ok true.
Proof.
  split; [|vm_compute; reflexivity]. unfold upside_ok, start_ok, header_ok, u32_ok, rgb, small. cbn [b_header b_image b_palette b_reserved h_width h_height h_planes h_bpp h_compression h_image_size h_xdpi h_ydpi h_used h_important h_v4]. unfold line_ok. cbn [dots half pad]. pic.
Qed.
Example C80_resolution : h_xdpi (b_header four) = 2835 /\ h_ydpi (b_header four) = 11811.
Proof. split; reflexivity. Qed.

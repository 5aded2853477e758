(** C83: JPEG pictures with any quantization tables, thumbnails with palettes, and the metadata of the segment JFIF. *)
From Coq Require Import String.
From Verif Require Import Base BaseProofs BitsModel BitsSpec BitsProofs StreamModel StreamSpec StreamProofs StreamProofs2 DictModel DictProofs FieldModel FieldNames ToolsModel NumSpec NumRead ChunkBase GenModel GenSpec GenProofs ItemSpec ItemProofs ItemProofs2 ZipSpec ZipProofs MidiSpec MidiProofs ExtractModel ExtractProofs JpegModel JpegSpec JpegProofs PropertiesJpeg Lit.
From Verif Require MetaModel HumanModel PropertiesGifFile PropertiesMpeg.
From Verif Require Import MetaProofs2 MpegMeta.
Open Scope Z_scope.
Ltac Zify.zify_post_hook ::= Z.div_mod_to_equations.

(** ** The quality told for any tables *)
Definition sum (l : list Z) : Z := fold_right Z.add 0 l.
(** What is compared with the tables of libjpeg: the sum of all coefficients, and the one of two of each table *)
Definition weight (tables : list (list Z)) : Z := sum (map (fun t => sum (firstn 64 t)) tables).
Definition sample (tables : list (list Z)) : Z := match tables with [a] => nth 2 a 0 + nth 53 a 0 | a :: b :: _ => nth 2 a 0 + nth 53 a 0 + (nth 0 b 0 + nth 63 b 0) | [] => 0 end.
Definition reference (q : Z) (n : nat) : list (list Z) := firstn n [scaled q luminance; scaled q chrominance].
(** [q] is the first quality whose tables of libjpeg do not have both numbers above the ones of the picture; the quality is exact when none of the two is under *)
Definition quality_of (tables : list (list Z)) (r : option (Z * bool)) : Prop :=
  let below q := sample tables < sample (reference q (List.length tables)) /\ weight tables < weight (reference q (List.length tables)) in
  match r with
  | None => forall q, 1 <= q <= 100 -> below q
  | Some (q, approximate) => 1 <= q <= 100 /\ (forall p, 1 <= p < q -> below p) /\ ~ below q /\
      (approximate = false <-> sample tables <= sample (reference q (List.length tables)) /\ weight tables <= weight (reference q (List.length tables)))
  end.
Lemma find_quality_spec h s : forall hashes sums i, 0 <= i -> List.length hashes = List.length sums -> (List.length hashes + Z.to_nat i = 101)%nat ->
  match find_quality h s i hashes sums with
  | None => forall j, 0 <= j -> i + j < 100 -> h < nth (Z.to_nat j) hashes 0 /\ s < nth (Z.to_nat j) sums 0
  | Some (q, a) => exists k, q = i + 1 + k /\ 0 <= k /\ i + k < 100 /\ (forall j, 0 <= j < k -> h < nth (Z.to_nat j) hashes 0 /\ s < nth (Z.to_nat j) sums 0) /\
      (nth (Z.to_nat k) hashes 0 <= h \/ nth (Z.to_nat k) sums 0 <= s) /\ (a = false <-> h <= nth (Z.to_nat k) hashes 0 /\ s <= nth (Z.to_nat k) sums 0)
  end.
Proof.
  induction hashes as [|x hashes IH]; intros [|y sums] i Hi L N; try discriminate L; [cbn [find_quality]; intros j J1 J2; exfalso; cbn [List.length] in N; lia|].
  cbn [find_quality]. destruct (100 <=? i) eqn:E; [intros j J1 J2; lia|]. destruct ((x <=? h) || (y <=? s)) eqn:C.
  - exists 0. change (Z.to_nat 0) with 0%nat. cbn [nth]. split; [lia|]. split; [lia|]. split; [lia|]. split; [intros; lia|]. split; [lia|]. destruct (x <? h) eqn:A, (y <? s) eqn:B; cbn [orb]; split; intros; try discriminate; try reflexivity; try lia.
  - specialize (IH sums (i + 1) ltac:(lia)). cbn [List.length] in L, N. specialize (IH ltac:(lia) ltac:(lia)). destruct (find_quality h s (i + 1) hashes sums) as [[q a]|].
    + destruct IH as (k & Q & K0 & K1 & J & F & A). exists (k + 1). replace (Z.to_nat (k + 1)) with (S (Z.to_nat k)) by lia. cbn [nth]. split; [lia|]. split; [lia|]. split; [lia|]. split; [|split; assumption].
      intros j Hj. destruct (Z.eq_dec j 0) as [->|Nj]; [change (Z.to_nat 0) with 0%nat; cbn [nth]; lia|]. replace (Z.to_nat j) with (S (Z.to_nat (j - 1))) by lia. cbn [nth]. apply J. lia.
    + intros j J1 J2. destruct (Z.eq_dec j 0) as [->|Nj]; [change (Z.to_nat 0) with 0%nat; cbn [nth]; lia|]. replace (Z.to_nat j) with (S (Z.to_nat (j - 1))) by lia. cbn [nth]. apply IH; lia.
Qed.
Definition agrees (hashes sums : list Z) (n : nat) (q : Z) : bool := (nth (Z.to_nat (q - 1)) hashes 0 =? sample (reference q n)) && (nth (Z.to_nat (q - 1)) sums 0 =? weight (reference q n)).
Lemma found_quality hashes sums tables : List.length hashes = 101%nat -> List.length sums = 101%nat -> forallb (agrees hashes sums (List.length tables)) (map Z.of_nat (seq 1 100)) = true -> quality_of tables (find_quality (sample tables) (weight tables) 0 hashes sums).
Proof.
  intros L1 L2 G. pose proof (in_1_100 _ G) as A. clear G. assert (B : forall q, 1 <= q <= 100 -> nth (Z.to_nat (q - 1)) hashes 0 = sample (reference q (List.length tables)) /\ nth (Z.to_nat (q - 1)) sums 0 = weight (reference q (List.length tables))) by (intros q R; specialize (A q R); unfold agrees in A; lia). clear A.
  pose proof (find_quality_spec (sample tables) (weight tables) hashes sums 0 ltac:(lia) ltac:(lia) ltac:(lia)) as F. unfold quality_of. destruct (find_quality _ _ _ _ _) as [[q a]|].
  - destruct F as (k & -> & K0 & K1 & J & F & E). destruct (B (0 + 1 + k) ltac:(lia)) as [B1 B2]. replace (0 + 1 + k - 1) with k in * by lia. rewrite B1, B2 in *. split; [lia|]. split; [|split; [lia|exact E]].
    intros p Hp. destruct (B p ltac:(lia)) as [<- <-]. apply J. lia.
  - intros q R. destruct (B q R) as [<- <-]. apply F; lia.
Qed.
Lemma values_sum t : zlen t = 64 -> values64 t = t.
Proof. intros L. unfold values64. assert (L' : List.length t = 64%nat) by (unfold zlen in L; lia). rewrite <- L'. clear. induction t as [|x t IH]; [reflexivity|]. cbn [List.length seq map nth]. rewrite <- seq_shift, map_map. f_equal. exact IH. Qed.
Lemma sum_app a b : fold_right Z.add 0 (a ++ b) = fold_right Z.add 0 a + fold_right Z.add 0 b.
Proof. induction a as [|x a IH]; [reflexivity|]. cbn [app fold_right]. rewrite IH. lia. Qed.
(** The quality told of every picture with one or two tables, whatever the coefficients. *)
Theorem C83_nearest : forall l ts cs, full_tables l -> quants l = ts -> In (List.length ts) [1%nat; 2%nat] -> Forall2 (fun t c => zlen c = 64 /\ q_coeffs t = in_file_order c) ts cs ->
  exists r, computeQuality (shows (jpeg_items l) 0) = Ok r /\ quality_of cs r.
Proof.
  intros l ts cs F Q N C. unfold computeQuality. destruct (qtlist_parts l F) as (fs & -> & S). rewrite Q in S. clear Q F. cbn [bind]. destruct C as [|t0 c0 ts cs [L0 C0] C]; [cbn in N; lia|]. inversion S as [|f0 ? r0 ? S0 S' E0]; subst.
  rewrite !(quant_coeff f0 t0 c0 _ S0 C0) by lia. destruct C as [|t1 c1 ts cs [L1 C1] C].
  - inversion S'; subst. cbn [flat_map]. rewrite app_nil_r, (sum_coeff_ok _ _ (table_values f0 t0 c0 S0 C0)). cbn [bind]. eexists. split; [reflexivity|].
    rewrite values_sum by exact L0. replace (fold_right Z.add 0 c0) with (weight [c0]) by (unfold weight; cbn [map sum fold_right]; rewrite firstn_all2 by (unfold zlen in L0; lia); unfold sum; lia). eapply (found_quality _ _ [c0]); [reflexivity|reflexivity|vm_compute; reflexivity].
  - destruct C as [|t2 c2 ts cs _ C]; [|cbn in N; lia]. inversion S' as [|f1 ? r1 ? S1 S'' E1]; subst. inversion S''; subst. rewrite !(quant_coeff f1 t1 c1 _ S1 C1) by lia. cbn [flat_map]. rewrite app_nil_r, (sum_coeff_ok _ (values64 c0 ++ values64 c1)) by (apply Forall2_app; eapply table_values; eassumption). cbn [bind]. eexists. split; [reflexivity|].
    rewrite !values_sum by assumption. replace (fold_right Z.add 0 (c0 ++ c1)) with (weight [c0; c1]) by (rewrite sum_app; unfold weight; cbn [map sum fold_right]; rewrite !firstn_all2 by (unfold zlen in *; lia); unfold sum; lia). eapply (found_quality _ _ [c0; c1]); [reflexivity|reflexivity|vm_compute; reflexivity].
Qed.
Print Assumptions C83_nearest.
Example C83_nearest_ex : let c := map (fun v => v + 1) (scaled 75 luminance) in let l := [Tables [Quant 0 0 (in_file_order c)]] in
  full_tables l /\ zlen c = 64 /\ computeQuality (shows (jpeg_items l) 0) = Ok (Some (74, true)).
Proof. cbv zeta. split; [constructor; [discriminate|constructor]|]. split; vm_compute; reflexivity. Qed.
(** ** Thumbnails *)
Definition color_item (c : Z * Z * Z) : item := let '(r, g, b) := c in ISet (lit "color[]") [be 1 "red" r; be 1 "green" g; be 1 "blue" b].
Definition thumb_items (w h : Z) (colors : list (Z * Z * Z)) (pixels : list Z) : list item :=
  [I (lit "jfif") (SText (lit "JFIF" ++ [0])); be 1 "ver_maj" 1; be 1 "ver_min" 2; be 1 "units" 1; be 2 "x_density" 72; be 2 "y_density" 72; be 1 "thumb_w" w; be 1 "thumb_h" h;
   ISet (lit "thumb_palette") (map color_item colors); I (lit "thumb_data") (SBytes pixels)].
Lemma color_len l : zlen (bytes_of_all (map color_item l)) = 3 * zlen l.
Proof. induction l as [|[[r g] b] l IH]; [reflexivity|]. cbn [map]. rewrite bytes_of_all_cons, zlen_app, IH, zlen_cons. change (zlen (bytes_of (color_item (r, g, b)))) with 3. lia. Qed.
(** The content of a segment with a thumbnail of 256 colors: the palette, then a byte for each pixel. *)
Theorem C83_thumbnail : forall read w h colors pixels, let l := thumb_items w h colors pixels in let data := bytes_of_all l in serves read data -> is_bytes data ->
  byte w -> byte h -> 0 < w * h -> zlen colors = 256 -> Forall (fun c => byte (fst (fst c)) /\ byte (snd (fst c)) /\ byte (snd c)) colors -> zlen pixels = w * h ->
  run read (8 * zlen data) App0_fields true (8 * zlen data) 0 = (shows l 0, None, 8 * zlen data).
Proof.
  intros read w h colors pixels l data Hs Hb W H P Lc C Lp. apply obey_file; auto. unfold App0_fields, l, thumb_items, u8, u16, be. apply (ob_plain read data); [split; [discriminate|vm_compute; discriminate]|reflexivity|]. cbn [plain_val bytes]. change (str_eqb (lit "JFIF" ++ [0]) (lit "JFIF" ++ [0])) with true. cbn [negb].
  unfold byte in *. assert (Lt : w * h <= 255 * 255) by nia.
  repeat (apply (ob_plain read data); [split; [discriminate|split; [lia|first [lia|change (8 * Z.of_nat 1) with 8; lia]]]|reflexivity|]; cbn [plain_val num]; try (change (1 =? 0) with false; cbn iota)).
  replace (w * h =? 0) with false by lia. apply (ob_set read data); [rewrite color_len; lia|lia| |].
  - rewrite <- flat_map_single. replace 256%nat with (List.length colors) by (unfold zlen in Lc; lia). apply ob_times with (it := fun v => [color_item v]). intros [[r g] b] p' k' Ic. rewrite Forall_forall in C. specialize (C _ Ic). cbn [fst snd] in C. destruct C as (R & G & B). unfold rgb, u8, color_item, be. apply (ob_set read data); [reflexivity|lia| |apply ob_nil].
    repeat (apply (ob_plain read data); [split; [discriminate|split; [lia|change (8 * Z.of_nat 1) with 8; lia]]|reflexivity|]). apply ob_nil.
  - rewrite <- Lp. apply (ob_plain read data); [split; [intros ->; change (zlen (@nil Z)) with 0 in Lp; lia|change (2 ^ 64) with 18446744073709551616; lia]|reflexivity|apply ob_nil].
Qed.
Print Assumptions C83_thumbnail.
(** ** The metadata of the segment JFIF *)
Import MetaModel.
Definition is_jfif (p : part) : bool := match p with Jfif _ _ _ _ _ _ _ => true | _ => false end.
Definition not_jfif (l : list part) : Prop := Forall (fun p => is_jfif p = false) l.
Lemma part_name_jfif pt : str_eqb (part_name pt) (lit "app0") = is_jfif pt.
Proof. destruct pt; try reflexivity. cbn [part_name]. destruct (tag =? 226); [reflexivity|]. destruct (tag =? 220); reflexivity. Qed.
Lemma group_jfif l : not_jfif l -> forall q, group (lit "app0") (shows (flat_map part_items l) q) = None.
Proof. induction 1 as [|pt l N _ IH]; intros q; [reflexivity|]. cbn [flat_map]. rewrite shows_app, group_app, group_part by reflexivity. rewrite part_name_jfif, N. apply IH. Qed.
Lemma first_jfif l1 pt l2 more : not_jfif l1 -> is_jfif pt = true -> exists q, group (lit "app0") (shows (jpeg_items (l1 ++ pt :: l2)) 0 ++ more) = Some (shows (marker (part_tag pt) ++ chunk_rest pt) q).
Proof.
  intros N J. unfold jpeg_items. cbn [shows]. rewrite show_set. cbn [app group]. change (str_eqb (lit "start_image") (lit "app0")) with false. cbn iota. rewrite flat_map_app, <- app_assoc, shows_app, <- app_assoc, group_app, group_jfif by exact N. cbn [flat_map]. rewrite <- app_assoc, shows_app, <- app_assoc, group_app, group_part by reflexivity. rewrite part_name_jfif, J. eexists. reflexivity.
Qed.
Definition frame_keys : list string := ["compression"; "width"; "height"; "bits_per_pixel"; "pixel_format"; "nb_colors"; "track_total"]%string.
Lemma frame_same e m k c : same frame_keys m (fst (startOfFrame e m k c)).
Proof.
  unfold startOfFrame, ask. repeat (match goal with
    | |- same _ ?m (fst match ?x with Some _ => _ | None => _ end) => destruct x; [|apply same_refl]
    | |- same _ _ (fst (andthen _ _)) => apply andthen_same; [apply assign_same; reflexivity|intros]
    | |- same _ _ (fst (if ?x then _ else _)) => destruct x end). all: first [apply assign_same; reflexivity|apply same_refl].
Qed.
Lemma comments_keys text L : forall x, In x (map fst (comments text L)) -> x = "comment"%string.
Proof. intros x X. apply in_map_iff in X as ([k v] & <- & X). apply in_flat_map in X as (y & _ & X). destruct (content y) as [cy|]; [|destruct X]. destruct (GenModel.get (lit "comment") cy); [|destruct X]. destruct X as [X|[]]. injection X as <- _. reflexivity. Qed.
Definition late_keys : list string := ["comment"; "producer"; "compression"; "track_total"]%string.
(** Numbers of two digits at least *)
Definition two_digits (n : Z) : str := match dec n with [d] => [48; d] | l => l end.
Lemma dec2_digits n : 0 <= n < 256 -> dec2 n = two_digits n.
Proof.
  intros R. assert (F : forallb (fun n => str_eqb (dec2 n) (two_digits n)) (map Z.of_nat (seq 0 256)) = true) by (vm_compute; reflexivity). rewrite forallb_forall in F. specialize (F n). apply str_eqb_eq, F. apply in_map_iff. exists (Z.to_nat n). split; [lia|apply in_seq; lia].
Qed.
(** The version and, unless the numbers are only an aspect ratio, the densities. *)
Theorem C83_jfif : forall e text read l1 a b u x y w h l2 rest, let l := l1 ++ Jfif a b u x y w h :: l2 in let data := bytes_of_all (jpeg_items l) ++ rest in writes e -> serves read data -> is_bytes data -> jpeg_ok l -> not_jfif l1 ->
  let m := jpeg_metadata e text (fst (fst (JpegFile read (8 * zlen data)))) in let v := lit "JFIF " ++ dec a ++ lit "." ++ two_digits b in
  (kept_text e v -> getValues m (lit "format_version") = Ok [MStr v]) /\
  getValues m (lit "width_dpi") = Ok (if u =? 0 then [] else in_limits 1 10000 x) /\ getValues m (lit "height_dpi") = Ok (if u =? 0 then [] else in_limits 1 10000 y).
Proof.
  intros e text read l1 a b u x y w h l2 rest l data W Hs Hb K N. destruct (C83_prefix read l rest Hs Hb K) as (r & E). fold data in E. rewrite E. unfold puts. cbn [fst]. clear E. set (L := shows (jpeg_items l) 0 ++ fst (fst r)).
  assert (B : 0 <= b < 256) by (destruct K as (K & _); apply Forall_app in K as [_ K]; apply Forall_inv in K as [_ K]; apply K).
  assert (P : exists c, path "app0" L = Some c /\ GenModel.get (lit "ver_maj") c = Some (VNum a) /\ GenModel.get (lit "ver_min") c = Some (VNum b) /\ has_field "y_density" c = negb (u =? 0) /\ (u =? 0 = false -> GenModel.get (lit "x_density") c = Some (VNum x) /\ GenModel.get (lit "y_density") c = Some (VNum y))).
  { destruct (first_jfif l1 (Jfif a b u x y w h) l2 (fst (fst r)) N eq_refl) as (q & G). unfold path, L, l. rewrite G. eexists. split; [exact (chunk_content q (Jfif a b u x y w h) eq_refl eq_refl ltac:(discriminate))|]. cbn [content_items]. destruct (u =? 0); repeat split; intros; try discriminate; reflexivity. }
  destruct P as (c & P & Ga & Gb & Gh & Gd). clearbody L. cbv zeta. rewrite <- dec2_digits by exact B. unfold jpeg_metadata, jpeg_extract. rewrite P.
  set (m1 := match group (lit "start_frame") L with Some k => _ | None => _ end). assert (S1 : same frame_keys root m1) by (unfold m1; destruct (group _ L) as [k|]; [destruct (content k); [apply frame_same|apply same_refl]|apply same_refl]). clearbody m1.
  assert (Ik : forall key lo hi d, find_data root (lit key) = Some d -> d_values d = [] -> d_type d = Some [TInt] -> d_filter d = Some (NumberFilter (FNum lo 1) (FNum hi 1)) -> d_conv d = None -> int_key key lo hi) by (intros; eexists; eauto 6).
  assert (Tk : forall key d, find_data root (lit key) = Some d -> d_values d = [] -> d_type d = None \/ d_type d = Some [TStr] -> d_filter d = None -> d_conv d = None -> text_key key) by (intros; eexists; eauto 6).
  assert (X : exists m2, fst (extractAPP0 e m1 c) = m2 /\ same (frame_keys ++ app0_keys) root m2 /\ (kept_text e (lit "JFIF " ++ dec a ++ lit "." ++ dec2 b) -> getValues m2 (lit "format_version") = Ok [MStr (lit "JFIF " ++ dec a ++ lit "." ++ dec2 b)]) /\
    getValues m2 (lit "width_dpi") = Ok (if u =? 0 then [] else in_limits 1 10000 x) /\ getValues m2 (lit "height_dpi") = Ok (if u =? 0 then [] else in_limits 1 10000 y)).
  { unfold extractAPP0, ask. rewrite Ga, Gb, Gh. cbn [num]. set (v := lit "JFIF " ++ _). assert (Pv : plain_key "format_version") by (eexists; split; reflexivity). destruct (step_plain e _ m1 "format_version" (MStr v) W Logic.I S1 Pv eq_refl) as (m2 & A2 & T2 & S2).
    assert (V2 : kept_text e v -> getValues m2 (lit "format_version") = Ok [MStr v]). { intros Kt. destruct (step_text e _ m1 "format_version" v W Kt S1) as (m2' & A2' & _ & V & _); [eapply Tk; try reflexivity; right; reflexivity|reflexivity|]. rewrite A2 in A2'. injection A2' as <-. exact V. }
    rewrite A2. unfold andthen at 1. cbn [fst snd]. destruct (u =? 0) eqn:U; cbn [negb].
    - exists m2. split; [reflexivity|]. split; [eapply sub_same; [exact T2|reflexivity]|]. split; [exact V2|]. unfold getValues, getItems. rewrite (T2 (lit "width_dpi")), (T2 (lit "height_dpi")) by (apply fresh; reflexivity). split; reflexivity.
    - destruct (Gd eq_refl) as [-> ->]. cbn [num]. destruct (step_int e _ m2 "width_dpi" x 1 10000 W T2) as (m3 & A3 & T3 & V3 & S3); [eapply Ik; reflexivity|reflexivity|]. rewrite A3. unfold andthen at 1. cbn [fst snd]. destruct (step_int e _ m3 "height_dpi" y 1 10000 W T3) as (m4 & A4 & T4 & V4 & S4); [eapply Ik; reflexivity|reflexivity|]. rewrite A4. cbn [fst].
      exists m4. split; [reflexivity|]. split; [eapply sub_same; [exact T4|reflexivity]|]. split; [intros Kt; apply (kept _ _ _ _ _ S4); [reflexivity|]; apply (kept _ _ _ _ _ S3); [reflexivity|exact (V2 Kt)]|]. split; [apply (kept _ _ _ _ _ S4); [reflexivity|exact V3]|exact V4]. }
  destruct X as (m2 & E2 & T2 & V1 & V2 & V3). rewrite E2.
  match goal with |- context [with_mime e (fst ?r) _ _] => assert (S3 : same late_keys m2 (fst r)) end.
  { apply andthen_same; [|intros m'].
    - apply assign_same. cbn [forallb]. apply forallb_forall. intros k X. apply comments_keys in X. subst k. reflexivity.
    - set (m8 := match computeQuality L with Ok (Some q) => fst (assign e m' [("comment"%string, MStr (quality_text q))]) | _ => m' end). apply (same_then _ _ m8); [unfold m8|apply andthen_same].
      + destruct (computeQuality L) as [[q|]|]; [apply assign_same; reflexivity|apply same_refl|apply same_refl].
      + destruct (group (lit "photoshop") L); [|apply same_refl]. destruct (has_key _ _); [apply same_refl|apply assign_same; reflexivity].
      + intros m''. destruct (has_key _ _); [apply assign_same; reflexivity|apply same_refl]. }
  match goal with |- context [with_mime e (fst ?r) _ _] => generalize dependent (fst r) end. intros m3 S3. pose proof (same_trans _ _ _ _ _ T2 S3) as T3. pose proof (mime_step e _ m3 (lit "image/jpeg") (lit "Big endian") T3 eq_refl) as S4. pose proof (same_trans _ _ _ _ _ S3 S4) as S5.
  split; [intros Kt; apply (kept _ _ _ _ _ S5); [reflexivity|exact (V1 Kt)]|]. split; apply (kept _ _ _ _ _ S5); first [reflexivity|assumption].
Qed.
Print Assumptions C83_jfif.
Import PropertiesGifFile.
Example C83_jfif_ex : let e := plain_env in let l := [Jfif 1 2 1 300 150 0 0; Frame 0xc0 8 5 6 [(1, 1, 1, 0)]; Scan [(1, 0, 0)] 0 0 0 1 [5]] in let data := bytes_of_all (jpeg_items l) in
  jpeg_ok l /\ writes e /\ let m := jpeg_metadata e (fun x => x) (fst (fst (JpegFile (string_read data) (8 * zlen data)))) in
  getValues m (lit "format_version") = Ok [MStr (lit "JFIF 1.02")] /\ getValues m (lit "width_dpi") = Ok [MInt 300] /\ getValues m (lit "height_dpi") = Ok [MInt 150].
Proof. cbv zeta. split; [drawn; try (vm_compute; first [reflexivity|discriminate]; fail)|]. split; [vm_compute; intros; eexists; reflexivity|]. split; [vm_compute; reflexivity|]. split; vm_compute; reflexivity. Qed.
(** The units 2 are dots per centimeter (JFIF 1.02): 118 dots per centimeter, which are 300 dots per inch, are told as 118 dots per inch (metadata/jpeg.py:172-174). *)
Theorem C83_dpi_refuted : forall text, let l := [Jfif 1 2 2 118 118 0 0; Frame 0xc0 8 5 6 [(1, 1, 1, 0)]; Scan [(1, 0, 0)] 0 0 0 1 [5]] in let data := bytes_of_all (jpeg_items l) in
  jpeg_ok l /\ getValues (jpeg_metadata plain_env text (fst (fst (JpegFile (string_read data) (8 * zlen data))))) (lit "width_dpi") = Ok [MInt 118].
Proof. intros text. cbv zeta. split; [drawn; try (vm_compute; first [reflexivity|discriminate]; fail)|vm_compute; reflexivity]. Qed.
Print Assumptions C83_dpi_refuted.
Example C83_thumbnail_ex : let colors := List.repeat (1, 2, 3) 256 in let data := bytes_of_all (thumb_items 2 1 colors [7; 9]) in
  is_bytes data /\ zlen colors = 256 /\ Forall (fun c : Z * Z * Z => byte (fst (fst c)) /\ byte (snd (fst c)) /\ byte (snd c)) colors /\
  GenModel.get (lit "thumb_data") (fst (fst (run (string_read data) (8 * zlen data) App0_fields true (8 * zlen data) 0))) = Some (VBytes [7; 9]).
Proof.
  cbv zeta. split; [apply PropertiesMpeg.bytes_checked; vm_compute; reflexivity|]. split; [reflexivity|]. split; [apply Forall_forall; intros c Ic; apply repeat_spec in Ic; subst c; unfold byte; cbn; lia|]. vm_compute. reflexivity.
Qed.

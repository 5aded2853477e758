(** C86: what the parsers of Targa and PC Paintbrush pictures and of Windows icons show, and the metadata taken from them. *)
From Coq Require Import String.
From Verif Require Import Base BaseProofs BitsModel BitsSpec BitsProofs StreamModel StreamSpec StreamProofs StreamProofs2 DictModel DictProofs FieldModel FieldNames ToolsModel NumSpec NumRead ChunkBase GenModel GenSpec GenProofs ItemSpec ItemProofs ItemProofs2 ZipSpec ZipProofs ExtractModel ExtractProofs BmpModel RasterModel RasterSpec Lit.
From Verif Require MetaModel HumanModel PropertiesGifFile PropertiesMpeg PropertiesBmp.
From Verif Require Import MetaProofs2 MpegMeta.
Open Scope Z_scope.
Ltac Zify.zify_post_hook ::= Z.div_mod_to_equations.

Section Read.
Context (read : read_fun) (data : list Z) (Hs : serves read data) (Hb : is_bytes data).
Notation obeys := (obeys read data).
Ltac obn := apply (ob_plain read data); [split; [discriminate|split; [lia|unfold byte, short, long in *; first [assumption|lia]]]|reflexivity|]; cbn [plain_val num].
Lemma colors_len l : zlen (bytes_of_all (map color_item l)) = 3 * zlen l.
Proof using Type. induction l as [|[[r g] b] l IH]; [reflexivity|]. cbn [map]. rewrite bytes_of_all_cons, zlen_app, IH, zlen_cons. change (zlen (bytes_of (color_item (r, g, b)))) with 3. lia. Qed.
Lemma colors4_len l : zlen (bytes_of_all (map color4_item l)) = 4 * zlen l.
Proof using Type. induction l as [|[[[r g] b] a] l IH]; [reflexivity|]. cbn [map]. rewrite bytes_of_all_cons, zlen_app, IH, zlen_cons. change (zlen (bytes_of (color4_item (r, g, b, a)))) with 4. lia. Qed.
Lemma palette_obeys stop p name l k : Forall color_ok l -> l <> [] -> obeys stop p (Palette (lit name) 24 RGB_fields (zlen l) k) [ISet (lit name) (map color_item l)] k.
Proof using Type.
  intros C N. assert (1 <= zlen l) by (destruct l as [|c l']; [contradiction|rewrite zlen_cons; pose proof (zlen_nonneg l'); lia]). unfold Palette. replace (zlen l <=? 0) with false by lia. apply ob_set; [rewrite colors_len; lia|lia| |apply ob_nil].
  rewrite <- flat_map_single. replace (Z.to_nat (zlen l)) with (List.length l) by (unfold zlen; lia). apply ob_times with (it := fun v => [color_item v]). intros [[r g] b] p' k' In'. rewrite Forall_forall in C. specialize (C _ In'). destruct C as (R & G & B).
  apply ob_set; [reflexivity|lia| |apply ob_nil]. unfold RGB_fields, le. do 3 obn. apply ob_nil.
Qed.
Lemma palette4_obeys stop p name l k : Forall color4_ok l -> l <> [] -> obeys stop p (Palette (lit name) 32 RGBA_fields (zlen l) k) [ISet (lit name) (map color4_item l)] k.
Proof using Type.
  intros C N. assert (1 <= zlen l) by (destruct l as [|c l']; [contradiction|rewrite zlen_cons; pose proof (zlen_nonneg l'); lia]). unfold Palette. replace (zlen l <=? 0) with false by lia. apply ob_set; [rewrite colors4_len; lia|lia| |apply ob_nil].
  rewrite <- flat_map_single. replace (Z.to_nat (zlen l)) with (List.length l) by (unfold zlen; lia). apply ob_times with (it := fun v => [color4_item v]). intros [[[r g] b] a] p' k' In'. rewrite Forall_forall in C. specialize (C _ In'). destruct C as (R & G & B & A).
  apply ob_set; [reflexivity|lia| |apply ob_nil]. unfold RGBA_fields, le. do 4 obn. apply ob_nil.
Qed.
Lemma bytes_obeys stop p name x k : x <> [] -> zlen x <= 2 ^ 64 -> obeys stop p (emit (lit name) (KBytes (zlen x)); k) [I (lit name) (SBytes x)] k.
Proof using Type. intros N L. apply ob_plain; [split; assumption|reflexivity|apply ob_nil]. Qed.
Lemma some_obeys stop p name x k : zlen x <= 2 ^ 64 -> obeys stop p (when (negb (zlen x =? 0)) (fun k => emit (lit name) (KBytes (zlen x)); k) k) (some_bytes_item name x) k.
Proof using Type.
  intros L. destruct x as [|b x]; [apply ob_nil|]. assert (1 <= zlen (b :: x)) by (rewrite zlen_cons; pose proof (zlen_nonneg x); lia). replace (zlen (b :: x) =? 0) with false by lia. cbn [negb when some_bytes_item]. apply bytes_obeys; [discriminate|exact L].
Qed.
Lemma tga_obeys t : data = bytes_of_all (tga_items t) -> tga_ok t -> obeys (8 * zlen data) 0 tga_fields (tga_items t) PRet.
Proof using Hs Hb.
  intros E (Li & K1 & K2 & K3 & K4 & K5 & K6 & K7 & K8 & K9 & K10 & A & R & T & F & C & L & Lp). pose proof (zlen_nonneg (t_id t)) as Z0. unfold tga_fields, u8, u16.
  assert (Ld : zlen data = 18 + zlen (t_id t) + 3 * zlen (t_map t) + zlen (t_pixels t)).
  { rewrite E. unfold tga_items. rewrite !bytes_of_all_app, !zlen_app. change (zlen (bytes_of_all [_; _; _; _; _; _; _; _; _; _; _; _])) with 18. assert (S : forall n x, zlen (bytes_of_all (some_bytes_item n x)) = zlen x) by (intros n [|b x]; [reflexivity|]; cbn [some_bytes_item]; rewrite bytes_of_all_cons, app_nil_r; reflexivity). rewrite !S.
    replace (zlen (bytes_of_all match t_map t with [] => [] | l => _ end)) with (3 * zlen (t_map t)); [lia|]. destruct (t_map t) as [|c l]; [reflexivity|]. rewrite bytes_of_all_cons, app_nil_r. change (bytes_of (ISet ?n ?l)) with (bytes_of_all l). rewrite colors_len. reflexivity. }
  unfold tga_items, le. cbn [app]. obn. obn. do 8 obn. obn. eapply ob_bits; [discriminate|lia|reflexivity|unfold bits; repeat (apply ta_cons; [lia|reflexivity|]); apply ta_nil|].
  eapply ob_app; [apply some_obeys; change (2 ^ 8) with 256 in Li; change (2 ^ 64) with 18446744073709551616; lia|]. eapply ob_app.
  - rewrite Z.shiftl_1_l. unfold byte in *. destruct (t_has_map t =? 1) eqn:H; cbn [when].
    + rewrite <- L. destruct (t_map t) as [|c l] eqn:Em; [change (zlen (@nil color)) with 0 in L; pose proof (Z.pow_pos_nonneg 2 (t_bpp t) ltac:(lia) ltac:(lia)); lia|]. apply palette_obeys; [exact C|discriminate].
    + destruct (t_map t) as [|c l]; [apply ob_nil|rewrite zlen_cons in L; pose proof (zlen_nonneg l); lia].
  - apply ob_ask. match goal with |- context [(8 * zlen data - 8 * ?q) / 8] => assert (Q : (8 * zlen data - 8 * q) / 8 = zlen (t_pixels t)) end.
    { assert (S : zlen (bytes_of_all (some_bytes_item "image_id" (t_id t))) = zlen (t_id t)) by (destruct (t_id t); [reflexivity|cbn [some_bytes_item]; rewrite bytes_of_all_cons, app_nil_r; reflexivity]). assert (P : zlen (bytes_of_all match t_map t with [] => [] | l => [ISet (lit "palette") (map color_item l)] end) = 3 * zlen (t_map t)) by (destruct (t_map t) as [|c l]; [reflexivity|rewrite bytes_of_all_cons, app_nil_r; change (bytes_of (ISet ?n ?l)) with (bytes_of_all l); rewrite colors_len; reflexivity]).
      rewrite S, P. unfold len. cbn [bytes_of plain_bytes]. rewrite !zlen_uint. lia. }
    cbv zeta. rewrite Q. apply some_obeys, Lp.
Qed.
Lemma pcx_len p : zlen (p_filler p) = 58 -> zlen (p_colors p) = 16 -> zlen (bytes_of_all (pcx_items p)) = 128 + zlen (p_pixels p) + 3 * zlen (p_palette p).
Proof using Type.
  intros L C. unfold pcx_items. rewrite bytes_of_all_app, zlen_app. replace (zlen (bytes_of_all match p_palette p with [] => [] | l => _ end)) with (3 * zlen (p_palette p)).
  2:{ destruct (p_palette p) as [|c l]; [reflexivity|]. rewrite bytes_of_all_cons, app_nil_r. change (bytes_of (ISet ?n ?l)) with (bytes_of_all l). rewrite colors_len. reflexivity. }
  unfold le. rewrite !bytes_of_all_cons, !zlen_app. change (bytes_of (ISet ?n ?l)) with (bytes_of_all l). rewrite colors_len. cbn [bytes_of plain_bytes]. rewrite !zlen_uint, L, C. change (zlen (bytes_of_all [])) with 0. change (zlen [p_reserved p]) with 1. lia.
Qed.
Lemma pcx_obeys p : data = bytes_of_all (pcx_items p) -> pcx_ok p -> obeys (8 * zlen data) 0 pcx_fields (pcx_items p) PRet.
Proof using Hs Hb.
  intros E (K1 & K2 & K3 & K4 & K5 & K6 & K7 & K8 & K9 & K10 & C & Lc & K11 & K12 & K13 & Lf & N & Lp & P & L). pose proof (pcx_len p Lf Lc) as Ld. rewrite <- E in Ld. unfold pcx_fields, u8, u16, pcx_items, le. cbn [app].
  do 10 obn. match goal with |- ItemProofs2.obeys _ _ _ _ _ (?a :: ?l) _ => change (a :: l) with ([a] ++ l) end. eapply ob_app; [rewrite <- Lc at 1; apply palette_obeys; [exact C|intros X; rewrite X in Lc; discriminate]|].
  apply (ob_plain read data); [split; [discriminate|vm_compute; discriminate]|reflexivity|]. do 3 obn. rewrite <- Lf. apply (ob_plain read data); [split; [intros X; rewrite X in Lf; discriminate|rewrite Lf; vm_compute; discriminate]|reflexivity|].
  apply ob_ask. cbv zeta. match goal with |- ItemProofs2.obeys _ _ _ _ (PFld _ (KBytes ?q) _) _ _ => assert (Q : q = zlen (p_pixels p)) end.
  { unfold len. rewrite bytes_of_all_cons. change (bytes_of (ISet ?n ?l)) with (bytes_of_all l). change (bytes_of_all []) with (@nil Z). rewrite app_nil_r, colors_len, Lc. cbn [bytes_of plain_bytes]. rewrite !zlen_uint, Lf. change (zlen [p_reserved p]) with 1. destruct (p_bpp p =? 8); lia. }
  rewrite Q. apply (ob_plain read data); [split; assumption|reflexivity|]. destruct (p_bpp p =? 8); cbn [when].
  - destruct (p_palette p) as [|c l] eqn:Ep; [discriminate|]. replace 256 with (zlen (c :: l)) by lia. apply palette_obeys; [exact P|discriminate].
  - destruct (p_palette p) as [|c l]; [apply ob_nil|rewrite zlen_cons in L; pose proof (zlen_nonneg l); lia].
Qed.
(** Icons *)
Fixpoint headers_at (l : list (icon * Z)) (p : Z) : list (list fld) := match l with [] => [] | (i, a) :: l => shows (header_items i a) p :: headers_at l (p + 16) end.
Lemma header_len i a : zlen (bytes_of_all (header_items i a)) = 16.
Proof using Type. reflexivity. Qed.
Lemma image_len_eq i : zlen (bytes_of_all (image_items i)) = image_len i.
Proof using Type.
  unfold image_items, image_len. rewrite !bytes_of_all_app, !zlen_app. change (zlen (bytes_of_all [ISet (lit "header") _])) with 40. rewrite bytes_of_all_cons. cbn [bytes_of plain_bytes]. change (bytes_of_all []) with (@nil Z). rewrite app_nil_r.
  replace (zlen (bytes_of_all match i_palette i with [] => [] | l => _ end)) with (4 * zlen (i_palette i)); [lia|]. destruct (i_palette i) as [|c l]; [reflexivity|]. rewrite bytes_of_all_cons, app_nil_r. change (bytes_of (ISet ?n ?l)) with (bytes_of_all l). rewrite colors4_len. reflexivity.
Qed.
Lemma image_pos i : 40 <= image_len i.
Proof using Type. unfold image_len. pose proof (zlen_nonneg (i_palette i)). pose proof (zlen_nonneg (i_pixels i)). lia. Qed.
Lemma all_pos l : 0 <= all_len l.
Proof using Type. unfold all_len. induction l as [|i l IH]; [discriminate|]. cbn [map fold_right]. pose proof (image_pos i). lia. Qed.
Lemma headers_obeys k : forall l p stop, Forall (fun ia => icon_ok (fst ia) /\ long (image_len (fst ia)) /\ long (snd ia)) l ->
  obeys stop p (icon_headers (List.length l) k) (map (fun ia => ISet (lit "icon_header[]") (header_items (fst ia) (snd ia))) l) (k (headers_at l p)).
Proof using Type.
  intros l. revert k. induction l as [|[i a] l IH]; intros k p stop C; [apply ob_nil|]. inversion C as [|? ? [(K1 & K2 & K3 & K4 & K5 & K6 & _) [Z1 Z2]] C']; subst. cbn [fst snd] in *. cbn [List.length icon_headers map headers_at fst snd].
  apply ob_open; [rewrite header_len; lia| |rewrite header_len; apply (IH (fun hs => k (_ :: hs))); exact C']. unfold IconHeader_fields, u8, u16, u32, header_items, le. do 8 obn. apply ob_nil.
Qed.
Lemma data_obeys i at_ p q stop : icon_ok i -> image_len i < 2 ^ 32 -> obeys stop q (IconData_fields (shows (header_items i at_) p)) (image_items i) PRet.
Proof using Type.
  intros (K1 & K2 & K3 & K4 & K5 & K6 & D1 & D2 & D3 & D4 & D5 & D6 & D7 & D8 & D9 & D10 & D11 & C & L & N) B. pose proof (zlen_nonneg (i_palette i)) as Z1. unfold IconData_fields. apply ob_ask. unfold image_items. change ([ISet (lit "header") ?x] ++ ?l) with (ISet (lit "header") x :: l).
  apply ob_set; [reflexivity|lia| |]. { unfold BitmapInfoHeader_fields, u16, u32, le. do 11 obn. apply ob_nil. }
  unfold need. change (get (lit "nb_color") (shows (header_items i at_) p)) with (Some (VNum (i_colors i))). change (get (lit "bpp") (shows (header_items i at_) p)) with (Some (VNum (i_bpp i))). change (get (lit "size") (shows (header_items i at_) p)) with (Some (VNum (image_len i))). cbn [num]. cbv zeta. rewrite <- L.
  change (zlen (bytes_of_all _)) with 40 at 1. eapply ob_app.
  - destruct (i_palette i) as [|c l]; [apply ob_nil|]. assert (1 <= zlen (c :: l)) by (rewrite zlen_cons; pose proof (zlen_nonneg l); lia). replace (zlen (c :: l) =? 0) with false by lia. cbn [negb when]. apply palette4_obeys; [exact C|discriminate].
  - apply ob_ask. match goal with |- ItemProofs2.obeys _ _ _ _ (PFld _ (KBytes ?x) _) _ _ => assert (Q : x = zlen (i_pixels i)) end.
    { assert (P : zlen (bytes_of_all match i_palette i with [] => [] | l => [ISet (lit "palette") (map color4_item l)] end) = 4 * zlen (i_palette i)) by (destruct (i_palette i) as [|c l]; [reflexivity|rewrite bytes_of_all_cons, app_nil_r; change (bytes_of (ISet ?n ?l)) with (bytes_of_all l); rewrite colors4_len; reflexivity]). rewrite P. unfold image_len. lia. }
    rewrite Q. apply bytes_obeys; [exact N|]. unfold image_len in B. change (2 ^ 32) with 4294967296 in B. change (2 ^ 64) with 18446744073709551616. lia.
Qed.
Lemma datas_obeys : forall l at_ p stop, Forall icon_ok l -> at_ + all_len l < 2 ^ 32 -> 0 <= at_ -> obeys stop at_ (icon_datas (headers_at (placed l at_) p)) (map (fun i => ISet (lit "icon_data[]") (image_items i)) l) PRet.
Proof using Type.
  induction l as [|i l IH]; intros at_ p stop C B A; [apply ob_nil|]. inversion C as [|? ? K C']; subst. cbn [placed headers_at icon_datas map]. unfold all_len in B. cbn [map fold_right] in B. fold (all_len l) in B. pose proof (image_pos i). pose proof (all_pos l).
  unfold need. change (get (lit "offset") (shows (header_items i at_) p)) with (Some (VNum at_)). cbn [num]. apply ob_ask. replace (at_ * 8 =? 8 * at_) with true by lia. cbn [negb].
  apply ob_open; [rewrite image_len_eq; lia|apply data_obeys; [exact K|lia]|]. rewrite image_len_eq. apply IH; [exact C'|lia|lia].
Qed.
Lemma placed_ok : forall l at_, Forall icon_ok l -> 0 <= at_ -> at_ + all_len l < 2 ^ 32 -> Forall (fun ia => icon_ok (fst ia) /\ long (image_len (fst ia)) /\ long (snd ia)) (placed l at_).
Proof using Type.
  induction l as [|i l IH]; intros a C A B; [constructor|]. inversion C as [|? ? K C']; subst. unfold all_len in B. cbn [map fold_right] in B. fold (all_len l) in B. pose proof (image_pos i). pose proof (all_pos l). cbn [placed]. constructor; [cbn [fst snd]; unfold long; split; [exact K|lia]|]. apply IH; [exact C'|lia|lia].
Qed.
Lemma placed_length : forall l a, List.length (placed l a) = List.length l.
Proof using Type. induction l as [|i l IH]; intros a; [reflexivity|]. cbn [placed List.length]. rewrite IH. reflexivity. Qed.
Lemma headers_len l : zlen (bytes_of_all (map (fun ia : icon * Z => ISet (lit "icon_header[]") (header_items (fst ia) (snd ia))) l)) = 16 * zlen l.
Proof using Type. induction l as [|[i a] l IH]; [reflexivity|]. cbn [map fst snd]. rewrite bytes_of_all_cons, zlen_app, IH, zlen_cons. change (bytes_of (ISet ?n ?l)) with (bytes_of_all l). rewrite header_len. lia. Qed.
Lemma ico_obeys type l stop : ico_ok type l -> obeys stop 0 ico_fields (ico_items type l) PRet.
Proof using Type.
  intros (T & L & B & C). pose proof (zlen_nonneg l) as Z0. unfold ico_fields, u16, ico_items, le. cbn [app]. do 3 obn. replace (Z.to_nat (zlen l)) with (List.length (placed l (6 + 16 * zlen l))) by (rewrite placed_length; unfold zlen; lia).
  eapply ob_app; [apply headers_obeys, placed_ok; [exact C|lia|lia]|]. rewrite headers_len. replace (zlen (placed l (6 + 16 * zlen l))) with (zlen l) by (unfold zlen; rewrite placed_length; reflexivity).
  unfold len. cbn [bytes_of plain_bytes]. rewrite !zlen_uint. replace (0 + Z.of_nat 2 + Z.of_nat 2 + Z.of_nat 2 + 16 * zlen l) with (6 + 16 * zlen l) by lia. apply datas_obeys; [exact C|lia|lia].
Qed.
End Read.
Lemma ico_len type l : zlen (bytes_of_all (ico_items type l)) = 6 + 16 * zlen l + all_len l.
Proof.
  unfold ico_items. rewrite !bytes_of_all_app, !zlen_app, headers_len. replace (zlen (placed l _)) with (zlen l) by (unfold zlen; rewrite placed_length; reflexivity). change (zlen (bytes_of_all [_; _; _])) with 6. enough (E : zlen (bytes_of_all (map (fun i => ISet (lit "icon_data[]") (image_items i)) l)) = all_len l) by lia.
  induction l as [|i l IH]; [reflexivity|]. cbn [map]. rewrite bytes_of_all_cons, zlen_app, IH. change (bytes_of (ISet ?n ?l)) with (bytes_of_all l). rewrite image_len_eq. reflexivity.
Qed.
(** For every picture, the file is shown as it was written. *)
Theorem C86_tga : forall read t, let data := bytes_of_all (tga_items t) in serves read data -> is_bytes data -> tga_ok t -> TargaFile read (8 * zlen data) = (shows (tga_items t) 0, None, 8 * zlen data).
Proof. intros read t data Hs Hb K. unfold TargaFile. apply (obey_all read data Hs Hb); [|apply occ_self]. apply tga_obeys; auto. Qed.
Print Assumptions C86_tga.
Theorem C86_pcx : forall read p, let data := bytes_of_all (pcx_items p) in serves read data -> is_bytes data -> pcx_ok p -> PcxFile read (8 * zlen data) = (shows (pcx_items p) 0, None, 8 * zlen data).
Proof. intros read p data Hs Hb K. unfold PcxFile. apply (obey_all read data Hs Hb); [|apply occ_self]. apply pcx_obeys; auto. Qed.
Print Assumptions C86_pcx.
(** Whatever follows the icons *)
Theorem C86_ico : forall read type l rest, let data := bytes_of_all (ico_items type l) ++ rest in serves read data -> is_bytes data -> ico_ok type l ->
  IcoFile read (8 * zlen data) = (shows (ico_items type l) 0, None, 8 * (6 + 16 * zlen l + all_len l)).
Proof. intros read type l rest data Hs Hb K. unfold IcoFile. rewrite <- (ico_len type l). apply (obey_all read data Hs Hb); [|apply (occ_pre [])]. apply ico_obeys, K. Qed.
Print Assumptions C86_ico.
(** Every file: the fields follow each other from the start and end inside the file, and the loops end. *)
Section Ends.
Context (read : read_fun) (data : list Z) (Hs : serves read data) (Hb : is_bytes data) (He : ends read data) (Hd : data <> []).
Notation safe := (safe read data).
Lemma palette_safe name size n k : (forall m, safe m k) -> forall m, safe m (Palette name size RGB_fields n k).
Proof using All.
  intros K m. unfold Palette. destruct (n <=? 0); [apply safe_err; discriminate|]. apply safe_set; [|intros _; apply K]. apply PropertiesBmp.times_safe; auto; [|intros; apply safe_ret]. intros k' K' m'. apply safe_set; [unfold RGB_fields; repeat calm_step|intros _; apply K'].
Qed.
Lemma data_safe h m : safe m (IconData_fields h).
Proof using All.
  unfold IconData_fields. apply safe_ask. intros stop a A M. apply safe_set; [unfold BitmapInfoHeader_fields, u16, u32; repeat calm_step|]. intros _. unfold need. do 2 (destruct (get _ h); [|apply safe_err; discriminate]). cbv zeta.
  assert (P : forall m, safe m match get (lit "size") h with Some v1 => PAsk (fun _ a0 => emit (lit "pixels") (KBytes (num v1 - (a0 - a) / 8)); PRet) | None => PErr MissingField end) by (intros m'; destruct (get _ h); [|apply safe_err; discriminate]; apply safe_ask; intros; repeat calm_step).
  destruct (negb _); cbn [when]; [apply PropertiesBmp.palette_safe; auto|apply P].
Qed.
Lemma datas_safe : forall hs m, safe m (icon_datas hs).
Proof using All.
  induction hs as [|h hs IH]; intros m; [apply safe_ret|]. cbn [icon_datas]. unfold need. destruct (get _ h); [|apply safe_err; discriminate]. apply safe_ask. intros stop a A M. destruct (negb _); [apply safe_err; discriminate|]. apply safe_open; auto. apply data_safe.
Qed.
Lemma headers_safe : forall n k, (forall hs m, safe m (k hs)) -> forall m, safe m (icon_headers n k).
Proof using All.
  induction n as [|n IH]; intros k K m; [apply K|]. cbn [icon_headers]. apply safe_open; auto. unfold IconHeader_fields, u8, u16, u32; repeat calm_step.
Qed.
End Ends.
Theorem C86_tga_any : forall read data, serves read data -> ends read data -> is_bytes data -> data <> [] ->
  let '(l, e, b) := TargaFile read (8 * zlen data) in tiled 0 l b /\ b <= 8 * zlen data /\ settled_file (l, e, b).
Proof.
  intros read data Hs He Hb Hd. apply (any_file read data Hs Hb He Hd). unfold tga_fields, u8, u16. do 15 calm_step.
  assert (P : forall m, safe read data m (PAsk (fun stop a => let size := (stop - a) / 8 in when (negb (size =? 0)) (fun k => emit (lit "raw_pixels") (KBytes size); k) PRet))) by (intros m'; apply safe_ask; intros; cbv zeta; destruct (negb _); cbn [when]; repeat calm_step).
  assert (Q : forall c n m, safe read data m (when c (Palette (lit "palette") 24 RGB_fields n) (PAsk (fun stop a => let size := (stop - a) / 8 in when (negb (size =? 0)) (fun k => emit (lit "raw_pixels") (KBytes size); k) PRet)))) by (intros [|] n m'; cbn [when]; [apply palette_safe; auto|apply P]).
  destruct (negb _); cbn [when]; [calm_step|]; apply Q.
Qed.
Print Assumptions C86_tga_any.
Theorem C86_pcx_any : forall read data, serves read data -> ends read data -> is_bytes data -> data <> [] ->
  let '(l, e, b) := PcxFile read (8 * zlen data) in tiled 0 l b /\ b <= 8 * zlen data /\ settled_file (l, e, b).
Proof.
  intros read data Hs He Hb Hd. apply (any_file read data Hs Hb He Hd). unfold pcx_fields, u8, u16. do 10 calm_step. apply palette_safe; auto. intros m'. do 5 calm_step. apply safe_ask. intros stop a A M. cbv zeta. calm_step.
  destruct (num _ =? 8); cbn [when]; [apply palette_safe; auto; intros|]; apply safe_ret.
Qed.
Print Assumptions C86_pcx_any.
Theorem C86_ico_any : forall read data, serves read data -> ends read data -> is_bytes data -> data <> [] ->
  let '(l, e, b) := IcoFile read (8 * zlen data) in tiled 0 l b /\ b <= 8 * zlen data /\ settled_file (l, e, b).
Proof.
  intros read data Hs He Hb Hd. apply (any_file read data Hs Hb He Hd). unfold ico_fields, u16. do 3 calm_step. apply headers_safe; auto. intros; apply datas_safe; auto.
Qed.
Print Assumptions C86_ico_any.
(** ** Which files are accepted *)
Definition among (v : Z) (l : list Z) : bool := existsb (Z.eqb v) l.
Lemma codec_among v : match codec_name v with Some _ => true | None => false end = among v [0; 1; 2; 3; 9; 10; 11].
Proof. destruct v as [|p|p]; try reflexivity. do 4 (destruct p as [p|p|]; try reflexivity). Qed.
Lemma version_among v : match pcx_version v with Some _ => true | None => false end = among v [0; 2; 3; 4; 5].
Proof. destruct v as [|p|p]; try reflexivity. do 3 (destruct p as [p|p|]; try reflexivity). Qed.
(** Targa pictures of the seven kinds, with or without a map of colors, of 8, 15, 16, 24 or 32 bits per pixel are accepted, and no other *)
Theorem C86_tga_valid : forall read t, let data := bytes_of_all (tga_items t) in serves read data -> is_bytes data -> tga_ok t ->
  tga_validate (fst (fst (TargaFile read (8 * zlen data)))) = Ok (among (t_kind t) [0; 1; 2; 3; 9; 10; 11] && among (t_has_map t) [0; 1] && among (t_bpp t) [8; 15; 16; 24; 32]).
Proof.
  intros read t data Hs Hb K. unfold data. rewrite C86_tga by assumption. cbn [fst]. unfold tga_validate. change (value "codec" (shows (tga_items t) 0)) with (Ok (t_kind t)). change (value "palette_type" (shows (tga_items t) 0)) with (Ok (t_has_map t)). change (value "bpp" (shows (tga_items t) 0)) with (Ok (t_bpp t)). cbn [bind].
  rewrite <- codec_among. destruct (codec_name _); [|reflexivity]. unfold among. cbn [existsb andb]. rewrite !orb_false_r. destruct (_ || _); [|reflexivity]. cbn [negb andb]. rewrite !orb_assoc. reflexivity.
Qed.
Print Assumptions C86_tga_valid.
(** Pictures of PC Paintbrush with its first byte, 10, a known version, 1, 2, 4, 8, 24 or 32 bits per pixel and a null reserved byte *)
Theorem C86_pcx_valid : forall read p, let data := bytes_of_all (pcx_items p) in serves read data -> is_bytes data -> pcx_ok p ->
  pcx_validate (fst (fst (PcxFile read (8 * zlen data)))) = Ok ((p_id p =? 10) && among (p_version p) [0; 2; 3; 4; 5] && among (p_bpp p) [1; 2; 4; 8; 24; 32] && (p_reserved p =? 0)).
Proof.
  intros read p data Hs Hb K. unfold data. rewrite C86_pcx by assumption. cbn [fst]. unfold pcx_validate. change (value "id" (shows (pcx_items p) 0)) with (Ok (p_id p)). change (value "version" (shows (pcx_items p) 0)) with (Ok (p_version p)). change (value "bpp" (shows (pcx_items p) 0)) with (Ok (p_bpp p)). change (get (lit "reserved[]") (shows (pcx_items p) 0)) with (Some (VBytes [p_reserved p])). cbn [bind].
  destruct (p_id p =? 10); [|reflexivity]. cbn [negb andb]. rewrite <- version_among. destruct (pcx_version _); [|reflexivity]. unfold among. cbn [existsb andb]. rewrite !orb_false_r, !orb_assoc. destruct (_ || _); [|reflexivity]. cbn [negb andb bytes]. f_equal. destruct (p_reserved p =? 0) eqn:Z0.
  - apply Z.eqb_eq in Z0. rewrite Z0. reflexivity.
  - destruct (str_eqb _ _) eqn:S; [|reflexivity]. apply str_eqb_eq in S. injection S as S. lia.
Qed.
Print Assumptions C86_pcx_valid.
(** Icons and cursors: each icon has 16 colors, and 4 or 16 bits per pixel, or tells no number of colors, and has 8, 24 or 32 bits per pixel, with one plane, or 4 planes and no bits per pixel; or 16 colors or none, and no planes nor bits per pixel *)
Definition icon_accepted (i : icon) : bool :=
  ((i_colors i =? 0) && among (i_bpp i) [8; 24; 32] && (i_planes i =? 1)) || ((i_colors i =? 0) && (i_planes i =? 4) && (i_bpp i =? 0)) || ((i_colors i =? 16) && among (i_bpp i) [4; 16] && (i_planes i =? 1)) ||
  (among (i_colors i) [0; 16] && (i_planes i =? 0) && (i_bpp i =? 0)).
Lemma sets_app name a b : sets name (a ++ b) = sets name a ++ sets name b.
Proof. unfold sets. apply flat_map_app. Qed.
Lemma extents_app name a b : extents name (a ++ b) = extents name a ++ extents name b.
Proof. unfold extents. apply flat_map_app. Qed.
Lemma sets_headers : forall l p, sets "icon_header[]" (shows (map (fun ia : icon * Z => ISet (lit "icon_header[]") (header_items (fst ia) (snd ia))) l) p) = headers_at l p.
Proof.
  induction l as [|[i a] l IH]; intros p; [reflexivity|]. cbn [map fst snd shows]. rewrite show_set. unfold sets at 1. cbn [app flat_map]. match goal with |- context [str_eqb ?a ?b] => change (str_eqb a b) with true end. cbn [app headers_at]. f_equal. unfold len. change (bytes_of (ISet ?n ?l)) with (bytes_of_all l). rewrite header_len. apply IH.
Qed.
Lemma sets_datas : forall l p, sets "icon_header[]" (shows (map (fun i => ISet (lit "icon_data[]") (image_items i)) l) p) = [].
Proof. induction l as [|i l IH]; intros p; [reflexivity|]. cbn [map shows]. rewrite show_set. unfold sets at 1. cbn [app flat_map]. match goal with |- context [str_eqb ?a ?b] => change (str_eqb a b) with false end. apply IH. Qed.
Lemma ico_sets type l : sets "icon_header[]" (shows (ico_items type l) 0) = headers_at (placed l (6 + 16 * zlen l)) 6.
Proof. unfold ico_items. rewrite !shows_app, !sets_app, sets_headers, sets_datas, app_nil_r. reflexivity. Qed.
Theorem C86_ico_valid : forall read type l rest, let data := bytes_of_all (ico_items type l) ++ rest in serves read data -> is_bytes data -> ico_ok type l ->
  ico_validate (fst (fst (IcoFile read (8 * zlen data)))) = Ok (among type [1; 2] && forallb icon_accepted l).
Proof.
  intros read type l rest data Hs Hb K. unfold data. rewrite C86_ico by assumption. cbn [fst]. unfold ico_validate. change (value "signature" (shows (ico_items type l) 0)) with (Ok 0). change (value "type" (shows (ico_items type l) 0)) with (Ok type). cbn [bind]. change (negb (0 =? 0)) with false. cbn iota.
  unfold among at 1. cbn [existsb]. rewrite orb_false_r. destruct (_ || _); [|reflexivity]. cbn [negb andb]. rewrite ico_sets. generalize 6 at 2. generalize (6 + 16 * zlen l). clear. induction l as [|i l IH]; intros a p; [reflexivity|]. cbn [placed headers_at all_valid forallb].
  assert (H : header_valid (shows (header_items i a) p) = Ok (icon_accepted i)).
  { unfold header_valid. change (value "nb_color" (shows (header_items i a) p)) with (Ok (i_colors i)). change (value "bpp" (shows (header_items i a) p)) with (Ok (i_bpp i)). change (value "planes" (shows (header_items i a) p)) with (Ok (i_planes i)). cbn [bind]. cbv zeta. unfold icon_accepted, among. cbn [existsb].
    destruct (i_colors i =? 0) eqn:C0; [apply Z.eqb_eq in C0; rewrite C0; change (0 =? 16) with false|]. 2: destruct (i_colors i =? 16) eqn:C16.
    - cbn [andb orb]. f_equal. destruct (i_planes i =? 1), (i_planes i =? 4), (i_planes i =? 0), (i_bpp i =? 8), (i_bpp i =? 24), (i_bpp i =? 32), (i_bpp i =? 0); reflexivity.
    - cbn [andb orb]. f_equal. destruct (i_planes i =? 1), (i_planes i =? 0), (i_bpp i =? 4), (i_bpp i =? 16), (i_bpp i =? 0); reflexivity.
    - reflexivity. }
  rewrite H. cbn [bind]. destruct (icon_accepted i); [apply IH|reflexivity].
Qed.
Print Assumptions C86_ico_valid.
(** ** What is told of icons: "Microsoft Windows icon: 16x16x4, 32x32x8" *)
Definition size_text (i : icon) : str := dec (i_width i) ++ lit "x" ++ dec (i_height i) ++ lit "x" ++ dec (i_bpp i).
Definition ico_text (type : Z) (l : list icon) : str :=
  lit "Microsoft Windows " ++ lit (if type =? 1 then "icon" else "cursor") ++ match l with [] => [] | i :: l => lit ": " ++ size_text i ++ flat_map (fun i => lit ", " ++ size_text i) l end.
Lemma join_flat {A} (f : A -> str) sep : forall l i, join sep (map f (i :: l)) = f i ++ flat_map (fun i => sep ++ f i) l.
Proof. induction l as [|j l IH]; intros i; [cbn; rewrite app_nil_r; reflexivity|]. cbn [map] in *. change (join sep (f i :: f j :: map f l)) with (f i ++ sep ++ join sep (f j :: map f l)). rewrite IH. cbn [flat_map]. rewrite <- app_assoc. reflexivity. Qed.
Theorem C86_ico_description : forall type l, In type [1; 2] -> ico_description (shows (ico_items type l) 0) = Ok (ico_text type l).
Proof.
  intros type l T. unfold ico_description. change (value "type" (shows (ico_items type l) 0)) with (Ok type). cbn [bind]. rewrite ico_sets. replace (sizes _) with (Ok (map size_text l)).
  - cbn [bind]. f_equal. unfold ico_text. replace (enum (type_name type) type) with (lit (if type =? 1 then "icon" else "cursor")) by (destruct T as [<-|[<-|[]]]; reflexivity). f_equal. f_equal. destruct l as [|i l]; [reflexivity|]. rewrite join_flat. reflexivity.
  - generalize 6 at 2. generalize (6 + 16 * zlen l). clear. induction l as [|i l IH]; intros a p; [reflexivity|]. cbn [placed headers_at sizes]. change (value "width" (shows (header_items i a) p)) with (Ok (i_width i)). change (value "height" (shows (header_items i a) p)) with (Ok (i_height i)). change (value "bpp" (shows (header_items i a) p)) with (Ok (i_bpp i)). cbn [bind]. rewrite <- IH. reflexivity.
Qed.
Print Assumptions C86_ico_description.
Lemma extents_headers : forall l p, extents "icon_data[]" (shows (map (fun ia : icon * Z => ISet (lit "icon_header[]") (header_items (fst ia) (snd ia))) l) p) = [].
Proof. induction l as [|[i a] l IH]; intros p; [reflexivity|]. cbn [map shows fst snd]. rewrite show_set. unfold extents. cbn [app flat_map]. match goal with |- context [str_eqb ?a ?b] => change (str_eqb a b) with false end. apply IH. Qed.
(** The size of the content of a file of icons is where the last image ends *)
Theorem C86_ico_size : forall type l, l <> [] -> ico_content_size (shows (ico_items type l) 0) = Ok (Some (8 * (6 + 16 * zlen l + all_len l))).
Proof.
  intros type l N. unfold ico_content_size. change (value "nb_items" (shows (ico_items type l) 0)) with (Ok (zlen l)). cbn [bind]. assert (1 <= zlen l) by (destruct l as [|i l]; [contradiction|rewrite zlen_cons; pose proof (zlen_nonneg l); lia]). replace (zlen l =? 0) with false by lia.
  assert (E : extents "icon_data[]" (shows (ico_items type l) 0) = extents "icon_data[]" (shows (map (fun i => ISet (lit "icon_data[]") (image_items i)) l) (6 + 16 * zlen l))).
  { unfold ico_items. rewrite !shows_app, !extents_app, headers_len. replace (zlen (placed l (6 + 16 * zlen l))) with (zlen l) by (unfold zlen; rewrite placed_length; reflexivity). change (zlen (bytes_of_all [_; _; _])) with 6. change (0 + 6) with 6.
    rewrite extents_headers. reflexivity. }
  rewrite E. replace (Z.to_nat (zlen l - 1)) with (List.length l - 1)%nat by (unfold zlen; lia). generalize (6 + 16 * zlen l). clear E H. induction l as [|i l IH]; intros p; [contradiction|]. cbn [map shows]. rewrite show_set. unfold extents. cbn [app flat_map]. match goal with |- context [str_eqb ?a ?b] => change (str_eqb a b) with true end. cbn [app].
  assert (L : len (ISet (lit "icon_data[]") (image_items i)) = image_len i) by apply image_len_eq. destruct l as [|j l].
  - cbn [List.length Nat.sub nth_error]. rewrite image_len_eq. unfold all_len. cbn [map fold_right]. do 2 f_equal. lia.
  - cbn [List.length]. replace (S (S (List.length l)) - 1)%nat with (S (S (List.length l) - 1)) by lia. cbn [nth_error]. rewrite L. specialize (IH ltac:(discriminate) (p + image_len i)). cbn [List.length] in IH. unfold extents in IH. rewrite IH. unfold all_len. cbn [map fold_right]. do 2 f_equal. lia.
Qed.
Print Assumptions C86_ico_size.
(** ** Metadata *)
Import MetaModel.
Lemma step_int_if e ks m key z lo hi (c : bool) : writes e -> same ks root m -> int_key key lo hi -> forallb (fun k => negb (str_eqb (lit k) (lit key))) ks = true ->
  exists m', (if c then (m, true) else assign e m [(key, MInt z)]) = (m', true) /\ same (ks ++ [key]) root m' /\ getValues m' (lit key) = Ok (if c then [] else in_limits lo hi z) /\ same [key] m m'.
Proof.
  intros W S K F. destruct c; [|apply step_int; assumption]. exists m. split; [reflexivity|]. split; [apply (same_trans ks [key] _ m); [exact S|apply same_refl]|]. split; [|apply same_refl]. destruct K as (d & D & V & _). eapply (kept _ _ _ _ _ S F), root_empty; eauto.
Qed.
Lemma step_told e ks m key s : writes e -> same ks root m -> text_key key -> forallb (fun k => negb (str_eqb (lit k) (lit key))) ks = true ->
  exists m', assign e m [(key, MStr s)] = (m', true) /\ same (ks ++ [key]) root m' /\ (kept_text e s -> getValues m' (lit key) = Ok [MStr s]) /\ same [key] m m'.
Proof.
  intros W S K F. destruct (step_plain e ks m key (MStr s) W Logic.I S) as (m' & A & T & U); [destruct K as (d & D & _ & _ & _ & C); exists d; split; assumption|exact F|]. exists m'. split; [exact A|]. split; [exact T|]. split; [|exact U]. intros Kt. destruct (step_text e ks m key s W Kt S K F) as (m2 & A2 & _ & V & _). rewrite A in A2. injection A2 as <-. exact V.
Qed.
Ltac ik := eexists; repeat (split; [reflexivity|]); reflexivity.
Ltac tk := eexists; split; [reflexivity|split; [reflexivity|split; [first [left; reflexivity|right; reflexivity]|split; reflexivity]]].
Ltac int_next e m key z lo hi W T m' A T' V S := destruct (step_int e _ m key z lo hi W T) as (m' & A & T' & V & S); [ik|reflexivity|]; rewrite A; unfold andthen at 1; cbn [fst snd].
Definition kind_text (k : Z) : str :=
  lit (match k with 0 => "No image data" | 1 => "Palette uncompressed" | 2 => "True-color uncompressed" | 3 => "Grayscale uncompressed" | 9 => "Palette RLE" | 10 => "True-color RLE" | _ => "Grayscale RLE" end).
Theorem C86_tga_metadata : forall e read t, let data := bytes_of_all (tga_items t) in writes e -> serves read data -> is_bytes data -> tga_ok t -> let m := tga_metadata e (fst (fst (TargaFile read (8 * zlen data)))) in
  getValues m (lit "width") = Ok (in_limits 1 20000 (t_width t)) /\ getValues m (lit "height") = Ok (in_limits 1 20000 (t_height t)) /\ getValues m (lit "bits_per_pixel") = Ok (in_limits 1 256 (t_bpp t)) /\
  getValues m (lit "nb_colors") = Ok (in_limits 1 16777216 (t_count t)) /\ (In (t_kind t) [0; 1; 2; 3; 9; 10; 11] -> kept_text e (kind_text (t_kind t)) -> getValues m (lit "compression") = Ok [MStr (kind_text (t_kind t))]).
Proof.
  intros e read t data W Hs Hb K. unfold data. rewrite C86_tga by assumption. cbn [fst]. cbv zeta. set (l := shows (tga_items t) 0). remember (tga_metadata e l) as mm eqn:Em. symmetry in Em. revert Em. unfold tga_metadata, tga_extract, ask.
  change (GenModel.get (lit "width") l) with (Some (VNum (t_width t))). change (GenModel.get (lit "height") l) with (Some (VNum (t_height t))). change (GenModel.get (lit "bpp") l) with (Some (VNum (t_bpp t))). change (GenModel.get (lit "nb_color") l) with (Some (VNum (t_count t))). change (GenModel.get (lit "codec") l) with (Some (VNum (t_kind t))). cbn [num].
  int_next e root "width"%string (t_width t) 1 20000 W (same_refl [] root) m1 A1 T1 V1 S1. int_next e m1 "height"%string (t_height t) 1 20000 W T1 m2 A2 T2 V2 S2. int_next e m2 "bits_per_pixel"%string (t_bpp t) 1 256 W T2 m3 A3 T3 V3 S3.
  destruct (step_int_if e _ m3 "nb_colors" (t_count t) 1 16777216 (t_count t =? 0) W T3) as (m4 & A4 & T4 & V4 & S4); [ik|reflexivity|]. rewrite A4. unfold andthen at 1. cbn [fst snd].
  destruct (step_told e _ m4 "compression" (enum (codec_name (t_kind t)) (t_kind t)) W T4) as (m5 & A5 & T5 & V5 & S5); [tk|reflexivity|]. rewrite A5. unfold andthen at 1. cbn [fst snd].
  assert (X : exists m6, match size_of (lit "pixels") l with Some s => computeComprRate e m5 s | None => (m5, true) end = (m6, true) /\ same ["compr_rate"%string] m5 m6) by (destruct (size_of _ _); [eapply rate_step; [exact W|exact T5|reflexivity]|exists m5; split; [reflexivity|apply same_refl]]).
  destruct X as (m6 & A6 & S6). rewrite A6. cbn [fst]. pose proof (same_trans _ _ _ _ _ T5 S6) as T6. pose proof (mime_step e _ m6 (lit "image/targa") (lit "Little endian") T6 eq_refl) as S7.
  pose proof (same_trans _ _ _ _ _ S6 S7) as U5. pose proof (same_trans _ _ _ _ _ S5 U5) as U4. pose proof (same_trans _ _ _ _ _ S4 U4) as U3. pose proof (same_trans _ _ _ _ _ S3 U3) as U2. pose proof (same_trans _ _ _ _ _ S2 U2) as U1. intros <-.
  split; [eapply (kept _ _ _ _ _ U1); [reflexivity|exact V1]|]. split; [eapply (kept _ _ _ _ _ U2); [reflexivity|exact V2]|]. split; [eapply (kept _ _ _ _ _ U3); [reflexivity|exact V3]|]. split.
  - eapply (kept _ _ _ _ _ U4); [reflexivity|]. rewrite V4. destruct (t_count t =? 0) eqn:Z0; [|reflexivity]. apply Z.eqb_eq in Z0. rewrite Z0. reflexivity.
  - intros I Kt. replace (enum _ _) with (kind_text (t_kind t)) in V5 by (destruct I as [<-|[<-|[<-|[<-|[<-|[<-|[<-|[]]]]]]]]; reflexivity). eapply (kept _ _ _ _ _ U5); [reflexivity|apply V5, Kt].
Qed.
Print Assumptions C86_tga_metadata.
Definition pcx_text (v : Z) : str :=
  lit "PCX: " ++ lit (match v with 0 => "Version 2.5 of PC Paintbrush" | 2 => "Version 2.8 with palette information" | 3 => "Version 2.8 without palette information" | 4 => "PC Paintbrush for Windows" | _ => "Version 3.0 (or greater) of PC Paintbrush" end).
Theorem C86_pcx_metadata : forall e read p, let data := bytes_of_all (pcx_items p) in writes e -> serves read data -> is_bytes data -> pcx_ok p -> let m := pcx_metadata e (fst (fst (PcxFile read (8 * zlen data)))) in
  getValues m (lit "width") = Ok (in_limits 1 20000 (1 + p_xmax p)) /\ getValues m (lit "height") = Ok (in_limits 1 20000 (1 + p_ymax p)) /\ getValues m (lit "width_dpi") = Ok (in_limits 1 10000 (p_xdpi p)) /\ getValues m (lit "height_dpi") = Ok (in_limits 1 10000 (p_ydpi p)) /\
  getValues m (lit "bits_per_pixel") = Ok (in_limits 1 256 (p_bpp p)) /\ getValues m (lit "nb_colors") = Ok (if (1 <=? p_bpp p) && (p_bpp p <=? 8) then [MInt (2 ^ p_bpp p)] else []) /\
  (kept_text e (lit "Run-length encoding (RLE)") -> getValues m (lit "compression") = Ok [MStr (lit "Run-length encoding (RLE)")]) /\
  (In (p_version p) [0; 2; 3; 4; 5] -> kept_text e (pcx_text (p_version p)) -> getValues m (lit "format_version") = Ok [MStr (pcx_text (p_version p))]).
Proof.
  intros e read p data W Hs Hb K. unfold data. rewrite C86_pcx by assumption. cbn [fst]. cbv zeta. set (l := shows (pcx_items p) 0). remember (pcx_metadata e l) as mm eqn:Em. symmetry in Em. revert Em. unfold pcx_metadata, pcx_extract, ask.
  change (GenModel.get (lit "xmax") l) with (Some (VNum (p_xmax p))). change (GenModel.get (lit "ymax") l) with (Some (VNum (p_ymax p))). change (GenModel.get (lit "horiz_dpi") l) with (Some (VNum (p_xdpi p))). change (GenModel.get (lit "vert_dpi") l) with (Some (VNum (p_ydpi p))).
  change (GenModel.get (lit "bpp") l) with (Some (VNum (p_bpp p))). change (GenModel.get (lit "version") l) with (Some (VNum (p_version p))). cbn [num].
  int_next e root "width"%string (1 + p_xmax p) 1 20000 W (same_refl [] root) m1 A1 T1 V1 S1. int_next e m1 "height"%string (1 + p_ymax p) 1 20000 W T1 m2 A2 T2 V2 S2. int_next e m2 "width_dpi"%string (p_xdpi p) 1 10000 W T2 m3 A3 T3 V3 S3. int_next e m3 "height_dpi"%string (p_ydpi p) 1 10000 W T3 m4 A4 T4 V4 S4.
  int_next e m4 "bits_per_pixel"%string (p_bpp p) 1 256 W T4 m5 A5 T5 V5 S5.
  destruct (step_int_if e _ m5 "nb_colors" (2 ^ p_bpp p) 1 16777216 (negb ((1 <=? p_bpp p) && (p_bpp p <=? 8))) W T5) as (m6 & A6 & T6 & V6 & S6); [ik|reflexivity|]. match goal with |- context [if ?c then assign e m5 ?x else (m5, true)] => replace (if c then assign e m5 x else (m5, true)) with (if negb c then (m5, true) else assign e m5 x) by (destruct c; reflexivity) end. rewrite A6. unfold andthen at 1. cbn [fst snd].
  destruct (step_told e _ m6 "compression" (lit "Run-length encoding (RLE)") W T6) as (m7 & A7 & T7 & V7 & S7); [tk|reflexivity|]. rewrite A7. unfold andthen at 1. cbn [fst snd].
  destruct (step_told e _ m7 "format_version" (lit "PCX: " ++ enum (pcx_version (p_version p)) (p_version p)) W T7) as (m8 & A8 & T8 & V8 & S8); [tk|reflexivity|]. rewrite A8. unfold andthen at 1. cbn [fst snd].
  assert (X : exists m9, match size_of (lit "image_data") l with Some s => computeComprRate e m8 s | None => (m8, true) end = (m9, true) /\ same ["compr_rate"%string] m8 m9) by (destruct (size_of _ _); [eapply rate_step; [exact W|exact T8|reflexivity]|exists m8; split; [reflexivity|apply same_refl]]).
  destruct X as (m9 & A9 & S9). rewrite A9. cbn [fst]. pose proof (same_trans _ _ _ _ _ T8 S9) as T9. pose proof (mime_step e _ m9 (lit "image/x-pcx") (lit "Little endian") T9 eq_refl) as S10.
  pose proof (same_trans _ _ _ _ _ S9 S10) as U8. pose proof (same_trans _ _ _ _ _ S8 U8) as U7. pose proof (same_trans _ _ _ _ _ S7 U7) as U6. pose proof (same_trans _ _ _ _ _ S6 U6) as U5. pose proof (same_trans _ _ _ _ _ S5 U5) as U4. pose proof (same_trans _ _ _ _ _ S4 U4) as U3. pose proof (same_trans _ _ _ _ _ S3 U3) as U2. pose proof (same_trans _ _ _ _ _ S2 U2) as U1. intros <-.
  split; [eapply (kept _ _ _ _ _ U1); [reflexivity|exact V1]|]. split; [eapply (kept _ _ _ _ _ U2); [reflexivity|exact V2]|]. split; [eapply (kept _ _ _ _ _ U3); [reflexivity|exact V3]|]. split; [eapply (kept _ _ _ _ _ U4); [reflexivity|exact V4]|]. split; [eapply (kept _ _ _ _ _ U5); [reflexivity|exact V5]|]. split; [|split].
  - eapply (kept _ _ _ _ _ U6); [reflexivity|]. rewrite V6. destruct ((1 <=? p_bpp p) && (p_bpp p <=? 8)) eqn:B; [|reflexivity]. cbn [negb]. assert (H : p_bpp p = 1 \/ p_bpp p = 2 \/ p_bpp p = 3 \/ p_bpp p = 4 \/ p_bpp p = 5 \/ p_bpp p = 6 \/ p_bpp p = 7 \/ p_bpp p = 8) by lia. repeat (destruct H as [->|H]; [reflexivity|]). rewrite H. reflexivity.
  - intros Kt. eapply (kept _ _ _ _ _ U7); [reflexivity|apply V7, Kt].
  - intros I Kt. replace (_ ++ enum _ _) with (pcx_text (p_version p)) in V8 by (destruct I as [<-|[<-|[<-|[<-|[<-|[]]]]]]; reflexivity). eapply (kept _ _ _ _ _ U8); [reflexivity|apply V8, Kt].
Qed.
Print Assumptions C86_pcx_metadata.
(** The depth of an icon: the one told, or the one of its number of colors *)
Definition icon_depth (i : icon) : Z := if negb (i_bpp i =? 0) then i_bpp i else if i_colors i =? 0 then 8 else if i_colors i =? 2 then 1 else if i_colors i =? 16 then 4 else 0.
Definition icon_told (i : icon) (m : meta) : Prop :=
  getValues m (lit "width") = Ok (in_limits 1 20000 (i_width i)) /\ getValues m (lit "height") = Ok (in_limits 1 20000 (i_height i)) /\ getValues m (lit "bits_per_pixel") = Ok (in_limits 1 256 (icon_depth i)) /\ getValues m (lit "nb_colors") = Ok (in_limits 1 16777216 (i_colors i)).
Lemma icon_meta e i a p : writes e -> byte (i_colors i) -> icon_told i (fst (icon_extract e root (shows (header_items i a) p))).
Proof.
  intros W K. unfold byte in K. set (l := shows (header_items i a) p). unfold icon_extract, ask. change (GenModel.get (lit "width") l) with (Some (VNum (i_width i))). change (GenModel.get (lit "height") l) with (Some (VNum (i_height i))). change (GenModel.get (lit "bpp") l) with (Some (VNum (i_bpp i))). change (GenModel.get (lit "nb_color") l) with (Some (VNum (i_colors i))). cbn [num].
  int_next e root "width"%string (i_width i) 1 20000 W (same_refl [] root) m1 A1 T1 V1 S1. int_next e m1 "height"%string (i_height i) 1 20000 W T1 m2 A2 T2 V2 S2. cbv zeta.
  destruct (step_int_if e _ m2 "nb_colors" (i_colors i) 1 16777216 (i_colors i =? 0) W T2) as (m3 & A3 & T3 & V3 & S3); [ik|reflexivity|]. rewrite A3. unfold andthen at 1. cbn [fst snd].
  match goal with |- context [MInt ?z] => assert (Z0 : z = icon_depth i) end. { unfold icon_depth. destruct (i_bpp i =? 0) eqn:B; cbn [negb]; [|destruct (i_colors i =? 0); reflexivity]. apply Z.eqb_eq in B. rewrite B. destruct (i_colors i =? 0); [reflexivity|]. destruct (i_colors i =? 2); [reflexivity|]. destruct (i_colors i =? 16); [reflexivity|]. replace (i_colors i =? 256) with false by lia. reflexivity. }
  rewrite Z0. destruct (step_int e _ m3 "bits_per_pixel" (icon_depth i) 1 256 W T3) as (m4 & A4 & T4 & V4 & S4); [ik|reflexivity|]. rewrite A4. cbn [fst]. pose proof (same_trans _ _ _ _ _ S3 S4) as U2. pose proof (same_trans _ _ _ _ _ S2 U2) as U1.
  split; [eapply (kept _ _ _ _ _ U1); [reflexivity|exact V1]|]. split; [eapply (kept _ _ _ _ _ U2); [reflexivity|exact V2]|]. split; [exact V4|]. eapply (kept _ _ _ _ _ S4); [reflexivity|]. rewrite V3. destruct (i_colors i =? 0) eqn:C; [|reflexivity]. apply Z.eqb_eq in C. rewrite C. reflexivity.
Qed.
(** For every file of icons, one metadata for each icon, in their order *)
Theorem C86_ico_metadata : forall e read type l rest, let data := bytes_of_all (ico_items type l) ++ rest in writes e -> serves read data -> is_bytes data -> ico_ok type l ->
  Forall2 icon_told l (ico_metadata e (fst (fst (IcoFile read (8 * zlen data))))).
Proof.
  intros e read type l rest data W Hs Hb K. unfold data. rewrite C86_ico by assumption. cbn [fst]. unfold ico_metadata. rewrite ico_sets. destruct K as (_ & _ & _ & K). generalize 6 at 2. generalize (6 + 16 * zlen l). clear data Hs Hb. induction K as [|i l Ki K IH]; intros a p; [constructor|]. cbn [placed headers_at map]. constructor; [apply icon_meta; [exact W|apply Ki]|apply IH].
Qed.
Print Assumptions C86_ico_metadata.
(** ** What is shown and told wrong *)
(** The pixels of a Targa picture that is not compressed are meant to be shown line by line (tga.py:101-103): the test is made on the field, and not on its value, and is never true.  They are shown as bytes, whatever the
    kind of the image, and no rate of compression is told. *)
Theorem C86_tga_lines_refuted : forall e read t, let data := bytes_of_all (tga_items t) in writes e -> serves read data -> is_bytes data -> tga_ok t -> In (t_kind t) [1; 2; 3] -> t_pixels t <> [] ->
  let l := fst (fst (TargaFile read (8 * zlen data))) in GenModel.get (lit "raw_pixels") l = Some (VBytes (t_pixels t)) /\ size_of (lit "pixels") l = None /\ getValues (tga_metadata e l) (lit "compr_rate") = Ok [].
Proof.
  intros e read t data W Hs Hb K I N. unfold data. rewrite C86_tga by assumption. cbn [fst]. cbv zeta. clear data Hs Hb. set (l := shows (tga_items t) 0).
  assert (E : size_of (lit "pixels") l = None).
  { unfold l, tga_items, le. cbn [app]. destruct (t_id t), (t_map t), (t_pixels t); vm_compute; reflexivity. }
  split. { unfold l, tga_items, le. cbn [app]. destruct (t_pixels t) as [|x px]; [contradiction|]. destruct (t_id t), (t_map t); vm_compute; reflexivity. }
  split; [exact E|]. remember (tga_metadata e l) as mm eqn:Em. symmetry in Em. revert Em. unfold tga_metadata, tga_extract, ask. rewrite E.
  change (GenModel.get (lit "width") l) with (Some (VNum (t_width t))). change (GenModel.get (lit "height") l) with (Some (VNum (t_height t))). change (GenModel.get (lit "bpp") l) with (Some (VNum (t_bpp t))). change (GenModel.get (lit "nb_color") l) with (Some (VNum (t_count t))). change (GenModel.get (lit "codec") l) with (Some (VNum (t_kind t))). cbn [num].
  int_next e root "width"%string (t_width t) 1 20000 W (same_refl [] root) m1 A1 T1 V1 S1. int_next e m1 "height"%string (t_height t) 1 20000 W T1 m2 A2 T2 V2 S2. int_next e m2 "bits_per_pixel"%string (t_bpp t) 1 256 W T2 m3 A3 T3 V3 S3.
  destruct (step_int_if e _ m3 "nb_colors" (t_count t) 1 16777216 (t_count t =? 0) W T3) as (m4 & A4 & T4 & V4 & S4); [ik|reflexivity|]. rewrite A4. unfold andthen at 1. cbn [fst snd].
  destruct (step_told e _ m4 "compression" (enum (codec_name (t_kind t)) (t_kind t)) W T4) as (m5 & A5 & T5 & V5 & S5); [tk|reflexivity|]. rewrite A5. unfold andthen at 1. cbn [fst snd].
  pose proof (mime_step e _ m5 (lit "image/targa") (lit "Little endian") T5 eq_refl) as S7. pose proof (same_trans _ _ _ _ _ T5 S7) as T7. intros <-. eapply (kept _ _ _ _ _ T7); [reflexivity|]. eapply root_empty; reflexivity.
Qed.
Print Assumptions C86_tga_lines_refuted.
(** The map of colors of a Targa picture has the number of colors told by the file: it is read as if it had one for each value of a pixel (tga.py:98-100).  The map of 2 colors of this picture is shown with the 4 pixels inside, and
    the palette ends with an error. *)
Theorem C86_tga_map_refuted : exists data l rest, is_bytes data /\ occurs_at (uint LITTLE_ENDIAN 2 2) data 5 /\ occurs_at [24] data 7 /\ occurs_at ([1; 2; 3] ++ [4; 5; 6] ++ [0; 1; 1; 0]) data 18 /\
  TargaFile (string_read data) (8 * zlen data) = (l ++ [G (lit "palette") 144 80 (shows [color_item (1, 2, 3); color_item (4, 5, 6); color_item (0, 1, 1)] 18 ++ rest) (Some StopIteration)], None, 8 * zlen data) /\ tga_validate l = Ok true /\ GenModel.get (lit "nb_color") l = Some (VNum 2).
Proof.
  exists ([0; 1; 1; 0; 0; 2; 0; 24; 0; 0; 0; 0; 2; 0; 2; 0; 8; 0] ++ [1; 2; 3] ++ [4; 5; 6] ++ [0; 1; 1; 0]). eexists. eexists. split; [unfold is_bytes, is_byte; cbn [app]; repeat constructor; vm_compute; congruence|]. split; [vm_compute; repeat split; discriminate|]. split; [vm_compute; repeat split; discriminate|]. split; [vm_compute; repeat split; discriminate|].
  split.
  - match goal with |- ?a = _ => let r := eval vm_compute in a in lazymatch r with (?x0 :: ?x1 :: ?x2 :: ?x3 :: ?x4 :: ?x5 :: ?x6 :: ?x7 :: ?x8 :: ?x9 :: ?x10 :: ?x11 :: ?x12 :: ?x13 :: ?x14 :: [G _ _ _ [_; _; _; ?y] _], _, _) =>
      instantiate (1 := [y]); instantiate (1 := [x0; x1; x2; x3; x4; x5; x6; x7; x8; x9; x10; x11; x12; x13; x14]) end end. vm_compute. reflexivity.
  - split; vm_compute; reflexivity.
Qed.
Print Assumptions C86_tga_map_refuted.
(** The picture of a PCX file goes from its first column to its last one: the first one is not used, and a picture of one column is told to have as many as the last one and those before it (image.py:137-138). *)
Theorem C86_pcx_width_refuted : forall e read p, let data := bytes_of_all (pcx_items p) in writes e -> serves read data -> is_bytes data -> pcx_ok p -> 1 <= p_xmin p -> p_xmin p <= p_xmax p < 20000 ->
  exists w, getValues (pcx_metadata e (fst (fst (PcxFile read (8 * zlen data))))) (lit "width") = Ok [MInt w] /\ w <> p_xmax p - p_xmin p + 1.
Proof.
  intros e read p data W Hs Hb K A B. exists (1 + p_xmax p). split; [|lia]. destruct (C86_pcx_metadata e read p W Hs Hb K) as (V & _). unfold data. rewrite V. unfold in_limits. replace (1 <=? 1 + p_xmax p) with true by lia. replace (1 + p_xmax p <=? 20000) with true by lia. reflexivity.
Qed.
Print Assumptions C86_pcx_width_refuted.
(** The 256 colors at the end of a PCX file are preceded by a byte, 12, that tells that they are there: it is shown as the last byte of the pixels (pcx.py:66-73). *)
Theorem C86_pcx_marker_refuted : forall read p coded, let data := bytes_of_all (pcx_items p) in serves read data -> is_bytes data -> pcx_ok p -> p_bpp p = 8 -> p_pixels p = coded ++ [12] ->
  occurs_at [12] data (zlen data - 769) /\ GenModel.get (lit "image_data") (fst (fst (PcxFile read (8 * zlen data)))) = Some (VBytes (coded ++ [12])).
Proof.
  intros read p coded data Hs Hb K B E. assert (L : zlen data = 128 + zlen (p_pixels p) + 3 * zlen (p_palette p)) by (apply pcx_len; apply K). assert (P : zlen (p_palette p) = 256) by (destruct K as (_ & _ & _ & _ & _ & _ & _ & _ & _ & _ & _ & _ & _ & _ & _ & _ & _ & _ & _ & K); rewrite B in K; exact K). split.
  - assert (D : exists x b, data = (x ++ coded ++ [12]) ++ b /\ zlen b = 768).
    { unfold data, pcx_items. rewrite bytes_of_all_app. rewrite (app_removelast_last (I [] (SBytes [])) (l := [_; _; _; _; _; _; _; _; _; _; _; _; _; _; _; _; _])) by discriminate. cbn [removelast last]. rewrite bytes_of_all_app. rewrite (bytes_of_all_cons (I (lit "image_data") _)). change (bytes_of_all []) with (@nil Z). rewrite app_nil_r. cbn [bytes_of plain_bytes]. rewrite E.
      eexists. eexists. split; [reflexivity|]. destruct (p_palette p) as [|c l] eqn:Ep; [discriminate|]. rewrite bytes_of_all_cons, app_nil_r. change (bytes_of (ISet ?n ?l)) with (bytes_of_all l). rewrite colors_len, P. reflexivity. }
    destruct D as (x & b & -> & Lb). rewrite app_assoc, <- app_assoc. replace (zlen ((x ++ coded) ++ [12] ++ b) - 769) with (zlen (x ++ coded)) by (rewrite !zlen_app, Lb; change (zlen [12]) with 1; lia). exact (occ_pre (x ++ coded) [12] b).
  - unfold data. rewrite C86_pcx by assumption. cbn [fst]. rewrite <- E. reflexivity.
Qed.
Print Assumptions C86_pcx_marker_refuted.
(** Icons of two colors, and every icon of a number of colors other than 0 and 16, make the file refused (ico.py:31-45), though their depth is known to the extractor of metadata (image.py:104-110). *)
Theorem C86_ico_mono_refuted : forall read type l rest i, let data := bytes_of_all (ico_items type l) ++ rest in serves read data -> is_bytes data -> ico_ok type l -> In i l -> i_colors i = 2 ->
  ico_validate (fst (fst (IcoFile read (8 * zlen data)))) = Ok false.
Proof.
  intros read type l rest i data Hs Hb K Il C. unfold data. rewrite C86_ico_valid by assumption. f_equal. apply andb_false_iff. right. destruct (forallb icon_accepted l) eqn:F; [|reflexivity]. rewrite forallb_forall in F. specialize (F i Il). unfold icon_accepted, among in F. rewrite C in F. cbn [existsb] in F. change (2 =? 0) with false in F. change (2 =? 16) with false in F. discriminate.
Qed.
Print Assumptions C86_ico_mono_refuted.
(** The width and the height of an icon of 256 pixels are stored as 0: none is told. *)
Theorem C86_ico_256_refuted : forall e i a p, writes e -> byte (i_colors i) -> i_width i = 0 -> i_height i = 0 -> let m := fst (icon_extract e root (shows (header_items i a) p)) in
  getValues m (lit "width") = Ok [] /\ getValues m (lit "height") = Ok [].
Proof. intros e i a p W K X Y m. destruct (icon_meta e i a p W K) as (V1 & V2 & _). rewrite X in V1. rewrite Y in V2. split; [exact V1|exact V2]. Qed.
Print Assumptions C86_ico_256_refuted.
(** An icon stored as a PNG picture is shown as a bitmap, whose width is the end of the signature of PNG (ico.py:53-67). *)
Theorem C86_ico_png_refuted : forall read i rest, let data := bytes_of_all (ico_items 1 [i]) ++ rest in serves read data -> is_bytes data -> ico_ok 1 [i] -> d_size i = 1196314761 -> d_width i = 169478669 ->
  occurs_at ([137] ++ lit "PNG" ++ [13; 10; 26; 10]) data 22 /\
  option_map (fun d => option_map (fun h => GenModel.get (lit "width") h) (group (lit "header") d)) (group (lit "icon_data[]") (fst (fst (IcoFile read (8 * zlen data))))) = Some (Some (Some (VNum 169478669))).
Proof.
  intros read i rest data Hs Hb K S Wd. split.
  - assert (D : exists b, data = bytes_of_all ([le 2 "signature" 0; le 2 "type" 1; le 2 "nb_items" (zlen [i])] ++ [ISet (lit "icon_header[]") (header_items i 22)]) ++ ([137] ++ lit "PNG" ++ [13; 10; 26; 10]) ++ b).
    { assert (Im : exists b, bytes_of_all (image_items i) = ([137] ++ lit "PNG" ++ [13; 10; 26; 10]) ++ b).
      { unfold image_items, le. cbn [app]. rewrite (bytes_of_all_cons (ISet (lit "header") _)). change (bytes_of (ISet (lit "header") ?l)) with (bytes_of_all l). rewrite (bytes_of_all_cons (I (lit "hdr_size") _)), (bytes_of_all_cons (I (lit "width") _)). cbn [bytes_of plain_bytes]. rewrite S, Wd.
        change (uint LE 4 1196314761) with ([137] ++ lit "PNG"). change (uint LE 4 169478669) with [13; 10; 26; 10]. eexists. rewrite <- !app_assoc. reflexivity. }
      destruct Im as (b & Im). exists (b ++ rest). unfold data, ico_items. change (placed [i] (6 + 16 * zlen [i])) with [(i, 22)]. change (map _ [(i, 22)]) with [ISet (lit "icon_header[]") (header_items i 22)]. change (map (fun i => ISet (lit "icon_data[]") (image_items i)) [i]) with [ISet (lit "icon_data[]") (image_items i)].
      rewrite app_assoc, bytes_of_all_app. rewrite (bytes_of_all_cons (ISet (lit "icon_data[]") _)). change (bytes_of (ISet (lit "icon_data[]") ?l)) with (bytes_of_all l). change (bytes_of_all []) with (@nil Z). rewrite app_nil_r, Im, <- !app_assoc. reflexivity. }
    destruct D as (b & ->). exact (occ_pre (bytes_of_all ([le 2 "signature" 0; le 2 "type" 1; le 2 "nb_items" (zlen [i])] ++ [ISet (lit "icon_header[]") (header_items i 22)])) _ b).
  - unfold data. rewrite C86_ico by assumption. cbn [fst]. rewrite <- Wd. reflexivity.
Qed.
Print Assumptions C86_ico_png_refuted.
(** ** Concrete pictures *)
Definition grey : tga := Tga (lit "id") 0 3 0 0 0 0 0 2 2 8 0 0 1 0 [] [1; 2; 3; 4].
Definition map_16 : list color := map (fun n => (n, 0, 255 - n)) [0; 1; 2; 3; 4; 5; 6; 7; 8; 9; 10; 11; 12; 13; 14; 15].
Definition mapped : tga := Tga [] 1 9 0 16 24 0 0 4 1 4 8 1 0 2 map_16 [131; 7].
Definition lines : pcx := Pcx 10 5 1 1 2 0 9 1 300 300 map_16 0 1 2 1 (repeat 0 58) [255; 1; 12] [].
Definition depth8 : pcx := Pcx 10 5 1 8 0 0 1 1 72 72 map_16 0 1 2 1 (repeat 0 58) [5; 6; 5; 6; 12] (flat_map (fun _ => map_16) (repeat 0 16)).
Definition four_bits : icon := Icon 16 16 16 0 1 4 40 16 32 1 4 0 0 0 0 0 0 (map (fun c => (fst (fst c), snd (fst c), snd c, 0)) map_16) [1; 2; 3].
Definition big_png : icon := Icon 0 0 0 0 1 32 1196314761 169478669 218103808 21065 21065 256 256 0 0 0 0 [] [9; 9].
Definition mono : icon := Icon 32 32 2 0 1 1 40 32 64 1 1 0 0 0 0 0 0 [(0, 0, 0, 0); (255, 255, 255, 0)] [7].
Ltac pic := repeat match goal with
  | |- _ /\ _ => split | |- Forall _ ?l => let l' := eval vm_compute in l in change l with l'; first [apply Forall_nil | apply Forall_cons] | |- color_ok _ => unfold color_ok, byte | |- color4_ok _ => unfold color4_ok, byte | |- icon_ok _ => unfold icon_ok
  | |- byte _ => unfold byte | |- short _ => unfold short | |- long _ => unfold long
  | |- ?a < ?b => vm_compute; reflexivity | |- ?a <= ?b => vm_compute; discriminate | |- _ = _ => vm_compute; reflexivity | |- _ <> _ => discriminate end.
Example C86_pictures : tga_ok grey /\ tga_ok mapped /\ pcx_ok lines /\ pcx_ok depth8 /\ ico_ok 1 [four_bits; big_png] /\ ico_ok 2 [mono] /\ ico_ok 1 [big_png].
Proof. unfold tga_ok, pcx_ok, ico_ok. pic. Qed.
Example C86_shown : forall t, In t [grey; mapped] -> TargaFile (string_read (bytes_of_all (tga_items t))) (8 * zlen (bytes_of_all (tga_items t))) = (shows (tga_items t) 0, None, 8 * zlen (bytes_of_all (tga_items t))).
Proof. intros t [<-|[<-|[]]]; vm_compute; reflexivity. Qed.
Example C86_hypotheses : writes PropertiesGifFile.plain_env /\ kept_text PropertiesGifFile.plain_env (kind_text 3) /\ kept_text PropertiesGifFile.plain_env (pcx_text 5) /\ kept_text PropertiesGifFile.plain_env (lit "Run-length encoding (RLE)") /\
  In (t_kind grey) [1; 2; 3] /\ t_pixels grey <> [] /\ 1 <= p_xmin lines /\ p_bpp depth8 = 8 /\ p_pixels depth8 = [5; 6; 5; 6] ++ [12] /\ i_colors mono = 2 /\ i_width big_png = 0 /\ d_size big_png = 1196314761 /\ d_width big_png = 169478669.
Proof.
  split; [intros h v; eexists; reflexivity|]. assert (K : forall s, s <> [] -> normalizeString PropertiesGifFile.plain_env s = s -> HumanModel.normalizeNewline s = s -> zlen s <= 300 -> kept_text PropertiesGifFile.plain_env s) by (intros s A B C D; split; [exact A|split; [exact B|split; [exact C|]]]; right; exact D).
  do 3 (split; [apply K; [discriminate|vm_compute; reflexivity|vm_compute; reflexivity|vm_compute; discriminate]|]).
  repeat split; try reflexivity; try discriminate. cbn [In]. vm_compute. tauto.
Qed.
Example C86_texts : ico_text 1 [four_bits; big_png] = lit "Microsoft Windows icon: 16x16x4, 0x0x32" /\ forallb icon_accepted [four_bits; big_png] = true /\ icon_accepted mono = false /\ icon_depth mono = 1 /\
  ico_content_size (shows (ico_items 1 [four_bits; big_png]) 0) = Ok (Some (8 * 187)).
Proof. repeat split; vm_compute; reflexivity. Qed.

(** What the parser of BMP pictures does on the files of the format. *)
From Coq Require Import String.
From Verif Require Import Base BaseProofs BitsModel BitsSpec BitsProofs StreamModel StreamSpec StreamProofs StreamProofs2 DictModel DictProofs FieldModel ToolsModel NumSpec NumRead ChunkBase GenModel GenSpec GenProofs ItemSpec ItemProofs ItemProofs2 ZipSpec BmpModel BmpSpec Lit.
Open Scope Z_scope.
Ltac Zify.zify_post_hook ::= Z.div_mod_to_equations.

Section Read.
Context (read : read_fun) (data : list Z) (Hs : serves read data) (Hb : is_bytes data).
Notation obeys := (obeys read data).
Lemma xyz_obeys stop p name x k : xyz_ok x -> obeys stop p (CIEXYZ name k) [xyz_item name x] k.
Proof using Type. destruct x as [[a b] c]. intros (A & B & C). unfold CIEXYZ, xyz_item, u32. apply ob_open; [vm_compute; reflexivity| |apply ob_nil]. unfold le. repeat ob. Qed.
Lemma header_obeys stop p h : header_ok h -> obeys stop p BmpHeader_fields (header_items h) PRet.
Proof using Type.
  intros (H1 & H2 & H3 & H4 & H5 & H6 & H7 & H8 & H9 & H10 & HV). unfold BmpHeader_fields, header_items, le, u32. destruct (h_v4 h) as [v|]; cbn [app].
  - do 5 ob. cbn [plain_val num]. change (108 <? 40) with false. cbn iota. do 6 ob. change (108 <? 108) with false. cbn iota. unfold v4_items, v4_ok in *. destruct (v_masks v) as [[[a b] c] d]. destruct HV as (V1 & V2 & V3 & V4 & V5 & V6 & V7 & V8 & V9). destruct (v_gamma v) as [[r g] bl]. destruct V9 as (G1 & G2 & G3). unfold le. do 5 ob.
    eapply (ob_app _ _ _ _ _ [_]); [apply xyz_obeys, V6|]. eapply (ob_app _ _ _ _ _ [_]); [apply xyz_obeys, V7|]. eapply (ob_app _ _ _ _ _ [_]); [apply xyz_obeys, V8|]. repeat ob.
  - do 5 ob. cbn [plain_val num]. change (40 <? 40) with false. cbn iota. do 6 ob. change (40 <? 108) with true. cbn iota. apply ob_nil.
Qed.
Lemma header_len h : zlen (bytes_of_all (header_items h)) = header_size h.
Proof using Type.
  unfold header_items, header_size. rewrite bytes_of_all_app, zlen_app. destruct (h_v4 h) as [v|]; unfold le, bytes_of_all; cbn [flat_map bytes_of plain_bytes]; rewrite ?zlen_app, ?zlen_uint; change (zlen (@nil Z)) with 0; [|lia].
  unfold v4_items, xyz_item, le. destruct (v_masks v) as [[[a b] c] d], (v_gamma v) as [[r g] bl], (v_red v) as [[? ?] ?], (v_green v) as [[? ?] ?], (v_blue v) as [[? ?] ?]. cbn [flat_map bytes_of plain_bytes]. rewrite !zlen_app, !zlen_uint. change (zlen (@nil Z)) with 0. lia.
Qed.
Lemma color_obeys stop p v k : u32_ok v -> obeys stop p (PSet (lit "color[]") (Some 32) RGBA_fields (fun _ => k)) [color_item v] k.
Proof using Type.
  intros V. unfold u32_ok in V. change (2 ^ 32) with 4294967296 in V. apply ob_set; [reflexivity|lia| |apply ob_nil]. unfold RGBA_fields, le. assert (B : forall x, 0 <= x mod 256 < 2 ^ (8 * Z.of_nat 1)) by (intros x; change (2 ^ (8 * Z.of_nat 1)) with 256; lia).
  pose proof (B v). pose proof (B (v / 256)). pose proof (B (v / 65536)). assert (0 <= v / 16777216 < 2 ^ (8 * Z.of_nat 1)) by (change (2 ^ (8 * Z.of_nat 1)) with 256; lia). repeat ob.
Qed.
Lemma colors_len l : zlen (bytes_of_all (map color_item l)) = 4 * zlen l.
Proof using Type. induction l as [|v l IH]; [reflexivity|]. cbn [map]. rewrite bytes_of_all_cons, zlen_app, IH, zlen_cons. change (zlen (bytes_of (color_item v))) with 4. lia. Qed.
Lemma palette_obeys stop p n l k : Forall u32_ok l -> n = zlen l -> obeys stop p (when (negb (n =? 0)) (Palette (lit "palette") 32 RGBA_fields n) k) (palette_items l) k.
Proof using Type.
  intros V ->. unfold palette_items. destruct l as [|v0 l0] eqn:E; [apply ob_nil|]. rewrite <- E in *. assert (1 <= zlen l) by (rewrite E, zlen_cons; pose proof (zlen_nonneg l0); lia). clear E v0 l0. replace (negb (zlen l =? 0)) with true by lia. cbn [when]. unfold Palette. replace (zlen l <=? 0) with false by lia.
  apply ob_set; [rewrite colors_len; lia|lia| |apply ob_nil]. rewrite <- flat_map_single. replace (Z.to_nat (zlen l)) with (List.length l) by (unfold zlen; lia). apply (ob_times _ _ (fun v => [color_item v])). intros v p' k' In'. apply color_obeys. rewrite Forall_forall in V. auto.
Qed.
(** Lines *)
Lemma low_len n v : zlen (low n v) = Z.of_nat n.
Proof using Type. unfold low, zlen. rewrite map_length, seq_length. reflexivity. Qed.
Lemma nibbles_len l : zlen (all_bits (nibbles l)) = 4 * zlen l.
Proof using Type. induction l as [|v l IH]; [reflexivity|]. unfold nibbles, all_bits in *. cbn [map flat_map]. rewrite zlen_app, IH, zlen_cons. unfold bits. cbn [snd]. rewrite low_len. lia. Qed.
Lemma all_bits_app l l' : all_bits (l ++ l') = all_bits l ++ all_bits l'.
Proof using Type. unfold all_bits. apply flat_map_app. Qed.
Lemma takes_nibbles l : forall r k q, takes LITTLE_ENDIAN k r q -> takes LITTLE_ENDIAN (times (pixel_field Pixel4bit) (List.length l) k) (nibbles l ++ r) q.
Proof using Type. induction l as [|v l IH]; intros r k q T; [exact T|]. cbn [List.length times nibbles map app]. apply ta_cons; [discriminate|rewrite low_len; reflexivity|]. apply IH, T. Qed.
Lemma pixels4_ask n : forall f stop a c, run read (8 * zlen data) (times (pixel_field Pixel4bit) n (PAsk c)) f stop a = run read (8 * zlen data) (times (pixel_field Pixel4bit) n (c stop (a + 4 * Z.of_nat n))) f stop a.
Proof using Type.
  induction n as [|n IH]; intros f stop a c; [replace (a + 4 * Z.of_nat 0) with a by lia; reflexivity|]. cbn [times pixel_field pixel_size run fsize]. change (0 <=? 4) with true. cbn iota. destruct (stop <? a + 4); [reflexivity|]. destruct (fval _ _ _ _); [|reflexivity]. f_equal. rewrite IH. replace (a + 4 + 4 * Z.of_nat n) with (a + 4 * Z.of_nat (S n)) by lia. reflexivity.
Qed.
Lemma dot_obeys stop p bpp c v k : pixel_class bpp = Some c -> bpp <> 4 -> 0 <= v < 2 ^ bpp -> obeys stop p (pixel_field c k) [dot_item bpp v] k.
Proof using Type.
  unfold pixel_class, dot_item. intros C N V. destruct (bpp =? 32) eqn:E32; [|destruct (bpp =? 24) eqn:E24; [|destruct (bpp =? 8) eqn:E8; [|destruct (bpp =? 4) eqn:E4; [lia|discriminate]]]]; apply (f_equal (fun o => match o with Some x => x | None => c end)) in C; subst c; cbn [pixel_field pixel_size]; unfold le.
  - replace bpp with 32 in V by lia. repeat ob.
  - replace bpp with 24 in V by lia. change (2 ^ 24) with 16777216 in V. apply ob_set; [reflexivity|lia| |apply ob_nil]. unfold RGB_fields. assert (B : forall x, 0 <= x mod 256 < 2 ^ (8 * Z.of_nat 1)) by (intros x; change (2 ^ (8 * Z.of_nat 1)) with 256; lia).
    pose proof (B v). pose proof (B (v / 256)). assert (0 <= v / 65536 < 2 ^ (8 * Z.of_nat 1)) by (change (2 ^ (8 * Z.of_nat 1)) with 256; lia). repeat ob.
  - replace bpp with 8 in V by lia. repeat ob.
Qed.
Lemma dot_len bpp v : In bpp [8; 24; 32] -> 8 * zlen (bytes_of (dot_item bpp v)) = bpp.
Proof using Type. intros [<-|[<-|[<-|[]]]]; reflexivity. Qed.
Lemma dots_len bpp l : In bpp [8; 24; 32] -> 8 * zlen (bytes_of_all (map (dot_item bpp) l)) = bpp * zlen l.
Proof using Type. intros B. induction l as [|v l IH]; [cbn; lia|]. cbn [map]. rewrite bytes_of_all_cons, zlen_app, zlen_cons. pose proof (dot_len bpp v B). lia. Qed.
Lemma some_len name x : zlen (bytes_of_all (some_bytes_item name x)) = zlen x.
Proof using Type. destruct x; [reflexivity|]. cbn [some_bytes_item]. rewrite bytes_of_all_cons, app_nil_r. reflexivity. Qed.
Lemma line_len bpp width l : In bpp [4; 8; 24; 32] -> line_ok bpp width l -> 8 * zlen (bytes_of_all (line_items bpp l)) = alignValue (width * bpp) 32.
Proof using Type.
  intros B (L & _ & _ & R & M). assert (A : alignValue (width * bpp) 32 = bpp * width + ((if odd_line bpp width then 4 else 0) + 8 * zlen (pad l))).
  { unfold alignValue. destruct (odd_line bpp width); destruct (negb _) eqn:E; pose proof (zlen_nonneg (pad l)); lia. }
  rewrite A. unfold line_items, odd_line in *. destruct (bpp =? 4) eqn:E4; cbn [andb] in *.
  - assert (bpp = 4) as -> by lia. rewrite L. pose proof (zlen_nonneg (dots l)). pose proof (zlen_nonneg (pad l)). pose proof (Zodd_mod width) as Od. unfold Zeq_bool in Od. destruct (Z.odd width).
    + rewrite bytes_of_all_cons, app_nil_r. cbn [bytes_of]. rewrite zlen_uint. assert (width mod 2 = 1) by (destruct (width mod 2 ?= 1) eqn:C; [apply Z.compare_eq, C|discriminate|discriminate]). lia.
    + rewrite bytes_of_all_cons, zlen_app, some_len. cbn [bytes_of]. rewrite zlen_uint. assert (width mod 2 <> 1) by (intros X; rewrite X in Od; discriminate). lia.
  - rewrite bytes_of_all_app, zlen_app, some_len. pose proof (dots_len bpp (dots l) ltac:(destruct B as [B|B]; [lia|exact B])). lia.
Qed.
Lemma pad_obeys stop p x : zlen x < 4 -> stop = 8 * (p + zlen x) -> obeys stop p (PAsk (fun stop a => when (negb (stop - a =? 0)) (padding (stop - a)) PRet)) (some_bytes_item "padding[]" x) PRet.
Proof using Type.
  intros L ->. apply ob_ask. replace (8 * (p + zlen x) - 8 * p) with (8 * zlen x) by lia. destruct x as [|y z] eqn:E; [apply ob_nil|]. rewrite <- E in *. assert (1 <= zlen x) by (rewrite E, zlen_cons; pose proof (zlen_nonneg z); lia). assert (Ne : x <> []) by (rewrite E; discriminate).
  replace (some_bytes_item "padding[]" x) with [I (lit "padding[]") (SBytes x)] by (rewrite E; reflexivity). clear E y z. replace (negb (8 * zlen x =? 0)) with true by lia. cbn [when]. unfold padding. replace (8 * zlen x <=? 0) with false by lia. replace (8 * zlen x mod 8 =? 0) with true by lia. replace (8 * zlen x / 8) with (zlen x) by lia.
  apply ob_plain; [split; [exact Ne|lia]|reflexivity|apply ob_nil].
Qed.
Lemma pixel_class_size bpp c : pixel_class bpp = Some c -> pixel_size c = bpp.
Proof using Type.
  unfold pixel_class. intros C. destruct (bpp =? 32) eqn:E32; [|destruct (bpp =? 24) eqn:E24; [|destruct (bpp =? 8) eqn:E8; [|destruct (bpp =? 4) eqn:E4; [|discriminate]]]]; apply (f_equal (fun o => match o with Some x => x | None => c end)) in C; subst c; cbn [pixel_size]; lia.
Qed.
Lemma pixel_class_in bpp : In bpp [4; 8; 24; 32] -> exists c, pixel_class bpp = Some c.
Proof using Type. intros [<-|[<-|[<-|[<-|[]]]]]; eexists; reflexivity. Qed.
Lemma bits_le_len x : zlen (bits_le x) = 8 * zlen x.
Proof using Type. unfold bits_le. induction x as [|y x IH]; [reflexivity|]. cbn [flat_map]. rewrite zlen_app, IH, zlen_cons. change (zlen (map (Z.testbit y) [0; 1; 2; 3; 4; 5; 6; 7])) with 8. lia. Qed.
Lemma line_obeys stop p bpp width c name l k : In bpp [4; 8; 24; 32] -> pixel_class bpp = Some c -> 1 <= width -> line_ok bpp width l -> obeys stop p (ImageLine name width c k) [ISet name (line_items bpp l)] k.
Proof using Type.
  intros B C W K. unfold ImageLine. rewrite (pixel_class_size bpp c C). pose proof (line_len bpp width l B K) as Ll. pose proof K as (L & D & Hf & R & M). assert (P : 1 <= bpp) by (destruct B as [<-|[<-|[<-|[<-|[]]]]]; lia). pose proof (zlen_nonneg (pad l)) as Zp.
  assert (0 < alignValue (width * bpp) 32) by (unfold alignValue; destruct (negb _) eqn:E; nia).
  apply ob_set; [lia|lia| |apply ob_nil]. replace (8 * p + alignValue (width * bpp) 32) with (8 * (p + zlen (bytes_of_all (line_items bpp l)))) by lia. replace (Z.to_nat width) with (List.length (dots l)) by (unfold zlen in L; lia). unfold line_items in *. destruct (bpp =? 4) eqn:E4.
  - assert (bpp = 4) as -> by lia. assert (c = Pixel4bit) as -> by (cbn in C; congruence). unfold odd_line in *. change (4 =? 4) with true in *. cbn [andb] in *. rewrite L in *. pose proof (Zodd_mod width) as Od. unfold Zeq_bool in Od. destruct (Z.odd width).
    + assert (Wm : width mod 2 = 1) by (destruct (width mod 2 ?= 1) eqn:X; [apply Z.compare_eq, X|discriminate|discriminate]).
      set (n := Z.to_nat _) in *. assert (Nn : Z.of_nat n = (4 * width + 4) / 8 + zlen (pad l)) by (unfold n; lia).
      eapply ob_same; [intros f; apply pixels4_ask|]. rewrite bytes_of_all_cons, app_nil_r. cbn [bytes_of]. rewrite zlen_uint. replace (4 * Z.of_nat (List.length (dots l))) with (4 * width) by (unfold zlen in L; lia).
      replace (8 * (p + Z.of_nat n) - (8 * p + 4 * width)) with (4 + 8 * zlen (pad l)) by lia. replace (negb (4 + 8 * zlen (pad l) =? 0)) with true by lia. cbn [when]. unfold padding. replace (4 + 8 * zlen (pad l) <=? 0) with false by lia. replace ((4 + 8 * zlen (pad l)) mod 8 =? 0) with false by lia.
      apply (ob_bits _ _ _ _ _ _ _ _ _ PRet); [discriminate|lia| | |apply ob_nil].
      * rewrite all_bits_app, zlen_app, nibbles_len. unfold all_bits. cbn [flat_map snd]. rewrite app_nil_r, zlen_app, low_len, bits_le_len. lia.
      * apply takes_nibbles. apply ta_cons; [lia|rewrite zlen_app, low_len, bits_le_len; lia|apply ta_nil].
    + assert (Wm : width mod 2 <> 1) by (intros X; rewrite X in Od; discriminate). set (n := Z.to_nat _) in *. assert (Nn : 2 * Z.of_nat n = width) by (unfold n; lia).
      apply (ob_bits _ _ _ _ _ _ _ _ _ (PAsk (fun stop a => when (negb (stop - a =? 0)) (padding (stop - a)) PRet))); [discriminate|lia|rewrite nibbles_len; lia|rewrite <- (app_nil_r (nibbles _)); apply takes_nibbles, ta_nil|].
      apply pad_obeys; [lia|]. rewrite bytes_of_all_cons, zlen_app, some_len. cbn [bytes_of]. rewrite zlen_uint. lia.
  - unfold odd_line in *. rewrite E4 in *. cbn [andb] in *. rewrite bytes_of_all_app, zlen_app in *. eapply ob_app; [|apply pad_obeys; [lia|rewrite some_len; lia]]. rewrite <- flat_map_single. apply (ob_times _ _ (fun v => [dot_item bpp v])). intros v p' k' In'. apply dot_obeys; [exact C|lia|]. rewrite Forall_forall in D. auto.
Qed.
Lemma lines_obey bpp width c ls k : In bpp [4; 8; 24; 32] -> pixel_class bpp = Some c -> 1 <= width -> Forall (line_ok bpp width) ls -> forall stop p, obeys stop p (image_lines width c (List.length ls) k) (numbered bpp ls) k.
Proof using Type.
  intros B C W. induction ls as [|l ls IH]; intros K stop p; [apply ob_nil|]. inversion K as [|? ? K1 K2]; subst. cbn [List.length image_lines numbered]. eapply (ob_app _ _ _ _ _ [_]); [apply line_obeys; eauto|apply IH, K2].
Qed.
Lemma lines_len bpp width ls : In bpp [4; 8; 24; 32] -> 1 <= width -> Forall (line_ok bpp width) ls -> zlen ls <= zlen (bytes_of_all (numbered bpp ls)).
Proof using Type.
  intros B W K. assert (P : 1 <= bpp) by (destruct B as [<-|[<-|[<-|[<-|[]]]]]; lia). induction K as [|l ls K1 K2 IH]; [cbn; lia|]. cbn [numbered]. rewrite bytes_of_all_cons, zlen_app, zlen_cons. change (bytes_of (ISet ?n ?l)) with (bytes_of_all l). pose proof (line_len bpp width l B K1) as L.
  assert (0 < alignValue (width * bpp) 32) by (unfold alignValue; destruct (negb _) eqn:E; nia). lia.
Qed.
Lemma tail_obeys stop p x : stop = 8 * (p + zlen x) -> zlen x <= 2 ^ 64 -> obeys stop p (PAsk (fun stop a => let size := (stop - a) / 8 in when (negb (size =? 0)) (fun k => emit (lit "padding") (KBytes size); k) PRet)) (some_bytes_item "padding" x) PRet.
Proof using Type.
  intros -> L. apply ob_ask. replace ((8 * (p + zlen x) - 8 * p) / 8) with (zlen x) by lia. cbv zeta. destruct x as [|y z] eqn:E; [apply ob_nil|]. rewrite <- E in *. assert (1 <= zlen x) by (rewrite E, zlen_cons; pose proof (zlen_nonneg z); lia). assert (Ne : x <> []) by (rewrite E; discriminate).
  replace (some_bytes_item "padding" x) with [I (lit "padding") (SBytes x)] by (rewrite E; reflexivity). replace (negb (zlen x =? 0)) with true by lia. cbn [when]. apply ob_plain; [split; [exact Ne|exact L]|reflexivity|apply ob_nil].
Qed.
Lemma seek_obeys stop p address x k : address = p + zlen x -> zlen x <= 2 ^ 64 -> obeys stop p (seekByte address (8 * p) k) (some_bytes_item "padding[]" x) k.
Proof using Type.
  intros -> L. unfold seekByte. replace ((p + zlen x) * 8 - 8 * p) with (8 * zlen x) by lia. pose proof (zlen_nonneg x). replace (8 * zlen x <? 0) with false by lia. destruct x as [|y z] eqn:E; [apply ob_nil|]. rewrite <- E in *. assert (1 <= zlen x) by (rewrite E, zlen_cons; pose proof (zlen_nonneg z); lia). assert (Ne : x <> []) by (rewrite E; discriminate).
  replace (some_bytes_item "padding[]" x) with [I (lit "padding[]") (SBytes x)] by (rewrite E; reflexivity). clear E y z. replace (0 <? 8 * zlen x) with true by lia. cbn [when]. unfold padding. replace (8 * zlen x <=? 0) with false by lia. replace (8 * zlen x mod 8 =? 0) with true by lia. replace (8 * zlen x / 8) with (zlen x) by lia.
  apply ob_plain; [split; [exact Ne|lia]|reflexivity|apply ob_nil].
Qed.
(** The fields of the header that are used *)
Lemma header_get h p : forall name v, In (name, v) [("width"%string, h_width h); ("height"%string, h_height h); ("bpp"%string, h_bpp h); ("compression"%string, h_compression h); ("used_colors"%string, h_used h); ("horizontal_dpi"%string, h_xdpi h); ("vertical_dpi"%string, h_ydpi h); ("important_color"%string, h_important h)] ->
  get (lit name) (shows (header_items h) p) = Some (VNum v).
Proof using Type. unfold header_items. intros name v [E|[E|[E|[E|[E|[E|[E|[E|[]]]]]]]]]; inversion E; subst; destruct (h_v4 h); reflexivity. Qed.
Lemma image_obeys stop p h size i : 0 <= size <= 2 ^ 64 -> header_ok h -> size = zlen (bytes_of_all (image_items (h_bpp h) i)) ->
  match i with
  | Lines ls tail => In (h_compression h) [0; 3] /\ In (h_bpp h) [4; 8; 24; 32] /\ 1 <= h_width h /\ 1 <= h_height h /\ zlen ls = h_height h /\ Forall (line_ok (h_bpp h) (h_width h)) ls /\ is_bytes tail
  | Packed x => x <> [] /\ (In (h_compression h) [0; 3] -> ~ In (h_bpp h) [4; 8; 24; 32])
  end -> forall q, obeys stop p (parseImageData (lit "pixels") size (shows (header_items h) q) PRet) (image_items (h_bpp h) i) PRet.
Proof using Type.
  intros S0 H Sz K q. unfold parseImageData, has_field, need. pose proof (header_get h q) as G.
  rewrite (G "width"%string (h_width h)) by (vm_compute; tauto). rewrite (G "height"%string (h_height h)) by (vm_compute; tauto). rewrite (G "bpp"%string (h_bpp h)) by (vm_compute; tauto). rewrite (G "compression"%string (h_compression h)) by (vm_compute; tauto).
  cbn iota. cbn [negb orb num]. clear G. destruct i as [ls tail|x].
  - destruct K as (C & B & W & He & L & K & T). replace ((h_compression h =? 0) || (h_compression h =? 3)) with true by (destruct C as [<-|[<-|[]]]; reflexivity). destruct (pixel_class_in _ B) as [c Pc]. rewrite Pc. pose proof (lines_len _ _ _ B W K). cbn [image_items] in *.
    rewrite bytes_of_all_cons, app_nil_r in Sz. change (bytes_of (ISet ?n ?l)) with (bytes_of_all l) in Sz. rewrite bytes_of_all_app, zlen_app, some_len in Sz. pose proof (zlen_nonneg tail).
    apply ob_set; [rewrite bytes_of_all_app, zlen_app, some_len; lia|lia| |apply ob_nil]. unfold ImagePixels_fields. replace (Z.to_nat (h_height h)) with (List.length ls) by (unfold zlen in L; lia). eapply ob_app; [apply lines_obey; eauto|]. apply tail_obeys; lia.
  - destruct K as [Ne N]. cbn [image_items] in *. rewrite bytes_of_all_cons, app_nil_r in Sz. change (bytes_of (I _ (SBytes x))) with x in Sz.
    assert (Raw : obeys stop p (emit (lit "pixels") (KBytes size); PRet) [I (lit "pixels") (SBytes x)] PRet) by (subst size; apply ob_plain; [split; [exact Ne|lia]|reflexivity|apply ob_nil]).
    destruct ((h_compression h =? 0) || (h_compression h =? 3)) eqn:Cm; [|exact Raw]. specialize (N ltac:(destruct (h_compression h =? 0) eqn:C0; [left; lia|right; left; lia])). unfold pixel_class. destruct (h_bpp h =? 32) eqn:E32; [exfalso; apply N; cbn [In]; lia|]. destruct (h_bpp h =? 24) eqn:E24; [exfalso; apply N; cbn [In]; lia|]. destruct (h_bpp h =? 8) eqn:E8; [exfalso; apply N; cbn [In]; lia|]. destruct (h_bpp h =? 4) eqn:E4; [exfalso; apply N; cbn [In]; lia|]. exact Raw.
Qed.
(** Everything before the pixels *)
Definition start_items (b : bmp) (size : Z) : list item :=
  [I (lit "signature") (SText (lit "BM")); le 4 "file_size" size; I (lit "reserved") (SBytes (b_reserved b)); le 4 "data_start" (data_start b); ISet (lit "header") (header_items (b_header b))] ++
  palette_items (b_palette b) ++ some_bytes_item "padding[]" (b_gap b).
Definition start_ok (b : bmp) : Prop :=
  let h := b_header b in
  zlen (b_reserved b) = 4 /\ header_ok h /\ data_start b < 2 ^ 32 /\
  Forall u32_ok (b_palette b) /\ zlen (b_palette b) = (if (1 <=? h_bpp h) && (h_bpp h <=? 8) then if h_used h =? 0 then 2 ^ h_bpp h else h_used h else 0).
Lemma start_len b size : zlen (b_reserved b) = 4 -> zlen (bytes_of_all (start_items b size)) = data_start b.
Proof using Type.
  intros R. unfold start_items, data_start, palette_items. rewrite !bytes_of_all_app, !zlen_app, some_len. rewrite !bytes_of_all_cons, !zlen_app. change (bytes_of (ISet ?n ?l)) with (bytes_of_all l). rewrite header_len. unfold le. cbn [bytes_of plain_bytes]. rewrite !zlen_uint, R. change (zlen (bytes_of_all [])) with 0. change (zlen (lit "BM")) with 2.
  destruct (b_palette b) as [|v l] eqn:E; [change (zlen (@nil Z)) with 0; change (zlen (bytes_of_all [])) with 0; lia|]. rewrite <- E. rewrite bytes_of_all_cons, app_nil_r. change (bytes_of (ISet ?n ?l)) with (bytes_of_all l). rewrite colors_len. lia.
Qed.
Lemma start_obeys b size stop : start_ok b -> 0 <= size < 2 ^ 32 ->
  obeys stop 0 (bmp_fields stop) (start_items b size) (parseImageData (lit "pixels") (Z.min (size - data_start b) ((stop - 8 * data_start b) / 8)) (shows (header_items (b_header b)) 14) PRet).
Proof using Type.
  intros (R & H & F & P & Np) Sz. change (2 ^ 32) with 4294967296 in *. pose proof (zlen_nonneg (b_palette b)) as Zp. pose proof (zlen_nonneg (b_gap b)) as Zg.
  assert (Hz : 40 <= header_size (b_header b) <= 108) by (unfold header_size; destruct (h_v4 _); lia). assert (Ds : 0 <= data_start b) by (unfold data_start; lia).
  unfold bmp_fields, start_items, le. cbn [app]. assert (0 <= size < 2 ^ (8 * Z.of_nat 4)) by (change (2 ^ (8 * Z.of_nat 4)) with 4294967296; lia). assert (0 <= data_start b < 2 ^ (8 * Z.of_nat 4)) by (change (2 ^ (8 * Z.of_nat 4)) with 4294967296; lia).
  apply ob_plain; [split; [discriminate|vm_compute; discriminate]|reflexivity|]. ob. apply ob_plain; [split; [intros E; rewrite E in R; discriminate|rewrite R; vm_compute; discriminate]|unfold kind_of; rewrite R; reflexivity|]. ob. cbn [plain_val num].
  apply ob_open; [rewrite header_len; lia|apply header_obeys, H|]. rewrite header_len. unfold len. cbn [bytes_of plain_bytes]. rewrite !zlen_uint, R. change (zlen (lit "BM")) with 2. set (q := 0 + 2 + Z.of_nat 4 + 4 + Z.of_nat 4). assert (q = 14) by (unfold q; lia). unfold need. rewrite (header_get _ _ "bpp"%string (h_bpp (b_header b))) by (vm_compute; tauto). cbn [num]. cbv zeta.
  eapply ob_app.
  - apply palette_obeys; [exact P|]. rewrite Np. unfold nb_color. rewrite (header_get _ _ "used_colors"%string (h_used (b_header b))) by (vm_compute; tauto). cbn [num]. rewrite Z.shiftl_1_l. replace (0 <? h_bpp (b_header b)) with (1 <=? h_bpp (b_header b)) by lia. reflexivity.
  - assert (Lp : zlen (bytes_of_all (palette_items (b_palette b))) = 4 * zlen (b_palette b)). { unfold palette_items. destruct (b_palette b) as [|v l] eqn:E; [reflexivity|]. rewrite <- E. rewrite bytes_of_all_cons, app_nil_r. apply colors_len. }
    apply ob_ask. rewrite Lp. rewrite <- (app_nil_r (some_bytes_item _ _)). eapply ob_app; [apply seek_obeys; [unfold data_start; lia|unfold data_start in *; lia]|]. apply ob_ask. rewrite some_len. replace (8 * (q + header_size (b_header b) + 4 * zlen (b_palette b) + zlen (b_gap b))) with (8 * data_start b) by (unfold data_start; lia). replace q with 14. apply ob_nil.
Qed.
Lemma bmp_start b : bmp_items b = start_items b (file_size b) ++ image_items (h_bpp (b_header b)) (b_image b).
Proof using Type. unfold bmp_items, start_items. rewrite <- !app_assoc. reflexivity. Qed.
Lemma bmp_len b : zlen (b_reserved b) = 4 -> zlen (bytes_of_all (bmp_items b)) = file_size b.
Proof using Type. intros R. rewrite bmp_start, bytes_of_all_app, zlen_app, start_len by exact R. reflexivity. Qed.
Lemma bmp_start_ok b : bmp_ok b -> start_ok b.
Proof using Type. intros (R & H & F & P & Np & _). unfold file_size in F. pose proof (zlen_nonneg (bytes_of_all (image_items (h_bpp (b_header b)) (b_image b)))). split; [exact R|]. split; [exact H|]. split; [lia|]. split; assumption. Qed.
Lemma data_start_pos b : 54 <= data_start b.
Proof using Type. unfold data_start, header_size. pose proof (zlen_nonneg (b_palette b)). pose proof (zlen_nonneg (b_gap b)). destruct (h_v4 _); lia. Qed.
Lemma file_obeys b : bmp_ok b -> file_size b <= zlen data -> obeys (8 * zlen data) 0 (bmp_fields (8 * zlen data)) (bmp_items b) PRet.
Proof using Type.
  intros K Ld. pose proof (bmp_start_ok b K) as St. destruct K as (R & H & F & _ & _ & K). pose proof (data_start_pos b). assert (Zi : 0 <= zlen (bytes_of_all (image_items (h_bpp (b_header b)) (b_image b)))) by apply zlen_nonneg. change (2 ^ 32) with 4294967296 in *.
  rewrite bmp_start. eapply ob_app; [apply start_obeys; [exact St|unfold file_size in *; change (2 ^ 32) with 4294967296; lia]|]. rewrite start_len by exact R. apply image_obeys; auto; unfold file_size in *; lia.
Qed.
(** Lines of a picture whose number of lines is more than what is there *)
Fixpoint numbered_from (bpp : Z) (n : Z) (ls : list line) : list item :=
  match ls with [] => [] | l :: ls => ISet (lit "line[" ++ dec (n - 1) ++ lit "]") (line_items bpp l) :: numbered_from bpp (n - 1) ls end.
Lemma lines_from bpp width c ls k : In bpp [4; 8; 24; 32] -> pixel_class bpp = Some c -> 1 <= width -> Forall (line_ok bpp width) ls -> forall n stop p, (List.length ls <= n)%nat -> obeys stop p (image_lines width c n k) (numbered_from bpp (Z.of_nat n) ls) (image_lines width c (n - List.length ls) k).
Proof using Type.
  intros B C W. induction ls as [|l ls IH]; intros K n stop p N; [rewrite Nat.sub_0_r; apply ob_nil|]. inversion K as [|? ? K1 K2]; subst. destruct n as [|n]; [cbn [List.length] in N; lia|]. cbn [List.length image_lines numbered_from Nat.sub] in *. replace (Z.of_nat (S n) - 1) with (Z.of_nat n) by lia. eapply (ob_app _ _ _ _ _ [_]); [apply line_obeys; eauto|apply IH; [exact K2|lia]].
Qed.
Lemma from_len bpp ls : forall n, zlen (bytes_of_all (numbered_from bpp n ls)) = zlen (bytes_of_all (numbered bpp ls)).
Proof using Type. induction ls as [|l ls IH]; intros n; [reflexivity|]. cbn [numbered_from numbered]. rewrite !bytes_of_all_cons, !zlen_app, IH. reflexivity. Qed.
Lemma from_bytes bpp ls : forall n, bytes_of_all (numbered_from bpp n ls) = bytes_of_all (numbered bpp ls).
Proof using Type. induction ls as [|l ls IH]; intros n; [reflexivity|]. cbn [numbered_from numbered]. rewrite !bytes_of_all_cons, IH. reflexivity. Qed.
End Read.

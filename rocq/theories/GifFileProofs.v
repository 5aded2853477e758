(** What the parser of GIF pictures does on the files of the format. *)
From Coq Require Import String.
From Verif Require Import Base BaseProofs BitsModel BitsSpec BitsProofs StreamModel StreamSpec StreamProofs StreamProofs2 DictModel DictProofs FieldModel ToolsModel NumSpec NumRead ChunkBase GenModel GenSpec GenProofs ItemSpec ItemProofs ItemProofs2 ZipSpec ZipProofs GifFileModel GifFileSpec Lit.
Open Scope Z_scope.
Ltac Zify.zify_post_hook ::= Z.div_mod_to_equations.

Section Read.
Context (read : read_fun) (data : list Z) (Hs : serves read data) (Hb : is_bytes data).
Notation obeys := (obeys read data).
(** Loops without a condition *)
Lemma ob_forever {S A} (inv : S -> Prop) (it : A -> list item) last body stop q ds :
  (forall s d p k, In d ds -> inv s -> exists s', inv s' /\ obeys stop p (body s k) (it d) (k s')) -> (forall s p k, inv s -> obeys stop p (body s k) last q) ->
  forall s n p, inv s -> (List.length ds < n)%nat -> obeys stop p (forever body n s) (flat_map it ds ++ last) q.
Proof using Type.
  induction ds as [|d ds IH]; intros T L s n p Is N; (destruct n as [|n]; [cbn [List.length] in N; lia|]); cbn [forever flat_map app List.length] in *; apply ob_ask; [apply L, Is|].
  destruct (T s d p (forever body n) (or_introl eq_refl) Is) as (s' & Is' & H). rewrite <- app_assoc. eapply ob_app; [exact H|]. apply IH; auto; [|lia]. intros; apply T; auto. right. assumption.
Qed.
Lemma items_len {A} (it : A -> list item) ds : (forall d, In d ds -> 1 <= zlen (bytes_of_all (it d))) -> Z.of_nat (List.length ds) <= zlen (bytes_of_all (flat_map it ds)).
Proof using Type.
  induction ds as [|d ds IH]; intros H; [cbn; lia|]. cbn [flat_map List.length]. rewrite bytes_of_all_app, zlen_app. pose proof (H d (or_introl eq_refl)). specialize (IH (fun d I => H d (or_intror I))). lia.
Qed.
Lemma ob_endless {S A} (inv : S -> Prop) (it : A -> list item) last body stop p q ds s : inv s -> (forall d, In d ds -> 1 <= zlen (bytes_of_all (it d))) ->
  (forall s d p k, In d ds -> inv s -> exists s', inv s' /\ obeys stop p (body s k) (it d) (k s')) -> (forall s p k, inv s -> obeys stop p (body s k) last q) ->
  obeys stop p (endless body s) (flat_map it ds ++ last) q.
Proof using Type.
  intros Is Ne T L F. unfold endless. pose proof F as [O St]. revert F. apply ob_ask. apply (ob_forever inv); auto. rewrite bytes_of_all_app, zlen_app in St. pose proof (items_len it ds Ne). pose proof (zlen_nonneg (bytes_of_all last)). lia.
Qed.
Lemma ob_look_byte stop p v l q c y : byte_ok v -> bytes_of_all l = uint LITTLE_ENDIAN 1 v ++ y -> obeys stop p (c (VNum v)) l q -> forall st, obeys stop p (peek 0 (KNum 8 LE) st c) l q.
Proof using Hs Hb. intros V E H st. apply (ob_peek read data Hs Hb stop p 0 (SNum 1 LITTLE_ENDIAN v) st c l q (KNum 8 LE) 0 [] y E eq_refl); [split; [discriminate|split; [lia|exact V]]|reflexivity|reflexivity|exact H]. Qed.
Lemma color_obeys stop p c k : rgb_ok c -> obeys stop p (PSet (lit "color[]") (Some 24) RGB_fields (fun _ => k)) [rgb_item c] k.
Proof using Type. destruct c as [[r g] b]. intros (R & G & B). unfold byte_ok in *. apply ob_set; [reflexivity|lia| |apply ob_nil]. unfold RGB_fields, le. repeat ob. Qed.
Lemma colors_len l : zlen (bytes_of_all (map rgb_item l)) = 3 * zlen l.
Proof using Type. induction l as [|[[r g] b] l IH]; [reflexivity|]. cbn [map]. rewrite bytes_of_all_cons, zlen_app, IH, zlen_cons. change (zlen (bytes_of (rgb_item (r, g, b)))) with 3. lia. Qed.
Lemma map_obeys stop p name has size l k : map_ok has size l -> 0 <= size -> obeys stop p (when (negb (has =? 0)) (Palette (lit name) 24 RGB_fields (2 ^ (size + 1))) k) (map_items name l) k.
Proof using Type.
  intros [C N] S0. unfold map_items. destruct (has =? 0); cbn [negb when]; [destruct l; [apply ob_nil|rewrite zlen_cons in N; pose proof (zlen_nonneg l); lia]|]. assert (1 <= 2 ^ (size + 1)) by (apply (Z.pow_le_mono_r 2 0); lia). rewrite <- N in *. clear N size S0.
  destruct l as [|v0 l0] eqn:E; [cbn in *; lia|]. rewrite <- E in *. clear E v0 l0. unfold Palette. replace (zlen l <=? 0) with false by lia. apply ob_set; [rewrite colors_len; lia|lia| |apply ob_nil]. rewrite <- flat_map_single. replace (Z.to_nat (zlen l)) with (List.length l) by (unfold zlen; lia).
  apply (ob_times _ _ (fun v => [rgb_item v])). intros v p' k' In'. apply color_obeys. rewrite Forall_forall in C. auto.
Qed.
Lemma screen_obeys stop p s : screen_ok s -> obeys stop p Screen_fields (screen_items s) PRet.
Proof using Hs Hb.
  intros (W & H & S1 & S2 & S3 & S4 & B & A). unfold byte_ok, short_ok in *. unfold Screen_fields, screen_items, u16, u8, le. repeat ob. apply (ob_bits _ _ _ _ _ _ _ _ _ (u8 "background" (look aspect := 0 (KNum 8 LE) false; u8 "pixel_aspect_ratio" PRet))); [discriminate|lia|reflexivity|unfold bits; repeat (apply ta_cons; [lia|reflexivity|]); apply ta_nil|].
  unfold u8. ob. eapply (ob_look_byte _ _ (s_aspect s)); [exact A|unfold bytes_of_all; cbn [flat_map bytes_of plain_bytes]; reflexivity|]. repeat ob.
Qed.
Lemma blocks_obey stop p l : Forall block_ok l -> obeys stop p (endless image_block tt) (flat_map (fun x => [le 1 "image_block_size[]" (zlen x); ISet (lit "image_block[]") [I (lit "rawdata") (SBytes x)]]) l ++ [zero "terminator"]) PRet.
Proof using Hs Hb.
  intros L. rewrite Forall_forall in L. apply (ob_endless (fun _ => True)); [exact Logic.I| | |].
  - intros x _. unfold le, bytes_of_all. cbn [flat_map bytes_of plain_bytes]. rewrite zlen_app, zlen_uint. match goal with |- _ <= _ + zlen ?y => pose proof (zlen_nonneg y) end. lia.
  - intros s x p' k In' _. exists tt. split; [exact Logic.I|]. pose proof (L x In') as [L1 L2]. unfold image_block. eapply (ob_look_byte _ _ (zlen x)); [unfold byte_ok; lia|unfold le, bytes_of_all; cbn [flat_map bytes_of plain_bytes]; reflexivity|]. cbn [num]. replace (zlen x =? 0) with false by lia. unfold u8, le. ob.
    apply ob_set; [unfold bytes_of_all; cbn [flat_map bytes_of plain_bytes]; rewrite !app_nil_r; lia|lia| |apply ob_nil]. replace (zlen x * 8 / 8) with (zlen x) by lia. apply ob_plain; [split; [intros ->; cbn in L1; lia|change (2 ^ 8) with 256 in L2; change (2 ^ 64) with 18446744073709551616; lia]|reflexivity|apply ob_nil].
  - intros s p' k _. unfold image_block. eapply (ob_look_byte _ _ 0); [unfold byte_ok; lia|reflexivity|]. cbn [num]. change (0 =? 0) with true. cbn iota. unfold terminator, zero. apply ob_plain; [split; [discriminate|vm_compute; discriminate]|reflexivity|apply ob_nil].
Qed.
Lemma image_obeys stop p i : image_ok i -> obeys stop p Image_fields (image_items i) PRet.
Proof using Hs Hb.
  intros (X & Y & W & H & S1 & S2 & S3 & S4 & S5 & M & C & B). unfold Image_fields, image_items, u16. unfold short_ok in *. cbn [app]. unfold le at 1 2 3 4. do 4 ob. eapply ob_bits; [discriminate|lia|reflexivity| |].
  - unfold bits. repeat (apply ta_cons; [lia|reflexivity|]). apply ta_nil.
  - cbn [num]. rewrite !val_of_low by (unfold u; cbn; lia). rewrite Z.shiftl_1_l, (Z.add_comm 1). eapply ob_app; [apply map_obeys; [exact M|lia]|]. unfold u8, le at 1. unfold byte_ok in C. cbn [app]. ob. apply blocks_obey, B.
Qed.
Lemma comments_obey stop p l : Forall block_ok l -> obeys stop p (endless comment_block tt) (comment_items l) PRet.
Proof using Hs Hb.
  intros L. rewrite Forall_forall in L. apply (ob_endless (fun _ => True)); [exact Logic.I| | |].
  - intros x _. unfold bytes_of_all. cbn [flat_map bytes_of plain_bytes]. rewrite app_nil_r, zlen_app, zlen_uint. pose proof (zlen_nonneg x). lia.
  - intros s x p' k In' _. exists tt. split; [exact Logic.I|]. pose proof (L x In') as [L1 L2]. unfold comment_block. apply ob_plain; [split; [lia|exact L2]|reflexivity|]. cbn [plain_val bytes]. replace (zlen x =? 0) with false by lia. apply ob_nil.
  - intros s p' k _. unfold comment_block. apply ob_plain; [split; [lia|cbn; lia]|reflexivity|]. cbn [plain_val bytes]. apply ob_nil.
Qed.
Lemma others_obey stop p l : Forall block_ok l -> obeys stop p (endless other_block tt) (flat_map (fun x => [le 1 "size[]" (zlen x); I (lit "content[]") (SBytes x)]) l ++ [le 1 "size[]" 0]) PRet.
Proof using Type.
  intros L. rewrite Forall_forall in L. apply (ob_endless (fun _ => True)); [exact Logic.I| | |].
  - intros x _. unfold le, bytes_of_all. cbn [flat_map bytes_of plain_bytes]. rewrite zlen_app, zlen_uint. match goal with |- _ <= _ + zlen ?y => pose proof (zlen_nonneg y) end. lia.
  - intros s x p' k In' _. exists tt. split; [exact Logic.I|]. pose proof (L x In') as [L1 L2]. unfold other_block, le. apply ob_plain; [split; [discriminate|split; [lia|change (2 ^ (8 * Z.of_nat 1)) with (2 ^ 8); lia]]|reflexivity|]. cbn [plain_val num]. replace (0 <? zlen x) with true by lia. apply ob_plain; [split; [intros ->; cbn in L1; lia|change (2 ^ 8) with 256 in L2; change (2 ^ 64) with 18446744073709551616; lia]|reflexivity|apply ob_nil].
  - intros s p' k _. unfold other_block, le. ob. apply ob_nil.
Qed.
Lemma app_items_ne name x : 1 <= zlen (bytes_of_all (app_items name x)).
Proof using Type.
  unfold app_items. rewrite bytes_of_all_app, zlen_app. unfold le at 1, bytes_of_all at 1. cbn [flat_map bytes_of plain_bytes]. rewrite app_nil_r, zlen_uint. match goal with |- _ <= _ + zlen ?y => pose proof (zlen_nonneg y) end. lia.
Qed.
Lemma uint1 v : 0 <= v < 256 -> uint LITTLE_ENDIAN 1 v = [v].
Proof using Type. intros V. unfold uint. cbn. f_equal. lia. Qed.
Lemma raw_obeys stop p x k : block_ok x -> obeys stop p (emit (lit "raw[]") (KBytes (zlen x)); k) [I (lit "raw[]") (SBytes x)] k.
Proof using Type. intros [L1 L2]. apply ob_plain; [split; [intros ->; cbn in L1; lia|change (2 ^ 8) with 256 in L2; change (2 ^ 64) with 18446744073709551616; lia]|reflexivity|apply ob_nil]. Qed.
Lemma apps_obey stop p name l : Forall block_ok l -> Forall is_bytes l -> codes_agree name l -> obeys stop p (endless (app_block name) None) (flat_map (app_items name) l ++ [zero "terminator"]) PRet.
Proof using Hs Hb.
  intros L Lb A. rewrite Forall_forall in L, Lb. unfold codes_agree, netscape in A.
  apply (ob_endless (fun s => match s with None => True | Some c => name = lit "NETSCAPE2.0" /\ exists x, In x l /\ zlen x = 3 /\ hd 0 x = c end)); [exact Logic.I|intros; apply app_items_ne| |].
  - intros s x p' k In' Is. pose proof (L x In') as Lx. pose proof Lx as [L1 L2]. pose proof (Lb x In') as Bx. unfold app_block.
    assert (Raw : app_items name x = [le 1 "size[]" (zlen x); I (lit "raw[]") (SBytes x)] -> (str_eqb name (lit "NETSCAPE2.0") && (zlen x =? 3)) = false -> exists s', match s' with None => True | Some c => name = lit "NETSCAPE2.0" /\ exists x, In x l /\ zlen x = 3 /\ hd 0 x = c end /\
      obeys stop p' (look size := 0 (KNum 8 LE) false; if num size =? 0 then terminator else u8 "size[]" (if str_eqb name (lit "NETSCAPE2.0") && (num size =? 3) then have c := (lit "netscape_code") (KNum 8 LE); let code := match s with Some c => c | None => num c end in if code =? 1 then u16 "loop_count" (k (Some code)) else emit (lit "raw[]") (KBytes 2); k (Some code) else emit (lit "raw[]") (KBytes (num size)); k s)) (app_items name x) (k s')).
    { intros E F. exists s. split; [exact Is|]. rewrite E. eapply (ob_look_byte _ _ (zlen x)); [unfold byte_ok; lia|unfold le, bytes_of_all; cbn [flat_map bytes_of plain_bytes]; reflexivity|]. cbn [num]. replace (zlen x =? 0) with false by lia. unfold u8, le. ob. rewrite F. apply raw_obeys, Lx. }
    destruct (str_eqb name (lit "NETSCAPE2.0")) eqn:N; [|apply Raw; [unfold app_items, netscape; rewrite N; destruct x as [|c [|a [|b [|]]]]; reflexivity|reflexivity]].
    destruct (zlen x =? 3) eqn:Z3; [|apply Raw; [|reflexivity]; unfold app_items; destruct x as [|c [|a [|b [|]]]]; try reflexivity; discriminate Z3]. clear Raw.
    destruct x as [|c [|a [|b [|]]]]; try (rewrite ?zlen_cons in Z3; cbn in Z3; discriminate Z3). 2:{ rewrite !zlen_cons in Z3. match goal with H : (1 + (1 + (1 + (1 + zlen ?y))) =? 3) = true |- _ => pose proof (zlen_nonneg y) end. lia. }
    apply str_eqb_eq in N. assert (Bc : 0 <= c < 256 /\ 0 <= a < 256 /\ 0 <= b < 256) by (inversion Bx as [|? ? B1 Bx']; subst; inversion Bx' as [|? ? B2 Bx'']; subst; inversion Bx'' as [|? ? B3 _]; subst; unfold is_byte in *; lia).
    exists (Some c). split; [split; [exact N|]; exists [c; a; b]; auto|].
    unfold app_items, netscape. rewrite (proj2 (str_eqb_eq name _) N). change (zlen [c; a; b]) with 3. eapply (ob_look_byte _ _ 3); [unfold byte_ok; lia|unfold le, bytes_of_all; cbn [app flat_map bytes_of plain_bytes]; reflexivity|]. cbn [num]. change (3 =? 0) with false. change (true && (3 =? 3)) with true. cbn iota. unfold u8, le. cbn [app]. ob. ob. cbv zeta. cbn [num plain_val].
    assert (Ec : match s with Some c0 => c0 | None => c end = c). { destruct s as [c0|]; [|reflexivity]. destruct Is as (_ & y & Iy & Ly & <-). apply (A N y [c; a; b]); auto. } rewrite Ec. destruct (c =? 1); unfold u16; [ob; apply ob_nil|]. apply (raw_obeys _ _ [a; b]). vm_compute. split; [discriminate|reflexivity].
  - intros s p' k _. unfold app_block. eapply (ob_look_byte _ _ 0); [unfold byte_ok; lia|reflexivity|]. cbn [num]. change (0 =? 0) with true. cbn iota. unfold terminator, zero. apply ob_plain; [split; [discriminate|vm_compute; discriminate]|reflexivity|apply ob_nil].
Qed.
Lemma ext_shape stop p name code body k l : byte_ok code -> ext_code code = (name, body) -> obeys stop (p + 1) body l PRet -> obeys stop p (Extension k) [ISet (lit name) (le 1 "code" code :: l)] k.
Proof using Hs Hb.
  intros C E H. unfold Extension. eapply (ob_look_byte _ _ code); [exact C|unfold le, bytes_of_all; cbn [flat_map bytes_of plain_bytes]; rewrite <- app_assoc; reflexivity|]. cbn [num]. rewrite E. cbn [fst snd]. apply ob_open; [unfold le; rewrite bytes_of_all_cons, zlen_app; cbn [bytes_of plain_bytes]; rewrite zlen_uint; match goal with |- _ < _ + zlen ?y => pose proof (zlen_nonneg y) end; lia| |apply ob_nil].
  unfold u8, le. unfold byte_ok in C. ob. exact H.
Qed.
Lemma extension_obeys stop p e k : extension_ok e -> obeys stop p (Extension k) [extension_item e] k.
Proof using Hs Hb.
  destruct e as [t u d r delay i|l|name l|b x y w h cw ch fg bg l|code l]; cbn [extension_ok extension_item]; unfold short_ok, byte_ok.
  - intros (T & U & D & R & De & Ix). eapply ext_shape; [unfold byte_ok; lia|reflexivity|]. unfold parseGraphicControl, le. ob. eapply ob_bits; [discriminate|lia|reflexivity| |].
    + unfold bits. repeat (apply ta_cons; [lia|reflexivity|]). apply ta_nil.
    + cbn [num]. change (negb (4 =? 4)) with false. cbn iota. unfold u16, u8, terminator, zero. ob. ob. apply ob_plain; [split; [discriminate|vm_compute; discriminate]|reflexivity|apply ob_nil].
  - intros L. eapply ext_shape; [unfold byte_ok; lia|reflexivity|]. apply comments_obey, L.
  - intros (N & L & Lb & A). cbn [app]. eapply ext_shape; [unfold byte_ok; lia|reflexivity|]. unfold parseApplicationExtension. apply ob_plain; [split; [lia|change (8 * Z.of_nat 1) with 8; lia]|reflexivity|]. cbn [plain_val bytes]. apply apps_obey; assumption.
  - intros (B & X & Y & W & H & C1 & C2 & F1 & F2 & L). cbn [app]. eapply ext_shape; [unfold byte_ok; lia|reflexivity|]. unfold parseTextExtension, u8, u16, le. do 9 ob. apply comments_obey, L.
  - intros (C & N & L). cbn [app]. cbn [In] in N. eapply ext_shape; [exact C| |apply others_obey, L]. unfold ext_code. replace (code =? 0xf9) with false by lia. replace (code =? 0xfe) with false by lia. replace (code =? 0xff) with false by lia. replace (code =? 0x01) with false by lia. reflexivity.
Qed.
Lemma image_ne i : 1 <= zlen (bytes_of_all (image_items i)).
Proof using Type. unfold image_items. rewrite bytes_of_all_app, zlen_app. unfold le at 1 2 3 4. cbn [bytes_of_all]. unfold bytes_of_all at 1. cbn [flat_map bytes_of plain_bytes]. rewrite !zlen_app, !zlen_uint. repeat match goal with |- context [zlen ?y] => pose proof (zlen_nonneg y); generalize dependent (zlen y); intros end. lia. Qed.
Lemma parts_obey stop p l : Forall part_ok l -> obeys stop p (endless gif_block tt) (flat_map part_items l ++ [le 1 "separator[]" 59]) PRet.
Proof using Hs Hb.
  intros L. rewrite Forall_forall in L. apply (ob_endless (fun _ => True)); [exact Logic.I| | |].
  - intros x _. destruct x; cbn [part_items]; unfold le; rewrite bytes_of_all_cons, zlen_app; cbn [bytes_of plain_bytes]; rewrite zlen_uint; match goal with |- _ <= _ + zlen ?y => pose proof (zlen_nonneg y) end; lia.
  - intros s x p' k In' _. exists tt. split; [exact Logic.I|]. pose proof (L x In') as K. unfold gif_block, le. destruct x as [e|i]; cbn [part_items part_ok] in *; unfold le.
    + ob. apply extension_obeys, K.
    + ob. apply ob_open; [pose proof (image_ne i); lia|apply image_obeys, K|apply ob_nil].
  - intros s p' k _. unfold gif_block, le. ob. apply ob_nil.
Qed.
Lemma screen_len s : zlen (bytes_of_all (screen_items s)) = 7.
Proof using Type. unfold screen_items, le, bytes_of_all. cbn [flat_map bytes_of plain_bytes]. rewrite !zlen_app, !zlen_uint. reflexivity. Qed.
Lemma screen_get s p : screen_ok s -> GenModel.get (lit "width") (shows (screen_items s) p) = Some (VNum (s_width s)) /\ GenModel.get (lit "height") (shows (screen_items s) p) = Some (VNum (s_height s)) /\ GenModel.get (lit "global_map") (shows (screen_items s) p) = Some (VNum (s_map s)) /\ GenModel.get (lit "size_global_map") (shows (screen_items s) p) = Some (VNum (s_size s)).
Proof using Type.
  intros (W & H & S1 & S2 & S3 & S4 & B & A). split; [reflexivity|]. split; [reflexivity|]. split.
  - transitivity (Some (VNum (val_of LITTLE_ENDIAN (low 1 (s_map s))))); [reflexivity|]. rewrite val_of_low by (unfold u; cbn; lia). reflexivity.
  - transitivity (Some (VNum (val_of LITTLE_ENDIAN (low 3 (s_size s))))); [reflexivity|]. rewrite val_of_low by (unfold u; cbn; lia). reflexivity.
Qed.
Lemma gif_obeys stop p g : gif_ok g -> obeys stop p gif_fields (gif_items g) PRet.
Proof using Hs Hb.
  intros (V & S & M & P). unfold gif_fields, gif_items. cbn [app]. apply ob_plain; [split; [discriminate|vm_compute; discriminate]|reflexivity|]. apply ob_plain; [split; [intros E; rewrite E in V; discriminate V|rewrite V; vm_compute; discriminate]|rewrite <- V; reflexivity|].
  apply ob_open; [rewrite screen_len; lia|apply screen_obeys, S|]. unfold need. destruct (screen_get (g_screen g) (p + len (I (lit "magic") (SText (lit "GIF"))) + len (I (lit "version") (SText (g_version g)))) S) as (_ & _ & G1 & G2). rewrite G1, G2. cbn [num]. rewrite Z.shiftl_1_l. eapply ob_app; [apply map_obeys; [exact M|apply S]|]. apply parts_obey, P.
Qed.
End Read.

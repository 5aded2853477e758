(** C81: what the parser of GIF pictures shows, and the metadata taken from them. *)
From Coq Require Import String.
From Verif Require Import Base BaseProofs BitsModel BitsSpec BitsProofs StreamModel StreamSpec StreamProofs StreamProofs2 DictModel DictProofs FieldModel FieldNames ToolsModel NumSpec NumRead ChunkBase GenModel GenSpec GenProofs ItemSpec ItemProofs ItemProofs2 ZipSpec ZipProofs ExtractModel ExtractProofs BmpModel GifFileModel GifFileSpec GifFileProofs PropertiesBmp Lit.
From Verif Require MetaModel HumanModel.
Open Scope Z_scope.
Ltac Zify.zify_post_hook ::= Z.div_mod_to_equations.

(** For every picture, whatever follows it in the file: its screen, its colors, its extensions and its images, up to the separator ";". *)
Theorem C81_file : forall read g rest, let data := bytes_of_all (gif_items g) ++ rest in serves read data -> is_bytes data -> gif_ok g ->
  GifFile read (8 * zlen data) = (shows (gif_items g) 0, None, 8 * zlen (bytes_of_all (gif_items g))).
Proof. intros read g rest data Hs Hb K. unfold GifFile. apply (obey_all read data Hs Hb); [|apply (occ_pre [])]. apply gif_obeys; auto. Qed.
Print Assumptions C81_file.
(** Every file: the fields follow each other from the start and end inside the file, and the loops end. *)
Section Ends.
Context (read : read_fun) (data : list Z) (Hs : serves read data) (Hb : is_bytes data) (He : ends read data) (Hd : data <> []).
Notation safe := (safe read data).
Lemma safe_forever {S} (body : S -> (S -> prog) -> prog) : (forall s m k, (forall s, safe (m - 1) (k s)) -> safe m (body s k)) -> forall n s m, m < Z.of_nat n -> safe m (forever body n s).
Proof using Type.
  intros B. induction n as [|n IH]; intros s m M f stop a A L; [lia|]. cbn [forever GenModel.run]. apply (B s (stop - a)); [|lia|lia]. intros s'. apply IH. lia.
Qed.
Lemma safe_endless {S} (body : S -> (S -> prog) -> prog) : (forall s m k, (forall s, safe (m - 1) (k s)) -> safe m (body s k)) -> forall s m, safe m (endless body s).
Proof using Type. intros B s m. unfold endless. apply safe_ask. intros stop a A M. apply safe_forever; [exact B|lia]. Qed.
Lemma rgb_palette_safe name size n k : (forall m, safe m k) -> forall m, safe m (Palette name size RGB_fields n k).
Proof using All.
  intros K m. unfold Palette. destruct (n <=? 0); [apply safe_err; discriminate|]. apply safe_set; [|intros _; apply K]. apply times_safe; [|intros; apply safe_ret]. intros k' K' m'. apply safe_set; [unfold RGB_fields; repeat calm_step|intros _; apply K'].
Qed.
Lemma safe_bytes m name n c : (forall v, safe (m - 1) (c v)) -> safe m (PFld name (KBytes n) c).
Proof using All.
  intros H. destruct (n <=? 0) eqn:N; [|apply safe_fld; try assumption; [exact Logic.I|]; intros v; apply (safe_more read data) with (1 := H v); cbn [least]; lia]. intros f stop a A M. cbn [GenModel.run fsize].
  replace (0 <? n) with false by lia. cbn [andb]. apply settled_none. discriminate.
Qed.
Ltac peeked v := apply safe_peek; try assumption; [first [exact Logic.I|split; [lia|discriminate]]|lia|intros v].
Ltac more K := apply (safe_more read data) with (1 := K); cbn [least]; lia.
Lemma image_safe m : safe m Image_fields.
Proof using All.
  unfold Image_fields, u16, u8. do 9 calm_step. assert (R : forall m, safe m (emit (lit "lzw_min_code_size") (KNum 8 LE); endless image_block tt)).
  { intros m'. calm_step. apply safe_endless. intros s m'' k K. unfold image_block, terminator, u8. peeked v'. destruct (num v' =? 0); [repeat calm_step|]. calm_step. apply safe_set; [repeat calm_step|]. intros l. more (K tt). }
  destruct (negb _); cbn [when]; [apply rgb_palette_safe, R|apply R].
Qed.
Lemma comments_safe m : safe m (endless comment_block tt).
Proof using All. apply safe_endless. intros s m' k K. unfold comment_block. calm_step. destruct (_ =? 0); [apply safe_ret|]. more (K tt). Qed.
Lemma extension_safe code m : safe m (snd (ext_code code)).
Proof using All.
  unfold ext_code. repeat match goal with |- context [if ?b then _ else _] => destruct b end; cbn [snd].
  - unfold parseGraphicControl, u16, u8, terminator. do 5 calm_step. destruct (negb _); repeat calm_step.
  - apply comments_safe.
  - unfold parseApplicationExtension. calm_step. apply safe_endless. intros s m' k K. unfold app_block, u8, u16, terminator. peeked w. destruct (num w =? 0); [repeat calm_step|]. calm_step. destruct (_ && _); [|apply safe_bytes; intros ?; more (K s)]. calm_step. cbv zeta. set (c := match s with Some c => c | None => _ end). destruct (c =? 1); calm_step; more (K (Some c)).
  - unfold parseTextExtension, u8, u16. do 9 calm_step. apply comments_safe.
  - apply safe_endless. intros s m' k K. unfold other_block. calm_step. destruct (0 <? _); [|apply safe_ret]. apply safe_bytes; intros ?; more (K tt).
Qed.
End Ends.
Theorem C81_any : forall read data, serves read data -> ends read data -> is_bytes data -> data <> [] ->
  let '(l, e, b) := GifFile read (8 * zlen data) in tiled 0 l b /\ b <= 8 * zlen data /\ settled_file (l, e, b).
Proof.
  intros read data Hs He Hb Hd. apply (any_file read data Hs Hb He Hd). unfold gif_fields. do 2 calm_step. apply safe_open; auto.
  - unfold Screen_fields, u16, u8. do 7 calm_step. apply safe_peek; auto; [split; [lia|discriminate]|lia|]. intros ?. repeat calm_step.
  - intros h. unfold need. do 2 (destruct (GenModel.get _ _); [|apply safe_err; discriminate]).
    assert (L : forall m, safe read data m (endless gif_block tt)).
    { intros m. apply safe_endless. intros s m' k K. unfold gif_block, Extension, u8. calm_step. destruct (_ =? 33); [|destruct (_ =? 44); [|destruct (_ =? 59); [apply safe_ret|apply safe_err; discriminate]]].
      - apply safe_peek; auto; [split; [lia|discriminate]|lia|]. intros v'. apply safe_open; auto; [calm_step; apply extension_safe; auto|]. intros ?. apply (safe_more read data) with (1 := K tt). cbn [least]. lia.
      - apply safe_open; auto; [apply image_safe; auto|]. intros ?. apply (safe_more read data) with (1 := K tt). cbn [least]. lia. }
    destruct (negb _); cbn [when]; [apply rgb_palette_safe; auto|apply L].
Qed.
Print Assumptions C81_any.
Lemma screen_group g : exists p, group (lit "screen") (shows (gif_items g) 0) = Some (shows (screen_items (g_screen g)) p).
Proof. unfold gif_items. cbn [app shows]. rewrite show_set. eexists. reflexivity. Qed.
(** A picture is accepted when its version is 87a or 89a and its screen has 1 to 6000 columns and lines. *)
Theorem C81_valid : forall read g rest, let data := bytes_of_all (gif_items g) ++ rest in serves read data -> is_bytes data -> gif_ok g ->
  let s := g_screen g in
  gif_validate read (8 * zlen data) = Ok ((str_eqb (g_version g) (lit "87a") || str_eqb (g_version g) (lit "89a")) && (1 <=? s_width s) && (s_width s <=? 6000) && (1 <=? s_height s) && (s_height s <=? 6000)).
Proof.
  intros read g rest data Hs Hb K s. assert (V : zlen (g_version g) = 3) by apply K. assert (Sk : screen_ok s) by apply K. unfold gif_validate. unfold data at 1. rewrite C81_file by assumption. cbn [fst].
  assert (O : occurs_at (lit "GIF" ++ g_version g) data 0). { unfold data, gif_items. cbn [app]. rewrite !bytes_of_all_cons. cbn [bytes_of plain_bytes]. rewrite app_assoc, <- app_assoc. apply (occ_pre []). }
  pose proof (rb_occ read data Hs 0 _ O ltac:(discriminate)) as R1. change (8 * 0) with 0 in R1. rewrite zlen_app, V in R1. change (zlen (lit "GIF") + 3) with 6 in R1. rewrite R1. cbn [bind].
  assert (X : forall t, str_eqb (lit "GIF" ++ g_version g) (lit "GIF" ++ t) = str_eqb (g_version g) t) by (intros t; reflexivity). change (lit "GIF87a") with (lit "GIF" ++ lit "87a"). change (lit "GIF89a") with (lit "GIF" ++ lit "89a"). rewrite !X. destruct (_ || _); [|reflexivity]. cbn [negb andb].
  destruct (screen_group g) as [p E]. rewrite E. destruct (screen_get (g_screen g) p Sk) as (-> & -> & _). cbn [num]. f_equal. fold s. destruct Sk as ((W0 & _) & (H0 & _) & _). destruct (s_width s =? 0) eqn:A, (s_height s =? 0) eqn:B, (6000 <? s_width s) eqn:C, (6000 <? s_height s) eqn:D; cbn [negb andb orb]; lia.
Qed.
Print Assumptions C81_valid.
(** The data given to the decoder of an image are its blocks, one after the other. *)
Lemma stream_app a b : image_stream (a ++ b) = image_stream a ++ image_stream b.
Proof. unfold image_stream. apply flat_map_app. Qed.
Theorem C81_stream : forall i p, image_stream (shows (image_items i) p) = concat (i_blocks i).
Proof.
  intros i p. unfold image_items. rewrite !shows_app, !stream_app. set (p1 := p + _). set (p2 := p1 + _). set (p3 := p2 + _). set (p4 := p3 + _). transitivity ([] ++ [] ++ [] ++ concat (i_blocks i) ++ []); [|rewrite app_nil_r; reflexivity]. f_equal. f_equal.
  - unfold map_items. destruct (i_colors i); reflexivity.
  - f_equal. f_equal. clear p4. clearbody p3. revert p3. induction (i_blocks i) as [|x l IH]; intros p3; [reflexivity|]. cbn [flat_map concat]. rewrite shows_app, stream_app, IH. f_equal. unfold le. cbn [shows app]. rewrite show_set. cbn [image_stream flat_map app]. cbn [str_eqb]. cbn. rewrite !app_nil_r. reflexivity.
Qed.
Print Assumptions C81_stream.
(** ** The size of the content *)
(** The place where the first image ends *)
Definition start_bytes (g : gif) : Z := zlen (bytes_of_all ([I (lit "magic") (SText (lit "GIF")); I (lit "version") (SText (g_version g)); ISet (lit "screen") (screen_items (g_screen g))] ++ map_items "color_map" (g_colors g))).
Lemma first_app name a b : first_of name (a ++ b) = match first_of name a with Some f => Some f | None => first_of name b end.
Proof. induction a as [|f a IH]; [reflexivity|]. cbn [app first_of]. destruct (str_eqb _ _); [reflexivity|exact IH]. Qed.
Lemma no_image l : forall p, first_of (lit "image[]") (shows (flat_map part_items (map Ext l)) p) = None.
Proof.
  induction l as [|e l IH]; intros p; [reflexivity|]. cbn [map flat_map]. rewrite shows_app, first_app, IH. destruct e; cbn [part_items extension_item]; unfold le at 1; cbn [shows app]; rewrite show_set; reflexivity.
Qed.
Lemma first_image g pre i post : g_parts g = map Ext pre ++ Img i :: post -> let q := start_bytes g + zlen (bytes_of_all (flat_map part_items (map Ext pre))) + 1 in
  exists k, first_of (lit "image[]") (shows (gif_items g) 0) = Some (G (lit "image[]") (8 * q) (8 * zlen (bytes_of_all (image_items i))) k None).
Proof.
  intros E q. unfold gif_items. rewrite E. rewrite app_assoc, shows_app, first_app. replace (first_of (lit "image[]") (shows (_ ++ map_items _ _) 0)) with (@None fld). 2:{ unfold map_items. destruct (g_colors g); cbn [app shows]; rewrite !show_set; reflexivity. }
  fold (start_bytes g). rewrite flat_map_app, <- app_assoc, shows_app, first_app, no_image. cbn [flat_map part_items]. unfold le at 1. cbn [app shows]. rewrite show_set. eexists. cbn [app first_of f_name]. change (str_eqb (lit "separator[]") (lit "image[]")) with false. cbn iota. change (str_eqb (lit "image[]") (lit "image[]")) with true. cbn iota. unfold len. cbn [bytes_of plain_bytes]. rewrite zlen_uint. match goal with |- context [8 * ?w] => replace w with q by (unfold q; lia) end. reflexivity.
Qed.
(** The place where the first image ends, for a file with the extensions [pre] before it. *)
Definition image_end (g : gif) (pre : list extension) (i : image) : Z := start_bytes g + zlen (bytes_of_all (flat_map part_items (map Ext pre))) + 1 + zlen (bytes_of_all (image_items i)).
Lemma gif_split g pre i post : g_parts g = map Ext pre ++ Img i :: post -> exists before, bytes_of_all (gif_items g) = before ++ bytes_of_all (flat_map part_items post) ++ [59] /\ zlen before = image_end g pre i.
Proof.
  intros E. unfold gif_items. rewrite E, app_assoc, bytes_of_all_app, flat_map_app. change (flat_map part_items (Img i :: post)) with (part_items (Img i) ++ flat_map part_items post). rewrite <- !app_assoc, (bytes_of_all_app (flat_map part_items (map Ext pre))), (bytes_of_all_app (part_items (Img i))), (bytes_of_all_app (flat_map part_items post)).
  match goal with |- exists x, bytes_of_all ?s ++ ?b ++ ?c ++ ?d ++ _ = _ /\ _ => exists (bytes_of_all s ++ b ++ c) end. split; [rewrite <- !app_assoc; reflexivity|]. rewrite !zlen_app. unfold image_end, start_bytes.
  replace (zlen (bytes_of_all (part_items (Img i)))) with (1 + zlen (bytes_of_all (image_items i))); [rewrite ?app_assoc; lia|]. cbn [part_items]. rewrite !bytes_of_all_cons, !zlen_app. change (bytes_of (ISet (lit "image[]") ?l)) with (bytes_of_all l). change (zlen (bytes_of_all [])) with 0. change (zlen (bytes_of (le 1 "separator[]" 44))) with 1. lia.
Qed.
(** The content is taken to end with the first "\0;" after the first image. *)
Theorem C81_content_size : forall read g rest pre i post, let data := bytes_of_all (gif_items g) ++ rest in serves read data -> is_bytes data -> gif_ok g -> g_parts g = map Ext pre ++ Img i :: post ->
  let from := image_end g pre i in let upto := Z.min (zlen data) (from + 100 * 1024 * 1024) in
  (exists k, gif_content_size read (8 * zlen data) = Ok (Some (8 * (k + 2))) /\ first_occurrence [0; 59] data from upto k) \/ (gif_content_size read (8 * zlen data) = Ok None /\ forall k, ~ first_occurrence [0; 59] data from upto k).
Proof.
  intros read g rest pre i post data Hs Hb K E from upto. unfold gif_content_size. unfold data at 1 4. rewrite C81_file by assumption. cbn [fst]. destruct (first_image g pre i post E) as [k ->]. cbn [f_addr f_size].
  match goal with |- context [searchBytes read _ _ ?w _] => replace w with (8 * from) by (unfold from, image_end; lia) end. assert (F0 : 0 < from). { unfold from, image_end. repeat match goal with |- context [zlen ?y] => pose proof (zlen_nonneg y); generalize dependent (zlen y); intros end. unfold start_bytes. match goal with |- context [zlen ?y] => pose proof (zlen_nonneg y) end. lia. }
  assert (Nd : data <> []) by (unfold data, gif_items; discriminate). cbv zeta.
  destruct (searchBytes_correct read data [0; 59] from (Some (8 * from + 100 * 1024 * 1024 * 8)) Hs Nd ltac:(discriminate) ltac:(lia)) as [(j & -> & J)|[-> J]]; cbn [bind]; unfold search_limit in J; replace ((8 * from + 100 * 1024 * 1024 * 8) / 8) with (from + 100 * 1024 * 1024) in J by lia; [left; exists j|right; split; [reflexivity|exact J]].
  split; [|exact J]. destruct J as (J & _). replace (8 * j =? 0) with false by lia. do 2 f_equal. lia.
Qed.
Print Assumptions C81_content_size.
(** Each extension and image ends with a null byte. *)
Definition ends0 (x : list Z) : Prop := exists y, x = y ++ [0].
Lemma ends0_app a b : ends0 b -> ends0 (a ++ b).
Proof. intros [y ->]. exists (a ++ y). apply app_assoc. Qed.
Lemma part_ends p : ends0 (bytes_of_all (part_items p)).
Proof.
  assert (Z0 : forall l name, ends0 (bytes_of_all (l ++ [zero name]))) by (intros; rewrite bytes_of_all_app; apply ends0_app; exists []; reflexivity).
  assert (Zc : forall a l, ends0 (bytes_of_all (a ++ comment_items l))) by (intros; unfold comment_items; rewrite !bytes_of_all_app; do 2 apply ends0_app; exists []; reflexivity).
  destruct p as [e|i]; cbn [part_items]; rewrite !bytes_of_all_cons, app_nil_r; apply ends0_app.
  - destruct e as [t u d r delay ix|l|name l|b x y w h cw ch fg bg l|code l]; cbn [extension_item]; match goal with |- context [bytes_of (ISet _ ?l)] => change (bytes_of (ISet (lit "") l)) with (bytes_of_all l) end; change (bytes_of (ISet ?n ?l)) with (bytes_of_all l).
    + match goal with |- ends0 (bytes_of_all [?a; ?b; ?c; ?d; ?e; ?z]) => exact (Z0 [a; b; c; d; e] "terminator"%string) end.
    + apply (Zc [_]).
    + rewrite app_assoc. apply Z0.
    + apply Zc.
    + rewrite !bytes_of_all_app. do 2 apply ends0_app. exists []. reflexivity.
  - change (bytes_of (ISet ?n ?l)) with (bytes_of_all l). unfold image_items. rewrite !app_assoc. apply Z0.
Qed.
(** When something follows the first image, in less than 100 MB, there is an end of the content, and it is never after the end of the picture. *)
Theorem C81_content_size_le : forall read g rest pre i post last, let data := bytes_of_all (gif_items g) ++ rest in serves read data -> is_bytes data -> gif_ok g -> g_parts g = map Ext pre ++ Img i :: post ++ [last] ->
  zlen (bytes_of_all (gif_items g)) <= image_end g pre i + 100 * 1024 * 1024 ->
  exists k, gif_content_size read (8 * zlen data) = Ok (Some (8 * k)) /\ image_end g pre i < k <= zlen (bytes_of_all (gif_items g)) /\
            (k = zlen (bytes_of_all (gif_items g)) <-> forall j, image_end g pre i <= j < zlen (bytes_of_all (gif_items g)) - 2 -> ~ occurs_at [0; 59] (bytes_of_all (gif_items g)) j).
Proof.
  intros read g rest pre i post last data Hs Hb K E L. destruct (gif_split g pre i (post ++ [last]) E) as (before & B & Bl). set (all := bytes_of_all (gif_items g)) in *. assert (X : exists x, all = before ++ x ++ [0; 59]). { rewrite flat_map_app in B. cbn [flat_map] in B. rewrite app_nil_r, bytes_of_all_app in B. destruct (part_ends last) as [y Y]. rewrite Y in B. exists (bytes_of_all (flat_map part_items post) ++ y). rewrite B, <- !app_assoc. reflexivity. }
  destruct X as [x X]. set (n := zlen before + zlen x). assert (Al : zlen all = n + 2) by (rewrite X, !zlen_app; change (zlen [0; 59]) with 2; unfold n; lia). assert (On : occurs_at [0; 59] all n) by (rewrite X; unfold n; rewrite app_assoc, <- zlen_app; pose proof (occ_pre (before ++ x) [0; 59] []) as O; rewrite app_nil_r in O; exact O).
  assert (Same : forall j, 0 <= j -> j + 2 <= zlen all -> occurs_at [0; 59] data j <-> occurs_at [0; 59] all j).
  { intros j J0 J. unfold data. fold all. unfold occurs_at. rewrite zlen_app. pose proof (zlen_nonneg rest). split; intros (P & Q & R); (split; [lia|split; [change (zlen [0; 59]) with 2 in *; lia|]]); change (zlen [0; 59]) with 2 in *; unfold sub in *; rewrite <- R.
    - symmetry. rewrite skipn_app, firstn_app. replace (Z.to_nat 2 - _)%nat with O by (rewrite skipn_length; unfold zlen in *; lia). cbn [firstn]. apply app_nil_r.
    - rewrite skipn_app, firstn_app. replace (Z.to_nat 2 - _)%nat with O by (rewrite skipn_length; unfold zlen in *; lia). cbn [firstn]. apply app_nil_r. }
  pose proof (zlen_nonneg rest) as Rl. pose proof (zlen_nonneg x) as Xl. pose proof (zlen_nonneg before) as Bf. assert (Dl : zlen data = zlen all + zlen rest) by (unfold data; apply zlen_app). assert (Fo : forall j, image_end g pre i <= j < n -> 0 <= j) by lia.
  destruct (C81_content_size read g rest pre i (post ++ [last]) Hs Hb K E) as [(k & Ck & F1 & F2 & F3 & F4)|[_ N]].
  - change (zlen [0; 59]) with 2 in *. fold data in Ck, F2, F3, F4. assert (k <= n). { destruct (Z_le_gt_dec k n) as [|G]; [assumption|]. exfalso. apply (F4 n); [lia|]. apply Same; [lia|lia|exact On]. }
    exists (k + 2). split; [exact Ck|]. split; [lia|]. split.
    + intros Ek j J O. apply (F4 j); [lia|]. apply Same; [lia|lia|exact O].
    + intros Ho. destruct (Z.eq_dec k n) as [->|Nk]; [lia|]. exfalso. apply (Ho k); [lia|]. apply Same; [lia|lia|exact F3].
  - exfalso. assert (W : exists j, image_end g pre i <= j <= n /\ occurs_at [0; 59] data j /\ forall j', image_end g pre i <= j' < j -> ~ occurs_at [0; 59] data j').
    { assert (Dec : forall j, {occurs_at [0; 59] data j} + {~ occurs_at [0; 59] data j}). { intros j. unfold occurs_at. destruct (Z_le_dec 0 j); [|right; tauto]. destruct (Z_le_dec (j + zlen [0; 59]) (zlen data)); [|right; tauto]. destruct (list_eq_dec Z.eq_dec (sub data j (zlen [0; 59])) [0; 59]); [left; auto|right; tauto]. }
      assert (Ind : forall m : nat, forall from, n - from = Z.of_nat m -> 0 <= from -> exists j, from <= j <= n /\ occurs_at [0; 59] data j /\ forall j', from <= j' < j -> ~ occurs_at [0; 59] data j').
      { induction m as [|m IH]; intros from M F0; [exists n; split; [lia|]; split; [apply Same; [lia|lia|exact On]|intros; lia]|]. destruct (Dec from) as [O|O]; [exists from; split; [lia|]; split; [exact O|intros; lia]|]. destruct (IH (from + 1) ltac:(lia) ltac:(lia)) as (j & J1 & J2 & J3). exists j. split; [lia|]. split; [exact J2|]. intros j' J'. destruct (Z.eq_dec j' from) as [->|]; [exact O|apply J3; lia]. }
      apply (Ind (Z.to_nat (n - image_end g pre i))); lia. }
    destruct W as (j & J1 & J2 & J3). apply (N j). unfold first_occurrence. change (bytes_of_all (gif_items g) ++ rest) with data. change (zlen [0; 59]) with 2. split; [lia|]. split; [lia|]. split; assumption.
Qed.
Print Assumptions C81_content_size_le.
(** A picture that ends after its first image, as most of them do: the null byte is the last one of the image, and the search starts after it (gif.py:355-362): the size of the
    content is not known. *)
Theorem C81_content_size_refuted : forall read g pre i, let data := bytes_of_all (gif_items g) in serves read data -> is_bytes data -> gif_ok g -> g_parts g = map Ext pre ++ [Img i] ->
  gif_content_size read (8 * zlen data) = Ok None.
Proof.
  intros read g pre i data Hs Hb K E. pose proof (C81_content_size read g [] pre i []) as C. rewrite !app_nil_r in C. fold data in C. destruct (C Hs Hb K E) as [(k & _ & F1 & F2 & _)|[C' _]]; [|exact C']. exfalso. destruct (gif_split g pre i [] E) as (before & B & Bl). fold data in B. assert (zlen data = image_end g pre i + 1) by (rewrite B, zlen_app, Bl; reflexivity). change (zlen [0; 59]) with 2 in F2. lia.
Qed.
Print Assumptions C81_content_size_refuted.
(** A screen without a map of colors, a picture of two images with comments, and one with a single image *)
Definition dot (n : Z) : image := Image n n 1 1 0 0 0 0 0 [] 2 [[68]; [1]].
Definition dots : gif := Gif (lit "89a") (Screen 3 2 1 0 7 1 0 49) [(0, 0, 0); (255, 255, 255); (255, 0, 0); (0, 0, 255)]
  [Ext (App (lit "NETSCAPE2.0") [[1; 5; 0]]); Ext (Control 1 0 2 0 50 3); Ext (Comments [lit "Made"; lit "here"]); Img (dot 0); Ext (Text 12 0 0 1 1 1 1 0 1 [lit "x"]); Ext (Other 2 [[9; 9]]); Img (Image 1 1 1 1 0 0 1 1 1 [(1, 2, 3); (4, 5, 6)] 2 [[68; 1]])].
Definition single : gif := Gif (lit "87a") (Screen 1 1 0 0 0 0 0 0) [] [Img (dot 0)].
Ltac made := repeat match goal with
  | |- True => exact Logic.I | |- let _ := _ in _ => cbv zeta | |- is_bytes _ => unfold is_bytes | |- is_byte _ => unfold is_byte | |- block_ok _ => unfold block_ok | |- rgb_ok _ => cbn [rgb_ok]
  | |- byte_ok _ => unfold byte_ok | |- short_ok _ => unfold short_ok | |- map_ok _ _ _ => unfold map_ok | |- part_ok _ => cbn [part_ok] | |- image_ok _ => unfold image_ok | |- screen_ok _ => unfold screen_ok | |- extension_ok _ => cbn [extension_ok]
  | |- codes_agree _ _ => intros _ ? ? [<-|[]] [<-|[]] _ _; reflexivity | |- ~ In _ _ => cbn [In]; lia
  | |- _ /\ _ => split | |- Forall _ (_ :: _) => constructor | |- Forall _ [] => constructor | |- In _ _ => cbn [In]; tauto
  | |- Forall _ (lit _) => vm_compute | |- Forall _ _ => progress cbn [g_colors g_parts i_colors i_blocks dots single dot]
  | |- ?a < ?b => vm_compute; reflexivity | |- ?a <= ?b => vm_compute; discriminate | |- _ = _ => vm_compute; reflexivity | |- _ <> _ => discriminate end.
Example C81_pictures : gif_ok dots /\ gif_ok single /\ (forall g, In g [dots; single] -> GifFile (string_read (bytes_of_all (gif_items g))) (8 * zlen (bytes_of_all (gif_items g))) = (shows (gif_items g) 0, None, 8 * zlen (bytes_of_all (gif_items g)))) /\
  map f_name (shows (gif_items dots) 0) = map lit ["magic"; "version"; "screen"; "color_map"; "separator[]"; "app_ext[]"; "separator[]"; "graphic_ctl[]"; "separator[]"; "comments[]"; "separator[]"; "image[]"; "separator[]"; "text_ext[]"; "separator[]"; "extensions[]"; "separator[]"; "image[]"; "separator[]"]%string.
Proof.
  split; [unfold gif_ok; made|]. split; [unfold gif_ok; made|]. split; [|vm_compute; reflexivity]. intros g [<-|[<-|[]]]; vm_compute; reflexivity.
Qed.
Example C81_sizes : gif_content_size (string_read (bytes_of_all (gif_items single))) (8 * zlen (bytes_of_all (gif_items single))) = Ok None /\
  gif_content_size (string_read (bytes_of_all (gif_items dots) ++ [7; 7])) (8 * zlen (bytes_of_all (gif_items dots) ++ [7; 7])) = Ok (Some (8 * zlen (bytes_of_all (gif_items dots)))) /\
  zlen (bytes_of_all (gif_items dots)) <= image_end dots [App (lit "NETSCAPE2.0") [[1; 5; 0]]; Control 1 0 2 0 50 3; Comments [lit "Made"; lit "here"]] (dot 0) + 100 * 1024 * 1024.
Proof. split; [vm_compute; reflexivity|]. split; [vm_compute; reflexivity|]. vm_compute; discriminate. Qed.
Example C81_blocks : image_stream (shows (image_items (dot 0)) 0) = [68; 1].
Proof. vm_compute; reflexivity. Qed.
(** ** Metadata *)
Import MetaModel.
Lemma version_get g : GenModel.get (lit "version") (shows (gif_items g) 0) = Some (VBytes (g_version g)).
Proof. reflexivity. Qed.
Lemma no_control g : group (lit "graphic_ctl") (shows (gif_items g) 0) = None.
Proof.
  assert (Ga : forall a b, group (lit "graphic_ctl") (a ++ b) = match group (lit "graphic_ctl") a with Some k => Some k | None => group (lit "graphic_ctl") b end) by (induction a as [|[|] a IH]; intros b; [reflexivity|exact (IH b)|]; cbn [app group]; destruct (str_eqb _ _); [reflexivity|apply IH]).
  assert (P : forall l p, group (lit "graphic_ctl") (shows (flat_map part_items l) p) = None). { induction l as [|x l IH]; intros p; [reflexivity|]. cbn [flat_map]. rewrite shows_app, Ga, IH. destruct x as [e|i]; [destruct e|]; cbn [part_items extension_item]; unfold le at 1; cbn [shows app]; rewrite show_set; reflexivity. }
  unfold gif_items. rewrite !shows_app, !Ga, P. cbn [shows]. rewrite !show_set. unfold map_items. destruct (g_colors g); [|cbn [shows]; rewrite show_set]; reflexivity.
Qed.
(** The metadata: the size of the screen, the number of colors as a power of two of the field of the screen, the compression, and a pixel format without transparency. *)
Theorem C81_metadata : forall e text read g rest, let data := bytes_of_all (gif_items g) ++ rest in writes e -> serves read data -> is_bytes data -> gif_ok g ->
  let s := g_screen g in let m := gif_metadata e text (fst (fst (GifFile read (8 * zlen data)))) in
  getValues m (lit "width") = Ok (in_limits 1 20000 (s_width s)) /\ getValues m (lit "height") = Ok (in_limits 1 20000 (s_height s)) /\
  getValues m (lit "bits_per_pixel") = Ok [MInt (s_size s + 1)] /\ getValues m (lit "nb_colors") = Ok [MInt (2 ^ (s_size s + 1))] /\
  (kept_text e (lit "LZW") -> getValues m (lit "compression") = Ok [MStr (lit "LZW")]) /\ (kept_text e (lit "Color index") -> getValues m (lit "pixel_format") = Ok [MStr (lit "Color index")]).
Proof.
  intros e text read g rest data W Hs Hb K s. assert (Sk : screen_ok s) by apply K. unfold data. rewrite C81_file by assumption. cbn [fst]. set (l := shows (gif_items g) 0). cbv zeta. remember (gif_metadata e text l) as mm eqn:Em0. symmetry in Em0. revert Em0. unfold gif_metadata, gif_extract. destruct (screen_group g) as [p Gr]. fold l in Gr. rewrite Gr. unfold l at 1. rewrite version_get. unfold l at 2. rewrite no_control. fold s. destruct (screen_get s p Sk) as (G1 & G2 & _ & G3). 
  assert (Ik : forall key lo hi d, find_data root (lit key) = Some d -> d_values d = [] -> d_type d = Some [TInt] -> d_filter d = Some (NumberFilter (FNum lo 1) (FNum hi 1)) -> d_conv d = None -> int_key key lo hi) by (intros; eexists; eauto 6).
  assert (Tk : forall key d, find_data root (lit key) = Some d -> d_values d = [] -> d_type d = None \/ d_type d = Some [TStr] -> d_filter d = None -> d_conv d = None -> text_key key) by (intros; eexists; eauto 6).
  destruct (step_int e [] root "width" (s_width s) 1 20000 W (same_refl _ _)) as (m1 & A1 & T1 & V1 & _); [eapply Ik; reflexivity|reflexivity|].
  destruct (step_int e _ m1 "height" (s_height s) 1 20000 W T1) as (m2 & A2 & T2 & V2 & S2); [eapply Ik; reflexivity|reflexivity|].
  destruct (step_int e _ m2 "bits_per_pixel" (1 + s_size s) 1 256 W T2) as (m3 & A3 & T3 & V3 & S3); [eapply Ik; reflexivity|reflexivity|]. 
  assert (Us : useScreen e root (shows (screen_items s) p) = (m3, true)) by (unfold useScreen, ask; rewrite G1, G2, G3; cbn [num]; rewrite A1; unfold andthen at 1; cbn [fst snd]; rewrite A2; unfold andthen at 1; cbn [fst snd]; exact A3). rewrite Us. cbn [fst].
  assert (Z3 : 0 <= s_size s < 2 ^ 3) by apply Sk. unfold in_limits in V3 at 1. change (2 ^ 3) with 8 in Z3. replace ((1 <=? 1 + s_size s) && (1 + s_size s <=? 256)) with true in V3 by lia. destruct (int_found m3 "bits_per_pixel" _ V3) as [Hk Io]. rewrite Hk, Io, Z.shiftl_1_l.
  destruct (step_int e _ m3 "nb_colors" (2 ^ (1 + s_size s)) 1 16777216 W T3) as (m4 & A4 & T4 & V4 & S4); [eapply Ik; reflexivity|reflexivity|]. rewrite A4. unfold andthen at 1. cbn [fst snd].
  assert (P4 : 1 <= 2 ^ (1 + s_size s) <= 256). { split; [apply (Z.pow_le_mono_r 2 0); lia|]. change 256 with (2 ^ 8). apply Z.pow_le_mono_r; lia. } unfold in_limits in V4 at 1. replace ((1 <=? _) && (_ <=? 16777216)) with true in V4 by lia.
  destruct (step_plain e _ m4 "compression" (MStr (lit "LZW")) W Logic.I T4) as (m5 & A5 & T5 & S5); [eexists; split; reflexivity|reflexivity|].
  assert (V5 : kept_text e (lit "LZW") -> getValues m5 (lit "compression") = Ok [MStr (lit "LZW")]) by (intros Kt; destruct (step_text e _ m4 "compression" (lit "LZW") W Kt T4) as (m5' & A5' & _ & V5 & _); [eapply Tk; try reflexivity; (left; reflexivity) || (right; reflexivity)|reflexivity|]; rewrite A5 in A5'; injection A5' as <-; exact V5).
  rewrite A5. unfold andthen at 1. cbn [fst snd].
  match goal with |- context [assign e m5 [("format_version"%string, MStr ?v)]] => destruct (step_plain e _ m5 "format_version" (MStr v) W Logic.I T5) as (m6 & A6 & T6 & S6) end; [eexists; split; reflexivity|reflexivity|]. rewrite A6. unfold andthen at 1. cbn [fst snd].
  assert (X : exists d, find_data m6 (lit "comment") = Some d /\ d_conv d = None) by (rewrite T6 by (apply fresh; reflexivity); eexists; split; reflexivity). destruct X as (d & D & Dc).
  match goal with |- context [andthen (assign e m6 ?cs) _] => destruct (steps_plain e "comment" cs W) with (2 := D) (3 := Dc) as (m7 & A7 & S7) end.
  { apply Forall_forall. intros [k v] Iv. apply in_flat_map in Iv as (x & _ & Iv). apply in_map_iff in Iv as (y & Ey & _). injection Ey as <- <-. split; [reflexivity|exact Logic.I]. }
  rewrite A7. unfold andthen at 1. cbn [fst snd]. pose proof (same_trans _ _ _ _ _ T6 S7) as T7.
  destruct (step_plain e _ m7 "pixel_format" (MStr (lit "Color index")) W Logic.I T7) as (m8 & A8 & T8 & S8); [eexists; split; reflexivity|reflexivity|].
  assert (V8 : kept_text e (lit "Color index") -> getValues m8 (lit "pixel_format") = Ok [MStr (lit "Color index")]) by (intros Kt; destruct (step_text e _ m7 "pixel_format" (lit "Color index") W Kt T7) as (m8' & A8' & _ & V8 & _); [eapply Tk; try reflexivity; (left; reflexivity) || (right; reflexivity)|reflexivity|]; rewrite A8 in A8'; injection A8' as <-; exact V8).
  rewrite A8. cbn [fst]. pose proof (mime_step e _ m8 (lit "image/gif") (lit "Little endian") T8 eq_refl) as S9. intros <-.
  pose proof (same_trans _ _ _ _ _ S8 S9) as U7. pose proof (same_trans _ _ _ _ _ S7 U7) as U6. pose proof (same_trans _ _ _ _ _ S6 U6) as U5. pose proof (same_trans _ _ _ _ _ S5 U5) as U4. pose proof (same_trans _ _ _ _ _ S4 U4) as U3. pose proof (same_trans _ _ _ _ _ S3 U3) as U2. pose proof (same_trans _ _ _ _ _ S2 U2) as U1.
  rewrite (Z.add_comm (s_size s) 1). split; [eapply (kept _ _ _ _ _ U1); [reflexivity|exact V1]|]. split; [eapply (kept _ _ _ _ _ U2); [reflexivity|exact V2]|]. split; [eapply (kept _ _ _ _ _ U3); [reflexivity|exact V3]|]. split; [eapply (kept _ _ _ _ _ U4); [reflexivity|exact V4]|]. split; [intros Kt; eapply (kept _ _ _ _ _ U5); [reflexivity|exact (V5 Kt)]|]. intros Kt. eapply (kept _ _ _ _ _ S9); [reflexivity|exact (V8 Kt)].
Qed.
Print Assumptions C81_metadata.
(** A picture with a transparent color is given the same pixel format as one without: the extractor asks for graphic_ctl/has_transp, and the extensions are numbered: graphic_ctl[0]
    (image.py:268). *)
Theorem C81_transparency_refuted : forall e text read g rest u d r delay index, let data := bytes_of_all (gif_items g) ++ rest in writes e -> serves read data -> is_bytes data -> gif_ok g -> kept_text e (lit "Color index") ->
  In (Ext (Control 1 u d r delay index)) (g_parts g) -> getValues (gif_metadata e text (fst (fst (GifFile read (8 * zlen data))))) (lit "pixel_format") = Ok [MStr (lit "Color index")].
Proof. intros e text read g rest u d r delay index data W Hs Hb K Kt _. apply (C81_metadata e text read g rest W Hs Hb K), Kt. Qed.
Print Assumptions C81_transparency_refuted.
(** The delay is stored in hundredths of a second, and is shown as a number of milliseconds (gif.py:208): a second is shown as 100 ms. *)
Theorem C81_delay_refuted : forall hundredths, 1 <= hundredths < 100 -> delay_display hundredths = Ok (dec hundredths ++ lit " ms") /\ HumanModel.humanDuration (10 * hundredths) = Ok (dec (10 * hundredths) ++ lit " ms").
Proof.
  assert (M : forall ms, 1 <= ms < 1000 -> HumanModel.humanDuration ms = Ok (dec ms ++ lit " ms")).
  { intros ms R. unfold HumanModel.humanDuration. assert (T : HumanModel.timedelta (ms * 1000) = Ok (ms * 1000)). { unfold HumanModel.timedelta. match goal with |- (if ?b then _ else _) = _ => destruct b eqn:E end; [reflexivity|]. exfalso. unfold HumanModel.us_per_day in E. lia. }
    rewrite T. cbn [bind]. assert (Y : HumanModel.td_microseconds (ms * 1000) = ms * 1000 /\ HumanModel.td_seconds (ms * 1000) = 0 /\ HumanModel.td_days (ms * 1000) = 0) by (unfold HumanModel.td_microseconds, HumanModel.td_seconds, HumanModel.td_days, HumanModel.us_per_day; lia). destruct Y as (-> & -> & ->). replace (1000 <=? ms * 1000) with true by lia. replace (ms * 1000 / 1000) with ms by lia. reflexivity. }
  intros h H. unfold delay_display. split; apply M; lia.
Qed.
Print Assumptions C81_delay_refuted.
(** An extension with a code that is not known has no description: the field "func" that it asks for does not exist (gif.py:268-269). *)
Theorem C81_description_refuted : forall code l p, extension_ok (Other code l) -> match ItemSpec.show (extension_item (Other code l)) p with [G _ _ _ k _] => extension_description k = Err MissingField | _ => False end.
Proof.
  intros code l p _. cbn [extension_item]. rewrite show_set. unfold extension_description. match goal with |- match GenModel.get ?n (shows ?x ?q) with _ => _ end = _ => assert (N : GenModel.get n (shows x q) = None) end; [|rewrite N; reflexivity].
  assert (Ga : forall a b, GenModel.get (lit "func") (a ++ b) = match GenModel.get (lit "func") a with Some k => Some k | None => GenModel.get (lit "func") b end) by (induction a as [|f a IH]; intros b; [reflexivity|]; cbn [app GenModel.get]; destruct f; [destruct (str_eqb _ _); [reflexivity|]|]; apply IH).
  rewrite !shows_app, !Ga. match goal with |- context [shows (flat_map _ l) ?q] => generalize q end. intros q. replace (GenModel.get (lit "func") (shows (flat_map _ l) q)) with (@None val); [reflexivity|]. revert q. induction l as [|x l IH]; intros q; [reflexivity|]. cbn [flat_map]. rewrite shows_app, Ga, <- IH. reflexivity.
Qed.
Print Assumptions C81_description_refuted.
Definition plain_env : env := {| e_str := fun _ => []; e_handler := fun _ _ => Ok []; e_int := fun _ => None; e_datetime := fun _ => CErr; e_iso639 := fun _ => false; e_max_str_length := 300; e_raw_output := false |}.
Example C81_values : writes plain_env /\ kept_text plain_env (lit "Color index") /\ kept_text plain_env (lit "LZW") /\ In (Ext (Control 1 0 2 0 50 3)) (g_parts dots) /\
  let m := gif_metadata plain_env (fun x => x) (shows (gif_items dots) 0) in getValues m (lit "nb_colors") = Ok [MInt 4] /\ getValues m (lit "comment") = Ok [MStr (lit "Made"); MStr (lit "here")] /\ getValues m (lit "pixel_format") = Ok [MStr (lit "Color index")] /\
  delay_display 50 = Ok (lit "50 ms").
Proof. split; [intros h v; eexists; reflexivity|]. split; [split; [discriminate|]; split; [reflexivity|]; split; [reflexivity|right; vm_compute; discriminate]|]. split; [split; [discriminate|]; split; [reflexivity|]; split; [reflexivity|right; vm_compute; discriminate]|]. split; [cbn; tauto|]. cbv zeta. repeat split; vm_compute; reflexivity. Qed.
(** When an extension of NETSCAPE2.0 has several blocks of three bytes, the code of the first one is used for all (gif.py:189): the size of a buffer, of code 2, is shown as a number of loops. *)
Theorem C81_netscape_refuted : exists fields, let data := [255; 11] ++ lit "NETSCAPE2.0" ++ [3; 1; 5; 0] ++ [3; 2; 0; 4] ++ [0] in
  GenModel.run (string_read data) (8 * zlen data) (Extension PRet) true (8 * zlen data) 0 = ([G (lit "app_ext[]") 0 (8 * zlen data) fields None], None, 8 * zlen data) /\
  gets (lit "netscape_code") fields = [VNum 1; VNum 2] /\ gets (lit "loop_count") fields = [VNum 5; VNum 1024].
Proof. eexists. split; [vm_compute; reflexivity|]. split; vm_compute; reflexivity. Qed.
Print Assumptions C81_netscape_refuted.

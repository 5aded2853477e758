(** C83: what the parser of JPEG pictures shows, and the metadata taken from them. *)
From Coq Require Import String.
From Verif Require Import Base BaseProofs BitsModel BitsSpec BitsProofs StreamModel StreamSpec StreamProofs StreamProofs2 DictModel DictProofs FieldModel FieldNames ToolsModel NumSpec NumRead ChunkBase GenModel GenSpec GenProofs ItemSpec ItemProofs ItemProofs2 ZipSpec ZipProofs MidiSpec MidiProofs ExtractModel ExtractProofs PropertiesBmp PropertiesGifFile JpegModel JpegSpec JpegProofs Lit.
From Verif Require MetaModel HumanModel.
From Verif Require Import MetaProofs2.
Open Scope Z_scope.
Ltac Zify.zify_post_hook ::= Z.div_mod_to_equations.

(** For every picture: the segments, the tables, the frames, the scans and their coded data, up to the end of the file. *)
Theorem C83_file : forall read l, let data := bytes_of_all (jpeg_items l) in serves read data -> is_bytes data -> jpeg_ok l ->
  JpegFile read (8 * zlen data) = (shows (jpeg_items l) 0, None, 8 * zlen data).
Proof.
  intros read l data Hs Hb K. unfold JpegFile. apply obey_file; auto. destruct (jpeg_obeys read data Hs Hb (8 * zlen data) l K ltac:(unfold data; lia)) as (n & s & H). rewrite <- (app_nil_r (jpeg_items l)). eapply ob_app; [exact H|]. cbn [loop_from]. apply ob_ask. fold data.
  replace (8 * zlen data <=? 8 * (0 + zlen data)) with true by lia. apply ob_nil.
Qed.
Print Assumptions C83_file.
(** Whatever follows the picture. *)
Theorem C83_prefix : forall read l rest, let data := bytes_of_all (jpeg_items l) ++ rest in serves read data -> is_bytes data -> jpeg_ok l ->
  exists r, JpegFile read (8 * zlen data) = puts (shows (jpeg_items l) 0) r.
Proof.
  intros read l rest data Hs Hb K. destruct (jpeg_obeys read data Hs Hb (8 * zlen data) l K) as (n & s & H); [unfold data; rewrite zlen_app; pose proof (zlen_nonneg rest); lia|]. apply (obey_start read data Hs Hb _ _ _ H). apply (occ_pre []).
Qed.
Print Assumptions C83_prefix.
(** Every file: the fields follow each other from the start and end inside the file, and the loops end. *)
Section Ends.
Context (read : read_fun) (data : list Z) (Hs : serves read data) (Hb : is_bytes data) (He : ends read data) (Hd : data <> []).
Notation safe := (safe read data).
Ltac more K := apply (safe_more read data) with (1 := K); cbn [least]; lia.
Lemma data_end_any a : forall n start, 0 <= start -> 8 * zlen data - start < Z.of_nat n -> (1 <= n)%nat -> match data_end read (8 * zlen data) a n start with Err e => e <> OutOfFuel | Ok _ => True end.
Proof using All.
  induction n as [|n IH]; intros start S0 N N1; [lia|]. cbn [data_end]. destruct (start mod 8 =? 0) eqn:A8; [|unfold searchBytes; rewrite A8; discriminate].
  replace start with (8 * (start / 8)) by lia. destruct (searchBytes_correct read data [255] (start / 8) (Some (100 * 1024 * 1024 * 8)) Hs Hd ltac:(discriminate) ltac:(lia)) as [(i & -> & I1 & I2 & I3 & _)|[-> _]]; cbn [bind]; [|exact Logic.I].
  pose proof (proj1 I3). rewrite (rb read data Hs He) by lia. destruct (i + 2 <=? zlen data) eqn:L; cbn [bind]; [|discriminate]. destruct (str_eqb _ _); [|exact Logic.I]. apply IH; lia.
Qed.
Lemma safe_rounds body m : (forall m k, safe (m - 1) k -> safe m (body k)) -> safe m (rounds body).
Proof using Type. intros B. apply safe_ask. intros stop a A M. apply safe_loop; [exact B|lia]. Qed.
Lemma coeffs_safe n l : 1 <= n -> forall m, safe m (coeffs n l).
Proof using All. intros N. induction l as [|i l IH]; intros m; cbn [coeffs]; [apply safe_ret|]. apply safe_fld; try assumption; [split; [lia|discriminate]|]. intros _. apply IH. Qed.
Lemma counts_safe c : (forall l m, safe m (c l)) -> forall n i m, safe m (count_fields i n c).
Proof using All.
  intros K n. revert c K. induction n as [|n IH]; intros c K i m; cbn [count_fields]; [apply K|]. calm_step. apply IH. intros. apply K.
Qed.
Lemma row_safe k : (forall m, safe m k) -> forall n i j m, safe m (value_row i j n k).
Proof using All. intros K. induction n as [|n IH]; intros i j m; cbn [value_row]; [apply K|]. calm_step. apply IH. Qed.
Lemma rows_safe k : (forall m, safe m k) -> forall l i m, safe m (value_rows i l k).
Proof using All. intros K. induction l as [|c l IH]; intros i m; cbn [value_rows]; [apply K|]. apply row_safe. intros. apply IH. Qed.
Lemma tag_safe tag n p : TAG_INFO tag = Some (n, Some p) -> forall m, safe m p.
Proof using All.
  unfold TAG_INFO. destruct (START_OF_FRAME tag).
  { intros E. injection E as _ <-. intros m. unfold StartOfFrame_fields, u8, u16. do 4 calm_step. apply times_safe; [|intros; apply safe_ret]. intros k K m'. unfold SOFComponent, u4, u8. calm_step; [repeat calm_step|apply K]. }
  destruct (_ && _); [discriminate|].
  intros E. repeat match type of E with match ?x with _ => _ end = _ => destruct x; try discriminate E end; injection E as _ <-; intros m.
  all: first [apply safe_rounds; intros m' k K | idtac].
  all: lazymatch goal with
   | |- safe _ (QuantizationTable _) => unfold QuantizationTable; calm_step; [|more K]; do 2 calm_step; calm_step; [calm_step|]; apply coeffs_safe; destruct (_ =? 0); lia
   | |- safe _ (HuffmanTable _) => unfold HuffmanTable, u4; calm_step; [|more K]; do 2 calm_step; apply counts_safe; intros; apply rows_safe; intros; repeat calm_step
   | |- safe _ opaque => unfold opaque; apply safe_ask; intros; apply safe_bytes; auto; intros; apply safe_ret
   | |- safe _ Comment_fields => unfold Comment_fields; apply safe_ask; intros; repeat calm_step
   | |- safe _ APP12_fields => unfold APP12_fields; calm_step; apply safe_rounds; intros m' k K; unfold JpegModel.Ducky; calm_step; [|more K]; repeat calm_step
   | |- safe _ Adobe_fields => unfold Adobe_fields, u16, u8; apply safe_peek; try assumption; [exact Logic.I|lia|]; intros v; destruct (negb _); [apply safe_ask; intros; apply safe_bytes; auto; intros; apply safe_ret|repeat calm_step]
   | |- safe _ StartOfScan_fields => unfold StartOfScan_fields, u8, u4; calm_step; apply times_safe; [intros k K m'; unfold SOSComponent, u4; calm_step; [repeat calm_step|apply K]|intros; repeat calm_step]
   | |- safe _ RestartInterval_fields => unfold RestartInterval_fields, u16; repeat calm_step
   | |- safe _ App0_fields => unfold App0_fields, u16, u8, rgb; calm_step; destruct (negb _); [calm_step|]; do 3 calm_step; destruct (_ =? 0); do 4 calm_step; (destruct (_ =? 0); [calm_step|]); (calm_step; [apply times_safe; [intros k K m'; calm_step; [repeat calm_step|apply K]|intros; apply safe_ret]|]); apply safe_bytes; auto; intros; apply safe_ret
   end.
Qed.
Lemma chunk_safe k m : (forall t l, safe (m - 1) (k t l)) -> safe m (JpegChunk k).
Proof using All.
  intros K. unfold JpegChunk. apply safe_do. intros stop a A. unfold chunk_type. destruct (bits_any read data Hs He a 8 BE Hb ltac:(discriminate) ltac:(lia) ltac:(lia)) as [(R & _ & _)|R]; rewrite R; cbn [bind]; [|discriminate].
  destruct (negb _); [discriminate|]. destruct (_ <? _); [discriminate|]. destruct (bits_any read data Hs He (a + 8) 8 BE Hb ltac:(discriminate) ltac:(lia) ltac:(lia)) as [(R' & _ & _)|R']; rewrite R'; cbn [bind]; [|discriminate].
  cbn [num]. set (tag := bits_at _ _ _ _). clearbody tag. apply safe_do. intros stop' a' A'. unfold chunk_exif.
  assert (G : forall x, safe m (let i := chunk_info tag (num x) in PSet (fst i) None (Chunk_fields (snd i)) (k (num (VNum tag))))).
  { intros x. cbv zeta. apply safe_open; auto. unfold Chunk_fields. calm_step. destruct (negb _); [calm_step|]. calm_step. destruct (_ || _); [calm_step|]. calm_step. destruct (_ <? _); [|calm_step]. destruct (snd (chunk_info tag (num x))) as [p|] eqn:P; [|apply safe_bytes; auto; intros; apply safe_ret].
    calm_step; [|calm_step]. unfold chunk_info in P. destruct (tag =? 225) eqn:T.
    - destruct (_ =? 1); [|discriminate P]. injection P as <-. apply (tag_safe 225 (lit "exif")). reflexivity.
    - destruct (TAG_INFO tag) as [[n p']|] eqn:TI; [|discriminate P]. cbn [snd] in P. subst p'. apply (tag_safe tag n p TI). }
  destruct (tag =? 225); [|apply (G (VNum 0))]. pose proof (bytes_any read data Hs He (a' + 32) 6 ltac:(lia) ltac:(lia)) as R2. destruct (readBytes read (a' + 32) 6); cbn [bind]; [|exact R2]. apply (G (VNum _)).
Qed.
Lemma image_safe k m : safe (m - 1) k -> safe m (JpegImageData k).
Proof using All.
  intros K. unfold JpegImageData. apply safe_do. intros stop a A. unfold data_size. pose proof (data_end_any a (S (Z.to_nat (8 * zlen data))) a ltac:(lia) ltac:(lia) ltac:(lia)) as D. destruct (data_end _ _ _ _ _) as [n|e]; cbn [bind]; [|exact D].
  cbn [num]. destruct (n <=? 0); [apply safe_err; discriminate|]. apply safe_set; [|intros; exact K]. apply safe_ask. intros. apply safe_bytes; auto. intros. apply safe_ret.
Qed.
Lemma file_safe m : safe m jpeg_fields.
Proof using All.
  unfold jpeg_fields. apply safe_ask. intros stop a A M. apply safe_loop_from; [|lia]. intros [frame interval] m' k K. unfold jpeg_chunk. apply chunk_safe. intros t l. cbv beta iota zeta. set (iv := match interval with Some _ => _ | None => _ end).
  assert (I : forall c, safe (m' - 1) (JpegImageData (k c))) by (intros c; apply image_safe; more (K c)).
  destruct (START_OF_FRAME t); [destruct (content l); [|calm_step]|]; (destruct (t =? 218); [|destruct (_ && _); [apply I|apply K]]); cbn [negb].
  all: repeat match goal with |- safe _ (match ?x with _ => _ end) => destruct x end; first [calm_step|apply I|apply K].
Qed.
End Ends.
Theorem C83_any : forall read data, serves read data -> ends read data -> is_bytes data -> data <> [] ->
  let '(l, e, b) := JpegFile read (8 * zlen data) in tiled 0 l b /\ b <= 8 * zlen data /\ settled_file (l, e, b).
Proof. intros read data Hs He Hb Hd. apply (any_file read data Hs Hb He Hd). apply file_safe; auto. Qed.
Print Assumptions C83_any.
(** ** The check of files *)
Lemma type_shown name tag rest p : exists a s k, ItemSpec.show (ISet name (marker tag ++ rest)) p = [G name a s k None] /\ GenModel.get (lit "type") k = Some (VNum tag).
Proof. rewrite show_set. do 3 eexists. split; [reflexivity|reflexivity]. Qed.
Lemma part_known pt p : part_ok pt -> exists f, ItemSpec.show (part_item pt) p = [f] /\ type_known f = named_part pt.
Proof.
  intros [_ K]. change (part_item pt) with (ISet (part_name pt) (marker (part_tag pt) ++ chunk_rest pt)). destruct (type_shown (part_name pt) (part_tag pt) (chunk_rest pt) p) as (a & s & k & -> & T). eexists. split; [reflexivity|]. unfold type_known. rewrite T. cbn [num]. clear - K.
  destruct pt; try reflexivity; cbn [part_tag named_part].
  - destruct K as [T _]. unfold frame_tags in T. cbn [In] in T. repeat (destruct T as [<-|T]; [reflexivity|]). destruct T.
  - destruct K as [T|[T|[T|[-> _]]]]; [cbn [In] in T; repeat (destruct T as [<-|T]; [reflexivity|]); destruct T|..].
    + assert (X : tag = 227 \/ tag = 228 \/ tag = 229 \/ tag = 230 \/ tag = 231 \/ tag = 232 \/ tag = 233 \/ tag = 234 \/ tag = 235) by lia. repeat (destruct X as [->|X]; [reflexivity|]). subst tag. reflexivity.
    + assert (X : tag = 240 \/ tag = 241 \/ tag = 242 \/ tag = 243 \/ tag = 244 \/ tag = 245 \/ tag = 246 \/ tag = 247 \/ tag = 248 \/ tag = 249 \/ tag = 250 \/ tag = 251 \/ tag = 252 \/ tag = 253) by lia. repeat (destruct X as [->|X]; [reflexivity|]). subst tag. reflexivity.
    + reflexivity.
  - destruct K as [N _]. assert (X : n = 0 \/ n = 1 \/ n = 2 \/ n = 3 \/ n = 4 \/ n = 5 \/ n = 6 \/ n = 7) by lia. repeat (destruct X as [->|X]; [reflexivity|]). subst n. reflexivity.
Qed.
(** A picture is accepted when its first two parts are of types the parser has a name for. *)
Theorem C83_valid : forall read l rest, let data := bytes_of_all (jpeg_items l) ++ rest in serves read data -> is_bytes data -> jpeg_ok l -> l <> [] ->
  jpeg_validate read (8 * zlen data) = Ok (forallb named_part (firstn 2 l)).
Proof.
  intros read l rest data Hs Hb K Ne. unfold jpeg_validate. assert (O : occurs_at [255; 216] data 0) by (unfold data; rewrite soi_split, <- app_assoc; exact (occ_pre [] [255; 216] _)).
  pose proof (rb_occ read data Hs 0 _ O ltac:(discriminate)) as R. change (8 * 0) with 0 in R. change (zlen [255; 216]) with 2 in R. rewrite R. cbn [bind]. change (negb (str_eqb [255; 216] [255; 216])) with false. cbn iota.
  destruct (C83_prefix read l rest Hs Hb K) as (r & E). fold data in E. rewrite E. unfold puts. destruct r as [[l' e'] b']. cbn [fst snd]. destruct K as (K & Fr & _).
  destruct l as [|p1 l]; [contradiction|]. apply Forall_inv in K as K1. apply Forall_inv_tail in K. assert (P1 : part_items p1 = [part_item p1]) by (destruct Fr as [F _]; destruct p1; try reflexivity; discriminate (F eq_refl)).
  assert (G : exists f2 f3 more, shows (jpeg_items (p1 :: l)) 0 ++ l' = (G (lit "start_image") 0 16 (shows (marker 216) 0) None) :: f2 :: f3 :: more /\ type_known f2 && type_known f3 = forallb named_part (firstn 2 (p1 :: l))).
  { unfold jpeg_items. cbn [flat_map]. rewrite P1. cbn [app shows]. rewrite show_set. cbn [app]. set (q := 0 + _). destruct (part_known p1 q K1) as (f2 & -> & T2). cbn [app]. set (q2 := q + _). destruct l as [|p2 l].
    - cbn [flat_map app shows]. rewrite show_set. do 3 eexists. split; [reflexivity|]. rewrite T2. cbn [firstn forallb]. f_equal.
    - apply Forall_inv in K. cbn [flat_map part_items app shows]. destruct (part_known p2 q2 K) as (f3 & -> & T3). do 3 eexists. split; [reflexivity|]. rewrite T2, T3. cbn [firstn forallb]. rewrite Bool.andb_true_r. reflexivity. }
  destruct G as (f2 & f3 & more & -> & T). cbn [firstn forallb]. change (type_known (G (lit "start_image") 0 16 (shows (marker 216) 0) None)) with true. cbn [andb]. rewrite Bool.andb_true_r, T. replace (match e' with None => true | Some _ => _ end) with true; [rewrite Bool.andb_true_r; reflexivity|]. destruct e'; [|reflexivity]. rewrite !zlen_cons. pose proof (zlen_nonneg more). lia.
Qed.
Print Assumptions C83_valid.
(** ** The description *)
Definition not_frames (l : list part) : Prop := Forall (fun p => is_frame p = false) l.
Lemma group_app name a b : group name (a ++ b) = match group name a with Some k => Some k | None => group name b end.
Proof. induction a as [|f a IH]; [reflexivity|]. cbn [app group]. destruct f; [exact IH|]. destruct (str_eqb _ _); [reflexivity|exact IH]. Qed.
Lemma part_name_frame pt : str_eqb (part_name pt) (lit "start_frame") = is_frame pt.
Proof. destruct pt; try reflexivity. cbn [part_name]. destruct (tag =? 226); [reflexivity|]. destruct (tag =? 220); reflexivity. Qed.
Lemma group_part pt q name : str_eqb (lit "image_data[]") name = false -> group name (shows (part_items pt) q) = if str_eqb (part_name pt) name then Some (shows (marker (part_tag pt) ++ chunk_rest pt) q) else None.
Proof.
  intros N. unfold part_items. cbn [shows]. unfold part_item. rewrite show_set. cbn [app group]. destruct (str_eqb (part_name pt) name); [reflexivity|]. destruct pt; try reflexivity; cbn [shows]; unfold image; rewrite show_set; cbn [app group]; rewrite N; reflexivity.
Qed.
Lemma group_frames l : not_frames l -> forall q, group (lit "start_frame") (shows (flat_map part_items l) q) = None.
Proof. induction 1 as [|pt l N _ IH]; intros q; [reflexivity|]. cbn [flat_map]. rewrite shows_app, group_app, group_part by reflexivity. rewrite part_name_frame, N. apply IH. Qed.
Lemma first_frame l1 t pc h w cl l2 more : not_frames l1 -> exists q, group (lit "start_frame") (shows (jpeg_items (l1 ++ Frame t pc h w cl :: l2)) 0 ++ more) = Some (shows (marker t ++ chunk_rest (Frame t pc h w cl)) q).
Proof.
  intros N. unfold jpeg_items. cbn [shows]. rewrite show_set. cbn [app group]. change (str_eqb (lit "start_image") (lit "start_frame")) with false. cbn iota. rewrite flat_map_app, <- app_assoc, shows_app, <- app_assoc, group_app, group_frames by exact N. cbn [flat_map]. rewrite <- app_assoc, shows_app, <- app_assoc, group_app, group_part by reflexivity. rewrite part_name_frame. cbn [is_frame part_tag]. eexists. reflexivity.
Qed.
Lemma frame_fields t pc h w cl q : exists c, content (shows (marker t ++ chunk_rest (Frame t pc h w cl)) q) = Some c /\ GenModel.get (lit "width") c = Some (VNum w) /\ GenModel.get (lit "height") c = Some (VNum h) /\ GenModel.get (lit "nr_components") c = Some (VNum (zlen cl)) /\
  GenModel.get (lit "type") (shows (marker t ++ chunk_rest (Frame t pc h w cl)) q) = Some (VNum t).
Proof. eexists. split; [exact (chunk_content q (Frame t pc h w cl) eq_refl eq_refl ltac:(discriminate))|]. repeat split; reflexivity. Qed.
(** The description has the size that the first frame gives, whatever follows the picture. *)
Theorem C83_description : forall read l1 t pc h w cl l2 rest, let l := l1 ++ Frame t pc h w cl :: l2 in let data := bytes_of_all (jpeg_items l) ++ rest in serves read data -> is_bytes data -> jpeg_ok l -> not_frames l1 ->
  jpeg_description (fst (fst (JpegFile read (8 * zlen data)))) = Ok (lit "JPEG picture: " ++ dec w ++ lit "x" ++ dec h ++ lit " pixels").
Proof.
  intros read l1 t pc h w cl l2 rest l data Hs Hb K N. destruct (C83_prefix read l rest Hs Hb K) as (r & E). fold data in E. rewrite E. unfold puts. cbn [fst]. unfold jpeg_description. unfold l. destruct (first_frame l1 t pc h w cl l2 (fst (fst r)) N) as (q & ->). destruct (frame_fields t pc h w cl q) as (c & -> & -> & -> & _). reflexivity.
Qed.
Print Assumptions C83_description.
(** ** The size of the content *)
Definition no_scans (l : list part) : Prop := Forall (fun p => needs_frame p = false) l.
Lemma first_app name a b : JpegModel.first_of name (a ++ b) = match JpegModel.first_of name a with Some f => Some f | None => JpegModel.first_of name b end.
Proof. induction a as [|f a IH]; [reflexivity|]. cbn [app JpegModel.first_of]. destruct (str_eqb _ _); [reflexivity|exact IH]. Qed.
Lemma part_name_image pt : str_eqb (part_name pt) (lit "image_data[]") = false.
Proof. destruct pt; try reflexivity. cbn [part_name]. destruct (tag =? 226); [reflexivity|]. destruct (tag =? 220); reflexivity. Qed.
Lemma first_part pt q : JpegModel.first_of (lit "image_data[]") (shows [part_item pt] q) = None.
Proof. cbn [shows]. unfold part_item. rewrite show_set. cbn [app JpegModel.first_of f_name]. rewrite part_name_image. reflexivity. Qed.
Lemma no_images l : no_scans l -> forall q, JpegModel.first_of (lit "image_data[]") (shows (flat_map part_items l) q) = None.
Proof.
  induction 1 as [|pt l N _ IH]; intros q; [reflexivity|]. cbn [flat_map]. replace (part_items pt) with [part_item pt] by (destruct pt; try reflexivity; discriminate N). rewrite shows_app, first_app, first_part. apply IH.
Qed.
Definition scan_start (l1 : list part) (s : part) : Z := 2 + zlen (bytes_of_all (flat_map part_items l1)) + zlen (bytes_of_all [part_item s]).
Lemma first_image l1 cl ss se hb lb x l2 more : no_scans l1 -> let s := Scan cl ss se hb lb x in exists z k, JpegModel.first_of (lit "image_data[]") (shows (jpeg_items (l1 ++ s :: l2)) 0 ++ more) = Some (G (lit "image_data[]") (8 * scan_start l1 s) z k None).
Proof.
  intros N s. unfold jpeg_items. cbn [shows]. rewrite show_set. cbn [app JpegModel.first_of f_name]. change (str_eqb (lit "start_image") (lit "image_data[]")) with false. cbn iota. rewrite flat_map_app, <- app_assoc, shows_app, <- app_assoc, first_app, no_images by exact N. cbn [flat_map]. change (part_items s) with ([part_item s] ++ [image x]).
  rewrite <- !app_assoc, shows_app, <- !app_assoc, first_app, first_part. change ([image x] ++ ?y) with (image x :: y). cbn [shows]. unfold image at 1. rewrite show_set. cbn [app JpegModel.first_of f_name]. change (str_eqb (lit "image_data[]") (lit "image_data[]")) with true. cbn iota. do 2 eexists. unfold scan_start. change (len (ISet (lit "start_image") (marker 216))) with 2. reflexivity.
Qed.
(** Coded data and markers of restart: each 0xFF is followed by a byte that is not the one of an end *)
Inductive calm : list Z -> Prop :=
| calm_nil : calm []
| calm_byte b x : b <> 0xff -> calm x -> calm (b :: x)
| calm_ff t x : t <> 0xd9 -> t <> 0xff -> calm x -> calm (0xff :: t :: x).
Lemma calm_coded x y : coded x -> calm y -> calm (x ++ y).
Proof. intros C Y. induction C as [|b x B C IH|x C IH]; cbn [app]; [exact Y|constructor; assumption|apply calm_ff; [discriminate|discriminate|exact IH]]. Qed.
Lemma calm_end y : calm y -> forall u v r, y ++ 255 :: 217 :: r = u ++ 255 :: 217 :: v -> zlen y <= zlen u.
Proof.
  induction 1 as [|b y B C IH|t y T T' C IH]; intros u v r E; [apply zlen_nonneg|..].
  - destruct u as [|c u]; [injection E as -> _; contradiction|]. cbn [app] in E. injection E as _ E. rewrite !zlen_cons. specialize (IH _ _ _ E). lia.
  - destruct u as [|c u]; [injection E as -> _; contradiction|]. destruct u as [|d u]; cbn [app] in E; [injection E as _ -> _; contradiction|]. injection E as _ _ E. rewrite !zlen_cons. specialize (IH _ _ _ E). lia.
Qed.
Definition rst_only (l : list part) : Prop := Forall (fun p => match p with Rst _ _ => True | _ => False end) l.
Lemma calm_rst l : rst_only l -> Forall part_ok l -> calm (bytes_of_all (flat_map part_items l)).
Proof.
  induction 1 as [|pt l N _ IH]; intros K; [constructor|]. pose proof (Forall_inv K) as [_ Kp]. apply Forall_inv_tail in K. destruct pt; try contradiction. destruct Kp as (Hn & C & _). cbn [flat_map]. rewrite bytes_of_all_app.
  replace (bytes_of_all (part_items (Rst n x))) with (255 :: (208 + n) :: x); [cbn [app]; apply calm_ff; [lia|lia|]; apply calm_coded; [exact C|apply IH, K]|]. unfold part_items, part_item, image, marker, be. cbn [part_tag app]. rewrite !bytes_of_all_cons. change (bytes_of (ISet ?n ?y)) with (bytes_of_all y). rewrite !bytes_of_all_cons. cbn [bytes_of plain_bytes]. rewrite !uint1 by lia. rewrite !app_nil_r. reflexivity.
Qed.
Lemma jpeg_split l1 cl ss se hb lb x l2 : let s := Scan cl ss se hb lb x in exists before, bytes_of_all (jpeg_items (l1 ++ s :: l2)) = before ++ (x ++ bytes_of_all (flat_map part_items l2)) ++ [255; 217] /\ zlen before = scan_start l1 s.
Proof.
  intros s. exists ([255; 216] ++ bytes_of_all (flat_map part_items l1) ++ bytes_of_all [part_item s]). split; [|unfold scan_start; rewrite !zlen_app; change (zlen [255; 216]) with 2; lia]. rewrite soi_split, flat_map_app. cbn [flat_map]. change (part_items s) with ([part_item s] ++ [image x]). rewrite !bytes_of_all_app. change (bytes_of_all [image x]) with ((x ++ []) ++ []). change (bytes_of_all [eoi]) with [255; 217]. rewrite !app_nil_r, <- !app_assoc. reflexivity.
Qed.
Lemma found_end read l1 cl ss se hb lb x l2 rest : let s := Scan cl ss se hb lb x in let l := l1 ++ s :: l2 in let data := bytes_of_all (jpeg_items l) ++ rest in serves read data -> is_bytes data -> jpeg_ok l -> no_scans l1 ->
  exists i, jpeg_content_size read (8 * zlen data) = Ok (Some (8 * i + 16)) /\ first_occurrence [255; 217] data (scan_start l1 s) (Z.min (zlen data) (100 * 1024 * 1024)) i /\ i <= zlen (bytes_of_all (jpeg_items l)) - 2.
Proof.
  intros s l data Hs Hb K N. unfold jpeg_content_size. destruct (C83_prefix read l rest Hs Hb K) as (r & E). fold data in E. rewrite E. unfold puts. cbn [fst]. unfold l at 1. destruct (first_image l1 cl ss se hb lb x l2 (fst (fst r)) N) as (z & k & F). fold s in F. rewrite F. cbn [f_addr].
  destruct (jpeg_split l1 cl ss se hb lb x l2) as (before & B & Bl). fold s in B, Bl. fold l in B. set (y := x ++ bytes_of_all (flat_map part_items l2)) in *. pose proof (zlen_nonneg before). pose proof (zlen_nonneg y). pose proof (zlen_nonneg rest). assert (Lm : zlen (bytes_of_all (jpeg_items l)) <= 100 * 1024 * 1024) by apply K.
  assert (Ln : zlen (bytes_of_all (jpeg_items l)) = scan_start l1 s + zlen y + 2) by (rewrite B, !zlen_app, Bl; change (zlen [255; 217]) with 2; lia). assert (Ld : zlen data = zlen (bytes_of_all (jpeg_items l)) + zlen rest) by (unfold data; apply zlen_app).
  assert (O : occurs_at [255; 217] data (scan_start l1 s + zlen y)). { unfold data. rewrite B, (app_assoc before y), <- app_assoc, <- Bl, <- zlen_app. apply occ_pre. }
  destruct (first_le [255; 217] data (scan_start l1 s + zlen y) (Z.min (zlen data) (100 * 1024 * 1024)) O ltac:(change (zlen [255; 217]) with 2; lia) (scan_start l1 s) ltac:(lia)) as (j & J & Jl).
  assert (Nd : data <> []) by (intros Z0; rewrite Z0 in Ld; change (zlen (@nil Z)) with 0 in Ld; lia).
  destruct (searchBytes_correct read data [255; 217] (scan_start l1 s) (Some (100 * 1024 * 1024 * 8)) Hs Nd ltac:(discriminate) ltac:(lia)) as [(i & -> & I)|[_ I]]; unfold search_limit in I; replace (100 * 1024 * 1024 * 8 / 8) with (100 * 1024 * 1024) in I by lia; [|exfalso; apply (I j), J].
  exists i. split; [reflexivity|]. split; [exact I|]. enough (i <= j) by lia. destruct (Z_le_gt_dec i j) as [|G]; [assumption|exfalso]. apply (proj2 (proj2 (proj2 I)) j); [destruct J; lia|apply J].
Qed.
(** A picture of one scan, with or without markers of restart: its size, whatever follows it. *)
Theorem C83_content_size : forall read l1 cl ss se hb lb x l2 rest, let l := l1 ++ Scan cl ss se hb lb x :: l2 in let data := bytes_of_all (jpeg_items l) ++ rest in serves read data -> is_bytes data -> jpeg_ok l -> no_scans l1 -> rst_only l2 ->
  jpeg_content_size read (8 * zlen data) = Ok (Some (8 * zlen (bytes_of_all (jpeg_items l)))).
Proof.
  intros read l1 cl ss se hb lb x l2 rest l data Hs Hb K N R. destruct (found_end read l1 cl ss se hb lb x l2 rest Hs Hb K N) as (i & E & I & Il). fold l in E, I, Il. fold data in E, I. rewrite E. do 2 f_equal. destruct (jpeg_split l1 cl ss se hb lb x l2) as (before & B & Bl). fold l in B. set (s := Scan cl ss se hb lb x) in *. set (y := x ++ bytes_of_all (flat_map part_items l2)) in *.
  assert (C : calm y). { destruct K as (K & _ & _). unfold l in K. apply Forall_app in K as [_ K]. apply Forall_inv in K as Ks. apply Forall_inv_tail in K. apply calm_coded; [apply Ks|apply calm_rst; assumption]. }
  assert (Ln : zlen (bytes_of_all (jpeg_items l)) = scan_start l1 s + zlen y + 2) by (rewrite B, !zlen_app, Bl; change (zlen [255; 217]) with 2; lia).
  destruct I as (I1 & I2 & I3 & _). assert (Oz : occurs_at (y ++ 255 :: 217 :: rest) data (scan_start l1 s)). { unfold data. rewrite B, <- Bl, <- !app_assoc. cbn [app]. pose proof (occ_pre before (y ++ 255 :: 217 :: rest) []) as Op. rewrite app_nil_r in Op. exact Op. }
  apply occ_in in I3 as I5. change (zlen [255; 217]) with 2 in I5. assert (Ld : zlen data = zlen (bytes_of_all (jpeg_items l)) + zlen rest) by (unfold data; apply zlen_app).
  pose proof (occ_inside data _ [255; 217] _ (i - scan_start l1 s) Oz) as In'. replace (scan_start l1 s + (i - scan_start l1 s)) with i in In' by lia. specialize (In' I3 ltac:(lia) ltac:(change (zlen [255; 217]) with 2; rewrite zlen_app, !zlen_cons; lia)).
  apply occ_split in In' as (u & v & Eu & Lu). cbn [app] in Eu. pose proof (calm_end y C u v rest Eu). lia.
Qed.
Print Assumptions C83_content_size.
(** With several scans, it is never more than the picture. *)
Theorem C83_content_size_le : forall read l1 cl ss se hb lb x l2 rest, let l := l1 ++ Scan cl ss se hb lb x :: l2 in let data := bytes_of_all (jpeg_items l) ++ rest in serves read data -> is_bytes data -> jpeg_ok l -> no_scans l1 ->
  exists n, jpeg_content_size read (8 * zlen data) = Ok (Some n) /\ n <= 8 * zlen (bytes_of_all (jpeg_items l)).
Proof. intros read l1 cl ss se hb lb x l2 rest l data Hs Hb K N. destruct (found_end read l1 cl ss se hb lb x l2 rest Hs Hb K N) as (i & E & _ & Il). fold l in E, Il. fold data in E. exists (8 * i + 16). split; [exact E|lia]. Qed.
Print Assumptions C83_content_size_le.
(** ** The quality *)
Definition coeff_items (n : nat) (l : list (Z * Z)) : list item := map (fun iv => I (nth_name "coeff" (fst iv)) (SNum n BIG_ENDIAN (snd iv))) l.
Fixpoint found (i : Z) (l : list (Z * Z)) : option Z := match l with [] => None | (j, v) :: l => if j =? i then Some v else found i l end.
Lemma nth_name_eq i j : 0 <= i -> 0 <= j -> str_eqb (nth_name "coeff" i) (nth_name "coeff" j) = (i =? j).
Proof.
  intros A B. destruct (i =? j) eqn:E; [apply Z.eqb_eq in E; subst; apply str_eqb_eq; reflexivity|]. destruct (str_eqb _ _) eqn:S; [|reflexivity]. exfalso. apply str_eqb_eq in S. unfold nth_name in S. apply app_inv_head in S. apply app_inv_head in S. apply app_inv_tail in S. apply dec_inj in S; lia.
Qed.
Lemma coeff_get n l i : 0 <= i -> Forall (fun iv => 0 <= fst iv) l -> forall p, GenModel.get (nth_name "coeff" i) (shows (coeff_items n l) p) = option_map VNum (found i l).
Proof.
  intros A. induction 1 as [|[j v] l J _ IH]; intros p; [reflexivity|]. cbn [coeff_items map shows ItemSpec.show app GenModel.get fst snd found plain_val] in *. rewrite nth_name_eq by assumption. destruct (j =? i); [reflexivity|]. apply IH.
Qed.
Lemma found_map f l i : In i l -> found i (combine l (map f l)) = Some (f i).
Proof. induction l as [|j l IH]; intros D; [destruct D|]. cbn [map combine found]. destruct (j =? i) eqn:E; [apply Z.eqb_eq in E; subst; reflexivity|]. destruct D as [->|D]; [rewrite Z.eqb_refl in E; discriminate|apply IH, D]. Qed.
Definition quant_shown (f : list fld) (t : quant) : Prop := exists p, f = shows (two4 "is_16bit" "index" (q_wide t) (q_index t) :: coeff_items (if q_wide t =? 0 then 1 else 2) (combine zigzag (q_coeffs t))) p.
Lemma zigzag_all i : 0 <= i < 64 -> In i zigzag.
Proof. intros R. assert (F : forallb (fun k => existsb (Z.eqb k) zigzag) (map Z.of_nat (seq 0 64)) = true) by (vm_compute; reflexivity). rewrite forallb_forall in F. specialize (F i). apply existsb_exists in F as (x & D & E); [apply Z.eqb_eq in E; subst; exact D|]. apply in_map_iff. exists (Z.to_nat i). split; [lia|apply in_seq; lia]. Qed.
Lemma quant_coeff f t table i : quant_shown f t -> q_coeffs t = in_file_order table -> 0 <= i < 64 -> coeff i f = Ok (nth (Z.to_nat i) table 0).
Proof.
  intros (p & ->) C R. unfold coeff. change (index_name "coeff" i) with (nth_name "coeff" i). cbn [shows]. rewrite C.
  assert (Ga : forall a b, GenModel.get (nth_name "coeff" i) (a ++ b) = match GenModel.get (nth_name "coeff" i) a with Some k => Some k | None => GenModel.get (nth_name "coeff" i) b end) by (induction a as [|g a IH]; intros b; [reflexivity|]; cbn [app GenModel.get]; destruct g; [destruct (str_eqb _ _); [reflexivity|]|]; apply IH).
  rewrite Ga. replace (GenModel.get _ (ItemSpec.show _ _)) with (@None val) by reflexivity. rewrite coeff_get; [|lia|].
  - unfold in_file_order. rewrite found_map by (apply zigzag_all, R). reflexivity.
  - apply Forall_forall. intros [j v] D. apply in_combine_l in D. cbn [fst]. assert (F : forallb (fun k => 0 <=? k) zigzag = true) by (vm_compute; reflexivity). rewrite forallb_forall in F. specialize (F j D). lia.
Qed.
Lemma named_app name a b : named name (a ++ b) = named name a ++ named name b.
Proof. apply flat_map_app. Qed.
Lemma named_quants l : forall p, exists ts, named "qt[]" (shows (map quant_item l) p) = ts /\ Forall2 quant_shown ts l.
Proof.
  induction l as [|t l IH]; intros p; [exists []; split; [reflexivity|constructor]|]. cbn [map shows]. unfold quant_item at 1. rewrite show_set. set (q := p + _). destruct (IH q) as (ts & E & S). cbn [app]. unfold named in *. cbn [flat_map]. change (str_eqb (lit "qt[]") (lit "qt[]")) with true. cbn iota. rewrite E. cbn [app]. eexists. split; [reflexivity|]. constructor; [eexists; reflexivity|exact S].
Qed.
Lemma part_name_quant pt : str_eqb (part_name pt) (lit "quantization[]") = match pt with Tables _ => true | _ => false end.
Proof. destruct pt; try reflexivity. cbn [part_name]. destruct (tag =? 226); [reflexivity|]. destruct (tag =? 220); reflexivity. Qed.
Lemma named_part_items name pt q : str_eqb (lit "image_data[]") (lit name) = false -> named name (shows (part_items pt) q) = if str_eqb (part_name pt) (lit name) then [shows (marker (part_tag pt) ++ chunk_rest pt) q] else [].
Proof.
  intros N. unfold part_items. cbn [shows]. unfold part_item. rewrite show_set. cbn [app]. unfold named. cbn [flat_map]. replace (flat_map _ (shows match pt with Scan _ _ _ _ _ x | Rst _ x => [image x] | _ => [] end _)) with (@nil (list fld)); [rewrite app_nil_r; reflexivity|]. destruct pt; try reflexivity; unfold image; cbn [shows]; rewrite show_set; cbn [app flat_map]; rewrite N; reflexivity.
Qed.
Definition full_tables (l : list part) : Prop := Forall (fun p => p <> Tables []) l.
Lemma qts_parts l : full_tables l -> forall q, exists ts, qts (named "quantization[]" (shows (flat_map part_items l) q)) = Ok ts /\ Forall2 quant_shown ts (quants l).
Proof.
  induction 1 as [|pt l N _ IH]; intros q; [exists []; split; [reflexivity|constructor]|]. cbn [flat_map]. rewrite shows_app, named_app, named_part_items by reflexivity. rewrite part_name_quant. set (q' := q + _). destruct (IH q') as (ts & E & S). clearbody q'. destruct pt; try (exists ts; split; [exact E|exact S]).
  cbn [app qts]. rewrite (chunk_content q (Tables l0) eq_refl eq_refl) by (destruct l0; [contradiction|discriminate]). cbn [content_items]. rewrite E. destruct (named_quants l0 (q + 4)) as (t0 & -> & S0). cbn [bind]. eexists. split; [reflexivity|]. unfold quants. cbn [flat_map]. apply Forall2_app; assumption.
Qed.
Lemma qtlist_parts l : full_tables l -> exists ts, qtlist (shows (jpeg_items l) 0) = Ok ts /\ Forall2 quant_shown ts (quants l).
Proof.
  intros F. unfold qtlist, jpeg_items. cbn [shows]. rewrite show_set. cbn [app]. rewrite shows_app. unfold named at 1. cbn [flat_map]. change (str_eqb (lit "start_image") (lit "quantization[]")) with false. cbn iota. cbn [app]. rewrite flat_map_app. cbn [shows]. rewrite show_set. cbn [app flat_map]. change (str_eqb (lit "end_image") (lit "quantization[]")) with false. cbn iota. rewrite !app_nil_r. apply qts_parts, F.
Qed.
Lemma sum_coeff_ok l vs : Forall2 (fun iq v => coeff (fst iq) (snd iq) = Ok v) l vs -> sum_coeff l = Ok (fold_right Z.add 0 vs).
Proof. induction 1 as [|[i qt] v l vs E _ IH]; [reflexivity|]. cbn [sum_coeff fst snd fold_right] in *. rewrite E. cbn [bind]. rewrite IH. reflexivity. Qed.
Definition values64 (t : list Z) : list Z := map (fun i => nth i t 0) (seq 0 64).
Lemma table_values f t table : quant_shown f t -> q_coeffs t = in_file_order table -> Forall2 (fun iq v => coeff (fst iq) (snd iq) = Ok v) (map (fun i => (Z.of_nat i, f)) (seq 0 64)) (values64 table).
Proof.
  intros S C. assert (G : forall n k, (k + n <= 64)%nat -> Forall2 (fun iq v => coeff (fst iq) (snd iq) = Ok v) (map (fun i => (Z.of_nat i, f)) (seq k n)) (map (fun i => nth i table 0) (seq k n))).
  { induction n as [|n IH]; intros k B; [constructor|]. cbn [seq map]. constructor; [|apply IH; lia]. cbn [fst snd]. rewrite (quant_coeff f t table (Z.of_nat k) S C ltac:(lia)), Nat2Z.id. reflexivity. }
  apply G. lia.
Qed.
Lemma in_1_100 (P : Z -> bool) : forallb P (map Z.of_nat (seq 1 100)) = true -> forall q, 1 <= q <= 100 -> P q = true.
Proof. intros F q R. rewrite forallb_forall in F. apply F. apply in_map_iff. exists (Z.to_nat q). split; [lia|apply in_seq; lia]. Qed.
Definition is_quality (q : Z) (r : option (Z * bool)) : bool := match r with Some (n, false) => n =? q | _ => false end.
Lemma is_quality_eq q r : is_quality q r = true -> r = Some (q, false).
Proof. destruct r as [[n []]|]; try discriminate. cbn [is_quality]. intros E. apply Z.eqb_eq in E. subst. reflexivity. Qed.
(** The quality, from 1 to 100, of every picture with the tables libjpeg makes for it: two tables, the one of the luminance first, or one. *)
Theorem C83_quality : forall l q t0 t1, 1 <= q <= 100 -> full_tables l -> quants l = [t0; t1] -> q_coeffs t0 = in_file_order (scaled q luminance) -> q_coeffs t1 = in_file_order (scaled q chrominance) ->
  computeQuality (shows (jpeg_items l) 0) = Ok (Some (q, false)).
Proof.
  intros l q t0 t1 R F Q C0 C1. unfold computeQuality. destruct (qtlist_parts l F) as (ts & -> & S). rewrite Q in S. cbn [bind]. inversion S as [|f0 ? r0 ? S0 S' E0]; subst. inversion S' as [|f1 ? r1 ? S1 S'' E1]; subst. inversion S''; subst.
  cbn [flat_map]. rewrite app_nil_r. rewrite (sum_coeff_ok _ (values64 (scaled q luminance) ++ values64 (scaled q chrominance))) by (apply Forall2_app; eapply table_values; eassumption). cbn [bind].
  rewrite (quant_coeff f0 t0 _ 2 S0 C0), (quant_coeff f0 t0 _ 53 S0 C0), (quant_coeff f1 t1 _ 0 S1 C1), (quant_coeff f1 t1 _ 63 S1 C1) by lia. cbn [bind]. f_equal. apply is_quality_eq.
  set (P := fun q => is_quality q (find_quality (nth (Z.to_nat 2) (scaled q luminance) 0 + nth (Z.to_nat 53) (scaled q luminance) 0 + (nth (Z.to_nat 0) (scaled q chrominance) 0 + nth (Z.to_nat 63) (scaled q chrominance) 0)) (fold_right Z.add 0 (values64 (scaled q luminance) ++ values64 (scaled q chrominance))) 0 QUALITY_HASH_COLOR QUALITY_SUM_COLOR)).
  apply (in_1_100 P); [vm_compute; reflexivity|exact R].
Qed.
Print Assumptions C83_quality.
Theorem C83_quality_gray : forall l q t0, 1 <= q <= 100 -> full_tables l -> quants l = [t0] -> q_coeffs t0 = in_file_order (scaled q luminance) -> computeQuality (shows (jpeg_items l) 0) = Ok (Some (q, false)).
Proof.
  intros l q t0 R F Q C0. unfold computeQuality. destruct (qtlist_parts l F) as (ts & -> & S). rewrite Q in S. cbn [bind]. inversion S as [|f0 ? r0 ? S0 S' E0]; subst. inversion S'; subst.
  cbn [flat_map]. rewrite app_nil_r. rewrite (sum_coeff_ok _ (values64 (scaled q luminance))) by (eapply table_values; eassumption). cbn [bind].
  rewrite (quant_coeff f0 t0 _ 2 S0 C0), (quant_coeff f0 t0 _ 53 S0 C0) by lia. cbn [bind]. f_equal. apply is_quality_eq.
  set (P := fun q => is_quality q (find_quality (nth (Z.to_nat 2) (scaled q luminance) 0 + nth (Z.to_nat 53) (scaled q luminance) 0) (fold_right Z.add 0 (values64 (scaled q luminance))) 0 QUALITY_HASH_GRAY QUALITY_SUM_GRAY)).
  apply (in_1_100 P); [vm_compute; reflexivity|exact R].
Qed.
Print Assumptions C83_quality_gray.
(** ** The metadata *)
Import MetaModel.
Lemma any_plain e m key v : writes e -> some v -> plain_key key -> find_data m (lit key) = find_data root (lit key) -> exists m', assign e m [(key, v)] = (m', true) /\ same [key] m m'.
Proof. intros W Sv (d & D & C) M. rewrite D in M. apply (steps_plain e key [(key, v)] W) with (2 := M) (3 := C). constructor; [split; [reflexivity|exact Sv]|constructor]. Qed.
Lemma sub_keys (a b : list string) : forallb (fun k => existsb (String.eqb k) b) a = true -> forall k, In k (map lit a) -> In k (map lit b).
Proof. intros F k X. rewrite forallb_forall in F. apply in_map_iff in X as (y & <- & Y). specialize (F y Y). apply existsb_exists in F as (z & Z & E). apply String.eqb_eq in E. subst. apply in_map, Z. Qed.
Definition app0_keys := ["format_version"%string; "width_dpi"%string; "height_dpi"%string].
Lemma app0_same e ks m c : writes e -> same ks root m -> forallb (fun k => forallb (fun j => negb (str_eqb (lit k) (lit j))) app0_keys) ks = true -> same app0_keys m (fst (extractAPP0 e m c)).
Proof.
  intros W S F. assert (Fr : forall j, In j app0_keys -> forallb (fun k => negb (str_eqb (lit k) (lit j))) ks = true). { intros j J. rewrite forallb_forall in F |- *. intros k Ik. specialize (F k Ik). rewrite forallb_forall in F. apply F, J. }
  assert (Pk : forall j, In j app0_keys -> plain_key j) by (intros j [<-|[<-|[<-|[]]]]; eexists; split; reflexivity).
  assert (Al : forall ks' (a b : meta), (forall k, In k ks' -> In k app0_keys) -> same ks' a b -> same app0_keys a b) by (intros ks' a b H S' k Nk; apply S'; intros X; apply Nk; apply in_map_iff in X as (y & <- & Y); apply in_map, H, Y).
  assert (Re : forall a, same app0_keys a a) by (intros a k _; reflexivity).
  unfold extractAPP0, ask. destruct (GenModel.get _ c); [|apply Re]. destruct (GenModel.get _ c); [|apply Re].
  match goal with |- context [assign e m [("format_version"%string, ?v)]] => destruct (any_plain e m "format_version" v W Logic.I (Pk "format_version"%string ltac:(unfold app0_keys; cbn [In]; tauto)) (S _ (fresh _ _ (Fr "format_version"%string ltac:(unfold app0_keys; cbn [In]; tauto))))) as (m1 & -> & S1) end.
  unfold andthen at 1. cbn [fst snd]. assert (A1 : same app0_keys m m1) by (eapply Al; [|exact S1]; unfold app0_keys; cbn [In app]; intros; tauto). destruct (has_field _ c); [|exact A1]. destruct (GenModel.get _ c); [|exact A1].
  match goal with |- context [assign e m1 [("width_dpi"%string, ?v)]] => destruct (any_plain e m1 "width_dpi" v W Logic.I (Pk "width_dpi"%string ltac:(unfold app0_keys; cbn [In]; tauto))) as (m2 & -> & S2) end; [rewrite (S1 (lit "width_dpi")) by (cbn; intros [X|[]]; discriminate X); apply S, fresh, Fr; unfold app0_keys; cbn [In]; tauto|].
  unfold andthen at 1. cbn [fst snd]. pose proof (same_trans _ _ _ _ _ S1 S2) as S12. assert (A2 : same app0_keys m m2) by (eapply Al; [|exact S12]; unfold app0_keys; cbn [In app]; intros; tauto). destruct (GenModel.get _ c); [|exact A2].
  match goal with |- context [assign e m2 [("height_dpi"%string, ?v)]] => destruct (any_plain e m2 "height_dpi" v W Logic.I (Pk "height_dpi"%string ltac:(unfold app0_keys; cbn [In]; tauto))) as (m3 & -> & S3) end; [rewrite (S12 (lit "height_dpi")) by (cbn; intros [X|[X|[]]]; discriminate X); apply S, fresh, Fr; unfold app0_keys; cbn [In]; tauto|].
  cbn [fst]. pose proof (same_trans _ _ _ _ _ S12 S3) as S13. eapply Al; [|exact S13]; unfold app0_keys; cbn [In app]; intros; tauto.
Qed.
(** The compression is written twice: the second one is a prefix of the first one *)
Lemma shorter_dropped e d x tx : kept_text e (lit "JPEG (" ++ x) -> d_type d = None -> d_values d = [(MStr (lit "JPEG (" ++ x), tx)] -> writes e -> store e d (MStr (lit "JPEG")) None = Ok (d_values d).
Proof.
  intros (_ & _ & _ & Lm) T V W. unfold store. assert (Ns : normalizeString e (lit "JPEG") = lit "JPEG") by (unfold normalizeString; destruct (e_raw_output e); reflexivity). rewrite Ns. change (store_checked e d (MStr (lit "JPEG")) None = Ok (d_values d)). unfold store_checked. rewrite T. cbn iota. change (HumanModel.normalizeNewline (lit "JPEG")) with (lit "JPEG").
  change (zlen (lit "JPEG")) with 4. replace (negb (e_max_str_length e =? 0) && (e_max_str_length e <? 4)) with false. 2:{ rewrite zlen_app in Lm. change (zlen (lit "JPEG (")) with 6 in Lm. pose proof (zlen_nonneg x). lia. }
  destruct (contains (d_values d) (MStr (lit "JPEG"))); [reflexivity|]. destruct (match d_filter d with Some _ => _ | None => _ end); [reflexivity|]. destruct (create_ok e d (MStr (lit "JPEG")) None W) as (it & -> & _). cbn [bind]. rewrite V. reflexivity.
Qed.
Definition frame_text (t : Z) : str := lit "JPEG (" ++ frame_kind t ++ lit ")".
Lemma frame_name_kind t : In t frame_tags -> frame_name t = frame_kind t.
Proof. intros T. unfold frame_tags in T. cbn [In] in T. repeat (destruct T as [<-|T]; [reflexivity|]). destruct T. Qed.
Definition pixels (n : Z) : list (string * mval) := if n =? 3 then [("pixel_format"%string, MStr (lit "YCbCr"))] else if n =? 1 then [("pixel_format"%string, MStr (lit "Grayscale")); ("nb_colors"%string, MInt 256)] else [].
Lemma extract_jpeg e text L k c t w h n : In t frame_tags -> writes e -> group (lit "start_frame") L = Some k -> content k = Some c -> GenModel.get (lit "type") k = Some (VNum t) -> GenModel.get (lit "width") c = Some (VNum w) -> GenModel.get (lit "height") c = Some (VNum h) -> GenModel.get (lit "nr_components") c = Some (VNum n) ->
  let m := jpeg_metadata e text L in
  getValues m (lit "width") = Ok (in_limits 1 20000 w) /\ getValues m (lit "height") = Ok (in_limits 1 20000 h) /\ getValues m (lit "bits_per_pixel") = Ok (in_limits 1 256 (8 * n)) /\
  (kept_text e (frame_text t) -> getValues m (lit "compression") = Ok [MStr (frame_text t)]) /\
  (n = 3 -> kept_text e (lit "YCbCr") -> getValues m (lit "pixel_format") = Ok [MStr (lit "YCbCr")]) /\
  (n = 1 -> kept_text e (lit "Grayscale") -> getValues m (lit "pixel_format") = Ok [MStr (lit "Grayscale")]) /\ (n = 1 -> getValues m (lit "nb_colors") = Ok [MInt 256]) /\
  (forall q, comments text L = [] -> computeQuality L = Ok (Some q) -> kept_text e (quality_text q) -> getValues m (lit "comment") = Ok [MStr (quality_text q)]).
Proof.
  intros It W Gk Ck Gt Gw Gh Gn. cbv zeta. remember (jpeg_metadata e text L) as mm eqn:Em0. symmetry in Em0. revert Em0. unfold jpeg_metadata, jpeg_extract. rewrite Gk, Ck.
  assert (Ik : forall key lo hi d, find_data root (lit key) = Some d -> d_values d = [] -> d_type d = Some [TInt] -> d_filter d = Some (NumberFilter (FNum lo 1) (FNum hi 1)) -> d_conv d = None -> int_key key lo hi) by (intros; eexists; eauto 6).
  assert (Tk : forall key d, find_data root (lit key) = Some d -> d_values d = [] -> d_type d = None \/ d_type d = Some [TStr] -> d_filter d = None -> d_conv d = None -> text_key key) by (intros; eexists; eauto 6).
  assert (D0 : exists d0, find_data root (lit "compression") = Some d0 /\ d_conv d0 = None /\ d_type d0 = None) by (eexists; repeat split; reflexivity). destruct D0 as (d0 & D0 & Dc & Dt).
  destruct (set_other e root (lit "compression") d0 (MStr (frame_text t)) W Logic.I D0 Dc) as (l1 & L1 & A1). set (m1 := with_values root (lit "compression") l1) in *.
  assert (S1 : same ["compression"%string] root m1) by (intros k' Nk; apply find_with_values_other; intros X; apply Nk; left; exact X). assert (F1 : find_data m1 (lit "compression") = Some (set_values d0 l1)) by (apply find_with_values_same, D0).
  assert (V1 : kept_text e (frame_text t) -> exists tx, l1 = [(MStr (frame_text t), tx)]).
  { intros Kt. destruct (step_text e [] root "compression" (frame_text t) W Kt (same_refl _ _)) as (m1' & A1' & _ & V & _); [eapply Tk; try reflexivity; left; reflexivity|reflexivity|]. cbn [assign] in A1'. rewrite A1 in A1'. injection A1' as <-. unfold getValues, getItems in V. rewrite F1 in V. cbn [bind set_values d_values] in V. destruct l1 as [|[v tx] [|]]; try discriminate V. cbn [map fst] in V. injection V as ->. exists tx. reflexivity. }
  destruct (step_int e _ m1 "width" w 1 20000 W S1) as (m2 & A2 & T2 & V2 & S2); [eapply Ik; reflexivity|reflexivity|].
  destruct (step_int e _ m2 "height" h 1 20000 W T2) as (m3 & A3 & T3 & V3 & S3); [eapply Ik; reflexivity|reflexivity|].
  destruct (step_int e _ m3 "bits_per_pixel" (8 * n) 1 256 W T3) as (m4 & A4 & T4 & V4 & S4); [eapply Ik; reflexivity|reflexivity|].
  assert (P : exists m5, assign e m4 (pixels n) = (m5, true) /\ same ["pixel_format"%string; "nb_colors"%string] m4 m5 /\ (n = 3 -> kept_text e (lit "YCbCr") -> getValues m5 (lit "pixel_format") = Ok [MStr (lit "YCbCr")]) /\ (n = 1 -> kept_text e (lit "Grayscale") -> getValues m5 (lit "pixel_format") = Ok [MStr (lit "Grayscale")]) /\ (n = 1 -> getValues m5 (lit "nb_colors") = Ok [MInt 256])).
  { assert (Tp : text_key "pixel_format") by (eapply Tk; try reflexivity; (left; reflexivity) || (right; reflexivity)). assert (Pp : plain_key "pixel_format") by (eexists; split; reflexivity).
    unfold pixels. destruct (n =? 3) eqn:N3; [|destruct (n =? 1) eqn:N1; [|exists m4; split; [reflexivity|]; split; [intros k' _; reflexivity|]; repeat split; intros; lia]].
    - destruct (step_plain e _ m4 "pixel_format" (MStr (lit "YCbCr")) W Logic.I T4 Pp eq_refl) as (m5 & A5 & T5 & S5). exists m5. split; [exact A5|]. split; [intros k' Nk; apply S5; intros [X|[]]; apply Nk; left; exact X|]. repeat split; try (intros; lia). intros _ Kt. destruct (step_text e _ m4 "pixel_format" (lit "YCbCr") W Kt T4 Tp eq_refl) as (m5' & A5' & _ & V5 & _). rewrite A5 in A5'. injection A5' as <-. exact V5.
    - destruct (step_plain e _ m4 "pixel_format" (MStr (lit "Grayscale")) W Logic.I T4 Pp eq_refl) as (m5 & A5 & T5 & S5). destruct (step_int e _ m5 "nb_colors" 256 1 16777216 W T5) as (m6 & A6 & T6 & V6 & S6); [eapply Ik; reflexivity|reflexivity|]. exists m6.
      split; [cbn [assign] in A5, A6 |- *; destruct (setattr e m4 (lit "pixel_format") (AVal (MStr (lit "Grayscale")))); [|discriminate A5]; injection A5 as ->; exact A6|]. split; [exact (same_trans _ _ _ _ _ S5 S6)|]. repeat split; try (intros; lia); [|intros _; exact V6].
      intros _ Kt. destruct (step_text e _ m4 "pixel_format" (lit "Grayscale") W Kt T4 Tp eq_refl) as (m5' & A5' & _ & V5 & _). rewrite A5 in A5'. injection A5' as <-. eapply (kept _ _ _ _ _ S6); [reflexivity|exact V5]. }
  destruct P as (m5 & A5 & S5 & V5a & V5b & V5c). pose proof (same_trans _ _ _ _ _ T4 S5) as T5.
  assert (E5 : startOfFrame e root k c = (m5, true)).
  { unfold startOfFrame, ask. rewrite Gt, Gw, Gh, Gn. cbn [num]. rewrite (frame_name_kind t It). fold (frame_text t). cbn [assign]. rewrite A1. unfold andthen at 1. cbn [fst snd]. cbn [assign] in A2, A3, A4. destruct (setattr e m1 (lit "width") (AVal (MInt w))); [|discriminate A2]. injection A2 as ->. unfold andthen at 1. cbn [fst snd].
    destruct (setattr e m2 (lit "height") (AVal (MInt h))); [|discriminate A3]. injection A3 as ->. unfold andthen at 1. cbn [fst snd]. destruct (setattr e m3 (lit "bits_per_pixel") (AVal (MInt (8 * n)))); [|discriminate A4]. injection A4 as ->. unfold andthen at 1. cbn [fst snd]. rewrite <- A5. unfold pixels. destruct (n =? 3); [reflexivity|]. destruct (n =? 1); reflexivity. }
  rewrite E5. cbn [fst].
  set (m6 := match path "app0" L with Some c => fst (extractAPP0 e m5 c) | None => m5 end). assert (S6 : same app0_keys m5 m6) by (unfold m6; destruct (path "app0" L); [eapply app0_same; [exact W|exact T5|reflexivity]|intros k' _; reflexivity]). clearbody m6. pose proof (same_trans _ _ _ _ _ T5 S6) as T6.
  assert (X : exists d, find_data m6 (lit "comment") = Some d /\ d_conv d = None) by (rewrite T6 by (apply fresh; reflexivity); eexists; split; reflexivity). destruct X as (d & D & Dcc).
  destruct (steps_plain e "comment" (comments text L) W) with (2 := D) (3 := Dcc) as (m7 & A7 & S7).
  { apply Forall_forall. intros [k' v] Iv. apply in_flat_map in Iv as (x & _ & Iv). destruct (content x) as [cx|]; [|destruct Iv]. destruct (GenModel.get (lit "comment") cx); [|destruct Iv]. destruct Iv as [Iv|[]]. injection Iv as <- <-. split; [reflexivity|exact Logic.I]. }
  rewrite A7. unfold andthen at 1. cbn [fst snd]. pose proof (same_trans _ _ _ _ _ T6 S7) as T7.
  set (m8 := match computeQuality L with Ok (Some q) => fst (assign e m7 [("comment"%string, MStr (quality_text q))]) | _ => m7 end).
  assert (S8 : same ["comment"%string] m7 m8).
  { unfold m8. destruct (computeQuality L) as [[q|]|]; try (intros k' _; reflexivity). assert (X : exists d, find_data m7 (lit "comment") = Some d /\ d_conv d = None). { clear - A7 D Dcc W. revert m6 d D Dcc A7. induction (comments text L) as [|[k v] cs IH]; intros m6 d D Dcc A7; cbn [assign] in A7; [injection A7 as ->; eauto|].
      destruct (setattr e m6 (lit k) (AVal v)) as [m'|] eqn:Sa; [|discriminate A7]. unfold setattr in Sa. destruct (find_data m6 (lit k)) as [d'|] eqn:F; [|discriminate Sa]. destruct (data_add e d' (AVal v)) as [[tt0 rr]|] eqn:Da; [|discriminate Sa]. cbn [bind fst snd] in Sa.
      assert (Y : forall a kk ll, (exists d, find_data a (lit "comment") = Some d /\ d_conv d = None) -> exists d, find_data (with_values a kk ll) (lit "comment") = Some d /\ d_conv d = None). { intros a kk ll (dd & Dd & Cd). rewrite find_with_values, Dd. cbn [option_map]. destruct (str_eqb _ _); [exists (set_values dd ll)|exists dd]; split; try reflexivity; exact Cd. }
      assert (Z : exists d, find_data m' (lit "comment") = Some d /\ d_conv d = None). { destruct tt0 as [tot|].
        - unfold set_plain in Sa. destruct (find_data m6 (lit "track_total")) as [dt|]; [|injection Sa as <-; eauto]. destruct (data_add e dt (AVal tot)) as [[? r2]|]; cbn [bind] in Sa; [|injection Sa as <-; eauto]. cbn [snd] in Sa. destruct r2; cbn [bind] in Sa; [|injection Sa as <-; eauto]. destruct rr; cbn [bind] in Sa; [|discriminate Sa]. injection Sa as <-. apply Y, Y. eauto.
        - destruct rr; cbn [bind] in Sa; [|discriminate Sa]. injection Sa as <-. apply Y. eauto. }
      destruct Z as (d2 & D2 & C2). eapply IH; [exact D2|exact C2|exact A7]. }
    destruct X as (d7 & D7 & C7). destruct (steps_plain e "comment" [("comment"%string, MStr (quality_text q))] W) with (2 := D7) (3 := C7) as (m8' & A8 & S8); [constructor; [split; [reflexivity|exact Logic.I]|constructor]|]. rewrite A8. exact S8. }
  assert (V8 : forall q, comments text L = [] -> computeQuality L = Ok (Some q) -> kept_text e (quality_text q) -> getValues m8 (lit "comment") = Ok [MStr (quality_text q)]).
  { intros q Nc Eq Kt. rewrite Nc in A7. cbn [assign] in A7. injection A7 as <-. unfold m8. rewrite Eq. destruct (step_text e _ m6 "comment" (quality_text q) W Kt T6) as (m8' & A8 & _ & V & _); [eapply Tk; try reflexivity; (left; reflexivity) || (right; reflexivity)|reflexivity|]. rewrite A8. exact V. }
  clearbody m8. assert (T8 : same (["compression"; "width"; "height"; "bits_per_pixel"; "pixel_format"; "nb_colors"]%string ++ app0_keys ++ ["comment"%string]) root m8).
  { intros k' Nk. rewrite (S8 k') by (intros X; apply Nk; rewrite !map_app, !in_app_iff; tauto). apply T7. intros X. apply Nk. eapply sub_keys; [|exact X]; reflexivity. }
  match goal with |- with_mime e (fst (andthen ?a _)) _ _ = _ -> _ => assert (P : exists m9, a = (m9, true) /\ same ["producer"%string] m8 m9) end.
  { destruct (group (lit "photoshop") L); [|exists m8; split; [reflexivity|intros k' _; reflexivity]]. destruct (has_key m8 "producer"); [exists m8; split; [reflexivity|intros k' _; reflexivity]|]. apply any_plain; [exact W|exact Logic.I|eexists; split; reflexivity|]. apply T8, fresh. reflexivity. }
  destruct P as (m9 & -> & S9). unfold andthen. cbn [fst snd].
  assert (F9 : find_data m9 (lit "compression") = Some (set_values d0 l1)). { rewrite S9, S8, S7, S6, S5, S4, S3, S2 by (apply fresh; reflexivity). exact F1. }
  match goal with |- with_mime e (fst ?a) _ _ = _ -> _ => assert (P : exists m10, a = (m10, true) /\ same ["compression"%string] m9 m10 /\ (kept_text e (frame_text t) -> getValues m10 (lit "compression") = Ok [MStr (frame_text t)])) end.
  { assert (G9 : kept_text e (frame_text t) -> getValues m9 (lit "compression") = Ok [MStr (frame_text t)]) by (intros Kt; destruct (V1 Kt) as (tx & El); unfold getValues, getItems; rewrite F9, El; reflexivity).
    destruct (has_key m9 "compression"); [|exists m9; split; [reflexivity|]; split; [intros k' _; reflexivity|exact G9]]. destruct (set_other e m9 (lit "compression") (set_values d0 l1) (MStr (lit "JPEG")) W Logic.I F9 Dc) as (l2 & L2 & A10). cbn [assign]. rewrite A10. eexists. split; [reflexivity|]. split; [intros k' Nk; apply find_with_values_other; intros X; apply Nk; left; exact X|].
    intros Kt. destruct (V1 Kt) as (tx & El). rewrite (shorter_dropped e (set_values d0 l1) _ tx Kt Dt El W) in L2. injection L2 as <-. unfold getValues, getItems. rewrite (find_with_values_same _ _ _ _ F9). cbn [bind set_values d_values]. rewrite El. reflexivity. }
  destruct P as (m10 & -> & S10 & V10). cbn [fst]. assert (T10 : same (["compression"; "width"; "height"; "bits_per_pixel"; "pixel_format"; "nb_colors"]%string ++ app0_keys ++ ["comment"%string; "producer"%string]) root m10).
  { intros k' Nk. rewrite (S10 k'), (S9 k') by (intros X; apply Nk; eapply sub_keys; [|exact X]; reflexivity). apply T8. intros X. apply Nk. eapply sub_keys; [|exact X]; reflexivity. }
  pose proof (mime_step e _ m10 (lit "image/jpeg") (lit "Big endian") T10 eq_refl) as S11. intros <-.
  pose proof (same_trans _ _ _ _ _ S10 S11) as U9. pose proof (same_trans _ _ _ _ _ S9 U9) as U8. pose proof (same_trans _ _ _ _ _ S8 U8) as U7. pose proof (same_trans _ _ _ _ _ S7 U7) as U6. pose proof (same_trans _ _ _ _ _ S6 U6) as U5. pose proof (same_trans _ _ _ _ _ S5 U5) as U4. pose proof (same_trans _ _ _ _ _ S4 U4) as U3. pose proof (same_trans _ _ _ _ _ S3 U3) as U2.
  split; [eapply (kept _ _ _ _ _ U2); [reflexivity|exact V2]|]. split; [eapply (kept _ _ _ _ _ U3); [reflexivity|exact V3]|]. split; [eapply (kept _ _ _ _ _ U4); [reflexivity|exact V4]|]. split; [intros Kt; eapply (kept _ _ _ _ _ S11); [reflexivity|exact (V10 Kt)]|].
  split; [intros N Kt; eapply (kept _ _ _ _ _ U5); [reflexivity|exact (V5a N Kt)]|]. split; [intros N Kt; eapply (kept _ _ _ _ _ U5); [reflexivity|exact (V5b N Kt)]|]. split; [intros N; eapply (kept _ _ _ _ _ U5); [reflexivity|exact (V5c N)]|].
  intros q N1 N2 Kt. eapply (kept _ _ _ _ _ U8); [reflexivity|exact (V8 q N1 N2 Kt)].
Qed.
Lemma no_comments text a b : comments text (a ++ b) = comments text a ++ comments text b.
Proof. unfold comments. rewrite named_app. apply flat_map_app. Qed.
Definition is_comment (p : part) : bool := match p with Comment _ => true | _ => false end.
Lemma part_name_comment pt : str_eqb (part_name pt) (lit "comment[]") = is_comment pt.
Proof. destruct pt; try reflexivity. cbn [part_name]. destruct (tag =? 226); [reflexivity|]. destruct (tag =? 220); reflexivity. Qed.
Lemma parts_comments text l : Forall (fun p => is_comment p = false) l -> forall q, comments text (shows (flat_map part_items l) q) = [].
Proof. induction 1 as [|pt l N _ IH]; intros q; [reflexivity|]. cbn [flat_map]. rewrite shows_app, no_comments, IH, app_nil_r. unfold comments. rewrite named_part_items by reflexivity. rewrite part_name_comment, N. reflexivity. Qed.
Lemma file_comments text l : Forall (fun p => is_comment p = false) l -> comments text (shows (jpeg_items l) 0) = [].
Proof. intros N. unfold jpeg_items. change (?a :: ?b ++ ?c) with ([a] ++ b ++ c). rewrite !shows_app, !no_comments, parts_comments by exact N. reflexivity. Qed.
Lemma frame_tag l1 t pc h w cl l2 : jpeg_ok (l1 ++ Frame t pc h w cl :: l2) -> In t frame_tags.
Proof. intros (K & _). apply Forall_app in K as [_ K]. apply Forall_inv in K as [_ K]. apply K. Qed.
(** The metadata of every picture with a frame, whatever comes after the picture: the size, 8 bits for each component, the compression with the name of the kind of frame, and for
    pictures of 1 or 3 components the format of pixels. *)
Theorem C83_metadata : forall e text read l1 t pc h w cl l2 rest, let l := l1 ++ Frame t pc h w cl :: l2 in let data := bytes_of_all (jpeg_items l) ++ rest in writes e -> serves read data -> is_bytes data -> jpeg_ok l -> not_frames l1 ->
  let m := jpeg_metadata e text (fst (fst (JpegFile read (8 * zlen data)))) in let n := zlen cl in
  getValues m (lit "width") = Ok (in_limits 1 20000 w) /\ getValues m (lit "height") = Ok (in_limits 1 20000 h) /\ getValues m (lit "bits_per_pixel") = Ok (in_limits 1 256 (8 * n)) /\
  (kept_text e (frame_text t) -> getValues m (lit "compression") = Ok [MStr (frame_text t)]) /\
  (n = 3 -> kept_text e (lit "YCbCr") -> getValues m (lit "pixel_format") = Ok [MStr (lit "YCbCr")]) /\
  (n = 1 -> kept_text e (lit "Grayscale") -> getValues m (lit "pixel_format") = Ok [MStr (lit "Grayscale")]) /\ (n = 1 -> getValues m (lit "nb_colors") = Ok [MInt 256]).
Proof.
  intros e text read l1 t pc h w cl l2 rest l data W Hs Hb K N. destruct (C83_prefix read l rest Hs Hb K) as (r & E). fold data in E. rewrite E. unfold puts. cbn [fst]. unfold l. destruct (first_frame l1 t pc h w cl l2 (fst (fst r)) N) as (q & G). destruct (frame_fields t pc h w cl q) as (c & Ec & Ew & Eh & En & Et).
  pose proof (extract_jpeg e text _ _ c t w h (zlen cl) (frame_tag l1 t pc h w cl l2 K) W G Ec Et Ew Eh En) as X. cbv zeta in *. repeat split; apply X.
Qed.
Print Assumptions C83_metadata.
(** The quality is a comment: for a picture without comments, and with the tables libjpeg makes for the quality q, "JPEG quality: q%". *)
Theorem C83_quality_comment : forall e text read l1 t pc h w cl l2 q t0 t1, let l := l1 ++ Frame t pc h w cl :: l2 in let data := bytes_of_all (jpeg_items l) in writes e -> serves read data -> is_bytes data -> jpeg_ok l -> not_frames l1 ->
  full_tables l -> Forall (fun p => is_comment p = false) l -> 1 <= q <= 100 -> quants l = [t0; t1] -> q_coeffs t0 = in_file_order (scaled q luminance) -> q_coeffs t1 = in_file_order (scaled q chrominance) ->
  let s := lit "JPEG quality: " ++ dec q ++ lit "%" in kept_text e s -> getValues (jpeg_metadata e text (fst (fst (JpegFile read (8 * zlen data))))) (lit "comment") = Ok [MStr s].
Proof.
  intros e text read l1 t pc h w cl l2 q t0 t1 l data W Hs Hb K N F Nc R Q C0 C1 s Kt. unfold data. rewrite C83_file by assumption. cbn [fst]. destruct (first_frame l1 t pc h w cl l2 [] N) as (q' & G). rewrite app_nil_r in G. destruct (frame_fields t pc h w cl q') as (c & Ec & Ew & Eh & En & Et).
  pose proof (extract_jpeg e text _ _ c t w h (zlen cl) (frame_tag l1 t pc h w cl l2 K) W G Ec Et Ew Eh En) as X. cbv zeta in X. destruct X as (_ & _ & _ & _ & _ & _ & _ & X). fold l in X. assert (Es : quality_text (q, false) = s) by (unfold quality_text, s; cbn [fst snd]; rewrite app_nil_r; reflexivity).
  specialize (X (q, false) (file_comments text l Nc) (C83_quality l q t0 t1 R F Q C0 C1)). rewrite Es in X. exact (X Kt).
Qed.
Print Assumptions C83_quality_comment.
(** ** Pictures *)
Definition square : list part :=
  [Jfif 1 1 1 72 72 0 0; Exif [77; 77]; Comment (lit "Made here"); Tables [Quant 0 0 (in_file_order (scaled 75 luminance)); Quant 0 1 (in_file_order (scaled 75 chrominance))]; Segment 0xe5 [1; 2]; Adobe 100 1 0 [0; 0] 1; Ducky [(1, [0; 60])]; Photoshop (lit "8BIM");
   Frame 0xc0 8 16 24 [(1, 2, 2, 0); (2, 1, 1, 1); (3, 1, 1, 1)]; Huffman [Codes 0 0 ([[]; [0; 1]] ++ List.repeat [] 14)]; Interval 4; Segment 0xe2 [];
   Scan [(1, 0, 0); (2, 1, 1); (3, 1, 1)] 0 63 0 0 [1; 0xff; 0; 7]; Rst 0 [0xff; 0]; Rst 1 [9]].
Definition gray (q : Z) : list part := [Tables [Quant 0 0 (in_file_order (scaled q luminance))]; Frame 0xc2 8 5 6 [(1, 1, 1, 0)]; Scan [(1, 0, 0)] 0 0 0 1 [5]].
Ltac coded_by := repeat first [apply coded_nil | apply coded_ff | apply coded_byte; [discriminate|]].
Ltac drawn := repeat match goal with
  | |- True => exact Logic.I | |- jpeg_ok _ => split; [|split; [|vm_compute; discriminate]] | |- framed _ _ => repeat split; intros; first [reflexivity|discriminate]
  | |- Forall _ [] => constructor | |- Forall _ (_ :: _) => constructor | |- part_ok _ => split; [vm_compute; reflexivity|] | |- _ /\ _ => split
  | |- coded _ => coded_by; fail | |- Forall _ (q_coeffs _) => apply Forall_forall; intros ? X; vm_compute in X; repeat (destruct X as [<-|X]; [vm_compute; split; [discriminate|reflexivity]|]); destruct X
  | |- quant_ok _ => unfold quant_ok | |- codes_ok _ => unfold codes_ok | |- frame_component_ok _ => cbn [frame_component_ok] | |- scan_component_ok _ _ => cbn [scan_component_ok] | |- byte _ => unfold byte | |- short _ => unfold short | |- nibble _ => unfold nibble
  | |- In _ _ => vm_compute; tauto end.
Lemma square_ok : jpeg_ok square.
Proof. unfold square. drawn. all: try (vm_compute; first [reflexivity|discriminate|tauto]; fail). all: try (cbn; lia). cbn [c_symbols app List.repeat]. drawn; try (vm_compute; first [reflexivity|discriminate]; fail). Qed.
Example C83_pictures : jpeg_ok square /\ jpeg_ok (gray 50) /\ is_bytes (bytes_of_all (jpeg_items square)) /\ zlen (bytes_of_all (jpeg_items square)) = 305 /\
  (let data := bytes_of_all (jpeg_items square) ++ [1; 2; 0xff; 0xd9] in serves (string_read data) data /\ ends (string_read data) data /\
   jpeg_validate (string_read data) (8 * zlen data) = Ok true /\ jpeg_content_size (string_read data) (8 * zlen data) = Ok (Some (8 * 305)) /\ jpeg_description (fst (fst (JpegFile (string_read data) (8 * zlen data)))) = Ok (lit "JPEG picture: 24x16 pixels")) /\
  map f_name (shows (jpeg_items (gray 50)) 0) = map lit ["start_image"; "quantization[]"; "start_frame"; "start_scan[]"; "image_data[]"; "end_image"]%string /\
  computeQuality (shows (jpeg_items square) 0) = Ok (Some (75, false)) /\ computeQuality (shows (jpeg_items (gray 50)) 0) = Ok (Some (50, false)).
Proof.
  split; [exact square_ok|]. split; [unfold gray; drawn; try (vm_compute; first [reflexivity|discriminate]; fail)|]. split; [apply Forall_forall; intros x X; vm_compute in X; repeat (destruct X as [<-|X]; [vm_compute; split; [discriminate|reflexivity]|]); destruct X|]. split; [vm_compute; reflexivity|].
  split; [cbv zeta; split; [apply string_serves|]; split; [apply string_ends|]; repeat split; vm_compute; reflexivity|]. repeat split; vm_compute; reflexivity.
Qed.
Example C83_values : writes plain_env /\ kept_text plain_env (frame_text 0xc0) /\ kept_text plain_env (lit "JPEG quality: 75%") /\
  let m := jpeg_metadata plain_env (fun x => x) (shows (jpeg_items square) 0) in
  getValues m (lit "width") = Ok [MInt 24] /\ getValues m (lit "compression") = Ok [MStr (lit "JPEG (Baseline)")] /\ getValues m (lit "pixel_format") = Ok [MStr (lit "YCbCr")] /\ getValues m (lit "comment") = Ok [MStr (lit "Made here"); MStr (lit "JPEG quality: 75%")] /\
  getValues m (lit "width_dpi") = Ok [MInt 72] /\ getValues m (lit "format_version") = Ok [MStr (lit "JFIF 1.01")].
Proof. split; [intros h v; eexists; reflexivity|]. split; [split; [discriminate|]; split; [reflexivity|]; split; [reflexivity|right; vm_compute; discriminate]|]. split; [split; [discriminate|]; split; [reflexivity|]; split; [reflexivity|right; vm_compute; discriminate]|]. cbv zeta. repeat split; vm_compute; reflexivity. Qed.
(** ** What is missed *)
(** Pictures whose first or second segment is APP3 to APP11, APP15 or reserved are refused: only the types with a name are accepted there (jpeg.py:574-580). *)
Theorem C83_unknown_refuted : forall read l t x rest, let data := bytes_of_all (jpeg_items (Segment t x :: l)) ++ rest in serves read data -> is_bytes data -> jpeg_ok (Segment t x :: l) -> 0xe3 <= t <= 0xeb -> jpeg_validate read (8 * zlen data) = Ok false.
Proof. intros read l t x rest data Hs Hb K T. unfold data. rewrite C83_valid; [|exact Hs|exact Hb|exact K|discriminate]. cbn [firstn forallb named_part]. replace ((t =? 220) || (t =? 225) || (t =? 226)) with false by lia. reflexivity. Qed.
Print Assumptions C83_unknown_refuted.
(** The size of the content is too small when a segment after the first scan has the bytes FF D9: the search for the end goes through the segments (jpeg.py:642-649). *)
Definition two_scans : list part := [Frame 0xc2 8 5 6 [(1, 1, 1, 0)]; Scan [(1, 0, 0)] 0 0 0 1 [5]; Comment [255; 217]; Scan [(1, 0, 0)] 0 0 0 0 [6]].
Theorem C83_content_size_refuted : let data := bytes_of_all (jpeg_items two_scans) in jpeg_ok two_scans /\ zlen data = 45 /\ jpeg_content_size (string_read data) (8 * zlen data) = Ok (Some (8 * 32)).
Proof. cbv zeta. split; [unfold two_scans; drawn; try (vm_compute; first [reflexivity|discriminate]; fail)|]. split; vm_compute; reflexivity. Qed.
Print Assumptions C83_content_size_refuted.
(** JFIF thumbnails are red, green and blue bytes of pixels; the parser wants 256 colors and then a byte for each pixel (jpeg.py:118-123): a thumbnail of one pixel is shown as a palette, and no
    data. *)
Theorem C83_thumbnail_refuted : exists a b c, let data := [255; 216; 255; 224; 0; 19] ++ lit "JFIF" ++ [0; 1; 2; 0; 0; 1; 0; 1; 1; 1] ++ [10; 20; 30] ++ [255; 217] in
  JpegFile (string_read data) (8 * zlen data) = ([a; b; c], None, 8 * zlen data) /\ f_name b = lit "app0" /\
  match b with
  | G _ _ _ k _ => exists l, content k = Some l /\ GenModel.get (lit "thumb_data") l = None /\ exists colors, group (lit "thumb_palette") l = Some [colors] /\ f_size colors = 24
  | _ => False
  end.
Proof. do 3 eexists. cbv zeta. split; [vm_compute; reflexivity|]. split; [reflexivity|]. eexists. split; [vm_compute; reflexivity|]. split; [vm_compute; reflexivity|]. eexists. split; vm_compute; reflexivity. Qed.
Print Assumptions C83_thumbnail_refuted.
(** A scan of the second component alone, as in most progressive pictures: the parser wants the number of the component not to be more than the number of components of the scan (jpeg.py:208-211),
    and shows only this number. *)
Theorem C83_scan_refuted : exists a b c, let data := [255; 216] ++ [255; 218; 0; 8; 1; 2; 0; 0; 63; 0] ++ [255; 217] in
  JpegFile (string_read data) (8 * zlen data) = ([a; b; c], None, 8 * zlen data) /\
  match b with G n _ _ k _ => n = lit "start_scan[]" /\ content k = Some [F (lit "nr_components") 48 8 (VNum 1)] | _ => False end.
Proof. do 3 eexists. cbv zeta. split; [vm_compute; reflexivity|]. split; [reflexivity|vm_compute; reflexivity]. Qed.
Print Assumptions C83_scan_refuted.
(** Fill bytes, which T.81 (B.1.1.2) allows before any marker: the parser takes the second 0xFF for the type of a segment (jpeg.py:514-528), and all that follows is taken for its data. *)
Theorem C83_fill_refuted : exists a b, let data := [255; 216] ++ [255] ++ [255; 254; 0; 5; 65; 66; 67] ++ [255; 217] in
  JpegFile (string_read data) (8 * zlen data) = ([a; b], None, 8 * zlen data) /\
  match b with G n _ _ k _ => n = lit "chunk[]" /\ GenModel.get (lit "type") k = Some (VNum 255) /\ GenModel.get (lit "size") k = Some (VNum 65024) | _ => False end.
Proof. do 2 eexists. cbv zeta. split; [vm_compute; reflexivity|]. split; [reflexivity|]. split; reflexivity. Qed.
Print Assumptions C83_fill_refuted.
(** The marker TEM (0xFF01) has no size; the parser takes the marker after it for one. *)
Theorem C83_tem_refuted : exists a b, let data := [255; 216] ++ [255; 1] ++ [255; 217] in
  JpegFile (string_read data) (8 * zlen data) = ([a; b], None, 8 * zlen data) /\ match b with G n _ _ k _ => n = lit "chunk[]" /\ GenModel.get (lit "size") k = Some (VNum 0xffd9) | _ => False end.
Proof. do 2 eexists. cbv zeta. split; [vm_compute; reflexivity|]. split; reflexivity. Qed.
Print Assumptions C83_tem_refuted.

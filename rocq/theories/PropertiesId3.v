(** C84: what the parser of MPEG audio files shows of ID3 tags, and the metadata taken from them. *)
From Coq Require Import String.
From Verif Require Import Base BaseProofs BitsModel BitsSpec BitsProofs StreamModel StreamSpec StreamProofs StreamProofs2 DictModel DictProofs FieldModel FieldNames ToolsModel NumSpec NumRead ChunkBase GenModel GenSpec GenProofs ItemSpec ItemProofs ItemProofs2 ZipSpec MidiSpec MidiProofs ExtractModel ExtractProofs HumanModel Id3Model Id3Spec Id3Proofs MpegModel MpegSpec MpegProofs MpegSafe MpegMeta PropertiesGifFile PropertiesMpeg Lit.
From Verif Require MetaModel TextModel.
From Verif Require Import MetaProofs2.
Open Scope Z_scope.
Ltac Zify.zify_post_hook ::= Z.div_mod_to_equations.

(** For every ID3v2 tag, version 2, 3 or 4: the header, the frames with their flags and contents, and the padding, whatever follows the tag. *)
Theorem C84_id3v2 : forall read t rest, let data := bytes_of_all (tag2_items t) ++ rest in serves read data -> is_bytes data -> tag2_ok t ->
  exists r, MpegAudioFile read (8 * zlen data) = puts (shows [ISet (lit "id3v2") (tag2_items t)] 0) r.
Proof.
  intros read t rest data Hs Hb K. unfold MpegAudioFile. apply (obey_start read data Hs Hb _ _ frames_and_id3v1); [|unfold data; rewrite bytes_of_all_cons, app_nil_r; apply (occ_pre [])]. destruct (tag2_first t) as (x & Ex). unfold mpeg_fields. eapply (ob_do read data) with (v := VBytes (lit "ID3")).
  - intros _. change 0 with (8 * 0) at 1. rewrite (read_three read data Hs 0 (lit "ID3") (x ++ rest)); [reflexivity| |reflexivity]. unfold data. rewrite Ex, <- app_assoc. apply occ_self.
  - cbn [bytes]. change (str_eqb (lit "ID3") (lit "ID3")) with true. cbn [when]. apply tag2_obeys; [exact Hs|exact Hb|exact K|apply ob_nil].
Qed.
Print Assumptions C84_id3v2.
(** For every ID3v1 tag at the end of a file, whatever comes before it (but for an ID3v2 tag): the tag is shown as it is, after one field set for what comes before it. *)
Theorem C84_id3v1 : forall read pre t, let data := pre ++ bytes_of_all (tag1_items t) in serves read data -> is_bytes data -> tag1_ok t -> tag1_usual t -> ~ begins (lit "ID3") data ->
  exists l, MpegAudioFile read (8 * zlen data) = (l ++ shows [ISet (lit "id3v1") (tag1_items t)] (zlen pre), None, 8 * zlen data) /\ (pre = [] -> l = []) /\ (pre <> [] -> exists k e, l = [G (lit "frames") 0 (8 * zlen pre) k e]).
Proof.
  intros read pre t data Hs Hb K U N. pose proof (tag1_len t K) as L. pose proof (zlen_nonneg pre) as P0. assert (Ld : zlen data = zlen pre + 128) by (unfold data; rewrite zlen_app, L; reflexivity). assert (O : occurs_at (bytes_of_all (tag1_items t)) data (zlen pre)) by (pose proof (occ_pre pre (bytes_of_all (tag1_items t)) []) as X; rewrite app_nil_r in X; exact X).
  unfold MpegAudioFile, mpeg_fields. cbn [GenModel.run]. assert (R3 : readBytes read 0 3 = Ok (firstn 3 data)) by (change 0 with (8 * 0) at 1; rewrite (sub_read read data) by (auto; lia); reflexivity). rewrite R3. cbn [bind bytes]. assert (F3 : str_eqb (firstn 3 data) (lit "ID3") = false) by (destruct (str_eqb (firstn 3 data) (lit "ID3")) eqn:E; [|reflexivity]; exfalso; apply N; exists (skipn 3 data); apply str_eqb_eq in E; rewrite <- E; symmetry; apply firstn_skipn).
  rewrite F3. cbn [when]. unfold frames_and_id3v1. cbn [GenModel.run]. replace (0 <=? 8 * zlen data - 128 * 8) with true by lia. replace (8 * zlen data - 128 * 8) with (8 * zlen pre) by lia. destruct (tag1_first t) as (x & Ex). pose proof O as O'. rewrite Ex in O'. rewrite (read_three read data Hs _ _ _ O') by reflexivity. cbn [bind num]. change (str_eqb (lit "TAG") (lit "TAG")) with true. cbn iota. change (1 =? 1) with true. cbn iota. replace (8 * zlen data - 0 - 128 * 8) with (8 * zlen pre) by lia.
  assert (Ob : forall first, run read (8 * zlen data) (ID3v1 PRet) first (8 * zlen data) (8 * zlen pre) = (shows [ISet (lit "id3v1") (tag1_items t)] (zlen pre), None, 8 * zlen data)).
  { intros first. assert (Ob : obeys read data (8 * zlen data) (zlen pre) (ID3v1 PRet) [ISet (lit "id3v1") (tag1_items t)] PRet) by (apply tag1_obeys; [exact Hs|exact Hb|exact K|exact U|apply ob_nil]). assert (Fi : fits data (8 * zlen data) (zlen pre) [ISet (lit "id3v1") (tag1_items t)]). { unfold fits. rewrite bytes_of_all_cons, app_nil_r. change (bytes_of (ISet (lit "id3v1") (tag1_items t))) with (bytes_of_all (tag1_items t)). split; [exact O|lia]. }
    rewrite (follow read data Hs Hb _ _ _ _ _ (Ob Fi) first (proj1 Fi) ltac:(destruct Fi; lia)). unfold puts. cbn [GenModel.run fst snd]. rewrite app_nil_r. rewrite bytes_of_all_cons, app_nil_r. change (bytes_of (ISet (lit "id3v1") (tag1_items t))) with (bytes_of_all (tag1_items t)). rewrite L. f_equal. lia. }
  cbn [when]. assert (E : pre = [] \/ pre <> []) by (clear; destruct pre; [left; reflexivity|right; discriminate]). destruct E as [E|E].
  - exists []. rewrite E in *. change (zlen (@nil Z)) with 0 in *. change (negb (8 * 0 =? 0)) with false. cbn [when app]. rewrite <- (Ob true). split; [reflexivity|]. split; [reflexivity|]. intros X. contradiction.
  - assert (zlen pre <> 0) by (intros X; apply E; destruct pre; [reflexivity|]; rewrite zlen_cons in X; pose proof (zlen_nonneg pre); lia). replace (negb (8 * zlen pre =? 0)) with true by lia. cbn [when]. destruct (run read (8 * zlen data) Frames_fields true (0 + 8 * zlen pre) 0) as [[k e] z] eqn:R. rewrite (step_set read (8 * zlen data) (lit "frames") (8 * zlen pre) Frames_fields _ true (8 * zlen data) 0 k e z (8 * zlen pre)); [|exact R|lia|lia|lia]. rewrite Ob. exists [G (lit "frames") 0 (8 * zlen pre) k e]. split; [reflexivity|]. split; [intros X; contradiction|]. intros _. do 2 eexists. reflexivity.
Qed.
Print Assumptions C84_id3v1.
(** ** The metadata *)
Import MetaModel.
(** A text without the blanks and zeros around it *)
Definition trimmed (x y : list Z) : Prop := exists a b, x = a ++ y ++ b /\ Forall (fun c => c = 32 \/ c = 0) a /\ Forall (fun c => c = 32 \/ c = 0) b /\
  (forall c t, y = c :: t -> c <> 32 /\ c <> 0) /\ (forall t c, y = t ++ [c] -> c <> 32 /\ c <> 0).
(** A text that is told, when it is not empty *)
Definition told (s : str) : list mval := match s with [] => [] | _ => [MStr s] end.
Definition plain_text (e : env) (s : str) : Prop := s = [] \/ kept_text e s.
Lemma strip_trimmed x y : trimmed x y -> TextModel.strip MpegModel.blank x = y.
Proof.
  intros (a & b & -> & Ha & Hb & Hs & He). unfold TextModel.strip. assert (B : forall l, Forall (fun c => c = 32 \/ c = 0) l -> Forall (fun c => MpegModel.blank c = true) l) by (intros l Hl; eapply Forall_impl; [|exact Hl]; unfold MpegModel.blank; intros c [->| ->]; reflexivity). assert (NB : forall c, c <> 32 /\ c <> 0 -> MpegModel.blank c = false) by (intros c Hc; unfold MpegModel.blank; lia).
  destruct y as [|c0 y].
  - cbn [app]. rewrite <- (app_nil_r (a ++ b)). rewrite (lstrip_app _ (a ++ b) []); [reflexivity|apply B, Forall_app; split; assumption|discriminate].
  - rewrite lstrip_app; [|apply B, Ha|intros c t E; cbn [app] in E; injection E as <- _; apply NB, (Hs c0 y eq_refl)]. rewrite rev_app_distr, lstrip_app; [apply rev_involutive|apply Forall_rev, B, Hb|]. intros c t E. apply NB, (He (rev t) c). rewrite <- (rev_involutive (c0 :: y)), E. reflexivity.
Qed.
Lemma step_told e m key s d : writes e -> plain_text e s -> find_data m (lit key) = Some d -> d_values d = [] -> (d_type d = None \/ d_type d = Some [TStr]) -> d_filter d = None -> d_conv d = None ->
  exists m', assign e m [(key, MStr s)] = (m', true) /\ getValues m' (lit key) = Ok (told s) /\ same [key] m m'.
Proof.
  intros W P M V T Fi C. destruct (set_other e m (lit key) d (MStr s) W Logic.I M C) as (l & L & E). cbn [assign]. rewrite E. eexists. split; [reflexivity|].
  split; [|intros k Nk; apply find_with_values_other; intros X; apply Nk; left; exact X]. unfold getValues, getItems. rewrite (find_with_values_same _ _ _ _ M). cbn [bind set_values d_values]. destruct P as [->|(Ne & N1 & N2 & N3)].
  - unfold store in L. replace (normalizeString e []) with (@nil Z) in L by (unfold normalizeString; destruct (e_raw_output e); reflexivity). rewrite V in L. injection L as <-. reflexivity.
  - unfold store in L. rewrite N1 in L. destruct s as [|c s0] eqn:Es; [contradiction|]. unfold told. rewrite <- Es in *. clear Es c s0. unfold store_checked in L. rewrite V, Fi, N2 in L.
    replace (match d_type d with Some ((_ :: _) as ts) => negb (existsb (isinstance (MStr s)) ts) | _ => false end) with false in L by (destruct T as [-> | ->]; reflexivity). replace (negb (e_max_str_length e =? 0) && (e_max_str_length e <? zlen s)) with false in L by lia. cbn [contains] in L. destruct (create_ok e d (MStr s) None W) as (it & Ei & Fv). rewrite Ei in L. cbn [bind place] in L. injection L as <-. cbn [app map]. rewrite Fv. reflexivity.
Qed.
(** The data of a key may have got values, nothing else. *)
Definition kin (m : meta) : Prop := forall key, In key tag_keys -> exists d l, find_data root (lit key) = Some d /\ find_data m (lit key) = Some (set_values d l) /\ d_type d <> None.
Lemma kin_start m : same audio_keys root m -> kin m.
Proof.
  intros S key I. assert (F : In (lit key) (map lit tag_keys)) by apply in_map, I. assert (N : ~ In (lit key) (map lit audio_keys)). { apply fresh. revert I. clear. intros I. unfold tag_keys in I. cbn [In] in I. repeat (destruct I as [<-|I]; [reflexivity|]). destruct I. }
  rewrite (S (lit key) N). clear N F S. unfold tag_keys in I. cbn [In] in I. repeat (destruct I as [<-|I]; [eexists; exists []; split; [reflexivity|]; split; [reflexivity|discriminate]|]). destruct I.
Qed.
Lemma kin_with m key l : kin m -> kin (with_values m key l).
Proof.
  intros K k I. destruct (K k I) as (d & l0 & R & F & T). exists d. rewrite find_with_values, F. cbn [option_map]. destruct (str_eqb key _); [exists l|exists l0]; (split; [exact R|]; split; [reflexivity|exact T]).
Qed.
Lemma setattr_total e m key v d : writes e -> find_data m (lit key) = Some d -> d_type d <> None -> exists m', setattr e m (lit key) (AVal v) = Ok m'.
Proof.
  intros W F T. unfold setattr. rewrite F. unfold data_add. assert (St : forall x t, exists l', store e d x t = Ok l') by (intros; apply store_ok, W).
  assert (Cv : forall c, exists l', (do o <- converted e d v None c; match o with None => Ok (d_values d) | Some (x, t) => store e d x t end) = Ok l').
  { intros c. unfold converted. destruct c; cbn [bind]; try (eexists; reflexivity); try apply St. destruct (d_type d); [|contradiction]. cbn [bind]. eexists. reflexivity. }
  destruct v; try (eexists; reflexivity); (destruct (d_conv d) as [c|]; [destruct (convert e c _) as [[total|] r]; cbn [bind fst snd]; destruct (Cv r) as (l' & ->); [destruct (set_plain e m (lit "track_total") (AVal total))|]; eexists; reflexivity | cbn [bind fst snd]; match goal with |- context [store e ?d ?x ?t] => destruct (St x t) as (l' & ->) end; eexists; reflexivity]).
Qed.
Lemma setattr_kin e m key v : writes e -> kin m -> In key tag_keys -> exists m', setattr e m (lit key) (AVal v) = Ok m' /\ kin m'.
Proof.
  intros W K I. destruct (K key I) as (d & l & R & F & T). unfold setattr. rewrite F. unfold data_add. assert (St : forall x t, exists l', store e (set_values d l) x t = Ok l') by (intros; apply store_ok, W).
  assert (Cv : forall c, exists l', (do o <- converted e (set_values d l) v None c; match o with None => Ok (d_values (set_values d l)) | Some (x, t) => store e (set_values d l) x t end) = Ok l').
  { intros c. unfold converted. cbn [set_values d_type]. destruct c; cbn [bind]; try (eexists; reflexivity); try apply St. destruct (d_type d); [|contradiction]. cbn [bind]. eexists. reflexivity. }
  destruct v; try (eexists; split; [reflexivity|apply kin_with, K]); (destruct (d_conv (set_values d l)) as [c|]; [destruct (convert e c _) as [[total|] r]; cbn [bind fst snd]; destruct (Cv r) as (l' & ->); [destruct (set_plain e m (lit "track_total") (AVal total)) as [m'|] eqn:Ep; [|eexists; split; [reflexivity|exact K]]; cbn [bind]; eexists; split; [reflexivity|]; apply kin_with; unfold set_plain in Ep; destruct (find_data m (lit "track_total")) as [d'|]; [|discriminate Ep]; destruct (data_add e d' (AVal total)) as [[? r']|]; [|discriminate Ep]; cbn [bind snd] in Ep; destruct r' as [l''|]; [|discriminate Ep]; cbn [bind] in Ep; injection Ep as <-; apply kin_with, K | cbn [bind]; eexists; split; [reflexivity|apply kin_with, K]] | cbn [bind fst snd]; match goal with |- context [store e ?d ?x ?t] => destruct (St x t) as (l' & ->) end; cbn [bind]; eexists; split; [reflexivity|apply kin_with, K]]).
Qed.
Lemma use_frames_ok e text max_count m : writes e -> mp3_ok m -> 8 * frames_len (p_frames m) <= 2 ^ 40 -> 1 <= max_count ->
  exists m1, use_frames e text root max_count (frames_shown (p_frames m) (start m)) (match p_frames m with [] => 0 | _ => 8 * frames_len (p_frames m) end) = (m1, true) /\ same audio_keys root m1.
Proof.
  intros W (_ & K & _) Sz Mc. destruct (p_frames m) as [|f l] eqn:Ef; [exists root; split; [reflexivity|apply same_refl]|]. pose proof (zlen_nonneg (bytes_of_all (map frame_item (f :: l)))) as L0. fold (frames_len (f :: l)) in L0.
  destruct (frames_told e text max_count f l (start m) (8 * frames_len (f :: l)) W (Forall_inv K) (Forall_inv_tail K) ltac:(lia) Mc) as (m1 & E & S & _). exists m1. split; [exact E|exact S].
Qed.
(** What is told before and after the tags *)
Definition tags_of codec e (m : mp3) (m1 : meta) : meta * bool :=
  andthen (match p_tag1 m with Some t => use_id3v1 e m1 (shows (tag1_items t) (start m + frames_len (p_frames m))) | None => (m1, true) end) (fun m' => match p_tag2 m with Some t => readID3v2 codec e m' (shows (tag2_items t) 0) | None => (m', true) end).
Lemma tags_told codec e text max_count m : writes e -> mp3_ok m -> 8 * frames_len (p_frames m) <= 2 ^ 40 -> 1 <= max_count -> exists m1, same audio_keys root m1 /\
  forall m2, tags_of codec e m m1 = (m2, true) -> same ["compr_rate"; "mime_type"; "endian"; "track_total"]%string m2 (mpeg_metadata codec e text root max_count (shows (mp3_items m) 0)).
Proof.
  intros W K Sz Mc. destruct (use_frames_ok e text max_count m W K Sz Mc) as (m1 & E & S). exists m1. split; [exact S|]. intros m2 T. destruct (shown_parts m (proj1 (proj2 K))) as (FL & SZ & G1 & G2). cbv zeta in *. unfold mpeg_metadata. eapply same_then; [|eapply sub_same; [apply mime_same'|reflexivity]]. unfold mpeg_extract. rewrite FL, SZ, G1, G2.
  replace (match match p_frames m with [] => None | _ => Some (8 * frames_len (p_frames m)) end with Some s => s | None => 0 end) with (match p_frames m with [] => 0 | _ => 8 * frames_len (p_frames m) end) by (destruct (p_frames m); reflexivity). rewrite E. unfold andthen at 1. cbn [fst snd]. unfold tags_of in T.
  replace (match match p_tag1 m with Some t => Some (shows (tag1_items t) (start m + frames_len (p_frames m))) | None => None end with Some id3 => use_id3v1 e m1 id3 | None => (m1, true) end) with (match p_tag1 m with Some t => use_id3v1 e m1 (shows (tag1_items t) (start m + frames_len (p_frames m))) | None => (m1, true) end) by (destruct (p_tag1 m); reflexivity).
  set (r := match p_tag1 m with Some t => use_id3v1 e m1 (shows (tag1_items t) (start m + frames_len (p_frames m))) | None => (m1, true) end) in *. destruct r as [m3 [|]]; [|discriminate T]. unfold andthen in *. cbn [fst snd] in *.
  replace (match match p_tag2 m with Some t => Some (shows (tag2_items t) 0) | None => None end with Some id3 => readID3v2 codec e m3 id3 | None => (m3, true) end) with (match p_tag2 m with Some t => readID3v2 codec e m3 (shows (tag2_items t) 0) | None => (m3, true) end) by (destruct (p_tag2 m); reflexivity). rewrite T. cbn [fst snd].
  destruct (p_frames m); [apply same_refl|]. eapply sub_same; [apply compr_same|reflexivity].
Qed.
(** ** ID3v1 *)
Lemma track_set e m d n : writes e -> find_data m (lit "track_number") = Some d -> d_values d = [] -> d_type d = Some [TInt] -> d_filter d = Some (NumberFilter (FNum 1 1) (FNum 999 1)) -> d_conv d = Some CTrackNumber -> 1 <= n < 256 ->
  exists m', assign e m [("track_number"%string, MInt n)] = (m', true) /\ getValues m' (lit "track_number") = Ok [MInt n] /\ same ["track_number"%string] m m'.
Proof.
  intros W F V T Fi C N. cbn [assign]. unfold setattr. rewrite F. unfold data_add. rewrite C. cbn [convert bind fst snd converted]. destruct (store_int e d n 1 999 W V T Fi) as (t & ->). cbn [bind]. replace ((1 <=? n) && (n <=? 999)) with true by lia. eexists. split; [reflexivity|].
  split; [|intros k Nk; apply find_with_values_other; intros X; apply Nk; left; exact X]. unfold getValues, getItems. rewrite (find_with_values_same _ _ _ _ F). reflexivity.
Qed.
Lemma tag1_values t p : let l := shows (tag1_items t) p in
  text1 "song" l = TextModel.strip blank (t_song t) /\ text1 "author" l = TextModel.strip blank (t_author t) /\ text1 "album" l = TextModel.strip blank (t_album t) /\
  text1 "comment" l = TextModel.strip blank (match t_comment t with Plain1 x => x | Track1 x _ => x ++ [0] end) /\ GenModel.get (lit "track_nb") l = match t_comment t with Plain1 _ => None | Track1 _ n => Some (VNum n) end.
Proof. unfold tag1_items, text1. destruct (t_comment t); repeat split; reflexivity. Qed.
Definition comment_text (t : tag1) : list Z := match t_comment t with Plain1 x => x | Track1 x _ => x end.
Definition track_values (t : tag1) : list mval := match t_comment t with Plain1 _ => [] | Track1 _ n => [MInt n] end.
Lemma id3v1_told e m1 t p song author album comment : writes e -> same audio_keys root m1 -> tag1_ok t ->
  trimmed (t_song t) song -> trimmed (t_author t) author -> trimmed (t_album t) album -> trimmed (comment_text t) comment -> plain_text e song -> plain_text e author -> plain_text e album -> plain_text e comment ->
  exists m2, use_id3v1 e m1 (shows (tag1_items t) p) = (m2, true) /\ getValues m2 (lit "title") = Ok (told song) /\ getValues m2 (lit "author") = Ok (told author) /\ getValues m2 (lit "album") = Ok (told album) /\
    getValues m2 (lit "comment") = Ok (told comment) /\ getValues m2 (lit "track_number") = Ok (track_values t).
Proof.
  intros W S K Ts Ta Tl Tc Ps Pa Pl Pc. destruct (tag1_values t p) as (V1 & V2 & V3 & V4 & V5). cbv zeta in *. unfold use_id3v1. rewrite V1, V2, V3, V4, V5. rewrite (strip_trimmed _ _ Ts), (strip_trimmed _ _ Ta), (strip_trimmed _ _ Tl).
  replace (TextModel.strip blank _) with comment. 2:{ symmetry. apply strip_trimmed. unfold comment_text in Tc. destruct (t_comment t); [exact Tc|]. destruct Tc as (a & b & -> & A & B & C). exists a, (b ++ [0]). rewrite <- !app_assoc. split; [reflexivity|]. split; [exact A|]. split; [|exact C]. apply Forall_app. split; [exact B|]. constructor; [right; reflexivity|constructor]. }
  assert (Fd : forall m key ks, same ks root m -> forallb (fun k => negb (str_eqb (lit k) (lit key))) ks = true -> find_data m (lit key) = find_data root (lit key)) by (intros m key ks Sm F; apply Sm, fresh, F).
  assert (One : forall m key v l, assign e m ((key, v) :: l) = andthen (assign e m [(key, v)]) (fun m => assign e m l)) by (intros m key v l; cbn [assign]; destruct (setattr e m (lit key) (AVal v)); reflexivity).
  destruct (step_told e m1 "comment" comment _ W Pc (eq_trans (Fd m1 "comment"%string _ S eq_refl) eq_refl) eq_refl (or_intror eq_refl) eq_refl eq_refl) as (m2 & E2 & G2 & S2). rewrite One, E2. unfold andthen at 2. cbn [fst snd]. pose proof (same_trans _ _ _ _ _ S S2) as R2.
  destruct (step_told e m2 "author" author _ W Pa (eq_trans (Fd m2 "author"%string _ R2 eq_refl) eq_refl) eq_refl (or_intror eq_refl) eq_refl eq_refl) as (m3 & E3 & G3 & S3). rewrite One, E3. unfold andthen at 2. cbn [fst snd]. pose proof (same_trans _ _ _ _ _ R2 S3) as R3.
  destruct (step_told e m3 "title" song _ W Ps (eq_trans (Fd m3 "title"%string _ R3 eq_refl) eq_refl) eq_refl (or_intror eq_refl) eq_refl eq_refl) as (m4 & E4 & G4 & S4). rewrite One, E4. unfold andthen at 2. cbn [fst snd]. pose proof (same_trans _ _ _ _ _ R3 S4) as R4.
  destruct (step_told e m4 "album" album _ W Pl (eq_trans (Fd m4 "album"%string _ R4 eq_refl) eq_refl) eq_refl (or_intror eq_refl) eq_refl eq_refl) as (m5 & E5 & G5 & S5). rewrite E5. unfold andthen at 1. cbn [fst snd]. pose proof (same_trans _ _ _ _ _ R4 S5) as R5.
  assert (X : exists m6, (if str_eqb (text1 "year" (shows (tag1_items t) p)) (lit "0") then (m5, true) else assign e m5 [("creation_date"%string, MStr (text1 "year" (shows (tag1_items t) p)))]) = (m6, true) /\ same ["creation_date"; "track_total"]%string m5 m6).
  { destruct (str_eqb _ _); [exists m5; split; [reflexivity|apply same_refl]|]. destruct (setattr_total e m5 "creation_date" (MStr (text1 "year" (shows (tag1_items t) p))) _ W (eq_trans (Fd m5 "creation_date"%string _ R5 eq_refl) eq_refl) ltac:(discriminate)) as (m6 & E6). exists m6. cbn [assign]. rewrite E6. split; [reflexivity|]. exact (setattr_same _ _ _ _ _ E6). }
  destruct X as (m6 & E6 & S6). rewrite E6. unfold andthen at 1. cbn [fst snd]. pose proof (same_trans _ _ _ _ _ R5 S6) as R6.
  assert (X : exists m7, match match t_comment t with Plain1 _ => None | Track1 _ n => Some (VNum n) end with Some v => assign e m6 [("track_number"%string, MInt (num v))] | None => (m6, true) end = (m7, true) /\ getValues m7 (lit "track_number") = Ok (track_values t) /\ same ["track_number"%string] m6 m7).
  { unfold track_values. destruct K as (_ & _ & _ & _ & _ & K). destruct (t_comment t) as [x|x n].
    - exists m6. split; [reflexivity|]. split; [|apply same_refl]. unfold getValues, getItems. rewrite (Fd m6 "track_number"%string _ R6 eq_refl). reflexivity.
    - cbn [num]. apply (track_set e m6 _ n W (eq_trans (Fd m6 "track_number"%string _ R6 eq_refl) eq_refl) eq_refl eq_refl eq_refl eq_refl (proj2 K)). }
  destruct X as (m7 & E7 & G7 & S7). rewrite E7. exists m7. split; [reflexivity|]. pose proof (same_trans _ _ _ _ _ S6 S7) as Z5. pose proof (same_trans _ _ _ _ _ S5 Z5) as Z4. pose proof (same_trans _ _ _ _ _ S4 Z4) as Z3. pose proof (same_trans _ _ _ _ _ S3 Z3) as Z2.
  split; [apply (kept _ m4 m7 "title"%string _ Z4 eq_refl G4)|]. split; [apply (kept _ m3 m7 "author"%string _ Z3 eq_refl G3)|]. split; [apply (kept _ m5 m7 "album"%string _ Z5 eq_refl G5)|]. split; [apply (kept _ m2 m7 "comment"%string _ Z2 eq_refl G2)|exact G7].
Qed.
(** The metadata of a file with an ID3v1 tag and no other: the title, the author, the album and the comment, without the blanks and zeros around them, none when they are empty; and the track
    number of the tags that have one.  Whatever the frames. *)
Theorem C84_metadata_v1 : forall codec e text max_count read m t song author album comment, let data := bytes_of_all (mp3_items m) in serves read data -> is_bytes data -> mp3_ok m -> p_tag2 m = None -> p_tag1 m = Some t ->
  writes e -> 1 <= max_count -> 8 * zlen (bytes_of_all (frames_part m)) <= 2 ^ 40 ->
  trimmed (t_song t) song -> trimmed (t_author t) author -> trimmed (t_album t) album -> trimmed (comment_text t) comment -> plain_text e song -> plain_text e author -> plain_text e album -> plain_text e comment ->
  let md := mpeg_metadata codec e text root max_count (fst (fst (MpegAudioFile read (8 * zlen data)))) in
  getValues md (lit "title") = Ok (told song) /\ getValues md (lit "author") = Ok (told author) /\ getValues md (lit "album") = Ok (told album) /\ getValues md (lit "comment") = Ok (told comment) /\
  getValues md (lit "track_number") = Ok (track_values t).
Proof.
  intros codec e text max_count read m t song author album comment data Hs Hb K E2 E1 W Mc Sz Ts Ta Tl Tc Ps Pa Pl Pc md. assert (Hd : data <> []). { unfold data. intros X. apply (f_equal zlen) in X. unfold mp3_items in X. rewrite !bytes_of_all_app, !zlen_app in X. unfold tag1_part in X. rewrite E1 in X. rewrite bytes_of_all_cons, app_nil_r in X. change (bytes_of (ISet (lit "id3v1") (tag1_items t))) with (bytes_of_all (tag1_items t)) in X. destruct K as (_ & _ & K). rewrite E1 in K. rewrite (tag1_len t (proj1 K)) in X. change (zlen (@nil Z)) with 0 in X. pose proof (zlen_nonneg (bytes_of_all (tag2_part m))). pose proof (zlen_nonneg (bytes_of_all (frames_part m))). lia. }
  unfold md. unfold data. rewrite (C85_file read m Hs Hb Hd K ltac:(rewrite E1; discriminate)). cbn [fst]. rewrite frames_part_len in Sz. destruct (tags_told codec e text max_count m W K Sz Mc) as (m1 & S & T). pose proof K as (_ & _ & K1). rewrite E1 in K1. unfold tags_of in T. rewrite E1, E2 in T.
  destruct (id3v1_told e m1 t (start m + frames_len (p_frames m)) song author album comment W S (proj1 K1) Ts Ta Tl Tc Ps Pa Pl Pc) as (m2 & E & G1 & G2 & G3 & G4 & G5). rewrite E in T. specialize (T m2 eq_refl). clear md. set (md := mpeg_metadata _ _ _ _ _ _) in *. clearbody md.
  split; [apply (kept _ m2 md "title"%string _ T eq_refl G1)|]. split; [apply (kept _ m2 md "author"%string _ T eq_refl G2)|]. split; [apply (kept _ m2 md "album"%string _ T eq_refl G3)|]. split; [apply (kept _ m2 md "comment"%string _ T eq_refl G4)|apply (kept _ m2 md "track_number"%string _ T eq_refl G5)].
Qed.
Print Assumptions C84_metadata_v1.
(** ** ID3v2 *)
(** The tags that say a text, and what it is *)
Definition says_what : list (string * string) :=
  [("TIT1", "title"); ("TIT2", "title"); ("TT2", "title"); ("TPE1", "author"); ("TP1", "author"); ("TALB", "album"); ("TAL", "album"); ("TENC", "producer"); ("TEN", "producer");
   ("TCON", "music_genre"); ("TCO", "music_genre"); ("TCOP", "copyright"); ("COMM", "comment"); ("COM", "comment"); ("WXXX", "url")]%string.
Definition about (key : string) (f : frame2) : Prop := exists tag, In (tag, key) says_what /\ f_tag f = lit tag.
(** The text of some bytes, without the blanks and zeros around it *)
Definition decoder (c : coding) : TextModel.charset := match c with Latin => TextModel.Latin1 | Wide_le => TextModel.UTF16LE | Wide_be | Wide => TextModel.UTF16BE | Utf8 => TextModel.UTF8 end.
Definition decoded (codec : TextModel.codec_fun) (c : coding) (x : list Z) (y : str) : Prop := (x = [] /\ y = []) \/ (x <> [] /\ exists z, codec (decoder c) x = inl z /\ trimmed z y).
Definition entitled (title y : str) : str := match title with [] => y | _ => title ++ lit ": " ++ y end.
Inductive says (codec : TextModel.codec_fun) : content -> str -> Prop :=
| says_words c x y : decoded codec c x y -> says codec (Words c x) y
| says_remark c lang title x s y : decoded codec c title s -> decoded codec c x y -> x <> [] -> says codec (Remark c lang title x) (entitled s y)
| says_titled c title x s y : decoded codec c title s -> decoded codec c x y -> x <> [] -> says codec (Titled c title x) (entitled s y).
Lemma decoded_text codec c x y : decoded codec c x y -> text2 codec (coding_number c) false (text_of c x) = y /\ text2 codec (coding_number c) true (ended c x) = y.
Proof.
  intros D. assert (T : forall cs, cs = decoder c -> match x with [] => [] | _ => TextModel.strip blank (TextModel.convertText (fun _ => false) codec (Some cs) x) end = y).
  { intros cs ->. destruct D as [[-> ->]|(N & z & C & Tr)]; [reflexivity|]. destruct x as [|a x]; [contradiction|]. unfold TextModel.convertText. rewrite C. apply strip_trimmed, Tr. }
  assert (F1 : firstn (List.length (x ++ [0]) - 1) (x ++ [0]) = x) by (rewrite app_length; cbn [List.length]; replace (List.length x + 1 - 1)%nat with (List.length x + 0)%nat by lia; rewrite firstn_app_2; apply app_nil_r). assert (F2 : firstn (List.length (x ++ [0; 0]) - 2) (x ++ [0; 0]) = x) by (rewrite app_length; cbn [List.length]; replace (List.length x + 2 - 2)%nat with (List.length x + 0)%nat by lia; rewrite firstn_app_2; apply app_nil_r).
  unfold text2, text_of, ended, ending. destruct c; cbn [coding_number mark narrow app Z.eqb Pos.eqb orb firstn skipn]; rewrite ?F1, ?F2; (split; apply T; reflexivity).
Qed.
Lemma process_kin codec e m field : writes e -> kin m -> exists m', processID3v2 codec e m field = (m', true) /\ kin m'.
Proof.
  intros W K. unfold processID3v2. destruct (group _ _) as [c|]; [|exists m; auto]. destruct (GenModel.get (lit "text") c); [|exists m; auto]. destruct (GenModel.get (lit "tag") field) as [tg|]; [|exists m; auto].
  destruct (find _ _) as [[t key]|] eqn:F; [|exists m; auto]. apply find_some in F as [I _]. assert (Ik : In key tag_keys). { clear - I. unfold TAG_TO_KEY in I. cbn [In] in I. repeat (destruct I as [I|I]; [injection I as <- <-; cbn [In tag_keys]; tauto|]). destruct I. }
  cbn [assign]. match goal with |- context [setattr e m (lit key) (AVal ?v)] => destruct (setattr_kin e m key v W K Ik) as (m' & E & K') end. rewrite E. exists m'. auto.
Qed.
(** The tag of a frame *)
Lemma frame_tag ver f p : Forall tag_char (f_tag f) -> exists v, GenModel.get (lit "tag") (shows (frame2_items ver f) p) = Some v /\ tag_value (bytes v) = f_tag f.
Proof.
  intros K. exists (VBytes (f_tag f)). split; [|cbn [bytes]; apply tag_plain, K]. unfold frame2_items, head2. reflexivity.
Qed.
Lemma frame_content ver f p : exists q, group (lit "content") (shows (frame2_items ver f) p) = match f_content f with Other _ => None | k => Some (shows (content_items k) q) end.
Proof.
  unfold frame2_items. rewrite shows_app. assert (H : forall s a b c d, group (lit "content") (shows (head2 ver (f_tag f) s a b c d) p) = None). { intros. unfold head2, size_item, flags_item. destruct (ver =? 2); [reflexivity|]. destruct (ver =? 3); reflexivity. }
  match goal with |- context [shows [content_item _] ?q] => exists q; generalize q end. intros q. rewrite group_app, H. unfold content_item. destruct (f_content f); cbn [shows]; rewrite ?show_set; reflexivity.
Qed.
Lemma other_key key tag t k : In key (map snd says_what) -> ~ (exists tg, In (tg, key) says_what /\ tag = lit tg) -> find (fun kv => str_eqb (lit (fst kv)) tag) TAG_TO_KEY = Some (t, k) -> ~ In (lit key) (map lit [k; "track_total"%string]).
Proof.
  intros Ik N F. apply find_some in F as [I E]. apply str_eqb_eq in E. cbn [fst] in E. assert (Ch : forallb (fun kv => negb (str_eqb (lit (snd kv)) (lit key)) || existsb (fun kv' => str_eqb (lit (fst kv)) (lit (fst kv')) && String.eqb (snd kv') key) says_what) TAG_TO_KEY = true /\ str_eqb (lit "track_total") (lit key) = false).
  { clear - Ik. cbn [map snd says_what In] in Ik. repeat (destruct Ik as [<-|Ik]; [split; vm_compute; reflexivity|]). destruct Ik. }
  destruct Ch as [Ch Ct]. rewrite forallb_forall in Ch. specialize (Ch (t, k) I). cbn [fst snd] in Ch. intros [X|[X|[]]].
  - rewrite X in Ch. rewrite (proj2 (str_eqb_eq (lit key) (lit key)) eq_refl) in Ch. cbn [negb orb] in Ch. apply existsb_exists in Ch as ([tg k'] & I' & Ch). cbn [fst snd] in Ch. apply andb_prop in Ch as [A B]. apply str_eqb_eq in A. apply String.eqb_eq in B. subst k'. apply N. exists tg. split; [exact I'|]. rewrite <- E, A. reflexivity.
  - rewrite X in Ct. rewrite (proj2 (str_eqb_eq (lit key) (lit key)) eq_refl) in Ct. discriminate.
Qed.
Lemma process_other codec e m ver f p key : Forall tag_char (f_tag f) -> In key (map snd says_what) -> ~ about key f -> find_data (fst (processID3v2 codec e m (shows (frame2_items ver f) p))) (lit key) = find_data m (lit key).
Proof.
  intros K Ik N. unfold processID3v2. destruct (group _ _) as [c|]; [|reflexivity]. destruct (GenModel.get (lit "text") c); [|reflexivity]. destruct (frame_tag ver f p K) as (tv & Et & Ev). rewrite Et, Ev. destruct (find _ _) as [[t k]|] eqn:F; [|reflexivity].
  pose proof (other_key key (f_tag f) t k Ik N F) as O. cbn [assign]. match goal with |- context [setattr e m (lit k) ?v] => destruct (setattr e m (lit k) v) as [m'|] eqn:E end; [|reflexivity]. cbn [fst]. apply (setattr_same _ _ _ _ _ E), O.
Qed.
Lemma read_app codec e a b : forall m, readID3v2 codec e m (a ++ b) = andthen (readID3v2 codec e m a) (fun m => readID3v2 codec e m b).
Proof.
  induction a as [|f a IH]; intros m; [reflexivity|]. destruct f as [|name ad sz ks er]; cbn [app readID3v2]; [apply IH|]. destruct (processID3v2 codec e m ks) as [m' [|]]; cbn [andthen fst snd]; [apply IH|reflexivity].
Qed.
Lemma read_others codec e ver key fs : writes e -> In key (map snd says_what) -> Forall (frame2_ok ver) fs -> Forall (fun f => ~ about key f) fs -> forall m p, kin m ->
  exists m', readID3v2 codec e m (shows (map (frame2_item ver) fs) p) = (m', true) /\ kin m' /\ find_data m' (lit key) = find_data m (lit key).
Proof.
  intros W Ik K N. induction fs as [|f fs IH]; intros m p Km; [exists m; auto|]. cbn [map shows]. unfold frame2_item at 1. rewrite show_set. cbn [app readID3v2]. destruct (process_kin codec e m (shows (frame2_items ver f) p) W Km) as (m1 & E1 & K1). rewrite E1. unfold andthen. cbn [fst snd].
  destruct (IH (Forall_inv_tail K) (Forall_inv_tail N) m1 (p + len (frame2_item ver f)) K1) as (m2 & E2 & K2 & F2). exists m2. split; [exact E2|]. split; [exact K2|]. rewrite F2. pose proof (process_other codec e m ver f p key (proj1 (Forall_inv K)) Ik (Forall_inv N)) as O. rewrite E1 in O. exact O.
Qed.
Lemma process_told codec e m ver f p key y : writes e -> kin m -> frame2_ok ver f -> f_packed f = false -> about key f -> says codec (f_content f) y -> plain_text e y -> getValues m (lit key) = Ok [] ->
  exists m', processID3v2 codec e m (shows (frame2_items ver f) p) = (m', true) /\ getValues m' (lit key) = Ok (told y).
Proof.
  intros W Km K Fp (tag & It & Et) Sy Py V. destruct (frame_tag ver f p (proj1 K)) as (tv & Gt & Ev). destruct (frame_content ver f p) as (q & Gc). unfold processID3v2. rewrite Gc, Gt, Ev.
  assert (Fk : exists t, find (fun kv => str_eqb (lit (fst kv)) (f_tag f)) TAG_TO_KEY = Some (t, key)). { rewrite Et. clear - It. cbn [In says_what] in It. repeat (destruct It as [It|It]; [injection It as <- <-; eexists; vm_compute; reflexivity|]). destruct It. }
  assert (D : exists d, find_data m (lit key) = Some d /\ d_values d = [] /\ d_type d = Some [TStr] /\ d_filter d = None /\ d_conv d = None).
  { assert (Kt : In key tag_keys) by (clear - It; cbn [In says_what] in It; repeat (destruct It as [It|It]; [injection It as <- <-; cbn [In tag_keys]; tauto|]); destruct It). destruct (Km key Kt) as (d & l & R & F & T). unfold getValues, getItems in V. rewrite F in V. cbn [bind set_values d_values] in V. destruct l as [|]; [|discriminate V]. eexists. split; [exact F|]. split; [reflexivity|]. cbn [set_values d_type d_filter d_conv].
    clear - It R. cbn [In says_what] in It. repeat (destruct It as [It|It]; [injection It as <- <-; vm_compute in R; injection R as <-; repeat split; reflexivity|]). destruct It. }
  destruct D as (d & Fd & Dv & Dt & Df & Dc). destruct Fk as (t & Fk). assert (Go : forall s, s = y -> exists m', assign e m [(key, MStr s)] = (m', true) /\ getValues m' (lit key) = Ok (told y)) by (intros s ->; destruct (step_told e m key y d W Py Fd Dv (or_intror Dt) Df Dc) as (m' & E & G & _); exists m'; auto).
  destruct Sy as [c x y D|c lang title x s y Ds D Nx|c title x s y Ds D Nx].
  - destruct (decoded_text codec c x y D) as [Dx _]. cbn [content_items]. unfold rest_text. destruct (text_of c x) as [|b z] eqn:Ex.
    + assert (Y : y = []) by (rewrite <- Dx; destruct c; reflexivity). exists m. rewrite Y. split; [reflexivity|exact V].
    + change (GenModel.get (lit "text") (shows [charset c; raw "text" (b :: z)] q)) with (Some (VBytes (b :: z))). rewrite Fk. change (GenModel.get (lit "charset") (shows [charset c; raw "text" (b :: z)] q)) with (Some (VNum (coding_number c))). change (GenModel.get (lit "title") (shows [charset c; raw "text" (b :: z)] q)) with (@None val). cbn [num bytes]. apply Go. exact Dx.
  - destruct (decoded_text codec c x y D) as [Dx _]. destruct (decoded_text codec c title s Ds) as [_ Dti]. cbn [content_items]. unfold rest_text. assert (Nt : text_of c x <> []) by (unfold text_of; destruct (mark c); [exact Nx|discriminate]). destruct (text_of c x) as [|b z] eqn:Ex; [contradiction|]. cbn [app].
    set (l := [charset c; txt "lang" lang; raw "title" (ended c title); raw "text" (b :: z)]). change (GenModel.get (lit "text") (shows l q)) with (Some (VBytes (b :: z))). rewrite Fk. change (GenModel.get (lit "charset") (shows l q)) with (Some (VNum (coding_number c))). change (GenModel.get (lit "title") (shows l q)) with (Some (VBytes (ended c title))). cbn [num bytes]. apply Go. rewrite Dx, Dti. reflexivity.
  - destruct (decoded_text codec c x y D) as [Dx _]. destruct (decoded_text codec c title s Ds) as [_ Dti]. cbn [content_items]. unfold rest_text. assert (Nt : text_of c x <> []) by (unfold text_of; destruct (mark c); [exact Nx|discriminate]). destruct (text_of c x) as [|b z] eqn:Ex; [contradiction|]. cbn [app].
    set (l := [charset c; raw "title" (ended c title); raw "text" (b :: z)]). change (GenModel.get (lit "text") (shows l q)) with (Some (VBytes (b :: z))). rewrite Fk. change (GenModel.get (lit "charset") (shows l q)) with (Some (VNum (coding_number c))). change (GenModel.get (lit "title") (shows l q)) with (Some (VBytes (ended c title))). cbn [num bytes]. apply Go. rewrite Dx, Dti. reflexivity.
Qed.
Lemma padding_told codec e ver n p m : readID3v2 codec e m (shows (padding_items ver n) p) = (m, true).
Proof.
  destruct n as [n|]; [|reflexivity]. cbn [padding_items shows]. rewrite show_set. cbn [app readID3v2]. assert (H : forall s q a b c d, group (lit "content") (shows (head2 ver s 0 a b c d) q) = None) by (intros; unfold head2, size_item, flags_item; destruct (ver =? 2); [reflexivity|]; destruct (ver =? 3); reflexivity). unfold processID3v2. rewrite H. unfold andthen. cbn [fst snd]. unfold rest_data. destruct (repeat 0 n); reflexivity.
Qed.
(** The metadata of a file with an ID3v2 tag and no other: the text of the frame that says the title, the author, the album, the encoder, the genre, the copyright, the comment or the link,
    when there is one such frame: its text after its title, if it has one, decoded with its charset, without the blanks and zeros around them.  Whatever the other frames of the tag and the sound. *)
Theorem C84_metadata_v2 : forall codec e text max_count read m t l1 f l2 key y, let data := bytes_of_all (mp3_items m) in serves read data -> is_bytes data -> mp3_ok m -> p_tag2 m = Some t -> p_tag1 m = None -> no_tag data ->
  writes e -> 1 <= max_count -> 8 * zlen (bytes_of_all (frames_part m)) <= 2 ^ 40 ->
  g_frames t = l1 ++ f :: l2 -> f_packed f = false -> about key f -> Forall (fun g => ~ about key g) (l1 ++ l2) -> says codec (f_content f) y -> plain_text e y ->
  getValues (mpeg_metadata codec e text root max_count (fst (fst (MpegAudioFile read (8 * zlen data))))) (lit key) = Ok (told y).
Proof.
  intros codec e text max_count read m t l1 f l2 key y data Hs Hb K E2 E1 Nt W Mc Sz Ef Fp A N Sy Py. assert (Hd : data <> []). { unfold data. intros X. apply (f_equal zlen) in X. unfold mp3_items in X. rewrite !bytes_of_all_app, !zlen_app in X. unfold tag2_part in X. rewrite E2 in X. rewrite bytes_of_all_cons, app_nil_r in X. change (bytes_of (ISet (lit "id3v2") (tag2_items t))) with (bytes_of_all (tag2_items t)) in X. unfold tag2_items in X. cbn [app] in X. rewrite bytes_of_all_cons, zlen_app in X. change (zlen (bytes_of (txt "header" (lit "ID3")))) with 3 in X. change (zlen (@nil Z)) with 0 in X. pose proof (zlen_nonneg (bytes_of_all (frames_part m))). pose proof (zlen_nonneg (bytes_of_all (tag1_part m))). match type of X with 3 + zlen ?x + _ = _ => pose proof (zlen_nonneg x) end. lia. }
  unfold data. rewrite (C85_file read m Hs Hb Hd K (fun _ => Nt)). cbn [fst]. rewrite frames_part_len in Sz. destruct (tags_told codec e text max_count m W K Sz Mc) as (m1 & S & T). pose proof K as (K2 & _ & _). rewrite E2 in K2. destruct K2 as (Vr & Kf & _). unfold tags_of in T. rewrite E1, E2 in T. unfold andthen in T. cbn [fst snd] in T.
  assert (Ik : In key (map snd says_what)) by (destruct A as (tag & I & _); change key with (snd (tag, key)); apply in_map, I). apply Forall_app in N as [N1 N2]. rewrite Ef in Kf. apply Forall_app in Kf as [K1 Kf]. pose proof (Forall_inv Kf) as K0. apply Forall_inv_tail in Kf.
  assert (V0 : getValues m1 (lit key) = Ok []). { unfold getValues, getItems. rewrite (S (lit key)) by (apply fresh; clear - Ik; cbn [map snd says_what In] in Ik; repeat (destruct Ik as [<-|Ik]; [reflexivity|]); destruct Ik). clear - Ik. cbn [map snd says_what In] in Ik. repeat (destruct Ik as [<-|Ik]; [reflexivity|]). destruct Ik. }
  assert (R : exists m2, readID3v2 codec e m1 (shows (tag2_items t) 0) = (m2, true) /\ getValues m2 (lit key) = Ok (told y)).
  { unfold tag2_items. rewrite shows_app, read_app. match goal with |- context [andthen (readID3v2 codec e m1 ?x)] => change (readID3v2 codec e m1 x) with (m1, true) end. unfold andthen at 1. cbn [fst snd]. unfold tag2_body. rewrite Ef, map_app. cbn [map]. rewrite <- app_assoc, shows_app, read_app.
    match goal with |- context [readID3v2 codec e m1 (shows (map (frame2_item (g_ver t)) l1) ?p)] => destruct (read_others codec e (g_ver t) key l1 W Ik K1 N1 m1 p (kin_start m1 S)) as (m2 & R2 & Q2 & F2) end. rewrite R2. unfold andthen at 1. cbn [fst snd]. clear R2. cbn [app shows]. unfold frame2_item at 1. rewrite show_set. cbn [app readID3v2].
    match goal with |- context [processID3v2 codec e m2 (shows (frame2_items (g_ver t) f) ?p)] => destruct (process_told codec e m2 (g_ver t) f p key y W Q2 K0 Fp A Sy Py) as (m3 & R3 & G3); [unfold getValues, getItems; rewrite F2; exact V0|]; destruct (process_kin codec e m2 (shows (frame2_items (g_ver t) f) p) W Q2) as (m3' & R3' & Q3) end. rewrite R3 in R3'. injection R3' as <-. rewrite R3. unfold andthen at 1. cbn [fst snd]. rewrite shows_app, read_app.
    match goal with |- context [readID3v2 codec e m3 (shows (map (frame2_item (g_ver t)) l2) ?p)] => destruct (read_others codec e (g_ver t) key l2 W Ik Kf N2 m3 p Q3) as (m4 & R4 & Q4 & F4) end. rewrite R4. unfold andthen at 1. cbn [fst snd]. rewrite padding_told. exists m4. split; [reflexivity|]. unfold getValues, getItems. rewrite F4. exact G3. }
  destruct R as (m2 & R & G). specialize (T m2 R). set (md := mpeg_metadata _ _ _ _ _ _) in *. clearbody md. apply (kept _ m2 md key _ T); [|exact G]. clear - Ik. cbn [map snd says_what In] in Ik. repeat (destruct Ik as [<-|Ik]; [reflexivity|]). destruct Ik.
Qed.
Print Assumptions C84_metadata_v2.
(** ** Examples *)
Lemma trim_check x a y b : x = a ++ y ++ b -> forallb blank (a ++ b) = true -> match y, rev y with c :: _, d :: _ => negb (blank c) && negb (blank d) | _, _ => true end = true -> trimmed x y.
Proof.
  intros E B N. assert (P : forall l, forallb blank l = true -> Forall (fun c => c = 32 \/ c = 0) l) by (intros l Hl; apply Forall_forall; intros c I; rewrite forallb_forall in Hl; specialize (Hl c I); unfold blank in Hl; lia). rewrite forallb_app in B. apply andb_prop in B as [B1 B2].
  exists a, b. split; [exact E|]. split; [apply P, B1|]. split; [apply P, B2|]. split.
  - intros c t ->. destruct (rev (c :: t)) as [|d r] eqn:R; [apply (f_equal (@List.length Z)) in R; rewrite rev_length in R; discriminate R|]. apply andb_prop in N as [N _]. unfold blank in N. lia.
  - intros t c R. destruct y as [|d r]; [destruct t; discriminate R|]. rewrite R, rev_unit in N. apply andb_prop in N as [_ N]. unfold blank in N. lia.
Qed.
Definition blue1 : mp3 := {| p_tag2 := None; p_frames := [small 1 3]; p_tag1 := Some song1 |}.
Definition blue2 : mp3 := {| p_tag2 := Some song2; p_frames := [small 1 3]; p_tag1 := None |}.
Example C84_ex : mp3_ok blue1 /\ is_bytes (bytes_of_all (mp3_items blue1)) /\ ~ begins (lit "ID3") (bytes_of_all (mp3_items blue1)) /\ trimmed (t_song song1) (lit "Blue") /\ trimmed (t_author song1) (lit "Someone") /\ trimmed (t_album song1) [] /\ trimmed (comment_text song1) (lit "Hello") /\ plain_text plain_env (lit "Blue") /\
  getValues (mpeg_metadata latin plain_env (fun _ => []) root 250 (shows (mp3_items blue1) 0)) (lit "comment") = Ok [MStr (lit "Hello")].
Proof.
  split; [split; [exact Logic.I|]; split; [constructor; [apply small_ok; cbn [In]; lia || tauto|constructor]|]; exact (proj2 (proj2 blue_ok))|]. split; [apply bytes_checked; vm_compute; reflexivity|]. split; [intros (z & E); vm_compute in E; discriminate E|]. split; [apply (trim_check _ [] (lit "Blue") (repeat 0 26)); vm_compute; reflexivity|]. split; [apply (trim_check _ [] (lit "Someone") (repeat 32 23)); vm_compute; reflexivity|]. split; [apply (trim_check _ [] [] (repeat 0 30)); vm_compute; reflexivity|].
  split; [apply (trim_check _ [] (lit "Hello") (repeat 0 23)); vm_compute; reflexivity|]. split; [right; repeat split; [discriminate|right; vm_compute; discriminate]|]. vm_compute. reflexivity.
Qed.
Example C84_ex2 : mp3_ok blue2 /\ is_bytes (bytes_of_all (mp3_items blue2)) /\ no_tag (bytes_of_all (mp3_items blue2)) /\ (exists f, nth_error (g_frames song2) 0 = Some f /\ about "title" f) /\
  Forall (fun g => ~ about "title" g) (tl (g_frames song2)) /\ says latin (Words Latin (lit "Blue")) (lit "Blue") /\ says latin (Remark Utf8 (lit "eng") (lit "a") (lit "b ")) (lit "a: b") /\
  getValues (mpeg_metadata latin plain_env (fun _ => []) root 250 (shows (mp3_items blue2) 0)) (lit "title") = Ok [MStr (lit "Blue")].
Proof.
  split; [split; [exact (proj1 blue_ok)|]; split; [constructor; [apply small_ok; cbn [In]; lia || tauto|constructor]|]; exact Logic.I|]. split; [apply bytes_checked; vm_compute; reflexivity|]. split; [intros _; vm_compute; discriminate|]. split; [eexists; split; [reflexivity|]; exists "TIT2"%string; split; [cbn [In says_what]; tauto|reflexivity]|].
  split; [constructor; [|constructor]; intros (tag & I & E); cbn [In says_what] in I; repeat (destruct I as [I|I]; [injection I as <-; try discriminate; vm_compute in E; discriminate E|]); destruct I|]. split; [constructor; right; split; [discriminate|]; eexists; split; [reflexivity|]; apply (trim_check _ [] (lit "Blue") []); reflexivity|].
  split; [apply (says_remark latin Utf8 (lit "eng") (lit "a") (lit "b ") (lit "a") (lit "b")); [right; split; [discriminate|]; eexists; split; [reflexivity|]; apply (trim_check _ [] (lit "a") []); reflexivity|right; split; [discriminate|]; eexists; split; [reflexivity|]; apply (trim_check _ [] (lit "b") [32]); reflexivity|discriminate]|]. vm_compute. reflexivity.
Qed.
(** ** Findings *)
(** A tag of version 1.1 whose genre is number 32 (Classical) is taken for one without a genre: its track number and its genre are not told (id3.py:200-211). *)
Theorem C84_genre_refuted : exists t, tag1_ok t /\ track_values t = [MInt 7] /\ t_genre t = 32 /\ let data := bytes_of_all (tag1_items t) in let l := fst (fst (MpegAudioFile (string_read data) (8 * zlen data))) in
  getValues (mpeg_metadata latin plain_env (fun _ => []) root 250 l) (lit "track_number") = Ok [] /\ exists k, group (lit "id3v1") l = Some k /\ GenModel.get (lit "genre") k = None.
Proof.
  exists {| t_song := repeat 65 30; t_author := repeat 66 30; t_album := repeat 0 30; t_year := lit "1999"; t_comment := Track1 (repeat 0 28) 7; t_genre := 32 |}. split; [repeat split; try (vm_compute; reflexivity); cbn; lia|]. split; [reflexivity|]. split; [reflexivity|]. cbv zeta. split; [vm_compute; reflexivity|]. eexists. split; vm_compute; reflexivity.
Qed.
Print Assumptions C84_genre_refuted.
(** A comment of 30 bytes, in a tag without a track number, is cut: its last character is told as a track number (id3.py:188-192: the zero before a track number is not looked for). *)
Theorem C84_track_refuted : exists t, tag1_ok t /\ track_values t = [] /\ comment_text t = repeat 65 30 /\ let data := bytes_of_all (tag1_items t) in let md := mpeg_metadata latin plain_env (fun _ => []) root 250 (fst (fst (MpegAudioFile (string_read data) (8 * zlen data)))) in
  getValues md (lit "track_number") = Ok [MInt 65] /\ getValues md (lit "comment") = Ok [MStr (repeat 65 29)].
Proof.
  exists {| t_song := repeat 65 30; t_author := repeat 66 30; t_album := repeat 0 30; t_year := lit "1999"; t_comment := Plain1 (repeat 65 30); t_genre := 17 |}. split; [repeat split; try (vm_compute; reflexivity); cbn; lia|]. repeat split; vm_compute; reflexivity.
Qed.
Print Assumptions C84_track_refuted.
Definition frame_of (data : list Z) : list fld := match group (lit "id3v2") (fst (fst (MpegAudioFile (string_read data) (8 * zlen data)))) with Some k => match group (lit "field[]") k with Some f => f | None => [] end | None => [] end.
Definition content_of (data : list Z) : option (list fld * option exn) := match find (fun f => str_eqb (f_name f) (lit "content")) (frame_of data) with Some (G _ _ _ k e) => Some (k, e) | _ => None end.
(** The type of a picture is ISO-8859-1 whatever the charset of its description; it is read with this charset: a picture with an UTF-16 description is not shown (id3.py:362-368). *)
Theorem C84_picture_refuted : let data := lit "ID3" ++ [3; 0; 0; 0; 0; 0; 32] ++ lit "APIC" ++ [0; 0; 0; 22; 0; 0] ++ [1] ++ lit "image/png" ++ [0; 3] ++ ended Wide_le [97; 0] ++ [137; 80; 78; 71] in
  exists k, content_of data = Some (k, Some ParserError) /\ map f_name k = [lit "charset"].
Proof. cbv zeta. eexists. split; vm_compute; reflexivity. Qed.
Print Assumptions C84_picture_refuted.
(** The flags of the frames of version 2.4 (0abc0000 0h00kmnp) are read with the layout of version 2.3: the flag that the frame goes when the tag is changed is shown as the one for changes of the
    file, and a compressed frame is not shown as compressed (id3.py:434-442). *)
Theorem C84_flags_refuted : let data := lit "ID3" ++ [4; 0; 0; 0; 0; 0; 13] ++ lit "TIT2" ++ [0; 0; 0; 3; 0x40; 0x08] ++ [0; 65; 66] in
  map (fun n => GenModel.get (lit n) (frame_of data)) ["tag_alter"; "file_alter"; "compressed"]%string = [Some (VNum 0); Some (VNum 1); Some (VNum 0)].
Proof. vm_compute. reflexivity. Qed.
Print Assumptions C84_flags_refuted.
(** The end of an UTF-16 title is the first two zeros side by side, even when they belong to two characters: here the title is U+0100 U+0041, and the text of the comment is not shown
    (string_field.py). *)
Theorem C84_title_refuted : let data := lit "ID3" ++ [3; 0; 0; 0; 0; 0; 26] ++ lit "COMM" ++ [0; 0; 0; 16; 0; 0] ++ [1] ++ lit "eng" ++ ended Wide_be [1; 0; 0; 65] ++ text_of Wide_be [0; 66] in
  exists k, content_of data = Some (k, Some ParserError) /\ GenModel.get (lit "title") k = Some (VBytes (text_of Wide_be [1; 0; 0; 65])) /\ GenModel.get (lit "text") k = None.
Proof. cbv zeta. eexists. repeat split; vm_compute; reflexivity. Qed.
Print Assumptions C84_title_refuted.
(** Zeros after the frames that are fewer than the bytes of a frame header end the tag with an error. *)
Theorem C84_padding_refuted : let data := lit "ID3" ++ [3; 0; 0; 0; 0; 0; 18] ++ lit "TIT2" ++ [0; 0; 0; 3; 0; 0] ++ [0; 65; 66] ++ [0; 0; 0; 0; 0] in
  exists k e, find (fun f => str_eqb (f_name f) (lit "id3v2")) (fst (fst (MpegAudioFile (string_read data) (8 * zlen data)))) = Some (G (lit "id3v2") 0 (8 * 28) k (Some e)).
Proof. cbv zeta. do 2 eexists. vm_compute. reflexivity. Qed.
Print Assumptions C84_padding_refuted.

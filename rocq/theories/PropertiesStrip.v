(** Theorems about hachoir-strip: the file that it writes. *)
From Coq Require Import String.
From Verif Require Import Base BaseProofs BitsModel BitsSpec StreamModel StreamSpec StreamProofs DictModel DictProofs Lit OutputModel OutputProofs
  EditModel EditSpec EditProofs EditProofs4 EditProofs5 EditProofs6 EditProofs7 StripModel StripSpec StripProofs StripProofs2 StripProofs3 StripProofs4 StripProofs6 StripProofs7.
Open Scope Z_scope.
Ltac Zify.zify_post_hook ::= Z.div_mod_to_equations.

(** ** PNG, JPEG and MPEG audio files *)
(** The new file is made of the bytes of the fields that are not metadata, in order;
    no file is written when there is nothing to remove. *)
Theorem C66_check : forall data input check i,
  is_bytes data -> serves input data ->
  parsed (bytes_range data) real_endian i -> (exists n e a s l, i = ISet n e a s l) ->
  let content := flat_map (fun c => sub data (i_addr c / 8) (i_size c / 8)) in
  let removed := content (filter (fun c => check (i_name c)) (i_children i)) in
  strip_file input (check_strip input check) i =
    Ok (if zlen removed =? 0 then None
        else Some (content (filter (fun c => negb (check (i_name c))) (i_children i)))).
Proof.
  intros data input check i Hd Hs P IS content removed. destruct (check_strip_ok data Hd input Hs check i P IS) as (n & E & G & F).
  unfold strip_file. rewrite E. cbn [bind]. change (flat_map (fun c => orig_bytes data (i_addr c) (i_size c))) with content in *. fold removed.
  replace (8 * zlen removed =? 0) with (zlen removed =? 0) by lia. destruct (zlen removed =? 0); [reflexivity|].
  destruct (good_writes data Hd input Hs n ostream_init G) as (st & W & _ & O); [split; [constructor|split; reflexivity]|].
  rewrite W. cbn [bind]. rewrite O, F. reflexivity.
Qed.
Print Assumptions C66_check.

Lemma has_level_bit level : has_level level STRIP_METADATA = Z.testbit level 1.
Proof.
  unfold has_level, STRIP_METADATA. change 2 with (2 ^ 1) at 1.
  assert (E : Z.land level (2 ^ 1) = if Z.testbit level 1 then 2 ^ 1 else 0).
  { apply Z.bits_inj'. intros n Hn. rewrite Z.land_spec, Z.pow2_bits_eqb by lia.
    destruct (1 =? n) eqn:En; [replace n with 1 by lia|].
    - destruct (Z.testbit level 1); reflexivity.
    - rewrite andb_false_r. destruct (Z.testbit level 1); [rewrite Z.pow2_bits_eqb, En by lia; reflexivity|symmetry; apply Z.testbit_0_l]. }
  rewrite E. destruct (Z.testbit level 1); reflexivity.
Qed.
Lemma is_prefix_iff p : forall t, is_prefix p t = true <-> exists r, t = p ++ r.
Proof.
  induction p as [|a p IH]; intros t; cbn [is_prefix].
  - split; [intros _; exists t; reflexivity|reflexivity].
  - destruct t as [|b t]; [split; [discriminate|intros (r & E); discriminate]|].
    rewrite andb_true_iff, IH, Z.eqb_eq. split.
    + intros (-> & r & ->). exists r. reflexivity.
    + intros (r & E). injection E as -> ->. split; [reflexivity|]. exists r. reflexivity.
Qed.
(** Which fields are metadata, at a level that includes the metadata. *)
Theorem C66_png : forall level name, png_check level name = true <->
  Z.testbit level 1 = true /\ ((exists r, name = lit "text[" ++ r) \/ name = lit "time").
Proof. intros level name. unfold png_check. rewrite has_level_bit, andb_true_iff, orb_true_iff, is_prefix_iff, str_eqb_eq. reflexivity. Qed.
Print Assumptions C66_png.
Theorem C66_jpeg : forall level name, jpeg_check level name = true <->
  Z.testbit level 1 = true /\ ((exists r, name = lit "comment" ++ r) \/ In name [lit "photoshop"; lit "exif"; lit "adobe"]).
Proof. intros level name. unfold jpeg_check. rewrite has_level_bit, andb_true_iff, orb_true_iff, is_prefix_iff, mem_in. reflexivity. Qed.
Print Assumptions C66_jpeg.
Theorem C66_mpeg : forall level name, mpeg_check level name = true <-> Z.testbit level 1 = true /\ In name [lit "id3v1"; lit "id3v2"].
Proof. intros level name. unfold mpeg_check. rewrite has_level_bit, andb_true_iff, mem_in. reflexivity. Qed.
Print Assumptions C66_mpeg.

(** A small PNG-like file: a signature, a text, a date and the image. *)
Definition png_tree : inode :=
  ISet (lit "root") BIG_ENDIAN 0 64 [ILeaf (lit "id") KBytes 0 16; ISet (lit "text[0]") BIG_ENDIAN 16 24 [ILeaf (lit "size") (KInt false) 16 8; ILeaf (lit "keyword") KFake 24 16];
    ILeaf (lit "time") KFake 40 8; ILeaf (lit "data[0]") KFake 48 16].
Definition png_data : list Z := [137; 80; 2; 65; 66; 9; 7; 8].
Example C66_png_parsed : parsed (bytes_range png_data) real_endian png_tree.
Proof.
  assert (R : forall a n, 0 <= a -> 0 <= n -> a + n <= 64 -> a mod 8 = 0 -> n mod 8 = 0 -> bytes_range png_data a n) by (intros; unfold bytes_range; change (8 * zlen png_data) with 64; lia).
  assert (ND : forall l : list str, (if list_eq_dec (list_eq_dec Z.eq_dec) (nodup (list_eq_dec Z.eq_dec) l) l then true else false) = true -> NoDup l).
  { intros l. destruct (list_eq_dec (list_eq_dec Z.eq_dec) (nodup (list_eq_dec Z.eq_dec) l) l) as [E|]; [|discriminate]. intros _. rewrite <- E. apply NoDup_nodup. }
  unfold png_tree. constructor; [apply R; lia|discriminate|apply ND; reflexivity|cbn; intuition discriminate|cbn; repeat split|].
  repeat constructor; try (apply R; lia); try discriminate; cbn; intuition discriminate.
Qed.
Example C66_png_example :
  strip_file (string_read png_data) (check_strip (string_read png_data) (png_check 2)) png_tree = Ok (Some [137; 80; 7; 8]) /\
  strip_file (string_read png_data) (check_strip (string_read png_data) (png_check 5)) png_tree = Ok None.
Proof. split; vm_compute; reflexivity. Qed.

(** ** Sun/NeXT audio files: the comment is removed and the offset of the sound corrected *)
Theorem C66_au : forall data input level header info rest i,
  is_bytes data -> serves input data -> au_file data header info rest i ->
  strip_file input (au_strip input level) i =
    Ok (if Z.testbit level 1 && negb (zlen info =? 0) then Some (au_bytes 24 header [] rest) else None).
Proof. intros data input level header info rest i Hd Hs H. rewrite <- has_level_bit. exact (au_ok data Hd input Hs level header info rest i H). Qed.
Print Assumptions C66_au.
Definition au_data := au_bytes 28 [0;0;0;2; 0;0;0;1; 0;0;31;64; 0;0;0;1] (lit "note") [77; 78].
Definition au_tree : inode :=
  ISet (lit "root") BIG_ENDIAN 0 (8 * zlen au_data) [ILeaf (lit "signature") (KString FFixed 0 []) 0 32; ILeaf (lit "data_ofs") (KInt false) 32 32;
    ILeaf (lit "data_size") (KInt false) 64 32; ILeaf (lit "codec") (KInt false) 96 32; ILeaf (lit "sample_rate") (KInt false) 128 32;
    ILeaf (lit "channels") (KInt false) 160 32; ILeaf (lit "info") (KString FFixed 0 []) 192 32; ILeaf (lit "audio_data") KBytes 224 16].
Example C66_au_file : au_file au_data [0;0;0;2; 0;0;0;1; 0;0;31;64; 0;0;0;1] (lit "note") [77; 78] au_tree.
Proof.
  split; [reflexivity|]. split; [reflexivity|]. split; [reflexivity|]. exists (lit "root"), (KString FFixed 0 []), [ILeaf (lit "audio_data") KBytes 224 16].
  cbv zeta. split; [reflexivity|]. split; [|split; [|split]].
  - cbn. repeat (constructor; [cbn; intuition discriminate|]). constructor.
  - cbn. intuition discriminate.
  - cbn. auto.
  - repeat constructor; cbn; lia.
Qed.
Example C66_au_example : strip_file (string_read au_data) (au_strip (string_read au_data) 2) au_tree =
  Ok (Some (lit ".snd" ++ [0;0;0;24] ++ [0;0;0;2; 0;0;0;1; 0;0;31;64; 0;0;0;1] ++ [77; 78])).
Proof. vm_compute. reflexivity. Qed.

(** ** RIFF files (WAV, AVI): the chunks to remove are removed at every level, except
    in the frames of a movie, and the sizes of the lists and of the file follow.  The
    first hypothesis after [riff_file] says that this is not an AVI file with a header,
    or that the index is kept; the last one holds when the size written in the file is
    the real one. *)
Theorem C66_riff : forall data input level filesize type l i,
  is_bytes data -> serves input data -> riff_file data filesize type l i ->
  (has_level level STRIP_INDEX = true -> field_at i [lit "headers"; lit "avi_hdr"; lit "has_index"] = None) ->
  let l' := flat_map (strip_chunk (has_level level STRIP_USELESS) (riff_names level)) l in
  let removed := zlen (flat_map chunk_bytes l) - zlen (flat_map chunk_bytes l') in
  removed <= filesize ->
  strip_file input (riff_strip input level) i = Ok (if removed =? 0 then None else Some (riff_bytes (filesize - removed) type l')).
Proof. intros data input level filesize type l i Hd Hs. exact (riff_plain data Hd input Hs level filesize type l i). Qed.
Print Assumptions C66_riff.
(** AVI files, when the index is removed: the flag of the header that announces it is
    cleared as well. *)
Theorem C66_avi : forall data input level filesize type l1 subtag h1 tag content pad h2 l2 i ah,
  is_bytes data -> serves input data ->
  let l := l1 ++ Lst (lit "headers") subtag (h1 ++ Data (lit "avi_hdr") tag content pad :: h2) :: l2 in
  riff_file data filesize type l i -> has_level level STRIP_INDEX = true ->
  field_at i [lit "headers"; lit "avi_hdr"] = Some ah -> avi_header ah -> 13 <= zlen content ->
  let cleared := map clear_index l in
  let l' := flat_map (strip_chunk (has_level level STRIP_USELESS) (riff_names level)) cleared in
  let removed := zlen (flat_map chunk_bytes cleared) - zlen (flat_map chunk_bytes l') in
  removed <= filesize ->
  strip_file input (riff_strip input level) i = Ok (if removed =? 0 then None else Some (riff_bytes (filesize - removed) type l')).
Proof. intros data input level filesize type l1 subtag h1 tag content pad h2 l2 i ah Hd Hs. exact (riff_index data Hd input Hs level filesize type l1 subtag h1 tag content pad h2 l2 i ah). Qed.
Print Assumptions C66_avi.
(** The size of the new file is right if it was right before. *)
Theorem C66_riff_size : forall useless names filesize l,
  let l' := flat_map (strip_chunk useless names) l in
  let removed := zlen (flat_map chunk_bytes l) - zlen (flat_map chunk_bytes l') in
  filesize = 4 + zlen (flat_map chunk_bytes l) ->
  0 <= removed <= filesize /\ filesize - removed = 4 + zlen (flat_map chunk_bytes l').
Proof.
  intros useless names filesize l l' removed ->. pose proof (strip_list_len useless names l). pose proof (zlen_nonneg (flat_map chunk_bytes l')).
  unfold removed. fold l' in H. split; lia.
Qed.
Print Assumptions C66_riff_size.
(** What is left: no chunk to be removed, at any level but in a movie. *)
Inductive inside (c : chunk) : list chunk -> Prop :=
| inside_here l : In c l -> inside c l
| inside_list name subtag l l' : In (Lst name subtag l) l' -> name <> lit "movie" -> inside c l -> inside c l'.
Theorem C66_riff_clean : forall useless names l c, inside c (flat_map (strip_chunk useless names) l) ->
  match c with
  | Raw name _ | Lst name _ _ => ~ In name names
  | Data name tag _ _ => ~ In name names /\ ~ (useless = true /\ tag = lit "JUNK")
  end.
Proof.
  intros useless names l c H. remember (flat_map (strip_chunk useless names) l) as m eqn:E. revert l E.
  assert (K : forall name, memb name names = false -> ~ In name names).
  { intros name Hm X. unfold memb in Hm. rewrite <- not_true_iff_false in Hm. apply Hm. apply existsb_exists. exists name. split; [assumption|apply str_eqb_refl]. }
  induction H as [m Hin|name subtag k m Hin Hn H IH]; intros l ->.
  - apply in_flat_map in Hin as (x & _ & Hx). destruct x as [name content|name tag content pad|name subtag k]; cbn [strip_chunk] in Hx.
    + destruct (memb name names) eqn:M; [contradiction|]. destruct Hx as [<-|[]]. auto.
    + destruct (memb name names || _) eqn:M; [contradiction|]. apply orb_false_iff in M as [M1 M2]. destruct Hx as [<-|[]]. split; [auto|]. intros [-> ->]. rewrite str_eqb_refl in M2. discriminate.
    + destruct (memb name names) eqn:M; [contradiction|]. destruct (str_eqb name _); destruct Hx as [<-|[]]; auto.
  - apply in_flat_map in Hin as (x & _ & Hx). destruct x as [name' content|name' tag content pad|name' subtag' k']; cbn [strip_chunk] in Hx.
    + destruct (memb name' names); [contradiction|]. destruct Hx as [Hx|[]]. discriminate.
    + destruct (memb name' names || _); [contradiction|]. destruct Hx as [Hx|[]]. discriminate.
    + destruct (memb name' names); [contradiction|]. destruct (str_eqb name' (lit "movie")) eqn:Em; destruct Hx as [Hx|[]]; injection Hx as <- <- <-.
      * apply str_eqb_eq in Em. contradiction.
      * exact (IH k' eq_refl).
Qed.
Print Assumptions C66_riff_clean.

(** A WAV file with a list of information and some padding. *)
Definition wav_chunks : list chunk :=
  [Data (lit "format") (lit "fmt ") [1; 0] []; Lst (lit "info") (lit "INFO") [Data (lit "title") (lit "INAM") (lit "song") []];
   Data (lit "junk") (lit "JUNK") [0; 0] []; Data (lit "audio_data") (lit "data") [5; 6; 7; 8] []].
Definition wav_data : list Z := riff_bytes 60 (lit "WAVE") wav_chunks.
Definition wav_tree : inode :=
  let tag := fun a => ILeaf (lit "tag") (KString FFixed 0 []) a 32 in
  let size := fun a => ILeaf (lit "size") (KInt false) (a + 32) 32 in
  ISet (lit "root") LITTLE_ENDIAN 0 (8 * zlen wav_data)
    [ILeaf (lit "signature") (KString FFixed 0 []) 0 32; ILeaf (lit "filesize") (KInt false) 32 32; ILeaf (lit "type") (KString FFixed 0 []) 64 32;
     ISet (lit "format") LITTLE_ENDIAN 96 80 [tag 96; size 96; ILeaf (lit "codec") (KInt false) 160 16];
     ISet (lit "info") LITTLE_ENDIAN 176 192 [tag 176; size 176; ILeaf (lit "subtag") (KString FFixed 0 []) 240 32;
       ISet (lit "title") LITTLE_ENDIAN 272 96 [tag 272; size 272; ILeaf (lit "text") (KString FFixed 0 []) 336 32]];
     ISet (lit "junk") LITTLE_ENDIAN 368 80 [tag 368; size 368; ILeaf (lit "raw_content") KBytes 432 16];
     ISet (lit "audio_data") LITTLE_ENDIAN 448 96 [tag 448; size 448; ILeaf (lit "raw_content") KBytes 512 32]].
Example C66_riff_file : riff_file wav_data 60 (lit "WAVE") wav_chunks wav_tree.
Proof.
  assert (St : forall a b, 0 <= a -> a mod 8 = 0 -> a + 8 * zlen b <= 544 -> sub wav_data (a / 8) (zlen b) = b -> stored_at wav_data a b).
  { intros a b H1 H2 H3 H4. split; [assumption|]. split; [assumption|]. split; [exact H3|assumption]. }
  split; [reflexivity|]. split; [reflexivity|]. split; [cbn; lia|]. exists (lit "root"). eexists. cbv zeta. split; [reflexivity|].
  split; [cbn; repeat (constructor; [cbn; intuition discriminate|]); constructor|]. split; [cbn; auto 10|].
  unfold wav_chunks. constructor; [apply lays_data; [reflexivity|discriminate|apply St; [lia|reflexivity|discriminate|reflexivity]|reflexivity]|].
  constructor; [apply lays_list; [reflexivity|apply St; [lia|reflexivity|discriminate|reflexivity]|reflexivity|reflexivity| | |]|].
  { cbn; repeat (constructor; [cbn; intuition discriminate|]); constructor. }
  { cbn. auto. }
  { constructor; [|constructor]. apply lays_data; [reflexivity|discriminate|apply St; [lia|reflexivity|discriminate|reflexivity]|reflexivity]. }
  constructor; [apply lays_data; [reflexivity|discriminate|apply St; [lia|reflexivity|discriminate|reflexivity]|reflexivity]|].
  constructor; [apply lays_data; [reflexivity|discriminate|apply St; [lia|reflexivity|discriminate|reflexivity]|reflexivity]|]. constructor.
Qed.
Example C66_riff_example :
  strip_file (string_read wav_data) (riff_strip (string_read wav_data) 2) wav_tree =
    Ok (Some (riff_bytes 36 (lit "WAVE") [Data [] (lit "fmt ") [1; 0] []; Data [] (lit "JUNK") [0; 0] []; Data [] (lit "data") [5; 6; 7; 8] []])) /\
  strip_file (string_read wav_data) (riff_strip (string_read wav_data) 3) wav_tree =
    Ok (Some (riff_bytes 26 (lit "WAVE") [Data [] (lit "fmt ") [1; 0] []; Data [] (lit "data") [5; 6; 7; 8] []])) /\
  strip_file (string_read wav_data) (riff_strip (string_read wav_data) 4) wav_tree = Ok None.
Proof. repeat split; vm_compute; reflexivity. Qed.

(** An AVI file with a header, a movie and an index. *)
Definition avi_content : list Z := [64; 156; 0; 0; 0; 0; 0; 0; 0; 0; 0; 0; 0x30; 1; 0; 0].
Definition avi_chunks : list chunk :=
  [] ++ Lst (lit "headers") (lit "hdrl") ([] ++ Data (lit "avi_hdr") (lit "avih") avi_content [] :: []) ::
  [Lst (lit "movie") (lit "movi") [Data (lit "field[0]") (lit "JUNK") [3; 4] []]; Data (lit "index") (lit "idx1") [9; 9; 9; 9] []].
Definition avi_data : list Z := riff_bytes 74 (lit "AVI ") avi_chunks.
Definition avi_hdr_tree : inode := ISet (lit "avi_hdr") LITTLE_ENDIAN 192 192 (avi_fields 192 []).
Definition avi_tree : inode :=
  let tag := fun a => ILeaf (lit "tag") (KString FFixed 0 []) a 32 in
  let size := fun a => ILeaf (lit "size") (KInt false) (a + 32) 32 in
  ISet (lit "root") LITTLE_ENDIAN 0 (8 * zlen avi_data)
    [ILeaf (lit "signature") (KString FFixed 0 []) 0 32; ILeaf (lit "filesize") (KInt false) 32 32; ILeaf (lit "type") (KString FFixed 0 []) 64 32;
     ISet (lit "headers") LITTLE_ENDIAN 96 288 [tag 96; size 96; ILeaf (lit "subtag") (KString FFixed 0 []) 160 32; avi_hdr_tree];
     ISet (lit "movie") LITTLE_ENDIAN 384 176 [tag 384; size 384; ILeaf (lit "subtag") (KString FFixed 0 []) 448 32;
       ISet (lit "field[0]") LITTLE_ENDIAN 480 80 [tag 480; size 480; ILeaf (lit "raw_content") KBytes 544 16]];
     ISet (lit "index") LITTLE_ENDIAN 560 96 [tag 560; size 560; ILeaf (lit "raw_content") KBytes 624 32]].
Example C66_avi_file : riff_file avi_data 74 (lit "AVI ") avi_chunks avi_tree /\
  field_at avi_tree [lit "headers"; lit "avi_hdr"] = Some avi_hdr_tree /\ avi_header avi_hdr_tree.
Proof.
  assert (St : forall a b, 0 <= a -> a mod 8 = 0 -> a + 8 * zlen b <= 656 -> sub avi_data (a / 8) (zlen b) = b -> stored_at avi_data a b).
  { intros a b H1 H2 H3 H4. split; [assumption|]. split; [assumption|]. split; [exact H3|assumption]. }
  split; [|split; [reflexivity|]].
  - split; [reflexivity|]. split; [reflexivity|]. split; [cbn; lia|]. exists (lit "root"). eexists. cbv zeta. split; [reflexivity|].
    split; [cbn; repeat (constructor; [cbn; intuition discriminate|]); constructor|]. split; [cbn; auto 10|].
    unfold avi_chunks. cbn [app]. constructor; [apply lays_list; [reflexivity|apply St; [lia|reflexivity|discriminate|reflexivity]|reflexivity|reflexivity| | |]|].
    { cbn; repeat (constructor; [cbn; intuition discriminate|]); constructor. }
    { cbn. auto. }
    { constructor; [|constructor]. apply lays_data; [reflexivity|discriminate|apply St; [lia|reflexivity|discriminate|reflexivity]|reflexivity]. }
    constructor; [apply lays_list; [reflexivity|apply St; [lia|reflexivity|discriminate|reflexivity]|reflexivity|reflexivity| | |]|].
    { cbn; repeat (constructor; [cbn; intuition discriminate|]); constructor. }
    { cbn. auto. }
    { constructor; [|constructor]. apply lays_data; [reflexivity|discriminate|apply St; [lia|reflexivity|discriminate|reflexivity]|reflexivity]. }
    constructor; [apply lays_data; [reflexivity|discriminate|apply St; [lia|reflexivity|discriminate|reflexivity]|reflexivity]|]. constructor.
  - exists 192, 192, []. split; [reflexivity|]. split; [cbn; repeat (constructor; [cbn; intuition discriminate|]); constructor|]. split; [reflexivity|constructor].
Qed.
(** The index goes, the flag 0x10 is cleared and the frames of the movie stay. *)
Example C66_avi_example :
  strip_file (string_read avi_data) (riff_strip (string_read avi_data) 5) avi_tree =
    Ok (Some (riff_bytes 62 (lit "AVI ")
      [Lst [] (lit "hdrl") [Data [] (lit "avih") [64; 156; 0; 0; 0; 0; 0; 0; 0; 0; 0; 0; 0x20; 1; 0; 0] []];
       Lst [] (lit "movi") [Data [] (lit "JUNK") [3; 4] []]])).
Proof. vm_compute. reflexivity. Qed.

(** ** What is not as announced *)
(** An AVI file that has no index, but whose header announces one, keeps this flag: a
    file is only written when something was removed. *)
Theorem C66_flag_only_refuted : exists data i,
  field_at i [lit "headers"; lit "avi_hdr"] = Some avi_hdr_tree /\ avi_header avi_hdr_tree /\
  strip_file (string_read data) (riff_strip (string_read data) STRIP_INDEX) i = Ok None.
Proof.
  exists (sub avi_data 0 48), (ISet (lit "root") LITTLE_ENDIAN 0 384 (firstn 4 (i_children avi_tree))). split; [reflexivity|]. split; [apply C66_avi_file|]. vm_compute. reflexivity.
Qed.
Print Assumptions C66_flag_only_refuted.
(** The metadata of a PNG file that are compressed (zTXt, named "comp_text[]") or in
    UTF-8 (iTXt, named "utf8_text[]") are kept, at every level. *)
Theorem C66_png_text_refuted : forall level r,
  png_check level (lit "comp_text[" ++ r) = false /\ png_check level (lit "utf8_text[" ++ r) = false.
Proof. intros level r. unfold png_check. rewrite !andb_false_iff. split; right; reflexivity. Qed.
Print Assumptions C66_png_text_refuted.
(** The metadata of a JPEG file that are in an APP1 chunk which is not EXIF (XMP, named
    "chunk[]") or in an APP12 chunk are kept, at every level. *)
Theorem C66_jpeg_xmp_refuted : forall level r,
  jpeg_check level (lit "chunk[" ++ r) = false /\ jpeg_check level (lit "app12") = false.
Proof. intros level r. unfold jpeg_check. rewrite !andb_false_iff. split; right; reflexivity. Qed.
Print Assumptions C66_jpeg_xmp_refuted.
(** A TAR archive cannot be stripped: the owner is given as a text, and the editor wants
    bytes. *)
Theorem C66_tar_refuted : forall file n f prefix suffix,
  get_path n [file; lit "uid"] = Ok (EField f) -> ef_kind f = KString FFixed prefix suffix ->
  tar_strip_file file n = Err AssertionError.
Proof.
  intros file n f prefix suffix H K. unfold tar_strip_file. cbn [edit_at]. cbn [get_path] in H. destruct (get_item n file) as [x|e]; [|discriminate]. cbn [bind] in *.
  destruct (get_item x (lit "uid")) as [y|e]; [|discriminate]. cbn [bind] in *. injection H as ->. cbn [assign]. unfold set_value. rewrite K. reflexivity.
Qed.
Print Assumptions C66_tar_refuted.
Example C66_tar_example :
  let entry := ISet (lit "file[0]") BIG_ENDIAN 0 128 [ILeaf (lit "mode") (KString FFixed 0 []) 0 64; ILeaf (lit "uid") (KString FFixed 0 []) 64 64] in
  let n := createEditor (ISet (lit "root") BIG_ENDIAN 0 128 [entry]) in
  (exists f, get_path n [lit "file[0]"; lit "uid"] = Ok (EField f) /\ ef_kind f = KString FFixed 0 []) /\
  tar_strip_file (lit "file[0]") n = Err AssertionError.
Proof. split; [eexists; split; reflexivity|reflexivity]. Qed.

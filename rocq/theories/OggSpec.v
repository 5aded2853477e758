(** Ogg files, for the claims about their parser (RFC 3533, Vorbis I specification, Theora specification). *)
From Coq Require Import String.
From Verif Require Import Base BitsModel BitsSpec StreamModel StreamSpec NumSpec DictModel GenModel GenSpec ItemSpec ZipSpec Lit.
Open Scope Z_scope.

Definition be (n : nat) (name : string) (v : Z) : item := I (lit name) (SNum n BIG_ENDIAN v).
(** The [n] low bits of a number, highest first *)
Definition high (n : nat) (name : string) (v : Z) : str * list bool := (lit name, rev (low n v)).
(** The part of a packet that is in a page.  Those that are not one of the headers are bytes. *)
Inductive part :=
| Bytes (x : list Z)
| VorbisHeader (version channels rate maximum nominal minimum size0 size1 framing : Z)
| TheoraHeader (major minor revision width height frame_width frame_height x y fps_num fps_den aspect_num aspect_den space bitrate quality shift format spare : Z)
| VideoHeader (pad fourcc : list Z) (size unit samples default buffer bits : Z) (pad2 : list Z) (width height : Z) (pad3 : list Z)
| Comments (theora : bool) (vendor : list Z) (comments : list (list Z)) (framing : option Z).
Definition start (type : Z) (codec : list Z) : list item := [le 1 "type" type; I (lit "codec") (SText codec)].
Definition vorbis : list Z := lit "vorbis".
Definition theora_ : list Z := lit "theora".
Definition video : list Z := lit "video" ++ [0].
Definition part_fields (p : part) : list item :=
  match p with
  | Bytes x =>
      if zlen x <? 7 then some_bytes_item "raw" x
      else start (hd 0 x) (firstn 6 (tl x)) ++ some_bytes_item "raw" (skipn 7 x)
  | VorbisHeader version channels rate maximum nominal minimum size0 size1 framing =>
      start 1 vorbis ++ [le 4 "vorbis_version" version; le 1 "audio_channels" channels; le 4 "audio_sample_rate" rate; le 4 "bitrate_maximum" maximum; le 4 "bitrate_nominal" nominal; le 4 "bitrate_minimum" minimum;
                         IBits LITTLE_ENDIAN 1 [bits 4 "blocksize_0" size0; bits 4 "blocksize_1" size1]; le 1 "framing_flag" framing]
  | TheoraHeader major minor revision width height frame_width frame_height x y fps_num fps_den aspect_num aspect_den space bitrate quality shift format spare =>
      start 128 theora_ ++ [be 1 "version_major" major; be 1 "version_minor" minor; be 1 "version_revision" revision; be 2 "width" width; be 2 "height" height; be 3 "frame_width" frame_width; be 3 "frame_height" frame_height;
                            be 1 "offset_x" x; be 1 "offset_y" y; be 4 "fps_num" fps_num; be 4 "fps_den" fps_den; be 3 "aspect_ratio_num" aspect_num; be 3 "aspect_ratio_den" aspect_den; be 1 "color_space" space; be 3 "target_bitrate" bitrate;
                            IBits BIG_ENDIAN 2 [high 6 "quality" quality; high 5 "gp_shift" shift; high 2 "pixel_format" format; high 3 "spare_config" spare]]
  | VideoHeader pad fourcc size unit samples default buffer bits pad2 width height pad3 =>
      start 1 video ++ [I (lit "padding[]") (SBytes pad); I (lit "fourcc") (SText fourcc); le 4 "size" size; le 8 "time_unit" unit; le 8 "sample_per_unit" samples; le 4 "default_len" default; le 4 "buffer_size" buffer; le 2 "bits_per_sample" bits;
                        I (lit "padding[]") (SBytes pad2); le 4 "width" width; le 4 "height" height; I (lit "padding[]") (SBytes pad3)]
  | Comments theora vendor comments framing =>
      (if theora then start 129 theora_ else start 3 vorbis) ++ [I (lit "vendor") (SPascal 4 true vendor); le 4 "count" (zlen comments)] ++ map (fun c => I (lit "metadata[]") (SPascal 4 true c)) comments ++
      match framing with Some f => [le 1 "framing_flag" f] | None => [] end
  end.
Definition part_name (p : part) : string :=
  match p with Bytes _ => "chunk[]" | VorbisHeader _ _ _ _ _ _ _ _ _ => "vorbis_hdr" | TheoraHeader _ _ _ _ _ _ _ _ _ _ _ _ _ _ _ _ _ _ _ => "theora_hdr" | VideoHeader _ _ _ _ _ _ _ _ _ _ _ _ => "video_hdr" | Comments _ _ _ _ => "comment" end.
Definition part_bytes (p : part) : list Z := bytes_of_all (part_fields p).
(** Nothing is shown of an empty part *)
Definition part_item (p : part) : list item := match part_bytes p with [] => [] | _ => [ISet (lit (part_name p)) (part_fields p)] end.
(** A header: its first bytes *)
Definition is_header (x : list Z) : Prop :=
  exists y, x = 1 :: vorbis ++ y \/ x = 3 :: vorbis ++ y \/ x = 128 :: theora_ ++ y \/ x = 129 :: theora_ ++ y \/ x = 1 :: video ++ y.
Definition some_u8 (f : option Z) : Prop := match f with Some f => u 8 f | None => True end.
Definition part_ok (p : part) : Prop :=
  match p with
  | Bytes x => is_bytes x /\ ~ is_header x /\ zlen x <= 2 ^ 64
  | VorbisHeader version channels rate maximum nominal minimum size0 size1 framing => u 32 version /\ u 8 channels /\ u 32 rate /\ u 32 maximum /\ u 32 nominal /\ u 32 minimum /\ u 4 size0 /\ u 4 size1 /\ u 8 framing
  | TheoraHeader major minor revision width height frame_width frame_height x y fps_num fps_den aspect_num aspect_den space bitrate quality shift format spare =>
      u 8 major /\ u 8 minor /\ u 8 revision /\ u 16 width /\ u 16 height /\ u 24 frame_width /\ u 24 frame_height /\ u 8 x /\ u 8 y /\ u 32 fps_num /\ u 32 fps_den /\ u 24 aspect_num /\ u 24 aspect_den /\ u 8 space /\ u 24 bitrate /\
      u 6 quality /\ u 5 shift /\ u 2 format /\ u 3 spare
  | VideoHeader pad fourcc size unit samples default buffer bits pad2 width height pad3 =>
      zlen pad = 2 /\ zlen fourcc = 4 /\ u 32 size /\ u 64 unit /\ u 64 samples /\ u 32 default /\ u 32 buffer /\ u 16 bits /\ zlen pad2 = 2 /\ u 32 width /\ u 32 height /\ zlen pad3 = 4
  | Comments _ vendor comments framing => zlen vendor < 2 ^ 32 /\ zlen comments < 2 ^ 32 /\ Forall (fun c => zlen c < 2 ^ 32) comments /\ some_u8 framing
  end.

(** The lacing values of a page: a value of 255 goes on with the next one *)
Fixpoint groups (l : list Z) : list (list Z) :=
  match l with
  | [] => []
  | v :: l => if v =? 255 then match groups l with [] => [[255]] | g :: gs => (255 :: g) :: gs end else [v] :: groups l
  end.
Definition total (l : list Z) : Z := fold_right Z.add 0 l.
(** A page: its flags, its numbers, its lacing values, and the parts of packets they tell the sizes of *)
Record ogg_page := OggP { p_version : Z; p_continued : Z; p_first : Z; p_last : Z; p_unused : Z; p_granule : Z; p_serial : Z; p_number : Z; p_checksum : Z; p_lacing : list Z; p_parts : list part }.
Definition page_ok (p : ogg_page) : Prop :=
  u 8 (p_version p) /\ u 1 (p_continued p) /\ u 1 (p_first p) /\ u 1 (p_last p) /\ u 5 (p_unused p) /\ u 64 (p_granule p) /\ u 32 (p_serial p) /\ u 32 (p_number p) /\ u 32 (p_checksum p) /\
  zlen (p_lacing p) <= 255 /\ Forall (u 8) (p_lacing p) /\ Forall part_ok (p_parts p) /\ map total (groups (p_lacing p)) = map (fun x => zlen (part_bytes x)) (p_parts p).
Definition page_data (p : ogg_page) : list Z := flat_map part_bytes (p_parts p).
(** A page with lacing values has bytes *)
Definition filled (p : ogg_page) : Prop := p_lacing p <> [] -> page_data p <> [].
Definition link_item (name : string) : item := I (lit name) (SCode [] 0).
Definition head_items (p : ogg_page) : list item :=
  [I (lit "capture_pattern") (SText (lit "OggS")); le 1 "stream_structure_version" (p_version p);
   IBits LITTLE_ENDIAN 1 [bits 1 "continued_packet" (p_continued p); bits 1 "first_page" (p_first p); bits 1 "last_page" (p_last p); bits 5 "unused" (p_unused p)];
   le 8 "abs_granule_pos" (p_granule p); le 4 "serial" (p_serial p); le 4 "page" (p_number p); le 4 "checksum" (p_checksum p); le 1 "lacing_size" (zlen (p_lacing p))].
Definition lacing_item (p : ogg_page) : item := ISet (lit "lacing") (map (fun g => I (lit "size[]") (SCode g (total g))) (groups (p_lacing p))).
(** [known]: there was a page of the same stream before *)
Definition segments_item (known : bool) (p : ogg_page) : item :=
  ISet (lit "segments") ((if known then [link_item "first"] else []) ++ (if p_last p =? 1 then [] else [link_item "next"]) ++ flat_map part_item (p_parts p)).
Definition page_fields (known : bool) (p : ogg_page) : list item := head_items p ++ match p_lacing p with [] => [] | _ => [lacing_item p; segments_item known p] end.
Definition page_item (known : bool) (p : ogg_page) : item := ISet (lit "page[]") (page_fields known p).
(** The pages of a file, after pages of the streams with some serial numbers *)
Fixpoint ogg (seen : list Z) (ps : list ogg_page) : list item :=
  match ps with
  | [] => []
  | p :: ps => page_item (existsb (Z.eqb (p_serial p)) seen) p :: ogg (match p_lacing p with [] => seen | _ => p_serial p :: seen end) ps
  end.
(** The data of the stream with a serial number *)
Definition stream_data (serial : Z) (ps : list ogg_page) : list Z := flat_map (fun p => if p_serial p =? serial then page_data p else []) ps.
(** After the last page of a stream there is no other page of it *)
Fixpoint closed (serial : Z) (ps : list ogg_page) : Prop :=
  match ps with [] => True | p :: ps => (p_serial p = serial -> p_last p = 1 -> Forall (fun q => p_serial q <> serial) ps) /\ closed serial ps end.
(** The bytes of a page, and their number *)
Definition page_raw (p : ogg_page) : list Z := bytes_of_all (page_fields false p).
Definition raw_pages (ps : list ogg_page) : list Z := flat_map page_raw ps.
(** The first bytes of a page with some flags, in version 0 *)
Definition page_start (flags : Z) : list Z := lit "OggS" ++ [0; flags].
(** Where the file is said to have its last page: the first place after the first page with the flags of a last page that continues a packet, or else, if there is none, of a last page
    that continues none, in the first 1000 MiB *)
Definition last_found (data : list Z) (from i : Z) : Prop :=
  let upto := Z.min (zlen data) (1000 * 1024 * 1024) in
  first_occurrence (page_start 5) data from upto i \/ ((forall j, ~ first_occurrence (page_start 5) data from upto j) /\ first_occurrence (page_start 4) data from upto i).

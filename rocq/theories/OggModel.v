(** Model of parser/container/ogg.py. *)
From Coq Require Import String.
From Verif Require Export Base BitsModel StreamModel DictModel VarintModel FragmentModel GenModel Lit.
Open Scope Z_scope.

(** ogg.py:28-39: XiphInt, of at most [max] bits *)
Definition XiphInt (max : Z) : fkind := KCode (fun read a => xiph_int read (S (Z.to_nat max)) (Some max) a).
(** ogg.py:42-49: Lacing, for a field set of [n] bytes; what is left of [size] is what is left of the field set *)
Definition Lacing_fields (n : Z) : prog := loop (fun k => PAsk (fun stop a => emit (lit "size[]") (XiphInt (stop - a)); k)) (S (Z.to_nat n)).
(** ogg.py:52-58: parseVorbisComment *)
Definition parseVorbisComment : prog :=
  emit (lit "vendor") (KPascal 4 true);
  have count := (lit "count") (KNum 32 LE);
  times (fun k => emit (lit "metadata[]") (KPascal 4 true); k) (Z.to_nat (num count))
  (PAsk (fun stop a => when (negb (a =? stop)) (fun k => emit (lit "framing_flag") (KNum 8 LE); k) PRet)).
(** ogg.py:72-84: parseVideoHeader *)
Definition parseVideoHeader : prog :=
  emit (lit "padding[]") (KBytes 2);
  emit (lit "fourcc") (KText 4);
  emit (lit "size") (KNum 32 LE);
  emit (lit "time_unit") (KNum 64 LE);
  emit (lit "sample_per_unit") (KNum 64 LE);
  emit (lit "default_len") (KNum 32 LE);
  emit (lit "buffer_size") (KNum 32 LE);
  emit (lit "bits_per_sample") (KNum 16 LE);
  emit (lit "padding[]") (KBytes 2);
  emit (lit "width") (KNum 32 LE);
  emit (lit "height") (KNum 32 LE);
  emit (lit "padding[]") (KBytes 4);
  PRet.
(** ogg.py:87-109: parseTheoraHeader; the field set is big endian (143-144) *)
Definition parseTheoraHeader : prog :=
  emit (lit "version_major") (KNum 8 BE);
  emit (lit "version_minor") (KNum 8 BE);
  emit (lit "version_revision") (KNum 8 BE);
  emit (lit "width") (KNum 16 BE);
  emit (lit "height") (KNum 16 BE);
  emit (lit "frame_width") (KNum 24 BE);
  emit (lit "frame_height") (KNum 24 BE);
  emit (lit "offset_x") (KNum 8 BE);
  emit (lit "offset_y") (KNum 8 BE);
  emit (lit "fps_num") (KNum 32 BE);
  emit (lit "fps_den") (KNum 32 BE);
  emit (lit "aspect_ratio_num") (KNum 24 BE);
  emit (lit "aspect_ratio_den") (KNum 24 BE);
  emit (lit "color_space") (KNum 8 BE);
  emit (lit "target_bitrate") (KNum 24 BE);
  emit (lit "quality") (KNum 6 BE);
  emit (lit "gp_shift") (KNum 5 BE);
  emit (lit "pixel_format") (KNum 2 BE);
  emit (lit "spare_config") (KNum 3 BE);
  PRet.
(** ogg.py:112-121: parseVorbisHeader *)
Definition parseVorbisHeader : prog :=
  emit (lit "vorbis_version") (KNum 32 LE);
  emit (lit "audio_channels") (KNum 8 LE);
  emit (lit "audio_sample_rate") (KNum 32 LE);
  emit (lit "bitrate_maximum") (KNum 32 LE);
  emit (lit "bitrate_nominal") (KNum 32 LE);
  emit (lit "bitrate_minimum") (KNum 32 LE);
  emit (lit "blocksize_0") (KNum 4 LE);
  emit (lit "blocksize_1") (KNum 4 LE);
  emit (lit "framing_flag") (KNum 8 LE);
  PRet.
(** ogg.py:125-135: tag_info, by the codec and the type *)
Definition chunk_info (codec : str) (type : Z) : option (str * prog) :=
  if str_eqb codec (lit "vorbis") then
    if type =? 3 then Some (lit "comment", parseVorbisComment)
    else if type =? 1 then Some (lit "vorbis_hdr", parseVorbisHeader)
    else None
  else if str_eqb codec (lit "theora") then
    if type =? 128 then Some (lit "theora_hdr", parseTheoraHeader)
    else if type =? 129 then Some (lit "comment", parseVorbisComment)
    else None
  else if str_eqb codec (lit "video" ++ [0]) then
    if type =? 1 then Some (lit "video_hdr", parseVideoHeader) else None
  else None.
(** ogg.py:137-160: Chunk, of [n] bytes.  What cannot be read has no value (field/field.py:118-129), and is no key of tag_info.  Simplified: the codec is compared as bytes. *)
Definition Chunk (n : Z) (k : prog) : prog :=
  let large := 7 * 8 <=? n * 8 in
  PDo (fun read ssize stop a => if large then match readBytes read a 7 with Ok b => Ok (VBytes b) | Err _ => Ok (VBytes []) end else Ok (VBytes [])) (fun start =>
  let info := match bytes start with type :: codec => chunk_info codec type | [] => None end in
  PSet (match info with Some (name, _) => name | None => lit "chunk[]" end) (Some (n * 8))
    (when large (fun k => emit (lit "type") (KNum 8 LE); emit (lit "codec") (KText 6); k)
     match info with
     | Some (_, parser) => parser
     | None => PAsk (fun stop a => let size := (stop - a) / 8 in when (negb (size =? 0)) (fun k => emit (lit "raw") (KBytes size); k) PRet)
     end) (fun _ => k)).
(** field/link.py:5-10, 85-106: a link, which has no size; where it leads is modelled below *)
Definition link (name : string) (k : prog) : prog := emit (lit name) (KCode (fun _ _ => Ok (0, 0))); k.
(** ogg.py:186-195, 219-222: the links and the fields of Segments.  [known]: a page before has the same serial number. *)
Definition Segments_fields (known last : bool) (segment_size : list Z) : prog :=
  when known (link "first") (when (negb last) (link "next") (fold_right (fun n k => if n =? 0 then k else Chunk n k) PRet segment_size)).
(** ogg.py:238-252: the fields of a page before its lacing *)
Definition page_head (k : Z -> Z -> Z -> prog) : prog :=
  emit (lit "capture_pattern") (KText 4);
  emit (lit "stream_structure_version") (KNum 8 LE);
  emit (lit "continued_packet") (KNum 1 LE);
  emit (lit "first_page") (KNum 1 LE);
  have last := (lit "last_page") (KNum 1 LE);
  emit (lit "unused") (KNum 5 LE);
  emit (lit "abs_granule_pos") (KNum 64 LE);
  have serial := (lit "serial") (KNum 32 LE);
  emit (lit "page") (KNum 32 LE);
  emit (lit "checksum") (KNum 32 LE);
  have lacing_size := (lit "lacing_size") (KNum 8 LE);
  k (num last) (num serial) (num lacing_size).
Definition page_lacing (n : Z) (k : prog) : prog := PSet (lit "lacing") (Some (n * 8)) (Lacing_fields n) (fun _ => k).
(** ogg.py:227-236: what the constructor of a page reads: the size of the lacing, and those of the segments *)
Definition kids (name : str) (l : list fld) : option (list fld) := match find (fun f => str_eqb (f_name f) name) l with Some (G _ _ _ l _) => Some l | _ => None end.
Definition missing (e : option exn) : exn := match e with Some StopIteration | None => MissingField | Some e => e end.
Definition page_sizes (read : read_fun) (ssize stop a : Z) : res val :=
  let '(l, e, _) := run read ssize (page_head (fun _ _ n => when (negb (n =? 0)) (page_lacing n) PRet)) true stop a in
  match get (lit "lacing_size") l with
  | None => Err (missing e)
  | Some n =>
      if num n =? 0 then Ok (VBytes [0])
      else match kids (lit "lacing") l with None => Err (missing e) | Some lacing => Ok (VBytes (num n :: map num (gets (lit "size[]") lacing))) end
  end.
Definition sum (l : list Z) : Z := fold_right Z.add 0 l.
(** ogg.py:225-255: OggPage.  [streams]: the serial numbers of the pages before that have a lacing *)
Definition OggPage (streams : list Z) (k : list Z -> prog) : prog :=
  PDo page_sizes (fun v =>
  let lacing_size := hd 0 (bytes v) in
  let segment_size := tl (bytes v) in
  PSet (lit "page[]") (Some ((27 + lacing_size + sum segment_size) * 8))
    (page_head (fun last serial _ =>
     when (negb (lacing_size =? 0)) (page_lacing lacing_size)
     (if lacing_size =? 0 then PRet
      else PAsk (fun stop a => PSet (lit "segments") (Some (stop - a)) (Segments_fields (existsb (Z.eqb serial) streams) (last =? 1) segment_size) (fun _ => PRet)))))
    (fun l => k (if lacing_size =? 0 then streams else match get (lit "serial") l with Some s => num s :: streams | None => streams end))).
(** ogg.py:317-320: createFields, for a file of [size] bits *)
Definition ogg_fields (size : Z) : prog := loop_from OggPage (S (Z.to_nat size)) [].
Definition OggFile (read : read_fun) (size : Z) : shown := run read size (ogg_fields size) true size 0.
(** ogg.py:257-262: OggPage.validate *)
Definition page_validate (l : list fld) : res bool :=
  match get (lit "capture_pattern") l, get (lit "stream_structure_version") l with
  | Some c, Some v => Ok (str_eqb (bytes c) (lit "OggS") && (num v =? 0))
  | _, _ => Err MissingField
  end.
(** ogg.py:283-299: validate.  After an error the rest of the file is a raw field (C27), which has no function validate. *)
Fixpoint pages_validate (n : nat) (l : list fld) (e : option exn) (rest : bool) : res bool :=
  match n, l with
  | O, _ => Ok true
  | S n, G _ _ _ page _ :: l => do ok <- page_validate page; if ok then pages_validate n l e rest else Ok false
  | S _, F _ _ _ _ :: _ => Err AttributeError
  | S _, [] => if match e with None => false | Some _ => rest end then Err AttributeError else Ok true
  end.
Definition ogg_validate (read : read_fun) (size : Z) : res bool :=
  do magic <- readBytes read 0 4;
  if negb (str_eqb magic (lit "OggS")) then Ok false
  else let '(l, e, b) := OggFile read size in pages_validate 3 l e (b <? size).
(** ogg.py:17, 322-349: createLastPage and createContentSize.  The page of the address found is made as if it was one of the file. *)
Definition ogg_content_size (read : read_fun) (size : Z) : res (option Z) :=
  match fst (fst (OggFile read size)) with
  | [] => Err MissingField
  | first :: _ =>
      let limit := Some (1000 * 1024 * 1024 * 8) in
      do offset <- searchBytes read size (lit "OggS" ++ [0; 5]) (f_size first) limit;
      do offset <- match offset with Some _ => Ok offset | None => searchBytes read size (lit "OggS" ++ [0; 4]) (f_size first) limit end;
      match offset with
      | None => Ok None
      | Some a => do v <- page_sizes read size size a; Ok (Some (a + (27 + hd 0 (bytes v) + sum (tl (bytes v))) * 8))
      end
  end.

(** ** Logical streams *)
(** What the links use of a page: its serial number, whether it is the last page of its stream, whether its first segment continues a packet, the sizes of its segments, and where
    the field set with the segments is, if there is one *)
Record page := Page { g_serial : Z; g_last : bool; g_continued : bool; g_sizes : list Z; g_segments : option (Z * Z) }.
Definition page_of (f : fld) : option page :=
  match f with
  | F _ _ _ _ => None
  | G _ _ _ l _ =>
      match get (lit "serial") l, get (lit "last_page") l, get (lit "continued_packet") l with
      | Some s, Some e, Some c =>
          Some (Page (num s) (num e =? 1) (num c =? 1) (match kids (lit "lacing") l with Some k => map num (gets (lit "size[]") k) | None => [] end)
                  (match find (fun f => str_eqb (f_name f) (lit "segments")) l with Some (G _ a s _ _) => Some (a, s) | _ => None end))
      | _, _, _ => None
      end
  end.
(** ogg.py:205-217: createNext: among the pages that follow, the first with the same serial number (Segments with the same first element); the search ends at a page without segments *)
Fixpoint createNext (serial : Z) (pages : list page) : option (page * list page) :=
  match pages with
  | [] => None
  | p :: pages => match g_segments p with None => None | Some _ => if g_serial p =? serial then Some (p, pages) else createNext serial pages end
  end.
(** ogg.py:188-195, field/link.py:71-76: the fragments of a stream after a page *)
Fixpoint fragments (n : nat) (p : page) (rest : list page) : list page :=
  match n with
  | O => []
  | S n => if g_last p then [] else match createNext (g_serial p) rest with None => [] | Some (q, rest) => q :: fragments n q rest end
  end.
(** ogg.py:197-203: the fragments of the stream that starts with a page; FragmentedStream of them is C09 *)
Definition stream_fragments (p : page) (rest : list page) : list (option (Z * Z)) := map (fun q => g_segments q) (p :: fragments (S (List.length rest)) p rest).
(** ogg.py:172-180: the packets of one page: the sizes yielded, and the size of the one that goes on *)
Fixpoint page_packets (continued : bool) (segs : list Z) (size : option Z) : list Z * res (option Z) :=
  match segs with
  | [] => ([], Ok size)
  | n :: segs =>
      if continued then match size with None => ([], Err TypeError) | Some s => page_packets false segs (Some (s + n)) end
      else let r := page_packets false segs (Some n) in
           match size with Some s => if s =? 0 then r else (s :: fst r, snd r) | None => r end
  end.
(** ogg.py:162-183: Packets: the sizes of the packets in bytes, and the exception that ended them.  No field has an attribute [__next__] (181). *)
Definition Packets (p : page) : list Z * exn :=
  let r := page_packets (g_continued p) (g_sizes p) None in
  (fst r, match snd r with Err e => e | Ok _ => AttributeError end).
(** ogg.py:365-367: OggStream, on the stream of the fragments *)
Definition ogg_stream_fields (p : page) : prog := let r := Packets p in fold_right (fun n k => emit (lit "packet[]") (KBytes n); k) (PErr (snd r)) (fst r).
Definition OggStream (read : read_fun) (size : Z) (p : page) : shown := run read size (ogg_stream_fields p) true size 0.
(** field/field.py:263-275: a name is in a field set *)
Definition has (name : str) (l : list fld) : bool := existsb (fun f => str_eqb (f_name f) name) l.
(** ogg.py:301-307: createMimeType *)
Definition ogg_mime (read : read_fun) (size : Z) : res str :=
  match fst (fst (OggFile read size)) with
  | G _ _ _ page _ :: _ =>
      match kids (lit "segments") page with
      | None => Err MissingField
      | Some l => Ok (if has (lit "theora_hdr") l then lit "video/theora" else if has (lit "vorbis_hdr") l then lit "audio/vorbis" else lit "application/ogg")
      end
  | _ => Err MissingField
  end.
(** ogg.py:309-315: createDescription *)
Definition ogg_description (read : read_fun) (size : Z) : res str :=
  match fst (fst (OggFile read size)) with
  | G _ _ _ page _ :: _ => Ok (if has (lit "theora_hdr") page then lit "Ogg/Theora video" else if has (lit "vorbis_hdr") page then lit "Ogg/Vorbis audio" else lit "Ogg multimedia container")
  | _ => Err MissingField
  end.

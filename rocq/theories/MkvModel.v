(** Model of the elements of parser/container/mkv.py. *)
From Coq Require Import String.
From Verif Require Export Base BitsModel StreamModel DictModel FieldModel TextModel VarintModel TlvModel Lit.
Open Scope Z_scope.

(** mkv.py:63-191: what is read in an element: an unsigned number (UInt, Bool, Enum, SeekID), a signed
    one (SInt, Date), a text (String, UTF8, EnumString), bytes (Binary, AttachedFile), a floating-point number (Float)
    or a block (BlockModel.v); or elements, those of a table.  Simplified: CueTrackPositions and
    CueClusterPosition also have a link, which takes no room, before the rest. *)
Inductive kind := KUnsigned | KSigned | KText | KBytes | KFloat | KBlock.
Inductive content := Leaf (k : kind) | Sub (c : Z).
(** mkv.py:264-550, 631: the tables *)
Definition ids (c : Z) : list (Z * (str * content)) :=
  if c =? 0 then (* mkv.py:264-274: ebml *)
    [(0x1A45DFA3, (lit "EBML[]", Sub 1))]
  else if c =? 1 then (* mkv.py:265-273: EBML[] *)
    [(0x4286, (lit "EBMLVersion", Leaf KUnsigned)); (0x42F7, (lit "EBMLReadVersion", Leaf KUnsigned));
     (0x42F2, (lit "EBMLMaxIDLength", Leaf KUnsigned)); (0x42F3, (lit "EBMLMaxSizeLength", Leaf KUnsigned)); (0x4282, (lit "DocType", Leaf KText));
     (0x4287, (lit "DocTypeVersion", Leaf KUnsigned)); (0x4285, (lit "DocTypeReadVersion", Leaf KUnsigned))]
  else if c =? 2 then (* mkv.py:541-550: segment *)
    [(0x114D9B74, (lit "SeekHead[]", Sub 3)); (0x1549A966, (lit "Info[]", Sub 5)); (0x1F43B675, (lit "Cluster[]", Sub 7));
     (0x1654AE6B, (lit "Tracks[]", Sub 14)); (0x1C53BB6B, (lit "Cues", Sub 23)); (0x1941A469, (lit "Attachments", Sub 27));
     (0x1043A770, (lit "Chapters", Sub 29)); (0x1254C367, (lit "Tags[]", Sub 36))]
  else if c =? 3 then (* mkv.py:323-328: segment_seek *)
    [(0x4DBB, (lit "Seek[]", Sub 4))]
  else if c =? 4 then (* mkv.py:324-327: Seek[] *)
    [(0x53AB, (lit "SeekID", Leaf KUnsigned)); (0x53AC, (lit "SeekPosition", Leaf KUnsigned))]
  else if c =? 5 then (* mkv.py:330-349: segment_info *)
    [(0x73A4, (lit "SegmentUID", Leaf KBytes)); (0x7384, (lit "SegmentFilename", Leaf KText)); (0x3CB923, (lit "PrevUID", Leaf KBytes));
     (0x3C83AB, (lit "PrevFilename", Leaf KText)); (0x3EB923, (lit "NextUID", Leaf KBytes)); (0x3E83BB, (lit "NextFilename", Leaf KText));
     (0x4444, (lit "SegmentFamily[]", Leaf KBytes)); (0x6924, (lit "ChapterTranslate[]", Sub 6)); (0x2AD7B1, (lit "TimecodeScale", Leaf KUnsigned));
     (0x4489, (lit "Duration", Leaf KFloat)); (0x4461, (lit "DateUTC", Leaf KSigned)); (0x7BA9, (lit "Title", Leaf KText));
     (0x4D80, (lit "MuxingApp", Leaf KText)); (0x5741, (lit "WritingApp", Leaf KText))]
  else if c =? 6 then (* mkv.py:338-342: ChapterTranslate[] *)
    [(0x69FC, (lit "ChapterTranslateEditionUID[]", Leaf KUnsigned)); (0x69BF, (lit "ChapterTranslateCodec", Leaf KUnsigned));
     (0x69A5, (lit "ChapterTranslateID", Leaf KBytes))]
  else if c =? 7 then (* mkv.py:351-383: segment_clusters *)
    [(0xE7, (lit "Timecode", Leaf KUnsigned)); (0x5854, (lit "SilentTracks", Sub 8)); (0xA7, (lit "Position", Leaf KUnsigned));
     (0xAB, (lit "PrevSize", Leaf KUnsigned)); (0xA0, (lit "BlockGroup[]", Sub 9)); (0xA3, (lit "SimpleBlock[]", Leaf KBlock))]
  else if c =? 8 then (* mkv.py:353-355: SilentTracks *)
    [(0x58D7, (lit "SilentTrackNumber[]", Leaf KUnsigned))]
  else if c =? 9 then (* mkv.py:358-381: BlockGroup[] *)
    [(0xA1, (lit "Block", Leaf KBlock)); (0xA2, (lit "BlockVirtual[]", Leaf KBlock)); (0x75A1, (lit "BlockAdditions", Sub 10));
     (0x9B, (lit "BlockDuration", Leaf KUnsigned)); (0xFA, (lit "ReferencePriority", Leaf KUnsigned));
     (0xFB, (lit "ReferenceBlock[]", Leaf KSigned)); (0xFD, (lit "ReferenceVirtual", Leaf KSigned)); (0xA4, (lit "CodecState", Leaf KBytes));
     (0x8E, (lit "Slices[]", Sub 12))]
  else if c =? 10 then (* mkv.py:361-366: BlockAdditions *)
    [(0xA6, (lit "BlockMore[]", Sub 11))]
  else if c =? 11 then (* mkv.py:362-365: BlockMore[] *)
    [(0xEE, (lit "BlockAddID", Leaf KUnsigned)); (0xA5, (lit "BlockAdditional", Leaf KBytes))]
  else if c =? 12 then (* mkv.py:372-380: Slices[] *)
    [(0xE8, (lit "TimeSlice[]", Sub 13))]
  else if c =? 13 then (* mkv.py:373-379: TimeSlice[] *)
    [(0xCC, (lit "LaceNumber", Leaf KUnsigned)); (0xCD, (lit "FrameNumber", Leaf KUnsigned)); (0xCB, (lit "BlockAdditionID", Leaf KUnsigned));
     (0xCE, (lit "Delay", Leaf KUnsigned)); (0xCF, (lit "Duration", Leaf KUnsigned))]
  else if c =? 14 then (* mkv.py:443-486: segment_tracks *)
    [(0xAE, (lit "TrackEntry[]", Sub 15))]
  else if c =? 15 then (* mkv.py:444-485: TrackEntry[] *)
    [(0xD7, (lit "TrackNumber", Leaf KUnsigned)); (0x73C5, (lit "TrackUID", Leaf KUnsigned)); (0x83, (lit "TrackType", Leaf KUnsigned));
     (0xB9, (lit "FlagEnabled", Leaf KUnsigned)); (0x88, (lit "FlagDefault", Leaf KUnsigned)); (0x55AA, (lit "FlagForced[]", Leaf KUnsigned));
     (0x9C, (lit "FlagLacing", Leaf KUnsigned)); (0x6DE7, (lit "MinCache", Leaf KUnsigned)); (0x6DF8, (lit "MaxCache", Leaf KUnsigned));
     (0x23E383, (lit "DefaultDuration", Leaf KUnsigned)); (0x23314F, (lit "TrackTimecodeScale", Leaf KFloat));
     (0x537F, (lit "TrackOffset", Leaf KSigned)); (0x55EE, (lit "MaxBlockAdditionID", Leaf KUnsigned)); (0x536E, (lit "Name", Leaf KText));
     (0x22B59C, (lit "Language", Leaf KText)); (0x86, (lit "CodecID", Leaf KText)); (0x63A2, (lit "CodecPrivate", Leaf KBytes));
     (0x258688, (lit "CodecName", Leaf KText)); (0x7446, (lit "AttachmentLink", Leaf KUnsigned)); (0x3A9697, (lit "CodecSettings", Leaf KText));
     (0x3B4040, (lit "CodecInfoURL[]", Leaf KText)); (0x26B240, (lit "CodecDownloadURL[]", Leaf KText));
     (0xAA, (lit "CodecDecodeAll", Leaf KUnsigned)); (0x6FAB, (lit "TrackOverlay[]", Leaf KUnsigned)); (0x6624, (lit "TrackTranslate[]", Sub 16));
     (0xE0, (lit "Video", Sub 17)); (0xE1, (lit "Audio", Sub 18)); (0x6D80, (lit "ContentEncodings", Sub 19))]
  else if c =? 16 then (* mkv.py:477-481: TrackTranslate[] *)
    [(0x66FC, (lit "TrackTranslateEditionUID[]", Leaf KUnsigned)); (0x66BF, (lit "TrackTranslateCodec", Leaf KUnsigned));
     (0x66A5, (lit "TrackTranslateTrackID", Leaf KBytes))]
  else if c =? 17 then (* mkv.py:398-413: tracks_video *)
    [(0x9A, (lit "FlagInterlaced", Leaf KUnsigned)); (0x53B8, (lit "StereoMode", Leaf KUnsigned)); (0xB0, (lit "PixelWidth", Leaf KUnsigned));
     (0xBA, (lit "PixelHeight", Leaf KUnsigned)); (0x54AA, (lit "PixelCropBottom", Leaf KUnsigned)); (0x54BB, (lit "PixelCropTop", Leaf KUnsigned));
     (0x54CC, (lit "PixelCropLeft", Leaf KUnsigned)); (0x54DD, (lit "PixelCropRight", Leaf KUnsigned));
     (0x54B0, (lit "DisplayWidth", Leaf KUnsigned)); (0x54BA, (lit "DisplayHeight", Leaf KUnsigned)); (0x54B2, (lit "DisplayUnit", Leaf KUnsigned));
     (0x54B3, (lit "AspectRatioType", Leaf KUnsigned)); (0x2EB524, (lit "ColourSpace", Leaf KBytes)); (0x2FB523, (lit "GammaValue", Leaf KFloat))]
  else if c =? 18 then (* mkv.py:415-421: tracks_audio *)
    [(0xB5, (lit "SamplingFrequency", Leaf KFloat)); (0x78B5, (lit "OutputSamplingFrequency", Leaf KFloat));
     (0x9F, (lit "Channels", Leaf KUnsigned)); (0x7D7B, (lit "ChannelPositions", Leaf KBytes)); (0x6264, (lit "BitDepth", Leaf KUnsigned))]
  else if c =? 19 then (* mkv.py:423-441: tracks_content_encodings *)
    [(0x6240, (lit "ContentEncoding[]", Sub 20))]
  else if c =? 20 then (* mkv.py:424-440: ContentEncoding[] *)
    [(0x5031, (lit "ContentEncodingOrder", Leaf KUnsigned)); (0x5032, (lit "ContentEncodingScope", Leaf KUnsigned));
     (0x5033, (lit "ContentEncodingType", Leaf KUnsigned)); (0x5034, (lit "ContentCompression", Sub 21)); (0x5035, (lit "ContentEncryption", Sub 22))]
  else if c =? 21 then (* mkv.py:428-431: ContentCompression *)
    [(0x4254, (lit "ContentCompAlgo", Leaf KUnsigned)); (0x4255, (lit "ContentCompSettings", Leaf KBytes))]
  else if c =? 22 then (* mkv.py:432-439: ContentEncryption *)
    [(0x47E1, (lit "ContentEncAlgo", Leaf KUnsigned)); (0x47E2, (lit "ContentEncKeyID", Leaf KBytes));
     (0x47E3, (lit "ContentSignature", Leaf KBytes)); (0x47E4, (lit "ContentSigKeyID", Leaf KBytes));
     (0x47E5, (lit "ContentSigAlgo", Leaf KUnsigned)); (0x47E6, (lit "ContentSigHashAlgo", Leaf KUnsigned))]
  else if c =? 23 then (* mkv.py:488-504: segment_cues *)
    [(0xBB, (lit "CuePoint[]", Sub 24))]
  else if c =? 24 then (* mkv.py:489-503: CuePoint[] *)
    [(0xB3, (lit "CueTime", Leaf KUnsigned)); (0xB7, (lit "CueTrackPositions[]", Sub 25))]
  else if c =? 25 then (* mkv.py:491-502: CueTrackPositions[] *)
    [(0xF7, (lit "CueTrack", Leaf KUnsigned)); (0xF1, (lit "CueClusterPosition", Leaf KUnsigned)); (0x5378, (lit "CueBlockNumber", Leaf KUnsigned));
     (0xEA, (lit "CueCodecState", Leaf KUnsigned)); (0xDB, (lit "CueReference[]", Sub 26))]
  else if c =? 26 then (* mkv.py:496-501: CueReference[] *)
    [(0x96, (lit "CueRefTime", Leaf KUnsigned)); (0x97, (lit "CueRefCluster", Leaf KUnsigned)); (0x535F, (lit "CueRefNumber", Leaf KUnsigned));
     (0xEB, (lit "CueRefCodecState", Leaf KUnsigned))]
  else if c =? 27 then (* mkv.py:506-515: segment_attachments *)
    [(0x61A7, (lit "AttachedFile[]", Sub 28))]
  else if c =? 28 then (* mkv.py:507-514: AttachedFile[] *)
    [(0x467E, (lit "FileDescription", Leaf KText)); (0x466E, (lit "FileName", Leaf KText)); (0x4660, (lit "FileMimeType", Leaf KText));
     (0x465C, (lit "FileData", Leaf KBytes)); (0x46AE, (lit "FileUID", Leaf KUnsigned)); (0x4675, (lit "FileReferral", Leaf KBytes))]
  else if c =? 29 then (* mkv.py:517-525: segment_chapters *)
    [(0x45B9, (lit "EditionEntry[]", Sub 30))]
  else if c =? 30 then (* mkv.py:518-524: EditionEntry[] *)
    [(0x45BC, (lit "EditionUID", Leaf KUnsigned)); (0x45BD, (lit "EditionFlagHidden", Leaf KUnsigned));
     (0x45DB, (lit "EditionFlagDefault", Leaf KUnsigned)); (0x45DD, (lit "EditionFlagOrdered", Leaf KUnsigned));
     (0xB6, (lit "ChapterAtom[]", Sub 31))]
  else if c =? 31 then (* mkv.py:288-313: chapter_atom *)
    [(0x73C4, (lit "ChapterUID", Leaf KUnsigned)); (0x91, (lit "ChapterTimeStart", Leaf KUnsigned)); (0x92, (lit "ChapterTimeEnd", Leaf KUnsigned));
     (0x98, (lit "ChapterFlagHidden", Leaf KUnsigned)); (0x4598, (lit "ChapterFlagEnabled", Leaf KUnsigned));
     (0x6E67, (lit "ChapterSegmentUID", Leaf KBytes)); (0x6EBC, (lit "ChapterSegmentEditionUID", Leaf KBytes));
     (0x63C3, (lit "ChapterPhysicalEquiv", Leaf KUnsigned)); (0x8F, (lit "ChapterTrack", Sub 32)); (0x80, (lit "ChapterDisplay[]", Sub 33));
     (0x6944, (lit "ChapProcess[]", Sub 34))]
  else if c =? 32 then (* mkv.py:297-299: ChapterTrack *)
    [(0x89, (lit "ChapterTrackNumber[]", Leaf KUnsigned))]
  else if c =? 33 then (* mkv.py:300-304: ChapterDisplay[] *)
    [(0x85, (lit "ChapString", Leaf KText)); (0x437C, (lit "ChapLanguage[]", Leaf KText)); (0x437E, (lit "ChapCountry[]", Leaf KText))]
  else if c =? 34 then (* mkv.py:305-312: ChapProcess[] *)
    [(0x6955, (lit "ChapProcessCodecID", Leaf KUnsigned)); (0x450D, (lit "ChapProcessPrivate", Leaf KBytes));
     (0x6911, (lit "ChapProcessCommand[]", Sub 35))]
  else if c =? 35 then (* mkv.py:308-311: ChapProcessCommand[] *)
    [(0x6922, (lit "ChapProcessTime", Leaf KUnsigned)); (0x6933, (lit "ChapProcessData", Leaf KBytes))]
  else if c =? 36 then (* mkv.py:527-539: segment_tags *)
    [(0x7373, (lit "Tag[]", Sub 37))]
  else if c =? 37 then (* mkv.py:528-538: Tag[] *)
    [(0x63C0, (lit "Targets", Sub 38)); (0x67C8, (lit "SimpleTag[]", Sub 39))]
  else if c =? 38 then (* mkv.py:529-536: Targets *)
    [(0x68CA, (lit "TargetTypeValue", Leaf KUnsigned)); (0x63CA, (lit "TargetType", Leaf KText)); (0x63C5, (lit "TrackUID[]", Leaf KUnsigned));
     (0x63C9, (lit "EditionUID[]", Leaf KUnsigned)); (0x63C4, (lit "ChapterUID[]", Leaf KUnsigned));
     (0x63C6, (lit "AttachmentUID[]", Leaf KUnsigned))]
  else if c =? 39 then (* mkv.py:315-321: simple_tag *)
    [(0x45A3, (lit "TagName", Leaf KText)); (0x447A, (lit "TagLanguage", Leaf KText)); (0x44B4, (lit "TagDefault", Leaf KUnsigned));
     (0x4487, (lit "TagString", Leaf KText)); (0x4485, (lit "TagBinary", Leaf KBytes))]
  else if c =? 40 then (* mkv.py:276-286: signature *)
    [(0x7E8A, (lit "SignatureAlgo", Leaf KUnsigned)); (0x7E9A, (lit "SignatureHash", Leaf KUnsigned));
     (0x7EA5, (lit "SignaturePublicKey", Leaf KBytes)); (0x7EB5, (lit "Signature", Leaf KBytes)); (0x7E5B, (lit "SignatureElements", Sub 41))]
  else if c =? 41 then (* mkv.py:281-285: SignatureElements *)
    [(0x7E7B, (lit "SignatureElementList[]", Sub 42))]
  else if c =? 42 then (* mkv.py:282-284: SignatureElementList[] *)
    [(0x6532, (lit "SignedElement[]", Leaf KBytes))]
  else if c =? 43 then (* mkv.py:631 *) [(0x18538067, (lit "Segment[]", Sub 2))]
  else [].
Definition ROOT_HEADER := 0.
Definition ROOT_SEGMENT := 43.
Definition SIGNATURE := 40.

Fixpoint lookup (id : Z) (l : list (Z * (str * content))) : option (str * content) :=
  match l with [] => None | (k, v) :: l => if id =? k then Some v else lookup id l end.
(** mkv.py:558-570 *)
Definition entry (c id : Z) : str * content :=
  match lookup id (ids c) with
  | Some v => v
  | None => if id =? 0xBF then (lit "CRC-32[]", Leaf KBytes)
            else if id =? 0xEC then (lit "Void[]", Leaf KBytes)
            else if id =? 0x1B538667 then (lit "SignatureSlot[]", Sub SIGNATURE)
            else (lit "Unknown[]", Leaf KBytes)
  end.

(** What is shown of an element: its identifier, its name (before its number), its size, [None] if it is
    unknown, and its value if it has one: a number, or the bytes of a text, a floating-point number, a block
    (whose fields are in BlockModel.v) or others. *)
Inductive val := NoVal | VInt (v : Z) | VText (b : list Z) | VBytes (b : list Z) | VFloat (b : list Z) | VBlock (b : list Z).
Record el := El { el_id : Z; el_name : str; el_size : option Z; el_value : val }.

Section Parser.
Context (read : read_fun).
(** mkv.py:63-155, with the limits of the fields (field/integer.py:16, field/byte_field.py:23, field/string_field.py:139): a
    field that would be too small or too large is refused, one that goes beyond the end of the element is
    deleted.  Simplified: a block that goes beyond the end is not shown (it is cut by the code). *)
Definition leaf_value (k : kind) (size stop addr : Z) : res val :=
  if (size <? 1) || (stop <? addr + size * 8) then Ok NoVal
  else match k with
       | KUnsigned => if 16384 <? size * 8 then Ok NoVal else do v <- readInteger read addr false (size * 8) BIG_ENDIAN; Ok (VInt v)
       | KSigned => if 16384 <? size * 8 then Ok NoVal else do v <- readInteger read addr true (size * 8) BIG_ENDIAN; Ok (VInt v)
       | KText => if 65535 <? size then Ok NoVal else do b <- readBytes read addr size; Ok (VText b)
       | KBytes => do b <- readBytes read addr size; Ok (VBytes b)
       | KFloat => do b <- readBytes read addr size; Ok (if (size =? 4) || (size =? 8) then VFloat b else VBytes b)
       | KBlock => do b <- readBytes read addr size; Ok (VBlock b)
       end.
(** mkv.py:553-590: EBML.  An identifier that goes beyond the end of the parent is refused, a size that does
    is deleted (generic_field_set.py:185-216). *)
Definition ebml_head (c stop addr : Z) : res (head el Z) :=
  do idsize <- rawint_size read addr;
  if stop <? addr + idsize then Err ParserError
  else
    do id <- readInteger read addr false idsize BIG_ENDIAN;
    do sizesize <- rawint_size read (addr + idsize);
    if stop <? addr + idsize + sizesize then Err MissingField
    else
      do s <- ebml_unsigned read (addr + idsize);
      let '(size, _) := s in
      let start := idsize + sizesize in
      do total <- match size with
                  | Some n => Ok (start + n * 8)
                  | None => if (c =? ROOT_HEADER) || (c =? ROOT_SEGMENT) then Ok (stop - addr) else Err ParserError
                  end;
      let '(name, content) := entry c id in
      match content with
      | Sub c' => Ok (Head (El id name size NoVal) total (BKids c' start 0))
      | Leaf k =>
          do v <- match size with Some n => leaf_value k n stop (addr + start) | None => Ok NoVal end;
          Ok (Head (El id name size v) total BRaw)
      end.

(** mkv.py:626-631: MkvFile.createFields for a file of [stop] bits.  The first element is refused if it is larger than
    the file (generic_field_set.py:189). *)
Definition MkvFile (stop : Z) : res (tree el * (list (tree el) * option exn)) :=
  let fuel := S (Z.to_nat (stop / 8)) in
  do h <- ebml_head ROOT_HEADER stop 0;
  if stop <? h_size h then Err ParserError
  else
    do t <- parse ebml_head fuel ROOT_HEADER stop 0;
    Ok (t, walk (parse ebml_head fuel ROOT_SEGMENT) fuel 0 stop (t_size t)).
(** mkv.py:610-611: the first element DocType of the header, without the zeros around its text *)
Definition doctype (t : tree el) : res (list Z) :=
  match t_kids t with
  | KNone => Err MissingField
  | KSome l _ =>
      match find (fun t => str_eqb (el_name (t_info t)) (lit "DocType")) l with
      | Some d => match el_value (t_info d) with VText b => Ok (strip (fun c => existsb (Z.eqb c) [0]) b) | _ => Err MissingField end
      | None => Err MissingField
      end
  end.
(** mkv.py:613-624: validate *)
Definition mkv_validate (stop : Z) : res bool :=
  do sig <- readBits read 0 32 BIG_ENDIAN;
  if negb (sig =? 0x1A45DFA3) then Ok false
  else match MkvFile stop with
       | Err ParserError => Ok false
       | Err e => Err e
       | Ok (t, _) => do d <- doctype t; Ok (str_eqb d (lit "matroska") || str_eqb d (lit "webm"))
       end.
(** mkv.py:633-635: createContentSize *)
Definition mkv_content_size (stop : Z) : res Z :=
  do f <- MkvFile stop;
  match find (fun t => str_eqb (el_name (t_info t)) (lit "Segment[]")) (fst (snd f)) with
  | None => Err MissingField
  | Some t =>
      do idsize <- rawint_size read (t_addr t);
      do s <- ebml_unsigned read (t_addr t + idsize);
      match s with
      | (Some n, sizesize) => Ok (t_addr t + idsize + n * 8 + sizesize)
      | (None, _) => Err TypeError
      end
  end.
End Parser.

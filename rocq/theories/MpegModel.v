(** Model of parser/audio/mpeg_audio.py, and of MpegAudioMetadata of metadata/audio.py. *)
From Coq Require Import String.
From Verif Require Export Base BitsModel StreamModel DictModel FieldModel GenModel ExtractModel HumanModel Id3Model Lit.
From Verif Require TextModel MetaModel.
Open Scope Z_scope.

(** mpeg_audio.py:37-58: BIT_RATES, layer I, II and III *)
Definition BIT_RATES_1 : list (list Z) :=
  [[0; 32; 64; 96; 128; 160; 192; 224; 256; 288; 320; 352; 384; 416; 448];
   [0; 32; 48; 56; 64; 80; 96; 112; 128; 160; 192; 224; 256; 320; 384];
   [0; 32; 40; 48; 56; 64; 80; 96; 112; 128; 160; 192; 224; 256; 320]].
Definition BIT_RATES_2 : list (list Z) :=
  [[0; 32; 48; 56; 64; 80; 96; 112; 128; 144; 160; 176; 192; 224; 256];
   [0; 8; 16; 24; 32; 40; 48; 56; 64; 80; 96; 112; 128; 144; 160];
   [0; 8; 16; 24; 32; 40; 48; 56; 64; 80; 96; 112; 128; 144; 160]].
(** mpeg_audio.py:57-61: SAMPLING_RATES; 117-126: getSampleRate *)
Definition getSampleRate (version rate : Z) : option Z :=
  match version, rate with
  | 3, 0 => Some 44100 | 3, 1 => Some 48000 | 3, 2 => Some 32000
  | 2, 0 => Some 22050 | 2, 1 => Some 24000 | 2, 2 => Some 16000
  | 0, 0 => Some 11025 | 0, 1 => Some 12000 | 0, 2 => Some 8000
  | _, _ => None
  end.
(** mpeg_audio.py:128-143: getBitRate *)
Definition getBitRate (version layer bit_rate : Z) : option Z :=
  if (bit_rate =? 0) || (bit_rate =? 15) then None
  else match nth_error (if version =? 3 then BIT_RATES_1 else BIT_RATES_2) (Z.to_nat (3 - layer)) with
       | Some l => match nth_error l (Z.to_nat bit_rate) with Some r => Some (r * 1000) | None => None end
       | None => None
       end.
(** mpeg_audio.py:145-166: getFrameSize *)
Definition getFrameSize (version layer bit_rate sampling_rate padding : Z) : option Z :=
  match getBitRate version layer bit_rate with
  | None => None
  | Some frame_size =>
      if frame_size =? 0 then None
      else match getSampleRate version sampling_rate with
           | None => None
           | Some sample_rate =>
               Some (if layer =? 1 then (if version =? 3 then frame_size * 144 / sample_rate + padding else frame_size * 72 / sample_rate + padding)
                     else if layer =? 2 then frame_size * 144 / sample_rate + padding
                     else (frame_size * 12 / sample_rate + padding) * 4)
           end
  end.
(** mpeg_audio.py:85-107: createFields of Frame *)
Definition bits (n : Z) (name : string) (k : prog) : prog := emit (lit name) (KNum n BE); k.
Definition Frame_fields : prog :=
  bits 11 "sync" (bits 2 "version" (bits 2 "layer" (bits 1 "crc16" (
  bits 4 "bit_rate" (bits 2 "sampling_rate" (bits 1 "use_padding" (bits 1 "extension" (
  bits 2 "channel_mode" (bits 2 "mode_ext" (bits 1 "copyright" (bits 1 "original" (bits 2 "emphasis" (
  rest_of (fun size => emit (lit "data") (KBytes size); PRet)))))))))))))).
(** mpeg_audio.py:77-83: the constructor of Frame: the size of the frame at [a], in bytes, in a field set that ends at [stop].  What getFrameSize
    reads is in the first three bytes. *)
Definition frame_size (read : read_fun) (stop a : Z) : res Z :=
  if stop <? a + 11 then Err ParserError
  else if stop <? a + 20 then Err MissingField
  else
  do version <- readBits read (a + 11) 2 BE; do layer <- readBits read (a + 13) 2 BE; do bit_rate <- readBits read (a + 16) 4 BE;
  do sampling_rate <- readBits read (a + 20) 2 BE; do padding <- readBits read (a + 22) 1 BE;
  match getFrameSize version layer bit_rate sampling_rate padding with
  | None => Err ParserError
  | Some n => if n =? 0 then Err ParserError else Ok n
  end.
Definition Frame (k : prog) : prog :=
  PDo (fun read _ stop a => do n <- frame_size read stop a; Ok (VNum n)) (fun n =>
  PAsk (fun stop a => PSet (lit "frame[]") (Some (Z.min (num n * 8) (stop - a))) Frame_fields (fun _ => k))).
(** mpeg_audio.py:109-115: isValid, of the fields of a frame *)
Definition field_value (name : string) (l : list fld) : res Z := match GenModel.get (lit name) l with Some v => Ok (num v) | None => Err MissingField end.
Definition isValid (l : list fld) : res bool :=
  do layer <- field_value "layer" l; if layer =? 0 then Ok false else
  do sync <- field_value "sync" l; if negb (sync =? 2047) then Ok false else
  do version <- field_value "version" l; if version =? 1 then Ok false else
  do sampling_rate <- field_value "sampling_rate" l; if sampling_rate =? 3 then Ok false else
  do bit_rate <- field_value "bit_rate" l; if (bit_rate =? 0) || (bit_rate =? 15) then Ok false else
  do emphasis <- field_value "emphasis" l; Ok (negb (emphasis =? 2)).
(** helper.py:50-64: createOrphanField of a Frame at [a], in a field set that ends at [stop]: the size of the frame and its fields *)
Definition orphan_frame (read : read_fun) (ssize stop a : Z) : res (Z * list fld) :=
  do n <- frame_size read stop a;
  let size := Z.min (n * 8) (stop - a) in
  Ok (size, fst (fst (run read ssize Frame_fields true (a + size) a))).
Definition orphan_valid (read : read_fun) (ssize stop a : Z) : bool :=
  match orphan_frame read ssize stop a with Ok (_, l) => match isValid l with Ok b => b | Err _ => false end | Err _ => false end.
(** mpeg_audio.py:182-212: findSynchronizeBits; [stop] is the end of the field set given, [stop_] the [end] of the code *)
Fixpoint sync_loop (read : read_fun) (ssize stop : Z) (fuel : nat) (start end_ size : Z) : res (option Z) :=
  match fuel with
  | O => Err OutOfFuel
  | S fuel =>
      if start <? end_ then
        do length <- searchBytesLength read ssize [0xff] false start (Some end_);
        match length with
        | None => Ok None
        | Some length =>
            let size := size + length in
            let start := start + length * 8 in
            if orphan_valid read ssize stop start then Ok (Some size) else sync_loop read ssize stop fuel (start + 8) end_ (size + 1)
        end
      else Ok None
  end.
Definition findSynchronizeBits (read : read_fun) (ssize stop start max_size : Z) : res (option Z) :=
  sync_loop read ssize stop (S (Z.to_nat max_size)) start (start + max_size) 0.
(** mpeg_audio.py:219-230, 250-265: Frames; the third argument of findSynchronizeBits is the end and not the size.  After the loop no byte is left. *)
Definition MAX_PADDING := 256.
Definition Frames_fields : prog :=
  PDo (fun read ssize stop addr =>
    let start := addr in
    let end_ := Z.min (start + MAX_PADDING * 8) stop in
    do padding <- findSynchronizeBits read ssize stop start end_;
    match padding with None => Err ParserError | Some n => Ok (VNum n) end) (fun padding =>
  when (negb (num padding =? 0)) (fun k => emit (lit "padding[]") (KBytes (num padding)); k) (
  PAsk (fun stop a => loop Frame (S (Z.to_nat (stop - a)))))).
(** mpeg_audio.py:343-367: createFields of MpegAudioFile *)
Definition frames_and_id3v1 : prog :=
  PAsk (fun stop a =>
  let addr := stop - 128 * 8 in
  PDo (fun read _ _ _ => if 0 <=? addr then do b <- readBytes read addr 3; Ok (VNum (if str_eqb b (lit "TAG") then 1 else 0)) else Ok (VNum 0)) (fun v =>
  let has_id3 := num v =? 1 in
  let frames_size := stop - a - if has_id3 then 128 * 8 else 0 in
  when (negb (frames_size =? 0)) (fun k => PSet (lit "frames") (Some frames_size) Frames_fields (fun _ => k)) (
  when has_id3 ID3v1 PRet))).
Definition mpeg_fields : prog :=
  PDo (fun read _ _ _ => do b <- readBytes read 0 3; Ok (VBytes b)) (fun b =>
  when (str_eqb (bytes b) (lit "ID3")) ID3v2 frames_and_id3v1).
Definition MpegAudioFile (read : read_fun) (size : Z) : shown := run read size mpeg_fields true size 0.

(** The frames: [self["frames/frame[n]"]] for each n *)
Definition frame_list (l : list fld) : list (list fld) :=
  match group (lit "frames") l with
  | Some f => flat_map (fun x => match x with G name _ _ k _ => if str_eqb name (lit "frame[]") then [k] else [] | F _ _ _ _ => [] end) f
  | None => []
  end.
(** mpeg_audio.py:311-341: validate.  [self.stream.checked] is taken to be true. *)
Fixpoint check_frames (index : nat) (mode0 : option Z) (l : list (list fld)) : res bool :=
  match index, l with
  | O, _ => Ok true
  | S _, [] => Ok (match mode0 with Some _ => true | None => false end)
  | S index, f :: l =>
      do b <- isValid f;
      if negb b then Ok false
      else match mode0 with
           | None => check_frames index (Some (match GenModel.get (lit "channel_mode") f with Some v => num v | None => 0 end)) l
           | Some m => do m' <- field_value "channel_mode" f; if m =? m' then check_frames index mode0 l else Ok false
           end
  end.
Definition mpeg_validate (read : read_fun) (size : Z) : res bool :=
  match fst (fst (MpegAudioFile read size)) with
  | [] => Err MissingField
  | f :: l =>
      if str_eqb (f_name f) (lit "id3v2") || str_eqb (f_name f) (lit "id3v1") then Ok true
      else check_frames 5 None (frame_list (f :: l))
  end.
(** tools.py:227-247: humanFrequency, for less than 1000 THz *)
Definition humanFrequency (hertz : Z) : res str :=
  if hertz <? 1000 then Ok (dec hertz ++ lit " Hz") else do f <- py_float hertz; Ok (human_units 1000 [lit "kHz"; lit "MHz"; lit "GHz"; lit "THz"] [] f).
(** mpeg_audio.py:25, 30, 65-70: VERSION_NAME, LAYER_NAME and CHANNEL_MODE_NAME *)
Definition version_display (v : Z) : str := match v with 0 => lit "2.5" | 2 => lit "2" | 3 => lit "1" | _ => dec v end.
Definition layer_display (v : Z) : str := match v with 1 => lit "III" | 2 => lit "II" | 3 => lit "I" | _ => dec v end.
Definition channel_mode_display (v : Z) : str := match v with 0 => lit "Stereo" | 1 => lit "Joint stereo" | 2 => lit "Dual channel" | 3 => lit "Single channel" | _ => dec v end.
(** mpeg_audio.py:171-179: createDescription of Frame *)
Definition frame_description (l : list fld) : res str :=
  do layer <- field_value "layer" l; do version <- field_value "version" l; do b <- field_value "bit_rate" l; do s <- field_value "sampling_rate" l;
  do rate <- match getBitRate version layer b with Some r => if r =? 0 then Ok [] else do t <- humanBitSize r; Ok (lit ", " ++ t ++ lit "/sec") | None => Ok [] end;
  do freq <- match getSampleRate version s with Some r => do t <- humanFrequency r; Ok (lit ", " ++ t) | None => Ok [] end;
  Ok (lit "MPEG-" ++ version_display version ++ lit " " ++ lit "layer " ++ layer_display layer ++ rate ++ freq).
(** id3.py:493-495, 213-216: createDescription of ID3v2; mpeg_audio.py:369-378: createDescription.  The description of an ID3v1 tag alone is not modelled. *)
Definition in_file (name : string) (l : list fld) : bool := existsb (fun f => str_eqb (f_name f) (lit name)) l.
Definition mpeg_description (l : list fld) : res str :=
  if in_file "frames" l then
    match frame_list l with
    | f :: _ => do d <- frame_description f; do m <- field_value "channel_mode" f; Ok (d ++ lit ", " ++ channel_mode_display m)
    | [] => Err MissingField
    end
  else match group (lit "id3v2") l with
       | Some g => do a <- field_value "ver_major" g; do b <- field_value "ver_minor" g; Ok (lit "ID3 v2." ++ dec a ++ lit "." ++ dec b)
       | None => Ok (lit "MPEG audio")
       end.
(** mpeg_audio.py:22, 380-420: createContentSize.  The frames that follow the first one, in the field set of frames from [address0] to [stop] *)
Definition MAX_FILESIZE := 200 * 1024 * 1024 * 8.
Fixpoint content_loop (read : read_fun) (ssize stop : Z) (fuel : nat) (size : Z) : res Z :=
  match fuel with
  | O => Err OutOfFuel
  | S fuel =>
      match orphan_frame read ssize stop size with
      | Err _ => Ok size
      | Ok (n, l) =>
          match isValid l with
          | Ok true => if MAX_FILESIZE <? size + n then Ok size else content_loop read ssize stop fuel (size + n)
          | _ => Ok size
          end
      end
  end.
Definition frames_content_size (read : read_fun) (ssize : Z) (f : fld) : res (option Z) :=
  match f with
  | G _ address0 n l _ =>
      match find (fun x => match x with G name _ _ _ _ => str_eqb name (lit "frame[]") | F _ _ _ _ => false end) l with
      | None => Err MissingField
      | Some frame =>
          do size <- content_loop read ssize (address0 + n) (S (Z.to_nat n)) (address0 + f_size frame);
          Ok (Some (match readBytes read size 3 with Ok b => if str_eqb b (lit "TAG") then size + 128 * 8 else size | Err _ => size end))
      end
  | F _ _ _ _ => Err MissingField
  end.
Definition mpeg_content_size (read : read_fun) (ssize : Z) : res (option Z) :=
  let '(l, _, a) := MpegAudioFile read ssize in
  match l with
  | [] => Err MissingField
  | f :: l =>
      if str_eqb (f_name f) (lit "frames") then frames_content_size read ssize f
      else match l with
           | [] => Ok (if a <? ssize then None else Some (f_size f)) (* the bytes that are not parsed are a field (C27) *)
           | g :: _ => if str_eqb (f_name g) (lit "frames") then frames_content_size read ssize g else Ok None
           end
  end.

(** mpeg_audio.py:232-248: looksConstantBitRate: the first eleven frames *)
Fixpoint all_same (keys : list string) (last : option (list fld)) (l : list (list fld)) : res bool :=
  match l with
  | [] => Ok true
  | f :: l =>
      do b <- match last with
              | None => Ok true
              | Some last => (fix check (keys : list string) : res bool :=
                  match keys with [] => Ok true | k :: keys => do v <- field_value k f; do w <- field_value k last; if v =? w then check keys else Ok false end) keys
              end;
      if b then all_same keys (Some f) l else Ok false
  end.
Definition looksConstantBitRate (l : list (list fld)) : res bool := all_same ["version"; "layer"; "bit_rate"]%string None (firstn 11 l).

Import MetaModel.
(** Assignments of any arguments, until one raises *)
Fixpoint assign_args (e : env) (m : meta) (l : list (string * arg)) : meta * bool :=
  match l with
  | [] => (m, true)
  | (key, a) :: l => match MetaModel.setattr e m (lit key) a with Ok m' => assign_args e m' l | Err _ => (m, false) end
  end.
(** Python: [timedelta(seconds=x)] of the float x: the microseconds of its integer part and of the double nearest to a million times the rest *)
Definition timedelta_seconds (x : Z * Z) : res Z :=
  let i := ftrunc x in timedelta (i * 1000000 + fround (FloatModel.fl (1000000 * (fst x - i * snd x)) (snd x))).
(** The float [float(size) / bit_rate] for a float bit rate *)
Definition seconds_of (size : Z) (rate : Z * Z) : Z * Z := let s := FloatModel.fl size 1 in FloatModel.fl (fst s * snd rate) (snd s * fst rate).
(** metadata/audio.py:350-356: computeBitrate; [size] is the size of the frames in bits *)
Definition getRate (f : list fld) : res (option Z) := do v <- field_value "version" f; do y <- field_value "layer" f; do b <- field_value "bit_rate" f; Ok (getBitRate v y b).
Definition computeBitrate (e : env) (m : meta) (f : list fld) (size : Z) : meta * bool :=
  match getRate f with
  | Err _ => (m, false)
  | Ok None => (m, true)
  | Ok (Some rate) =>
      if rate =? 0 then (m, true)
      else match humanBitRate rate with
           | Err _ => (m, false)
           | Ok text =>
               andthen (assign_args e m [("bit_rate"%string, APair (MInt rate) (Some (text ++ lit " (constant)")))]) (fun m =>
               match timedelta_seconds (seconds_of size (rate, 1)) with Ok d => assign_args e m [("duration"%string, AVal (MTimedelta d))] | Err _ => (m, false) end)
           end
  end.
(** metadata/audio.py:358-384: computeVariableBitrate for a quality between 0.25 and 1: the sum of the bit rates of at most [max_count] frames from the fourth on, and their number.
    The sums are floats, exact as long as they are integers less than 2^53.  [text]: what humanBitRate gives for the mean. *)
Fixpoint sum_rates (max_count : Z) (l : list (list fld)) (total count : Z) : res (Z * Z) :=
  match l with
  | [] => Ok (total, count)
  | f :: l =>
      do r <- getRate f;
      match r with
      | Some rate => if rate =? 0 then sum_rates max_count l total count
                     else if max_count <=? count + 1 then Ok (total + rate, count + 1) else sum_rates max_count l (total + rate) (count + 1)
      | None => sum_rates max_count l total count
      end
  end.
Definition computeVariableBitrate (e : env) (text : Z * Z -> str) (m : meta) (max_count : Z) (l : list (list fld)) (size : Z) : meta * bool :=
  match sum_rates max_count (skipn 3 l) 0 0 with
  | Err _ => (m, false)
  | Ok (total, count) =>
      if count =? 0 then (m, true)
      else
        let rate := FloatModel.fl total count in
        andthen (assign_args e m [("bit_rate"%string, APair (MFloat (FNum (fst rate) (Z.to_pos (snd rate)))) (Some (text rate ++ lit " (Variable bit rate)")))]) (fun m =>
        match timedelta_seconds (seconds_of size rate) with Ok d => assign_args e m [("duration"%string, AVal (MTimedelta d))] | Err _ => (m, false) end)
  end.
(** id3.py:181-197: the values of the strings of ID3v1 tags: ISO-8859-1, [strip=" \0"] *)
Definition blank (c : Z) : bool := (c =? 32) || (c =? 0).
Definition text1 (name : string) (l : list fld) : str := match GenModel.get (lit name) l with Some v => TextModel.strip blank (bytes v) | None => [] end.
(** metadata/audio.py:335-344 *)
Definition use_id3v1 (e : env) (m : meta) (id3 : list fld) : meta * bool :=
  andthen (assign e m [("comment"%string, MStr (text1 "comment" id3)); ("author"%string, MStr (text1 "author" id3)); ("title"%string, MStr (text1 "song" id3)); ("album"%string, MStr (text1 "album" id3))]) (fun m =>
  andthen (if str_eqb (text1 "year" id3) (lit "0") then (m, true) else assign e m [("creation_date"%string, MStr (text1 "year" id3))]) (fun m =>
  match GenModel.get (lit "track_nb") id3 with Some v => assign e m [("track_number"%string, MInt (num v))] | None => (m, true) end)).
(** string_field.py:193-209, 270-305: the value of a string with a charset, of its bytes; [suffix]: it is a CString.  The strings that end before their mark are taken to be empty. *)
Definition text2 (codec : TextModel.codec_fun) (charset : Z) (suffix : bool) (raw : list Z) : str :=
  let wide := (charset =? 1) || (charset =? 2) in
  let cs := if charset =? 0 then TextModel.Latin1
            else if charset =? 1 then match TextModel.utf_bom 16 (firstn 2 raw) with Some c => c | None => TextModel.UTF16 end
            else if charset =? 2 then TextModel.UTF16BE else TextModel.UTF8 in
  let body := if charset =? 1 then skipn 2 raw else raw in
  let body := if suffix then firstn (List.length body - if wide then 2 else 1) body else body in
  match body with [] => [] | _ => TextModel.strip blank (TextModel.convertText (fun _ => false) codec (Some cs) body) end.
(** metadata/audio.py:265-292: TAG_TO_KEY *)
Definition TAG_TO_KEY : list (string * string) :=
  [("TP1", "author"); ("COM", "comment"); ("TEN", "producer"); ("TRK", "track_number"); ("TAL", "album"); ("TT2", "title"); ("TYE", "creation_date"); ("TCO", "music_genre");
   ("TPE1", "author"); ("COMM", "comment"); ("TENC", "producer"); ("TRCK", "track_number"); ("TALB", "album"); ("TIT2", "title"); ("TYER", "creation_date"); ("WXXX", "url");
   ("TCON", "music_genre"); ("TLAN", "language"); ("TCOP", "copyright"); ("TDAT", "creation_date"); ("TRDA", "creation_date"); ("TORY", "creation_date"); ("TIT1", "title")]%string.
(** metadata/audio.py:294-320: processID3v2 and readID3v2.  The contents of the tags of TAG_TO_KEY that have a text have a charset. *)
Definition processID3v2 (codec : TextModel.codec_fun) (e : env) (m : meta) (field : list fld) : meta * bool :=
  match group (lit "content") field with
  | None => (m, true)
  | Some content =>
      match GenModel.get (lit "text") content, GenModel.get (lit "tag") field with
      | Some text, Some tag =>
          match find (fun kv => str_eqb (lit (fst kv)) (tag_value (bytes tag))) TAG_TO_KEY with
          | None => (m, true)
          | Some (_, key) =>
              let charset := match GenModel.get (lit "charset") content with Some v => num v | None => 0 end in
              let value := text2 codec charset false (bytes text) in
              let title := match GenModel.get (lit "title") content with Some t => text2 codec charset true (bytes t) | None => [] end in
              assign e m [(key, MStr (match title with [] => value | _ => title ++ lit ": " ++ value end))]
          end
      | _, _ => (m, true)
      end
  end.
Fixpoint readID3v2 (codec : TextModel.codec_fun) (e : env) (m : meta) (l : list fld) : meta * bool :=
  match l with
  | [] => (m, true)
  | G _ _ _ field _ :: l => andthen (processID3v2 codec e m field) (fun m => readID3v2 codec e m l)
  | F _ _ _ _ :: l => readID3v2 codec e m l
  end.
(** metadata/audio.py:13-22: computeComprRate.  Simplified: the quotient is exact; the duration in seconds is exact. *)
Definition duration_of (m : meta) : Z := match getItem m (lit "duration") 0 with Some (MTimedelta d, _) => d | _ => 0 end.
Definition audio_compr_rate (e : env) (m : meta) (size : Z) : meta * bool :=
  if negb (has_key m "duration") || negb (has_key m "sample_rate") || negb (has_key m "bits_per_sample") || negb (has_key m "nb_channel") then (m, true)
  else match size with
       | Zpos d => assign e m [("compr_rate"%string, MFloat (FNum (duration_of m * int_of m "sample_rate" * int_of m "bits_per_sample" * int_of m "nb_channel") (1000000 * d)))]
       | _ => (m, true)
       end.
(** mpeg_audio.py:72-77, 168-169: getNbChannel *)
Definition getNbChannel (mode : Z) : Z := if mode =? 3 then 1 else 2.
(** metadata/audio.py:322-334: what is told of the frames *)
Definition use_frames (e : env) (text : Z * Z -> str) (m : meta) (max_count : Z) (l : list (list fld)) (size : Z) : meta * bool :=
  match l with
  | [] => (m, true)
  | f :: _ =>
      match field_value "channel_mode" f, field_value "version" f, field_value "layer" f, field_value "sampling_rate" f with
      | Ok mode, Ok version, Ok layer, Ok rate =>
          andthen (assign_args e m [("nb_channel"%string, APair (MInt (getNbChannel mode)) (Some (channel_mode_display mode)));
                                    ("format_version"%string, AVal (MStr (lit "MPEG version " ++ version_display version ++ lit " layer " ++ layer_display layer)));
                                    ("sample_rate"%string, AVal (match getSampleRate version rate with Some r => MInt r | None => MNone end));
                                    ("bits_per_sample"%string, AVal (MInt 16))]) (fun m =>
          match looksConstantBitRate l with
          | Ok true => computeBitrate e m f size
          | Ok false => computeVariableBitrate e text m max_count l size
          | Err _ => (m, false)
          end)
      | _, _, _, _ => (m, false)
      end
  end.
(** metadata/audio.py:322-348: extract.  Simplified: a first frame that is cut before its channel mode is told as if it had all of its fields missing. *)
Definition mpeg_extract (codec : TextModel.codec_fun) (e : env) (text : Z * Z -> str) (m : meta) (max_count : Z) (l : list fld) : meta * bool :=
  let frames_size := match size_of (lit "frames") l with Some s => s | None => 0 end in
  andthen (use_frames e text m max_count (frame_list l) frames_size) (fun m =>
  andthen (match group (lit "id3v1") l with Some id3 => use_id3v1 e m id3 | None => (m, true) end) (fun m =>
  andthen (match group (lit "id3v2") l with Some id3 => readID3v2 codec e m id3 | None => (m, true) end) (fun m =>
  match size_of (lit "frames") l with Some s => audio_compr_rate e m s | None => (m, true) end))).
(** metadata.py:317-335: extractMetadata *)
Definition mpeg_metadata (codec : TextModel.codec_fun) (e : env) (text : Z * Z -> str) (m : meta) (max_count : Z) (l : list fld) : meta :=
  with_mime e (fst (mpeg_extract codec e text m max_count l)) (lit "audio/mpeg") (lit "Big endian").

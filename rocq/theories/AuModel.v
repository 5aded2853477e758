(** Model of parser/audio/au.py, and of AuMetadata of metadata/audio.py. *)
From Coq Require Import String.
From Verif Require Export Base BitsModel StreamModel DictModel FieldModel ToolsModel GenModel ExtractModel Lit.
From Verif Require MetaModel RasterModel MpegModel TextModel.
Open Scope Z_scope.

Definition u32 (name : string) (k : prog) : prog := emit (lit name) (KNum 32 BE); k.
(** au.py:73-87: createFields.  Simplified: strings are shown as their bytes. *)
Definition au_fields : prog :=
  emit (lit "signature") (KText 4);
  have data_ofs := (lit "data_ofs") (KNum 32 BE);
  have data_size := (lit "data_size") (KNum 32 BE);
  u32 "codec" (u32 "sample_rate" (u32 "channels" (
  PAsk (fun _ a =>
  let size := num data_ofs - a / 8 in
  when (0 <? size) (fun k => emit (lit "info") (KText size); k) (
  PAsk (fun stop a => emit (lit "audio_data") (KBytes (Z.min (num data_size) ((stop - a) / 8))); PRet)))))).
Definition AuFile (read : read_fun) (size : Z) : shown := run read size au_fields true size 0.
(** au.py:59-64: validate; 89-90: createContentSize *)
Definition au_validate (read : read_fun) (l : list fld) : res bool :=
  do b <- readBytes read 0 4;
  if negb (str_eqb b (lit ".snd")) then Ok false
  else do c <- RasterModel.value "channels" l; Ok ((c =? 1) || (c =? 2)).
Definition au_content_size (l : list fld) : res Z := do o <- RasterModel.value "data_ofs" l; do s <- RasterModel.value "data_size" l; Ok ((o + s) * 8).
(** au.py:27-52: CODEC_INFO *)
Definition codec_info (v : Z) : option (option Z * string) :=
  match v with
  | 1 => Some (Some 8, "8-bit ISDN u-law"%string) | 2 => Some (Some 8, "8-bit linear PCM"%string) | 3 => Some (Some 16, "16-bit linear PCM"%string) | 4 => Some (Some 24, "24-bit linear PCM"%string)
  | 5 => Some (Some 32, "32-bit linear PCM"%string) | 6 => Some (Some 32, "32-bit IEEE floating point"%string) | 7 => Some (Some 64, "64-bit IEEE floating point"%string) | 8 => Some (None, "Fragmented sample data"%string)
  | 9 => Some (None, "DSP program"%string) | 10 => Some (Some 8, "8-bit fixed point"%string) | 11 => Some (Some 16, "16-bit fixed point"%string) | 12 => Some (Some 24, "24-bit fixed point"%string)
  | 13 => Some (Some 32, "32-bit fixed point"%string) | 18 => Some (Some 16, "16-bit linear with emphasis"%string) | 19 => Some (Some 16, "16-bit linear compressed"%string)
  | 20 => Some (Some 16, "16-bit linear with emphasis and compression"%string) | 21 => Some (None, "Music kit DSP commands"%string) | 23 => Some (None, "4-bit ISDN u-law compressed (CCITT G.721 ADPCM)"%string)
  | 24 => Some (None, "ITU-T G.722 ADPCM"%string) | 25 => Some (None, "ITU-T G.723 3-bit ADPCM"%string) | 26 => Some (None, "ITU-T G.723 5-bit ADPCM"%string) | 27 => Some (Some 8, "8-bit ISDN A-law"%string)
  | _ => None
  end.
(** au.py:66-71: getBitsPerSample *)
Definition getBitsPerSample (v : Z) : option Z := match codec_info v with Some (b, _) => b | None => None end.
Import MetaModel.
(** metadata/audio.py:25-31: computeBitRate *)
Definition computeBitRate (e : env) (m : meta) : meta * bool :=
  if negb (has_key m "bits_per_sample") || negb (has_key m "nb_channel") || negb (has_key m "sample_rate") then (m, true)
  else assign e m [("bit_rate"%string, MInt (int_of m "bits_per_sample" * int_of m "nb_channel" * int_of m "sample_rate"))].
(** metadata/audio.py:145-157: extract of AuMetadata; an attribute set to None keeps its values *)
Definition au_extract (e : env) (m : meta) (l : list fld) : meta * bool :=
  ask "sample_rate" l m (fun r => andthen (assign e m [("sample_rate"%string, MInt r)]) (fun m =>
  ask "channels" l m (fun c => andthen (assign e m [("nb_channel"%string, MInt c)]) (fun m =>
  ask "codec" l m (fun k => andthen (assign e m [("compression"%string, MStr (RasterModel.enum (option_map snd (codec_info k)) k))]) (fun m =>
  andthen (match GenModel.get (lit "info") l with Some v => assign e m [("comment"%string, MStr (TextModel.strip MpegModel.blank (bytes v)))] | None => (m, true) end) (fun m =>
  andthen (match getBitsPerSample k with Some b => assign e m [("bits_per_sample"%string, MInt b)] | None => (m, true) end) (fun m =>
  andthen (computeBitRate e m) (fun m =>
  match size_of (lit "audio_data") l with
  | Some s =>
      andthen (if has_key m "bit_rate" then match MpegModel.timedelta_seconds (MpegModel.seconds_of s (int_of m "bit_rate", 1)) with Ok d => assign e m [("duration"%string, MTimedelta d)] | Err _ => (m, false) end else (m, true))
        (fun m => MpegModel.audio_compr_rate e m s)
  | None => (m, true)
  end))))))))).
Definition au_metadata (e : env) (l : list fld) : meta := with_mime e (fst (au_extract e root l)) (lit "audio/basic") (lit "Big endian").

(** Model of RealAudioMetadata of metadata/audio.py. *)
From Coq Require Import String.
From Verif Require Export Base DictModel GenModel ExtractModel Lit.
From Verif Require MetaModel MpegModel RasterModel AiffMetaModel.
Open Scope Z_scope.
Import MetaModel.

(** metadata/audio.py:161-165: FOURCC_TO_BITRATE *)
Definition fourcc_to_bitrate : list (string * Z) := [("28_8"%string, 15200); ("14_4"%string, 8000); ("lpcJ"%string, 8000)].
Definition tell (name : string) (e : env) (info : list fld) (m : meta) (k : meta -> meta * bool) : meta * bool :=
  match GenModel.get (lit name) info with Some v => andthen (assign e m [(name, MStr (bytes v))]) k | None => (m, false) end.
(** metadata/audio.py:188-193: useMetadata; fault_tolerant: an exception ends it.  Simplified: texts are their bytes. *)
Definition useMetadata (e : env) (m : meta) (info : list fld) : meta * bool :=
  tell "title" e info m (fun m => tell "author" e info m (fun m => tell "copyright" e info m (fun m => tell "comment" e info m (fun m => (m, true))))).
(** metadata/audio.py:195-209: useRoot *)
Definition useRoot (e : env) (m : meta) (l : list fld) : meta * bool :=
  andthen (assign e m [("bits_per_sample"%string, MInt 16)]) (fun m =>
  ask "version" l m (fun v =>
  andthen (if negb (v =? 3)
           then ask "sample_rate" l m (fun r => andthen (assign e m [("sample_rate"%string, MInt r)]) (fun m =>
                ask "channels" l m (fun c => assign e m [("nb_channel"%string, MInt c)])))
           else andthen (assign e m [("sample_rate"%string, MInt 8000)]) (fun m => assign e m [("nb_channel"%string, MInt 1)])) (fun m =>
  match GenModel.get (lit "FourCC") l with
  | Some f =>
      match bytes f with
      | [] => (m, true)
      | f => andthen (assign e m [("compression"%string, MStr f)]) (fun m =>
             match find (fun x => str_eqb (lit (fst x)) f) fourcc_to_bitrate with Some x => assign e m [("bit_rate"%string, MInt (snd x))] | None => (m, true) end)
      end
  | None => (m, true)
  end))).
(** metadata/audio.py:173-179: the size of the sound *)
Definition real_size (version : Z) (l : list fld) : option Z :=
  if version =? 3 then option_map num (GenModel.get (lit "data_size") l)
  else match GenModel.get (lit "filesize") l, GenModel.get (lit "headersize") l with Some f, Some h => Some ((num f + 40) - (num h + 16)) | _, _ => None end.
(** metadata/audio.py:167-185: extract *)
Definition real_extract (e : env) (m : meta) (l : list fld) : meta * bool :=
  ask "version" l m (fun v =>
  let m := match AiffMetaModel.group (lit "metadata") l with Some info => fst (useMetadata e m info) | None => m end in
  let m := fst (useRoot e m l) in
  andthen (assign e m [("format_version"%string, MStr (lit "Real audio version " ++ RasterModel.enum None v))]) (fun m =>
  match real_size v l with
  | Some s =>
      if s =? 0 then (m, true)
      else let size := s * 8 in
           andthen (if has_key m "bit_rate" then match MpegModel.timedelta_seconds (MpegModel.seconds_of size (int_of m "bit_rate", 1)) with Ok d => assign e m [("duration"%string, MTimedelta d)] | Err _ => (m, false) end else (m, true))
             (fun m => MpegModel.audio_compr_rate e m size)
  | None => (m, true)
  end)).
Definition real_metadata (e : env) (l : list fld) : meta := with_mime e (fst (real_extract e root l)) (lit "audio/x-realaudio") (lit "Big endian").

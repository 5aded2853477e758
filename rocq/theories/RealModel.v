(** Model of parser/audio/real_audio.py. *)
From Coq Require Import String.
From Verif Require Export Base BitsModel StreamModel DictModel FieldModel ToolsModel GenModel Lit.
From Verif Require RasterModel.
Open Scope Z_scope.

Definition u16 (name : string) (k : prog) : prog := emit (lit name) (KNum 16 BE); k.
Definition pascal (name : string) (k : prog) : prog := emit (lit name) (KPascal 1 false); k.
(** real_audio.py:21-27: Metadata.  Simplified: strings are shown as their bytes. *)
Definition Metadata_fields : prog := pascal "title" (pascal "author" (pascal "copyright" (pascal "comment" PRet))).
(** real_audio.py:84-85: the end of createFields *)
Definition audio_data (size : Z) : prog := when (0 <? size) (fun k => emit (lit "audio_data") (KBytes size); k) PRet.
(** real_audio.py:50-85: createFields *)
Definition real_fields : prog :=
  emit (lit "signature") (KBytes 4);
  have version := (lit "version") (KNum 16 BE);
  if num version =? 3 then
    u16 "header_size" (
    emit (lit "Unknown1") (KBytes 10);
    have data_size := (lit "data_size") (KNum 32 BE);
    PSet (lit "metadata") None Metadata_fields (fun _ =>
    emit (lit "Unknown2") (KNum 8 BE);
    pascal "FourCC" (audio_data (num data_size))))
  else
    u16 "reserved1" (
    emit (lit "ra4sig") (KText 4);
    have filesize := (lit "filesize") (KNum 32 BE);
    u16 "version2" (
    have headersize := (lit "headersize") (KNum 32 BE);
    u16 "codec_flavor" (
    emit (lit "coded_frame_size") (KNum 32 BE);
    emit (lit "unknown1") (KBytes 12);
    u16 "subpacketh" (u16 "frame_size" (u16 "sub_packet_size" (u16 "unknown2" (u16 "sample_rate" (u16 "unknown3" (u16 "sample_size" (u16 "channels" (
    pascal "Interleaving ID String" (pascal "FourCC" (
    emit (lit "unknown4") (KBytes 3);
    PSet (lit "metadata") None Metadata_fields (fun _ =>
    audio_data ((num filesize + 40) - (num headersize + 16)))))))))))))))).
Definition RealAudioFile (read : read_fun) (size : Z) : shown := run read size real_fields true size 0.
(** real_audio.py:43-48: validate *)
Definition real_validate (l : list fld) : res bool :=
  match GenModel.get (lit "signature") l with
  | None => Err MissingField
  | Some s => if negb (str_eqb (bytes s) (lit ".ra" ++ [0xFD])) then Ok false
              else do v <- RasterModel.value "version" l; Ok ((v =? 3) || (v =? 4))
  end.

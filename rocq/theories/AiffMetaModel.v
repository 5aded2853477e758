(** Model of AiffMetadata of metadata/audio.py, and of the value of Float80. *)
From Coq Require Import String.
From Verif Require Export Base DictModel GenModel ExtractModel Lit.
From Verif Require MetaModel MpegModel FloatModel TextModel.
Open Scope Z_scope.
Import MetaModel.

(** field/float.py:13-18, 21-29, 48-71: the value of a Float80 with these bits, as a fraction; None for an OverflowError, a value getValue() does not give.  The
    quotient of a float and 2 ** 63 and the product with a power of two are exact.  Simplified: numbers too small for normal floats are not rounded. *)
Definition float80 (negative exponent mantissa : Z) : option (Z * Z) :=
  let x := FloatModel.fl mantissa (2 ^ 63) in
  let v := FloatModel.fl (snd x + fst x) (snd x) in
  let k := exponent - 16383 in
  let s := if negative =? 0 then fst v else - fst v in
  if 1024 <=? k then None
  else Some (if 0 <=? k then (s * 2 ^ k, snd v) else (s, snd v * 2 ^ (- k))).
(** The first field set with this name *)
Definition group (name : str) (l : list fld) : option (list fld) :=
  match find (fun f => match f with G n _ _ _ _ => str_eqb n name | F _ _ _ _ => false end) l with Some (G _ _ _ g _) => Some g | _ => None end.
(** audio.py:398: getValue(info, "sample_rate") *)
Definition rate_value (info : list fld) : option (Z * Z) :=
  match group (lit "sample_rate") info with
  | Some g => match GenModel.get (lit "negative") g, GenModel.get (lit "exponent") g, GenModel.get (lit "mantissa") g with
              | Some s, Some x, Some m => float80 (num s) (num x) (num m)
              | _, _, _ => None
              end
  | None => None
  end.
(** self.get("sample_rate"), when it is a fraction *)
Definition rate_of (m : meta) : option (Z * Z) := match getItem m (lit "sample_rate") 0 with Some (MFloat (FNum n d), _) => Some (n, Zpos d) | _ => None end.
(** aiff.py:18-25: CODEC_NAME; 52: the display of the compression, without the null bytes around it; field/enum.py: another one is shown as it is *)
Definition codec_names : list (string * string) :=
  [("ACE2", "ACE 2-to-1"); ("ACE8", "ACE 8-to-3"); ("MAC3", "MAC 3-to-1"); ("MAC6", "MAC 6-to-1"); ("NONE", "None"); ("sowt", "Little-endian, no compression")]%string.
Definition codec_display (v : str) : str :=
  let v := TextModel.strip (fun b => b =? 0) v in
  match find (fun x => str_eqb (lit (fst x)) v) codec_names with Some x => lit (snd x) | None => v end.
(** metadata/audio.py:394-405: useCommon; fault_tolerant: an exception ends it *)
Definition useCommon (e : env) (m : meta) (info : list fld) : meta * bool :=
  ask "nb_channel" info m (fun c => andthen (assign e m [("nb_channel"%string, MInt c)]) (fun m =>
  ask "sample_size" info m (fun b => andthen (assign e m [("bits_per_sample"%string, MInt b)]) (fun m =>
  andthen (match rate_value info with Some x => assign e m [("sample_rate"%string, MFloat (FNum (fst x) (Z.to_pos (snd x))))] | None => (m, true) end) (fun m =>
  andthen (match rate_of m with
           | Some rate =>
               if fst rate =? 0 then (m, true)
               else ask "nb_sample" info m (fun n => match MpegModel.timedelta_seconds (MpegModel.seconds_of n rate) with Ok d => assign e m [("duration"%string, MTimedelta d)] | Err _ => (m, false) end)
           | None => (m, true)
           end) (fun m =>
  match GenModel.get (lit "codec") info with Some v => assign e m [("compression"%string, MStr (codec_display (bytes v)))] | None => (m, true) end)))))).
(** metadata/audio.py:25-31: computeBitRate, for a rate that is a float *)
Definition computeBitRate (e : env) (m : meta) : meta * bool :=
  if negb (has_key m "bits_per_sample") || negb (has_key m "nb_channel") || negb (has_key m "sample_rate") then (m, true)
  else match rate_of m with
       | Some rate => let x := FloatModel.fl (int_of m "bits_per_sample" * int_of m "nb_channel" * fst rate) (snd rate) in assign e m [("bit_rate"%string, MFloat (FNum (fst x) (Z.to_pos (snd x))))]
       | None => (m, true)
       end.
(** metadata/audio.py:389-392: extract *)
Definition aiff_extract (e : env) (m : meta) (l : list fld) : meta * bool :=
  computeBitRate e (match group (lit "common") l with Some info => fst (useCommon e m info) | None => m end).
Definition aiff_metadata (e : env) (l : list fld) : meta := with_mime e (fst (aiff_extract e root l)) (lit "audio/x-aiff") (lit "Big endian").

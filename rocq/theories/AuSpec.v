(** Sounds of Sun and NeXT (.au), for the claims about their parser. *)
From Coq Require Import String.
From Verif Require Import Base BitsModel BitsSpec NumSpec DictModel FieldModel GenModel GenSpec ItemSpec Lit.
Open Scope Z_scope.

Definition be4 (name : string) (v : Z) : item := I (lit name) (SNum 4 BE v).
Definition u32_ok (v : Z) : Prop := 0 <= v < 2 ^ 32.
(** The encoding, the samples per second, the channels, the text and the sound *)
Record au := Au { s_codec : Z; s_rate : Z; s_channels : Z; s_info : list Z; s_sound : list Z }.
Definition au_ok (s : au) : Prop := u32_ok (s_codec s) /\ u32_ok (s_rate s) /\ u32_ok (s_channels s) /\ zlen (s_info s) <= 65535 /\ s_sound s <> [] /\ zlen (s_sound s) < 2 ^ 32.
(** Its fields, when the size told is [told] *)
Definition au_items (s : au) (told : Z) : list item :=
  [I (lit "signature") (SText (lit ".snd")); be4 "data_ofs" (24 + zlen (s_info s)); be4 "data_size" told; be4 "codec" (s_codec s); be4 "sample_rate" (s_rate s); be4 "channels" (s_channels s)] ++
  (match s_info s with [] => [] | x => [I (lit "info") (SText x)] end) ++ [I (lit "audio_data") (SBytes (s_sound s))].
Definition au_len (s : au) : Z := 24 + zlen (s_info s) + zlen (s_sound s).
(** The encodings with samples of a fixed size, and the other ones *)
Definition sample_bits : list (Z * Z) := [(1, 8); (2, 8); (3, 16); (4, 24); (5, 32); (6, 32); (7, 64); (10, 8); (11, 16); (12, 24); (13, 32); (18, 16); (19, 16); (20, 16); (27, 8)].
Definition encodings : list (Z * string) :=
  [(1, "8-bit ISDN u-law"); (2, "8-bit linear PCM"); (3, "16-bit linear PCM"); (4, "24-bit linear PCM"); (5, "32-bit linear PCM"); (6, "32-bit IEEE floating point"); (7, "64-bit IEEE floating point");
   (8, "Fragmented sample data"); (9, "DSP program"); (10, "8-bit fixed point"); (11, "16-bit fixed point"); (12, "24-bit fixed point"); (13, "32-bit fixed point"); (18, "16-bit linear with emphasis");
   (19, "16-bit linear compressed"); (20, "16-bit linear with emphasis and compression"); (21, "Music kit DSP commands"); (23, "4-bit ISDN u-law compressed (CCITT G.721 ADPCM)"); (24, "ITU-T G.722 ADPCM");
   (25, "ITU-T G.723 3-bit ADPCM"); (26, "ITU-T G.723 5-bit ADPCM"); (27, "8-bit ISDN A-law")]%string.

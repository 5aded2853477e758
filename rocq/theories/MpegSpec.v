(** MPEG audio files, for the claims about their parser (ISO 11172-3 and 13818-3). *)
From Coq Require Import String.
From Verif Require Import Base BitsModel BitsSpec NumSpec DictModel FieldModel GenModel GenSpec ItemSpec ZipSpec MidiSpec Id3Spec Lit.
Open Scope Z_scope.

(** Versions and layers *)
Inductive mpeg := Mpeg1 | Mpeg2 | Mpeg25.
Inductive layer := Layer1 | Layer2 | Layer3.
Definition mpeg_code (v : mpeg) : Z := match v with Mpeg1 => 3 | Mpeg2 => 2 | Mpeg25 => 0 end.
Definition layer_code (l : layer) : Z := match l with Layer1 => 3 | Layer2 => 2 | Layer3 => 1 end.
(** Kilobits per second: for each index from 1 to 14, version 1 layers I, II and III, other versions layer I and the others *)
Definition rates : list (Z * Z * Z * Z * Z) :=
  [(32, 32, 32, 32, 8); (64, 48, 40, 48, 16); (96, 56, 48, 56, 24); (128, 64, 56, 64, 32); (160, 80, 64, 80, 40); (192, 96, 80, 96, 48); (224, 112, 96, 112, 56);
   (256, 128, 112, 128, 64); (288, 160, 128, 144, 80); (320, 192, 160, 160, 96); (352, 224, 192, 176, 112); (384, 256, 224, 192, 128); (416, 320, 256, 224, 144); (448, 384, 320, 256, 160)].
Definition kbits (v : mpeg) (l : layer) (index : Z) : Z :=
  let '(a, b, c, d, e) := nth (Z.to_nat (index - 1)) rates (0, 0, 0, 0, 0) in
  match v, l with Mpeg1, Layer1 => a | Mpeg1, Layer2 => b | Mpeg1, Layer3 => c | _, Layer1 => d | _, _ => e end.
(** Samples per second *)
Definition hertz (v : mpeg) (index : Z) : Z := nth (Z.to_nat index) [44100; 48000; 32000] 0 / match v with Mpeg1 => 1 | Mpeg2 => 2 | Mpeg25 => 4 end.
(** Samples of a frame *)
Definition samples (v : mpeg) (l : layer) : Z := match l, v with Layer1, _ => 384 | Layer2, _ => 1152 | Layer3, Mpeg1 => 1152 | Layer3, _ => 576 end.
(** Frames are made of slots of four bytes (layer I) or one: as many as the bits of its samples fill, and one more if it is padded *)
Definition slot (l : layer) : Z := match l with Layer1 => 4 | _ => 1 end.
Record frame := { a_mpeg : mpeg; a_layer : layer; a_crc : bool; a_rate : Z; a_sampling : Z; a_padded : bool; a_ext : bool; a_mode : Z; a_mode_ext : Z; a_copyright : bool; a_original : bool; a_emphasis : Z; a_data : list Z }.
Definition frame_len (v : mpeg) (l : layer) (rate sampling : Z) (padded : bool) : Z :=
  (samples v l * (1000 * kbits v l rate) / (8 * slot l * hertz v sampling) + (if padded then 1 else 0)) * slot l.
Definition frame_ok (f : frame) : Prop :=
  1 <= a_rate f <= 14 /\ 0 <= a_sampling f <= 2 /\ 0 <= a_mode f < 4 /\ 0 <= a_mode_ext f < 4 /\ 0 <= a_emphasis f < 4 /\ a_emphasis f <> 2 /\
  zlen (a_data f) = frame_len (a_mpeg f) (a_layer f) (a_rate f) (a_sampling f) (a_padded f) - 4.
Definition frame_head (f : frame) : list (str * list bool) :=
  [high 11 "sync" 2047; high 2 "version" (mpeg_code (a_mpeg f)); high 2 "layer" (layer_code (a_layer f)); flag "crc16" (a_crc f);
   high 4 "bit_rate" (a_rate f); high 2 "sampling_rate" (a_sampling f); flag "use_padding" (a_padded f); flag "extension" (a_ext f);
   high 2 "channel_mode" (a_mode f); high 2 "mode_ext" (a_mode_ext f); flag "copyright" (a_copyright f); flag "original" (a_original f); high 2 "emphasis" (a_emphasis f)].
Definition frame_items (f : frame) : list item := [IBits BIG_ENDIAN 4 (frame_head f); raw "data" (a_data f)].
Definition frame_item (f : frame) : item := ISet (lit "frame[]") (frame_items f).
(** Files: an ID3v2 tag, frames, an ID3v1 tag *)
Record mp3 := { p_tag2 : option tag2; p_frames : list frame; p_tag1 : option tag1 }.
Definition tag2_part (m : mp3) : list item := match p_tag2 m with Some t => [ISet (lit "id3v2") (tag2_items t)] | None => [] end.
Definition frames_part (m : mp3) : list item := match p_frames m with [] => [] | l => [ISet (lit "frames") (map frame_item l)] end.
Definition tag1_part (m : mp3) : list item := match p_tag1 m with Some t => [ISet (lit "id3v1") (tag1_items t)] | None => [] end.
Definition mp3_items (m : mp3) : list item := tag2_part m ++ frames_part m ++ tag1_part m.
Definition mp3_ok (m : mp3) : Prop :=
  match p_tag2 m with Some t => tag2_ok t | None => True end /\ Forall frame_ok (p_frames m) /\ match p_tag1 m with Some t => tag1_ok t /\ tag1_usual t | None => True end.
(** There is no "TAG" 128 bytes before the end of a file that has no ID3v1 tag. *)
Definition no_tag (data : list Z) : Prop := 128 <= zlen data -> sub data (zlen data - 128) 3 <> lit "TAG".

(** RealAudio sounds (.ra) of the versions 3 and 4, for the claims about their parser. *)
From Coq Require Import String.
From Verif Require Import Base BitsModel BitsSpec NumSpec DictModel FieldModel GenModel GenSpec ItemSpec Lit.
Open Scope Z_scope.

Definition be (n : nat) (name : string) (v : Z) : item := I (lit name) (SNum n BE v).
Definition fits_in (n : nat) (v : Z) : Prop := 0 <= v < 2 ^ (8 * Z.of_nat n).
(** A text after its length *)
Definition word (name : string) (x : list Z) : item := I (lit name) (SPascal 1 false x).
Definition word_ok (x : list Z) : Prop := zlen x < 2 ^ 8.
Record texts := Texts { t_title : list Z; t_author : list Z; t_copyright : list Z; t_comment : list Z }.
Definition texts_ok (t : texts) : Prop := word_ok (t_title t) /\ word_ok (t_author t) /\ word_ok (t_copyright t) /\ word_ok (t_comment t).
Definition texts_item (t : texts) : item := ISet (lit "metadata") [word "title" (t_title t); word "author" (t_author t); word "copyright" (t_copyright t); word "comment" (t_comment t)].
(** The numbers of the version 4 that are of two bytes *)
Record numbers := Numbers { n_flavor : Z; n_h : Z; n_frame : Z; n_packet : Z; n_x : Z; n_rate : Z; n_y : Z; n_bits : Z; n_channels : Z }.
Definition numbers_ok (n : numbers) : Prop :=
  fits_in 2 (n_flavor n) /\ fits_in 2 (n_h n) /\ fits_in 2 (n_frame n) /\ fits_in 2 (n_packet n) /\ fits_in 2 (n_x n) /\ fits_in 2 (n_rate n) /\ fits_in 2 (n_y n) /\ fits_in 2 (n_bits n) /\ fits_in 2 (n_channels n).
Inductive real :=
| Real3 (header : Z) (unknown : list Z) (t : texts) (byte : Z) (codec sound : list Z)
| Real4 (reserved : Z) (mark : list Z) (version : Z) (n : numbers) (coded : Z) (unknown interleaving codec unknown2 : list Z) (t : texts) (sound : list Z).
Definition sound_of (r : real) : list Z := match r with Real3 _ _ _ _ _ s => s | Real4 _ _ _ _ _ _ _ _ _ _ s => s end.
(** What precedes the sound.  The version 3 tells the size of the sound; the version 4 the size of the file without 40 bytes, and that of what precedes the sound without 16. *)
Definition head3 (header size : Z) (unknown : list Z) (t : texts) (byte : Z) (codec : list Z) : list item :=
  [I (lit "signature") (SBytes (lit ".ra" ++ [0xFD])); be 2 "version" 3; be 2 "header_size" header; I (lit "Unknown1") (SBytes unknown); be 4 "data_size" size; texts_item t; be 1 "Unknown2" byte; word "FourCC" codec].
Definition head4 (file head reserved : Z) (mark : list Z) (version : Z) (n : numbers) (coded : Z) (unknown interleaving codec unknown2 : list Z) (t : texts) : list item :=
  [I (lit "signature") (SBytes (lit ".ra" ++ [0xFD])); be 2 "version" 4; be 2 "reserved1" reserved; I (lit "ra4sig") (SText mark); be 4 "filesize" file; be 2 "version2" version; be 4 "headersize" head;
   be 2 "codec_flavor" (n_flavor n); be 4 "coded_frame_size" coded; I (lit "unknown1") (SBytes unknown); be 2 "subpacketh" (n_h n); be 2 "frame_size" (n_frame n); be 2 "sub_packet_size" (n_packet n); be 2 "unknown2" (n_x n);
   be 2 "sample_rate" (n_rate n); be 2 "unknown3" (n_y n); be 2 "sample_size" (n_bits n); be 2 "channels" (n_channels n); word "Interleaving ID String" interleaving; word "FourCC" codec; I (lit "unknown4") (SBytes unknown2); texts_item t].
Definition some_sound (x : list Z) : list item := match x with [] => [] | x => [I (lit "audio_data") (SBytes x)] end.
Definition texts_len (t : texts) : Z := 4 + zlen (t_title t) + zlen (t_author t) + zlen (t_copyright t) + zlen (t_comment t).
Definition head_len (r : real) : Z :=
  match r with
  | Real3 _ _ t _ codec _ => 22 + texts_len t + 1 + 1 + zlen codec
  | Real4 _ _ _ _ _ _ interleaving codec _ t _ => 56 + (1 + zlen interleaving) + (1 + zlen codec) + 3 + texts_len t
  end.
Definition real_items (r : real) : list item :=
  match r with
  | Real3 header unknown t byte codec sound => head3 header (zlen sound) unknown t byte codec
  | Real4 reserved mark version n coded unknown interleaving codec unknown2 t sound => head4 (head_len r + zlen sound - 40) (head_len r - 16) reserved mark version n coded unknown interleaving codec unknown2 t
  end ++ some_sound (sound_of r).
Definition real_ok (r : real) : Prop :=
  zlen (sound_of r) < 2 ^ 31 /\
  match r with
  | Real3 header unknown t byte codec sound => fits_in 2 header /\ zlen unknown = 10 /\ texts_ok t /\ fits_in 1 byte /\ word_ok codec
  | Real4 reserved mark version n coded unknown interleaving codec unknown2 t sound => fits_in 2 reserved /\ zlen mark = 4 /\ fits_in 2 version /\ numbers_ok n /\ fits_in 4 coded /\ zlen unknown = 12 /\ word_ok interleaving /\ word_ok codec /\ zlen unknown2 = 3 /\ texts_ok t
  end.

(** What a user expects of hachoir-strip. *)
From Coq Require Import String.
From Verif Require Import Base BitsModel DictModel EditModel EditSpec Lit.
Open Scope Z_scope.

(** ** RIFF files: a tree of chunks; [name] is the name that hachoir gives to a chunk *)
Inductive chunk :=
| Raw (name : str) (content : list Z)                 (* bytes that are not in a chunk *)
| Data (name tag : str) (content pad : list Z)
| Lst (name subtag : str) (l : list chunk).
Definition le32 (v : Z) : list Z := [v mod 256; v / 256 mod 256; v / 65536 mod 256; v / 16777216 mod 256].
Fixpoint chunk_bytes (c : chunk) : list Z :=
  match c with
  | Raw _ content => content
  | Data _ tag content pad => tag ++ le32 (zlen content) ++ content ++ pad
  | Lst _ subtag l => let body := flat_map chunk_bytes l in lit "LIST" ++ le32 (4 + zlen body) ++ subtag ++ body
  end.
(** The file: [filesize] is the size written in its header. *)
Definition riff_bytes (filesize : Z) (type : str) (l : list chunk) : list Z :=
  lit "RIFF" ++ le32 filesize ++ type ++ flat_map chunk_bytes l.
(** Without the chunks of some names and, if [useless], without junk; the frames of a
    movie are not looked at. *)
Definition memb (name : str) (l : list str) : bool := existsb (str_eqb name) l.
Fixpoint strip_chunk (useless : bool) (names : list str) (c : chunk) : list chunk :=
  match c with
  | Raw name _ => if memb name names then [] else [c]
  | Data name tag _ _ => if memb name names || useless && str_eqb tag (lit "JUNK") then [] else [c]
  | Lst name subtag l =>
      if memb name names then []
      else if str_eqb name (lit "movie") then [c] else [Lst name subtag (flat_map (strip_chunk useless names) l)]
  end.

(** The bytes [b] are at the address [a], in bits, of the file. *)
Definition stored_at (data : list Z) (a : Z) (b : list Z) : Prop :=
  0 <= a /\ a mod 8 = 0 /\ a + 8 * zlen b <= 8 * zlen data /\ sub data (a / 8) (zlen b) = b.
(** The field that the parser makes of a chunk found in the file: parser/container/riff.py:265-302 *)
Inductive lays (data : list Z) : inode -> chunk -> Prop :=
| lays_raw name k a s content : stored_at data a content -> s = 8 * zlen content -> lays data (ILeaf name k a s) (Raw name content)
| lays_data name e a s tag content pad fields :
    zlen tag = 4 -> tag <> lit "LIST" -> let b := chunk_bytes (Data name tag content pad) in stored_at data a b -> s = 8 * zlen b ->
    lays data (ISet name e a s (ILeaf (lit "tag") (KString FFixed 0 []) a 32 :: fields)) (Data name tag content pad)
| lays_list name a s subtag fields l :
    zlen subtag = 4 -> let b := chunk_bytes (Lst name subtag l) in stored_at data a b -> s = 8 * zlen b ->
    let body := flat_map chunk_bytes l in 4 + zlen body < 2 ^ 32 ->
    let all := ILeaf (lit "tag") (KString FFixed 0 []) a 32 :: ILeaf (lit "size") (KInt false) (a + 32) 32 ::
               ILeaf (lit "subtag") (KString FFixed 0 []) (a + 64) 32 :: fields in
    NoDup (map i_name all) -> tiles (a + 96) (8 * zlen body) fields -> Forall2 (lays data) fields l ->
    lays data (ISet name LITTLE_ENDIAN a s all) (Lst name subtag l).
(** The field set of the file: parser/container/riff.py:413-428 *)
Definition riff_file (data : list Z) (filesize : Z) (type : str) (l : list chunk) (i : inode) : Prop :=
  data = riff_bytes filesize type l /\ zlen type = 4 /\ 0 <= filesize < 2 ^ 32 /\
  exists name fields,
    let all := ILeaf (lit "signature") (KString FFixed 0 []) 0 32 :: ILeaf (lit "filesize") (KInt false) 32 32 ::
               ILeaf (lit "type") (KString FFixed 0 []) 64 32 :: fields in
    i = ISet name LITTLE_ENDIAN 0 (8 * zlen data) all /\
    NoDup (map i_name all) /\ tiles 96 (8 * zlen (flat_map chunk_bytes l)) fields /\ Forall2 (lays data) fields l.

(** ** The header of an AVI file: the flag "this file has an index" is in the byte 12 of
    the chunk "avih" *)
Definition clear_flag (content : list Z) : list Z :=
  sub content 0 12 ++ [Z.land (nth 12 content 0) 0xef] ++ sub content 13 (zlen content - 13).
Definition clear_avih (c : chunk) : chunk :=
  match c with
  | Data name tag content pad => if str_eqb name (lit "avi_hdr") then Data name tag (clear_flag content) pad else c
  | _ => c
  end.
Definition clear_index (c : chunk) : chunk :=
  match c with
  | Lst name subtag l => if str_eqb name (lit "headers") then Lst name subtag (map clear_avih l) else c
  | _ => c
  end.
(** parser/container/riff.py:180-207: the fields of that chunk at the address [a] *)
Definition avi_fields (a : Z) (rest : list inode) : list inode :=
  [ILeaf (lit "tag") (KString FFixed 0 []) a 32; ILeaf (lit "size") (KInt false) (a + 32) 32;
   ILeaf (lit "microsec_per_frame") (KInt false) (a + 64) 32; ILeaf (lit "max_byte_per_sec") (KInt false) (a + 96) 32;
   ILeaf (lit "reserved") KFake (a + 128) 32;
   ILeaf (lit "reserved[0]") KFake (a + 160) 4; ILeaf (lit "has_index") KBits (a + 164) 1;
   ILeaf (lit "must_use_index") KBits (a + 165) 1; ILeaf (lit "reserved[1]") KFake (a + 166) 2;
   ILeaf (lit "is_interleaved") KBits (a + 168) 1; ILeaf (lit "reserved[2]") KFake (a + 169) 2;
   ILeaf (lit "trust_cktype") KBits (a + 171) 1; ILeaf (lit "reserved[3]") KFake (a + 172) 4;
   ILeaf (lit "was_capture_file") KBits (a + 176) 1; ILeaf (lit "is_copyrighted") KBits (a + 177) 1;
   ILeaf (lit "reserved[4]") KFake (a + 178) 14] ++ rest.
(** [i] is that chunk; the fields that follow the flags are made of whole bytes. *)
Definition avi_header (i : inode) : Prop :=
  exists a s rest, i = ISet (lit "avi_hdr") LITTLE_ENDIAN a s (avi_fields a rest) /\
    NoDup (map i_name (avi_fields a rest)) /\ tiles (a + 192) (s - 192) rest /\
    Forall (fun c => 0 <= i_size c /\ i_size c mod 8 = 0) rest.

(** ** Sun/NeXT audio files: the signature, the offset of the sound, 16 bytes, the
    comment, the sound.  [i] is the field set of the file: parser/audio/au.py:73-87 *)
Definition be32 (v : Z) : list Z := rev (le32 v).
Definition au_bytes (ofs : Z) (header info rest : list Z) : list Z := lit ".snd" ++ be32 ofs ++ header ++ info ++ rest.
Definition au_file (data header info rest : list Z) (i : inode) : Prop :=
  data = au_bytes (24 + zlen info) header info rest /\ zlen header = 16 /\ 24 + zlen info < 2 ^ 32 /\
  exists name k fields,
    let all := ILeaf (lit "signature") (KString FFixed 0 []) 0 32 :: ILeaf (lit "data_ofs") (KInt false) 32 32 ::
               ILeaf (lit "data_size") (KInt false) 64 32 :: ILeaf (lit "codec") (KInt false) 96 32 ::
               ILeaf (lit "sample_rate") (KInt false) 128 32 :: ILeaf (lit "channels") (KInt false) 160 32 ::
               (if zlen info =? 0 then [] else [ILeaf (lit "info") k 192 (8 * zlen info)]) ++ fields in
    i = ISet name BIG_ENDIAN 0 (8 * zlen data) all /\ NoDup (map i_name all) /\ ~ In (lit "info") (map i_name fields) /\
    tiles (192 + 8 * zlen info) (8 * zlen rest) fields /\ Forall (fun c => 0 <= i_size c /\ i_size c mod 8 = 0) fields.

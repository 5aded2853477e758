(** ID3 tags, for the claims about their parser (ID3v1, ID3v1.1, ID3v2.2, v2.3 and v2.4). *)
From Coq Require Import String.
From Verif Require Import Base BitsModel BitsSpec NumSpec DictModel FieldModel GenModel GenSpec ItemSpec ZipSpec MidiSpec Lit.
Open Scope Z_scope.

Definition txt (name : string) (x : list Z) : item := I (lit name) (SText x).
Definition raw (name : string) (x : list Z) : item := I (lit name) (SBytes x).
(** ** ID3v1: 128 bytes: the texts fill 30, 30, 30 and 4 bytes; then a comment of 30 bytes, or a comment of 28 bytes, a zero and a track number; then the genre *)
Inductive comment1 := Plain1 (comment : list Z) | Track1 (comment : list Z) (track : Z).
Record tag1 := { t_song : list Z; t_author : list Z; t_album : list Z; t_year : list Z; t_comment : comment1; t_genre : Z }.
Definition comment_bytes (c : comment1) : list Z := match c with Plain1 x => x | Track1 x n => x ++ [0; n] end.
Definition tag1_bytes (t : tag1) : list Z := lit "TAG" ++ t_song t ++ t_author t ++ t_album t ++ t_year t ++ comment_bytes (t_comment t) ++ [t_genre t].
Definition tag1_ok (t : tag1) : Prop :=
  zlen (t_song t) = 30 /\ zlen (t_author t) = 30 /\ zlen (t_album t) = 30 /\ zlen (t_year t) = 4 /\ byte (t_genre t) /\
  match t_comment t with Plain1 x => zlen x = 30 | Track1 x n => zlen x = 28 /\ 1 <= n < 256 end.
(** The tags the parser understands: the genre is not number 32, and the last byte of a comment of 30 bytes is a zero *)
Definition tag1_usual (t : tag1) : Prop := t_genre t <> 32 /\ match t_comment t with Plain1 x => exists y, x = y ++ [0] | Track1 _ _ => True end.
Definition tag1_items (t : tag1) : list item :=
  [txt "signature" (lit "TAG"); txt "song" (t_song t); txt "author" (t_author t); txt "album" (t_album t); txt "year" (t_year t)] ++
  match t_comment t with Plain1 x => [txt "comment" x] | Track1 x n => [txt "comment" (x ++ [0]); be 1 "track_nb" n] end ++ [be 1 "genre" (t_genre t)].

(** ** ID3v2: texts are ISO-8859-1, UTF-16 with a mark (little or big endian), UTF-16 big endian or UTF-8 *)
Inductive coding := Latin | Wide_le | Wide_be | Wide | Utf8.
Definition coding_number (c : coding) : Z := match c with Latin => 0 | Wide_le | Wide_be => 1 | Wide => 2 | Utf8 => 3 end.
Definition mark (c : coding) : list Z := match c with Wide_le => [0xff; 0xfe] | Wide_be => [0xfe; 0xff] | _ => [] end.
Definition narrow (c : coding) : bool := match c with Latin | Utf8 => true | _ => false end.
Definition ending (c : coding) : list Z := if narrow c then [0] else [0; 0].
Definition text_of (c : coding) (x : list Z) : list Z := mark c ++ x.
Definition ended (c : coding) (x : list Z) : list Z := mark c ++ x ++ ending c.
(** A text that an ending follows: no zero; for UTF-16 an even number of bytes, and no two zeros side by side *)
Definition ended_ok (c : coding) (x : list Z) : Prop :=
  if narrow c then ~ In 0 x else zlen x mod 2 = 0 /\ (forall y z, x <> y ++ [0; 0] ++ z).
(** The rest of a content, when there is any *)
Definition rest_text (c : coding) (x : list Z) : list item := match text_of c x with [] => [] | y => [raw "text" y] end.
Definition rest_data (name : string) (x : list Z) : list item := match x with [] => [] | y => [raw name y] end.
(** The contents of frames: texts (T...), comments (COM, COMM), texts and links with a title (TXXX, WXXX), links (WOAR), objects (GEOB), pictures (APIC; PIC), private data (PRIV), and
    the others *)
Inductive content :=
| Words (c : coding) (x : list Z)
| Remark (c : coding) (lang title x : list Z)
| Titled (c : coding) (title x : list Z)
| Link (x : list Z)
| Object (c : coding) (mime name descr x : list Z)
| Picture (c : coding) (mime : list Z) (type : Z) (descr x : list Z)
| Picture22 (c : coding) (format : list Z) (type : Z) (descr x : list Z)
| Peak (x : list Z)
| Private (x : list Z)
| Other (x : list Z).
Definition charset (c : coding) : item := be 1 "charset" (coding_number c).
Definition content_items (k : content) : list item :=
  match k with
  | Words c x => charset c :: rest_text c x
  | Remark c lang title x => [charset c; txt "lang" lang; raw "title" (ended c title)] ++ rest_text c x
  | Titled c title x => [charset c; raw "title" (ended c title)] ++ rest_text c x
  | Link x => [txt "text" x]
  | Object c mime name descr x => [charset c; raw "mime" (ended c mime); raw "filename" (ended c name); raw "description" (ended c descr)] ++ rest_text c x
  | Picture c mime type descr x => [charset c; raw "mime" (ended c mime); be 1 "pict_type" type; raw "description" (ended c descr)] ++ rest_data "img_data" x
  | Picture22 c format type descr x => [charset c; txt "img_fmt" format; be 1 "pict_type" type; raw "text" (ended c descr)] ++ rest_data "img_data" x
  | Peak x => [txt "text" (lit "PeakValue"); txt "content" x]
  | Private x => [txt "content" x]
  | Other x => []
  end.
Definition content_bytes (k : content) : list Z := match k with Other x => x | k => bytes_of_all (content_items k) end.
Definition content_item (k : content) : item := match k with Other x => raw "content" x | k => ISet (lit "content") (content_items k) end.
(** Texts of at most 65535 bytes *)
Definition short (x : list Z) : Prop := zlen x <= 0xffff.
Definition begins (x y : list Z) : Prop := exists z, y = x ++ z.
(** Which contents go with which tags; the types of objects and pictures, and links, are ISO-8859-1 whatever the charset, so the charset must be as narrow *)
Definition special : list str := map lit ["COMM"; "COM"; "GEOB"; "PIC"; "APIC"; "PRIV"; "TXXX"; "WOAR"; "WXXX"]%string.
Definition content_ok (tag : str) (k : content) : Prop :=
  match k with
  | Words c x => (exists t, tag = 84 :: t) /\ ~ In tag special /\ short (text_of c x)
  | Remark c lang title x => In tag [lit "COMM"; lit "COM"] /\ zlen lang = 3 /\ ended_ok c title /\ short (text_of c x)
  | Titled c title x => (tag = lit "TXXX" \/ tag = lit "WXXX" /\ narrow c = true) /\ ended_ok c title /\ short (text_of c x)
  | Link x => tag = lit "WOAR" /\ x <> [] /\ short x
  | Object c mime name descr x => tag = lit "GEOB" /\ narrow c = true /\ ended_ok c mime /\ ended_ok c name /\ ended_ok c descr /\ short (text_of c x)
  | Picture c mime type descr x => tag = lit "APIC" /\ narrow c = true /\ ended_ok c mime /\ byte type /\ ended_ok c descr
  | Picture22 c format type descr x => tag = lit "PIC" /\ zlen format = 3 /\ byte type /\ ended_ok c descr
  | Peak x => tag = lit "PRIV" /\ x <> [] /\ short x
  | Private x => tag = lit "PRIV" /\ 9 <= zlen x /\ short x /\ ~ begins (lit "PeakValue") x
  | Other x => ~ In tag special /\ (forall t, tag <> 84 :: t) /\ x <> []
  end.
(** Numbers of four bytes with seven bits each *)
Definition safe_size (v : Z) : list Z := [v / 2097152 mod 128; v / 16384 mod 128; v / 128 mod 128; v mod 128].
(** A frame: its tag, its flags (version 2.3: three for what to do with it, and whether it is compressed) and its content *)
Record frame2 := { f_tag : str; f_alter : bool; f_file : bool; f_ro : bool; f_packed : bool; f_content : content }.
(** The tag is made of capital letters and digits *)
Definition tag_char (c : Z) : Prop := 48 <= c <= 57 \/ 65 <= c <= 90.
Definition frame2_ok (ver : Z) (f : frame2) : Prop :=
  Forall tag_char (f_tag f) /\ zlen (f_tag f) = (if ver =? 2 then 3 else 4) /\
  0 < zlen (content_bytes (f_content f)) < (if ver =? 2 then 2 ^ 24 else if ver =? 3 then 2 ^ 32 else 2 ^ 28) /\
  (if f_packed f then exists x, f_content f = Other x else content_ok (f_tag f) (f_content f)) /\
  (ver <> 3 -> f_alter f = false /\ f_file f = false /\ f_ro f = false /\ f_packed f = false).
Definition flag (name : string) (b : bool) : str * list bool := (lit name, [b]).
Definition size_item (ver v : Z) : item :=
  if ver =? 2 then be 3 "size" v else if ver =? 3 then be 4 "size" v else I (lit "size") (SCode (safe_size v) v).
Definition flags_item (alter file ro packed : bool) : item :=
  IBits BIG_ENDIAN 2 [flag "tag_alter" alter; flag "file_alter" file; flag "rd_only" ro; high 5 "padding[]" 0; flag "compressed" packed; flag "encrypted" false; flag "group" false; high 5 "padding[]" 0].
Definition head2 (ver : Z) (tag : list Z) (size : Z) (alter file ro packed : bool) : list item :=
  [txt "tag" tag; size_item ver size] ++ if ver =? 2 then [] else [flags_item alter file ro packed].
Definition frame2_items (ver : Z) (f : frame2) : list item :=
  head2 ver (f_tag f) (zlen (content_bytes (f_content f))) (f_alter f) (f_file f) (f_ro f) (f_packed f) ++ [content_item (f_content f)].
Definition frame2_item (ver : Z) (f : frame2) : item := ISet (lit "field[]") (frame2_items ver f).
(** What follows the frames: nothing, or zeros, which start like a frame of size zero *)
Definition head_len (ver : Z) : Z := if ver =? 2 then 6 else 10.
Definition padding_items (ver : Z) (n : option nat) : list item :=
  match n with
  | None => []
  | Some n => ISet (lit "field[]") (head2 ver (repeat 0 (if ver =? 2 then 3%nat else 4%nat)) 0 false false false false) :: rest_data "padding[]" (repeat 0 n)
  end.
(** A tag: its version, whether it is experimental, its frames, and how many zeros follow those of the first [head_len], if any *)
Record tag2 := { g_ver : Z; g_exp : bool; g_frames : list frame2; g_padding : option nat }.
Definition tag2_body (t : tag2) : list item := map (frame2_item (g_ver t)) (g_frames t) ++ padding_items (g_ver t) (g_padding t).
Definition tag2_size (t : tag2) : Z := zlen (bytes_of_all (tag2_body t)).
Definition tag2_items (t : tag2) : list item :=
  [txt "header" (lit "ID3"); be 1 "ver_major" (g_ver t); be 1 "ver_minor" 0; IBits BIG_ENDIAN 1 [flag "unsync" false; flag "ext" false; flag "exp" (g_exp t); high 5 "padding[]" 0];
   I (lit "size") (SCode (safe_size (tag2_size t)) (tag2_size t))] ++ tag2_body t.
Definition tag2_ok (t : tag2) : Prop := 2 <= g_ver t <= 4 /\ Forall (frame2_ok (g_ver t)) (g_frames t) /\ tag2_size t < 2 ^ 28.

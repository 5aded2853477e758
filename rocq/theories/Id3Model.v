(** Model of parser/audio/id3.py: ID3v1 and ID3v2 tags. *)
From Coq Require Import String.
From Verif Require Export Base BitsModel StreamModel DictModel FieldModel GenModel Lit.
From Verif Require TextModel.
Open Scope Z_scope.

Definition u8 (name : string) (k : prog) : prog := emit (lit name) (KNum 8 BE); k.
Definition bit (name : string) (k : prog) : prog := emit (lit name) (KNum 1 BE); k.
(** id3.py:199-211: getVersion; the two bytes read are 126 bytes after the start of the tag *)
Inductive version1 := V1_0 | V1_1 | V1_1b.
Definition getVersion (b : list Z) : version1 :=
  if negb (nth 1 b 0 =? 32) then if nth 0 b 0 =? 0 then V1_1 else V1_1b else V1_0.
(** id3.py:173-197: ID3v1.  [MatchError] is [ParserError].  The values of strings are their bytes, not stripped. *)
Definition ID3v1_fields : prog :=
  PAsk (fun _ base =>
  have signature := (lit "signature") (KText 3);
  if negb (str_eqb (bytes signature) (lit "TAG")) then PErr ParserError
  else
  emit (lit "song") (KText 30); emit (lit "author") (KText 30); emit (lit "album") (KText 30); emit (lit "year") (KText 4);
  PDo (fun read _ _ _ => do b <- readBytes read (base + 126 * 8) 2; Ok (VBytes b)) (fun b =>
  match getVersion (bytes b) with
  | V1_1b => emit (lit "comment") (KText 29); u8 "track_nb" (u8 "genre" PRet)
  | V1_1 => emit (lit "comment") (KText 30); u8 "genre" PRet
  | V1_0 => emit (lit "comment") (KText 31); PRet
  end)).
Definition ID3v1 (k : prog) : prog := PSet (lit "id3v1") (Some (128 * 8)) ID3v1_fields (fun _ => k).

(** id3.py:219-224, 234-247: getCharset and charset_name *)
Definition getCharset (v : Z) (c : TextModel.charset -> prog) : prog :=
  match v with
  | 0 => c TextModel.Latin1
  | 1 => c TextModel.UTF16
  | 2 => c TextModel.UTF16BE
  | 3 => c TextModel.UTF8
  | _ => PErr ParserError
  end.
(** String and CString with a charset: the constructor of strings is the one of TextModel.v (C30).  Their values here are their bytes, with the mark and the suffix,
    not converted and not stripped. *)
Definition text_field (name : string) (f : TextModel.format) (cs : TextModel.charset) (n : option Z) (k : prog) : prog :=
  PDo (fun read ssize _ a => do l <- TextModel.string_layout read ssize BE a f (Some cs) n; Ok (VNum (TextModel.l_size l))) (fun s =>
  emit (lit name) (KBytes (num s / 8)); k).
Definition CString (name : string) (cs : TextModel.charset) (k : prog) : prog := text_field name TextModel.FormatC cs None k.
(** [size = (self.size - self.current_size) // 8; if not size: return; yield ...] *)
Definition rest_of (c : Z -> prog) : prog := PAsk (fun stop a => let size := (stop - a) / 8 in if size =? 0 then PRet else c size).
Definition Text (cs : TextModel.charset) : prog := rest_of (fun size => text_field "text" TextModel.FormatFixed cs (Some size) PRet).
Definition with_charset (c : TextModel.charset -> prog) : prog := have v := (lit "charset") (KNum 8 BE); getCharset (num v) c.
(** id3.py:227-231: ID3_String *)
Definition ID3_String : prog := PAsk (fun stop a => emit (lit "text") (KText ((stop - a) / 8)); PRet).
(** id3.py:249-255: ID3_StringCharset *)
Definition ID3_StringCharset : prog :=
  have v := (lit "charset") (KNum 8 BE); rest_of (fun size => getCharset (num v) (fun cs => text_field "text" TextModel.FormatFixed cs (Some size) PRet)).
(** id3.py:258-269: ID3_GEOB *)
Definition ID3_GEOB : prog := with_charset (fun cs => CString "mime" cs (CString "filename" cs (CString "description" cs (Text cs)))).
(** id3.py:272-282: ID3_Comment *)
Definition ID3_Comment : prog :=
  have v := (lit "charset") (KNum 8 BE); emit (lit "lang") (KText 3); getCharset (num v) (fun cs => CString "title" cs (Text cs)).
(** id3.py:285-296: ID3_StringTitle *)
Definition ID3_StringTitle : prog :=
  have v := (lit "charset") (KNum 8 BE); PAsk (fun stop a => if a =? stop then PRet else getCharset (num v) (fun cs => CString "title" cs (Text cs))).
(** id3.py:299-307: ID3_Private *)
Definition ID3_Private : prog :=
  PAsk (fun stop a =>
  PDo (fun read _ _ a => do b <- readBytes read a 9; Ok (VBytes b)) (fun b =>
  let size := (stop - a) / 8 in
  if str_eqb (bytes b) (lit "PeakValue") then emit (lit "text") (KText 9); emit (lit "content") (KText (size - 9)); PRet
  else emit (lit "content") (KText size); PRet)).
Definition img_data : prog := rest_of (fun size => emit (lit "img_data") (KBytes size); PRet).
(** id3.py:350-358: ID3_Picture23 *)
Definition ID3_Picture23 : prog := with_charset (fun cs => emit (lit "img_fmt") (KText 3); u8 "pict_type" (CString "text" cs img_data)).
(** id3.py:361-371: ID3_Picture24 *)
Definition ID3_Picture24 : prog := with_charset (fun cs => CString "mime" cs (u8 "pict_type" (CString "description" cs img_data))).
(** id3.py:405-415: handler *)
Definition handler : list (str * prog) :=
  [(lit "COMM", ID3_Comment); (lit "COM", ID3_Comment); (lit "GEOB", ID3_GEOB); (lit "PIC", ID3_Picture23); (lit "APIC", ID3_Picture24);
   (lit "PRIV", ID3_Private); (lit "TXXX", ID3_StringTitle); (lit "WOAR", ID3_String); (lit "WXXX", ID3_StringTitle)].
(** id3.py:472-481: ID3_Size *)
Definition ID3_Size : fkind := KCode (fun read a => do b <- readBytes read a 4; Ok (fold_left (fun x y => x * 128 + y) (tl b) (hd 0 b), 32)).
(** The field [o] bits after the start of a field set that has no size yet, whose first field has [first] bits: [self["name"].value] in its constructor *)
Definition ahead (first o : Z) (k : fkind) : (val -> prog) -> prog :=
  PDo (fun read ssize stop a =>
    if stop <? a + first then Err ParserError
    else do s <- fsize read ssize k (a + o); if stop <? a + o + s then Err MissingField else fval read k (a + o) s).
(** The value of a tag: [strip="\0"] *)
Definition tag_value (b : list Z) : str := TextModel.strip (fun c => c =? 0) b.
(** id3.py:425-463: createFields of ID3_Chunk, from the content on: the parser of the content is chosen by the tag *)
Definition content_parser (tag : str) : res (option prog) :=
  match find (fun h => str_eqb (fst h) tag) handler with
  | Some h => Ok (Some (snd h))
  | None => match tag with [] => Err IndexError | c :: _ => Ok (if c =? 84 then Some ID3_StringCharset else None) end
  end.
Definition chunk_content (tag : list Z) (size : Z) (is_compressed : bool) : prog :=
  if size =? 0 then PRet
  else match (if is_compressed then Ok None else content_parser (tag_value tag)) with
       | Err e => PErr e
       | Ok (Some p) => PSet (lit "content") (Some (size * 8)) p (fun _ => PRet)
       | Ok None => emit (lit "content") (KBytes size); PRet
       end.
Definition chunk_size_kind (ver : Z) : fkind := if 4 <=? ver then ID3_Size else KNum 32 BE.
Definition Chunk_fields (ver : Z) : prog :=
  if 3 <=? ver then
    have tag := (lit "tag") (KText 4);
    have size := (lit "size") (chunk_size_kind ver);
    bit "tag_alter" (bit "file_alter" (bit "rd_only" (emit (lit "padding[]") (KNum 5 BE);
    have compressed := (lit "compressed") (KNum 1 BE);
    bit "encrypted" (bit "group" (emit (lit "padding[]") (KNum 5 BE);
    chunk_content (bytes tag) (num size) (negb (num compressed =? 0)))))))
  else
    have tag := (lit "tag") (KText 3);
    have size := (lit "size") (KNum 24 BE);
    chunk_content (bytes tag) (num size) false.
(** id3.py:418-423: the constructor of ID3_Chunk; id3.py:519-523: [k] is what follows a chunk, [last] what follows one of size 0 *)
Definition Chunk (ver : Z) (last k : prog) : prog :=
  (if 3 <=? ver then ahead 32 32 (chunk_size_kind ver) else ahead 24 24 (KNum 24 BE)) (fun size =>
  PSet (lit "field[]") (Some ((num size + if 3 <=? ver then 10 else 6) * 8)) (Chunk_fields ver) (fun l =>
  match get (lit "size") l with Some v => if num v =? 0 then last else k | None => PErr MissingField end)).
(** id3.py:525-528: [self.seekBit(self._size)] *)
Definition seek_end : prog := PAsk (fun stop a => if stop <? a then PErr ParserError else when (a <? stop) (fun k => emit (lit "padding[]") (KBytes ((stop - a) / 8)); k) PRet).
(** id3.py:497-528: createFields of ID3v2.  Simplified: the bits of NullBits are shown whatever they are. *)
Definition known_version (major minor : Z) : bool := ((major =? 2) || (major =? 3) || (major =? 4)) && (minor =? 0).
Definition ID3v2_fields : prog :=
  have header := (lit "header") (KText 3);
  have major := (lit "ver_major") (KNum 8 BE);
  have minor := (lit "ver_minor") (KNum 8 BE);
  if negb (str_eqb (bytes header) (lit "ID3")) then PErr ParserError
  else if negb (known_version (num major) (num minor)) then PErr ParserError
  else
  bit "unsync" (bit "ext" (bit "exp" (emit (lit "padding[]") (KNum 5 BE); emit (lit "size") ID3_Size;
  PAsk (fun stop a => loop (Chunk (num major) seek_end) (S (Z.to_nat (stop - a))))))).
(** id3.py:488-491: the constructor of ID3v2, which reads the fields up to the size *)
Definition ID3v2 (k : prog) : prog :=
  ahead 24 0 (KText 3) (fun header => ahead 24 24 (KNum 8 BE) (fun major => ahead 24 32 (KNum 8 BE) (fun minor =>
  if negb (str_eqb (bytes header) (lit "ID3")) || negb (known_version (num major) (num minor)) then PErr ParserError
  else ahead 24 48 ID3_Size (fun size => PSet (lit "id3v2") (Some ((num size + 10) * 8)) ID3v2_fields (fun _ => k))))).

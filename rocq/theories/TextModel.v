(** Model of hachoir/field/string_field.py: the layout and the value of string
    fields, and of hachoir/core/i18n.py: guessBytesCharset.
    Simplifications: the 8-bit charsets other than ASCII and the three ISO
    charsets that guessBytesCharset may answer are one constructor [Other8 n];
    [FieldError] is [ParserError]; Python's codecs are parameters ([codec] and
    [utf8_ok]); warnings and displays are not modelled. *)
From Verif Require Export StreamModel.

Inductive charset :=
| ASCII | Latin1 | Latin9 | Greek | MacRoman | Other8 (n : Z)
| UTF8 | UTF16LE | UTF32LE | UTF16BE | UTF32BE | UTF16 | UTF32
| UnknownCharset.
(** string_field.py:37-38: VALID_FORMATS *)
Inductive format := FormatC | FormatUnixLine | FormatFixed | FormatPascal8 | FormatPascal16 | FormatPascal32.

(** string_field.py:72-81: UTF_CHARSET.  [None] for the other charsets; the
    second component is [None] for UTF-8 and [Some None] for "BOM". *)
Definition utf_charset (cs : charset) : option (Z * option (option endian)) :=
  match cs with
  | UTF8 => Some (8, None)
  | UTF16LE => Some (16, Some (Some LITTLE_ENDIAN))
  | UTF32LE => Some (32, Some (Some LITTLE_ENDIAN))
  | UTF16BE => Some (16, Some (Some BIG_ENDIAN))
  | UTF32BE => Some (32, Some (Some BIG_ENDIAN))
  | UTF16 => Some (16, Some None)
  | UTF32 => Some (32, Some None)
  | _ => None
  end.

(** string_field.py:84-87: UTF_BOM; the codecs.BOM_* constants of Python *)
Definition utf_bom (bomsize : Z) (bom : list Z) : option charset :=
  if bomsize =? 16 then
    match bom with
    | [0xFF; 0xFE] => Some UTF16LE
    | [0xFE; 0xFF] => Some UTF16BE
    | _ => None
    end
  else
    match bom with
    | [0xFF; 0xFE; 0; 0] => Some UTF32LE
    | [0; 0; 0xFE; 0xFF] => Some UTF32BE
    | _ => None
    end.

(** string_field.py:89-102: SUFFIX_FORMAT.  [None]: the format has no suffix. *)
Definition suffix_format (f : format) (width : Z) (e : endian) : option (res (list Z)) :=
  match f with
  | FormatC => Some (match e with
                     | MIDDLE_ENDIAN => Err KeyError
                     | _ => Ok (if width =? 8 then [0] else if width =? 16 then [0; 0] else [0; 0; 0; 0])
                     end)
  | FormatUnixLine => Some (match e with
                     | MIDDLE_ENDIAN => Err KeyError
                     | LITTLE_ENDIAN => Ok (if width =? 8 then [10] else if width =? 16 then [10; 0] else [10; 0; 0; 0])
                     | BIG_ENDIAN => Ok (if width =? 8 then [10] else if width =? 16 then [0; 10] else [0; 0; 0; 10])
                     end)
  | _ => None
  end.

(** string_field.py:211-221: staticSuffixStr for a format with a suffix *)
Definition suffix_str (f : format) (cs : option charset) (e : endian) : option (res (list Z)) :=
  suffix_format f (match cs with
                   | Some cs => match utf_charset cs with Some (w, _) => w | None => 8 end
                   | None => 8
                   end) e.

(** string_field.py:105-109: PASCAL_FORMATS *)
Definition pascal_format (f : format) : option Z :=
  match f with FormatPascal8 => Some 1 | FormatPascal16 => Some 2 | FormatPascal32 => Some 4 | _ => None end.

(** The attributes set by the constructor, sizes as in the code: [_size] in
    bits, the others in bytes. *)
Record layout := { l_size : Z; l_content_offset : Z; l_content_size : Z; l_charset : option charset }.

(** string_field.py:115-209: GenericString.__init__, on a stream of
    [stream_size] bits, a parent of endian [e], for a field at the absolute bit
    address [addr]. *)
Definition string_layout (read : read_fun) (stream_size : Z) (e : endian) (addr : Z)
           (f : format) (cs : option charset) (nbytes : option Z) : res layout :=
  match cs with
  | Some UnknownCharset => Err ParserError
  | _ =>
      do l <-
        match nbytes with
        | Some nbytes =>
            do _ <- assert_ (match f with FormatFixed => true | _ => false end);
            if negb ((1 <=? nbytes) && (nbytes <=? 0xFFFF)) then Err ParserError
            else Ok {| l_size := nbytes * 8; l_content_offset := 0; l_content_size := nbytes; l_charset := cs |}
        | None =>
            match suffix_str f cs e with
            | Some suffix =>
                do suffix <- suffix;
                do length <- searchBytesLength read stream_size suffix false addr None;
                match length with
                | None => Err ParserError
                | Some length =>
                    let length := if 1 <? zlen suffix then alignValue length (zlen suffix) else length in
                    Ok {| l_size := (length + zlen suffix) * 8; l_content_offset := 0; l_content_size := length; l_charset := cs |}
                end
            | None =>
                match pascal_format f with
                | None => Err AssertionError
                | Some prefix_size =>
                    do value <- readBits read addr (prefix_size * 8) e;
                    Ok {| l_size := (prefix_size + value) * 8; l_content_offset := prefix_size; l_content_size := value; l_charset := cs |}
                end
            end
        end;
      match cs with
      | Some c =>
          match utf_charset c with
          | Some (bomsize, Some None) =>
              let nbytes := bomsize / 8 in
              do bom <- readBytes read addr nbytes;
              match utf_bom bomsize bom with
              | None => Err ParserError
              | Some c' => Ok {| l_size := l_size l; l_content_offset := l_content_offset l + nbytes;
                                 l_content_size := l_content_size l - nbytes; l_charset := Some c' |}
              end
          | _ => Ok l
          end
      | None => Ok l
      end
  end.

(** What Python's [str(text, charset, "strict")] gives: the text, or the
    "truncated data" flag and the end position of a UnicodeDecodeError. *)
Definition codec_fun := charset -> list Z -> (list Z + bool * Z)%type.

(** i18n.py:79-92: UTF_BOMS and CHARSET_CHARACTERS *)
Definition UTF_BOMS : list (list Z * charset) :=
  [([0xEF; 0xBB; 0xBF], UTF8); ([0xFF; 0xFE], UTF16LE); ([0xFE; 0xFF], UTF16BE)].
Definition CHARSET_CHARACTERS : list (list Z * charset) :=
  [([169; 174; 233; 234; 232; 224; 231], Latin1);
   ([169; 174; 233; 234; 232; 224; 231; 164], Latin9);
   ([169; 168], MacRoman);
   ([229; 228; 231; 233; 232; 234; 236; 239; 209; 243; 242; 245; 184; 223], Greek)].
(** i18n.py:95-135: guessBytesCharset *)
Definition guessBytesCharset (utf8_ok : list Z -> bool) (data : list Z) (default : charset) : charset :=
  match find (fun bc => is_prefix (fst bc) data) UTF_BOMS with
  | Some (_, cs) => cs
  | None =>
      if forallb (fun b => b <? 128) data then ASCII
      else if utf8_ok data then UTF8
      else
        let non_ascii_set := filter (fun b => 128 <=? b) data in
        match find (fun cc => forallb (fun b => existsb (Z.eqb b) (fst cc)) non_ascii_set) CHARSET_CHARACTERS with
        | Some (_, cs) => cs
        | None => default
        end
  end.

(** string_field.py:228-256: _convertText: the text.  FALLBACK_CHARSET is
    ISO-8859-1, whose decoder maps each byte to the same code point. *)
Definition convertText (utf8_ok : list Z -> bool) (codec : codec_fun) (cs : option charset) (text : list Z) : list Z :=
  let cs := match cs with Some cs => cs | None => guessBytesCharset utf8_ok text Latin1 end in
  match codec cs text with
  | inl t => t
  | inr (truncated, end_) =>
      if truncated && (end_ =? zlen text) && (match cs with UTF16LE => true | _ => false end) then
        match codec cs (text ++ [0]) with
        | inl t => t
        | inr _ => text
        end
      else text
  end.

(** Python's [text.strip(chars)] for the set of characters [p] *)
Fixpoint lstrip (p : Z -> bool) (text : list Z) : list Z :=
  match text with
  | [] => []
  | c :: t => if p c then lstrip p t else text
  end.
Definition strip (p : Z -> bool) (text : list Z) : list Z := rev (lstrip p (rev (lstrip p text))).

(** string_field.py:263-298: createValue(human=True).  [strip_] is the set of
    characters stripped, if any (the given ones, or Python's white space). *)
Definition string_value (utf8_ok : list Z -> bool) (codec : codec_fun) (read : read_fun) (addr : Z) (l : layout)
           (truncate : option (list Z)) (strip_ : option (Z -> bool)) : res (list Z) :=
  if l_content_size l =? 0 then Ok []
  else
    do text <- readBytes read (addr + l_content_offset l * 8) (l_content_size l);
    let text := convertText utf8_ok codec (l_charset l) text in
    let text := match truncate with
                | Some ((_ :: _) as tr) =>
                    let pos := bytes_find tr text in
                    if 0 <=? pos then py_upto text pos else text
                | _ => text
                end in
    Ok (match strip_ with Some p => strip p text | None => text end).

(** string_field.py:270-289: createValue(human=False): prefix and suffix
    included *)
Definition string_raw (read : read_fun) (addr : Z) (l : layout) : res (list Z) :=
  let size := l_size l / 8 in
  if size =? 0 then Ok [] else readBytes read addr size.

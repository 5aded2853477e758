(** Model of parser/image/png.py. *)
From Coq Require Import String.
From Verif Require Export Base BitsModel StreamModel DictModel GenModel Lit.
Open Scope Z_scope.

(** png.py:51-61 *)
Definition headerParse (k : prog) : prog :=
  emit (lit "width") (KNum 32 BE);
  emit (lit "height") (KNum 32 BE);
  emit (lit "bit_depth") (KNum 8 BE);
  emit (lit "reserved") (KNum 5 BE);
  emit (lit "has_alpha") (KNum 1 BE);
  emit (lit "color") (KNum 1 BE);
  emit (lit "has_palette") (KNum 1 BE);
  emit (lit "compression") (KNum 8 BE);
  emit (lit "filter") (KNum 8 BE);
  emit (lit "interlace") (KNum 8 BE);
  k.
(** image/common.py:4-17 *)
Definition RGB : prog :=
  emit (lit "red") (KNum 8 BE);
  emit (lit "green") (KNum 8 BE);
  emit (lit "blue") (KNum 8 BE);
  PRet.
(** png.py:70-77 *)
Definition paletteParse (size : Z) (k : prog) : prog :=
  if negb (size mod 3 =? 0) then PErr ParserError
  else times (fun k => PSet (lit "color[]") (Some 24) RGB (fun _ => k)) (Z.to_nat (size / 3)) k.
(** png.py:84-85 *)
Definition gammaParse (k : prog) : prog := emit (lit "gamma") (KNum 32 BE); k.
(** png.py:96-100.  [parent["keyword"].size // 8] is the length of the keyword and of its end. *)
Definition textParse (size : Z) (k : prog) : prog :=
  have keyword := (lit "keyword") (KLine 0);
  let length := size - (zlen (bytes keyword) + 1) in
  when (negb (length =? 0)) (fun k => emit (lit "text") (KText length); k) k.
(** png.py:110-116 *)
Definition timestampParse (k : prog) : prog :=
  emit (lit "year") (KNum 16 BE);
  emit (lit "month") (KNum 8 BE);
  emit (lit "day") (KNum 8 BE);
  emit (lit "hour") (KNum 8 BE);
  emit (lit "minute") (KNum 8 BE);
  emit (lit "second") (KNum 8 BE);
  k.
(** png.py:126-129 *)
Definition physicalParse (k : prog) : prog :=
  emit (lit "pixel_per_unit_x") (KNum 32 BE);
  emit (lit "pixel_per_unit_y") (KNum 32 BE);
  emit (lit "unit") (KNum 8 BE);
  k.
(** png.py:141-144 *)
Definition parseBackgroundColor (k : prog) : prog :=
  emit (lit "red") (KNum 16 BE);
  emit (lit "green") (KNum 16 BE);
  emit (lit "blue") (KNum 16 BE);
  k.
(** png.py:155-175, field/fragment.py: ImageData is a field set with one field.  [first["compressed_data"]] raises MissingField when the first "IDAT" chunk of the
    file has no contents ([first] = Some false).  The links between the fragments are not modelled. *)
Definition imageData (first : option bool) (size : Z) (k : prog) : prog :=
  match first with
  | Some false => PErr MissingField
  | _ => PSet (lit "compressed_data") (Some (8 * size)) (emit (lit "rawdata") (KBytes size); PRet) (fun _ => k)
  end.
(** png.py:178-180 *)
Definition parseTransparency (size : Z) (k : prog) : prog := times (fun k => emit (lit "alpha_value[]") (KNum 8 BE); k) (Z.to_nat size) k.
(** png.py:193-207: TAG_INFO: the name of the chunk, and its parser *)
Definition TAG_INFO (first : option bool) (size : Z) (tag : str) : option (str * option (prog -> prog)) :=
  if str_eqb tag (lit "tIME") then Some (lit "time", Some timestampParse)
  else if str_eqb tag (lit "pHYs") then Some (lit "physical", Some physicalParse)
  else if str_eqb tag (lit "IHDR") then Some (lit "header", Some headerParse)
  else if str_eqb tag (lit "PLTE") then Some (lit "palette", Some (paletteParse size))
  else if str_eqb tag (lit "gAMA") then Some (lit "gamma", Some gammaParse)
  else if str_eqb tag (lit "tEXt") then Some (lit "text[]", Some (textParse size))
  else if str_eqb tag (lit "tRNS") then Some (lit "transparency", Some (parseTransparency size))
  else if str_eqb tag (lit "bKGD") then Some (lit "background", Some parseBackgroundColor)
  else if str_eqb tag (lit "IDAT") then Some (lit "data[]", Some (imageData first size))
  else if str_eqb tag (lit "iTXt") then Some (lit "utf8_text[]", None)
  else if str_eqb tag (lit "zTXt") then Some (lit "comp_text[]", None)
  else if str_eqb tag (lit "IEND") then Some (lit "end", None)
  else None.
(** png.py:235-245: Chunk.createFields *)
Definition Chunk_fields (size : Z) (parse : option (prog -> prog)) : prog :=
  emit (lit "size") (KNum 32 BE);
  emit (lit "tag") (KText 4);
  let crc := (emit (lit "crc32") (KNum 32 BE); PRet) in
  if size =? 0 then crc
  else match parse with
       | Some parse => parse crc
       | None => emit (lit "content") (KBytes size); crc
       end.
(** png.py:212-233: Chunk.__init__; 48: the maximum size.  [first]: whether the first chunk "IDAT" has contents, if there was one. *)
Definition Chunk (first : option bool) (k : option bool -> prog) : prog :=
  look size := 0 (KNum 32 BE) true;
  if 64 * 1024 * 1024 <? num size + 12 then PErr ParserError
  else look tag := 32 (KText 4) false;
       let '(name, parse) := match TAG_INFO first (num size) (bytes tag) with Some x => x | None => (lit "chunk[]", None) end in
       let next := if str_eqb (bytes tag) (lit "IDAT") then match first with None => Some (negb (num size =? 0)) | _ => first end else first in
       PSet name (Some ((num size + 12) * 8)) (Chunk_fields (num size) parse) (fun _ => k next).
(** png.py:273-276: createFields, for a file of [size] bits *)
Definition png_fields (size : Z) : prog := emit (lit "id") (KBytes 8); loop_from Chunk (S (Z.to_nat size)) None.
Definition PngFile (read : read_fun) (size : Z) : shown := run read size (png_fields size) true size 0.
Definition png_signature : list Z := [0x89; 0x50; 0x4E; 0x47; 0x0D; 0x0A; 0x1A; 0x0A].
(** png.py:266-271: validate *)
Definition png_validate (read : read_fun) (size : Z) : res bool :=
  match fst (fst (PngFile read size)) with
  | F _ _ _ id :: l =>
      if negb (str_eqb (bytes id) png_signature) then Ok false
      else match l with f :: _ => Ok (str_eqb (f_name f) (lit "header")) | [] => Err MissingField end
  | _ => Err MissingField
  end.
(** png.py:25, 286-294: createContentSize *)
Definition png_content_size (read : read_fun) (size : Z) : res (option Z) :=
  match find (fun f => str_eqb (f_name f) (lit "header")) (fst (fst (PngFile read size))) with
  | None => Err MissingField
  | Some f =>
      do pos <- searchBytes read size [0; 0; 0; 0; 0x49; 0x45; 0x4E; 0x44; 0xae; 0x42; 0x60; 0x82] (f_addr f + f_size f) (Some (500 * 1024 * 1024 * 8));
      Ok (match pos with Some pos => Some (pos + 12 * 8) | None => None end)
  end.

(** Model of parser/image/bmp.py, of parser/image/common.py and of BmpMetadata (metadata/image.py). *)
From Coq Require Import String.
From Verif Require Export Base BitsModel StreamModel DictModel FieldModel ToolsModel GenModel ExtractModel Lit.
From Verif Require MetaModel.
Open Scope Z_scope.

(** common.py:4-33: the fields of RGB and RGBA, sets of 24 and 32 bits *)
Definition RGB_fields : prog := emit (lit "red") (KNum 8 LE); emit (lit "green") (KNum 8 LE); emit (lit "blue") (KNum 8 LE); PRet.
Definition RGBA_fields : prog := emit (lit "red") (KNum 8 LE); emit (lit "green") (KNum 8 LE); emit (lit "blue") (KNum 8 LE); emit (lit "alpha") (KNum 8 LE); PRet.
(** common.py:42-51, vector.py:6-26: PaletteRGB and PaletteRGBA of [n] colors of [size] bits *)
Definition Palette (name : str) (size : Z) (color : prog) (n : Z) (k : prog) : prog :=
  if n <=? 0 then PErr ParserError
  else PSet name (Some (n * size)) (times (fun k => PSet (lit "color[]") (Some size) color (fun _ => k)) (Z.to_nat n) PRet) (fun _ => k).
(** helper.py:18-24: createPaddingField *)
Definition padding (n : Z) (k : prog) : prog :=
  if n <=? 0 then PErr ParserError else if n mod 8 =? 0 then emit (lit "padding[]") (KBytes (n / 8)); k else emit (lit "padding[]") (KNum n LE); k.
(** generic_field_set.py:414-440: seekByte, in a field set that starts at 0, for a generator that is at the bit [a] *)
Definition seekByte (address a : Z) (k : prog) : prog :=
  let nbits := address * 8 - a in if nbits <? 0 then PErr ParserError else when (0 <? nbits) (padding nbits) k.
(** bmp.py:20-24, 122-131: the classes of pixels, their sizes and their fields *)
Inductive pixel := UInt32_ | RGB_ | UInt8_ | Pixel4bit.
Definition pixel_size (c : pixel) : Z := match c with UInt32_ => 32 | RGB_ => 24 | UInt8_ => 8 | Pixel4bit => 4 end.
Definition pixel_field (c : pixel) (k : prog) : prog :=
  match c with
  | RGB_ => PSet (lit "pixel[]") (Some 24) RGB_fields (fun _ => k)
  | c => emit (lit "pixel[]") (KNum (pixel_size c) LE); k
  end.
(** bmp.py:27-40: ImageLine *)
Definition ImageLine (name : str) (width : Z) (c : pixel) (k : prog) : prog :=
  PSet name (Some (alignValue (width * pixel_size c) 32))
    (times (pixel_field c) (Z.to_nat width) (PAsk (fun stop a => when (negb (stop - a =? 0)) (padding (stop - a)) PRet))) (fun _ => k).
(** bmp.py:51-56: createFields of ImagePixels: the lines from the last one to the first *)
Definition line_name (y : Z) : str := lit "line[" ++ dec y ++ lit "]".
Fixpoint image_lines (width : Z) (c : pixel) (n : nat) (k : prog) : prog :=
  match n with O => k | S y => ImageLine (line_name (Z.of_nat y)) width c (image_lines width c y k) end.
Definition ImagePixels_fields (width height : Z) (c : pixel) : prog :=
  image_lines width c (Z.to_nat height) (PAsk (fun stop a => let size := (stop - a) / 8 in when (negb (size =? 0)) (fun k => emit (lit "padding") (KBytes size); k) PRet)).
(** bmp.py:59-64: CIEXYZ; bmp.py:82-114: createFields of BmpHeader *)
Definition u32 (name : string) (k : prog) : prog := emit (lit name) (KNum 32 LE); k.
Definition CIEXYZ (name : string) (k : prog) : prog := PSet (lit name) None (u32 "x" (u32 "y" (u32 "z" PRet))) (fun _ => k).
Definition BmpHeader_fields : prog :=
  have size := (lit "header_size") (KNum 32 LE);
  u32 "width" (u32 "height" (
  emit (lit "nb_plan") (KNum 16 LE); emit (lit "bpp") (KNum 16 LE);
  if num size <? 40 then PRet else
  u32 "compression" (u32 "image_size" (u32 "horizontal_dpi" (u32 "vertical_dpi" (u32 "used_colors" (u32 "important_color" (
  if num size <? 108 then PRet else
  u32 "red_mask" (u32 "green_mask" (u32 "blue_mask" (u32 "alpha_mask" (u32 "color_space" (
  CIEXYZ "red_primary" (CIEXYZ "green_primary" (CIEXYZ "blue_primary" (
  u32 "gamma_red" (u32 "gamma_green" (u32 "gamma_blue" PRet)))))))))))))))))).
(** [field_set["name"].value], which raises when there is no such field *)
Definition need (name : string) (l : list fld) (c : Z -> prog) : prog := match get (lit name) l with Some v => c (num v) | None => PErr MissingField end.
(** bmp.py:117-134: parseImageData *)
Definition pixel_class (bpp : Z) : option pixel :=
  if bpp =? 32 then Some UInt32_ else if bpp =? 24 then Some RGB_ else if bpp =? 8 then Some UInt8_ else if bpp =? 4 then Some Pixel4bit else None.
Definition parseImageData (name : str) (size : Z) (header : list fld) (k : prog) : prog :=
  let raw := emit name (KBytes size); k in
  if negb (has_field "compression" header) || match get (lit "compression") header with Some v => (num v =? 0) || (num v =? 3) | None => false end then
    need "width" header (fun width => need "height" header (fun height => need "bpp" header (fun bpp =>
    match pixel_class bpp with
    | Some c => PSet name (Some (size * 8)) (ImagePixels_fields width height c) (fun _ => k)
    | None => raw
    end)))
  else raw.
(** bmp.py:179-187: the number of colors of the palette *)
Definition nb_color (bpp : Z) (header : list fld) : Z :=
  if (0 <? bpp) && (bpp <=? 8) then match get (lit "used_colors") header with
                                    | Some v => if num v =? 0 then Z.shiftl 1 bpp else num v
                                    | None => Z.shiftl 1 bpp
                                    end
  else 0.
(** bmp.py:171-201: createFields, for a file of [size] bits *)
Definition bmp_fields (size : Z) : prog :=
  emit (lit "signature") (KText 2);
  have file_size := (lit "file_size") (KNum 32 LE);
  emit (lit "reserved") (KBytes 4);
  have data_start := (lit "data_start") (KNum 32 LE);
  PSet (lit "header") None BmpHeader_fields (fun header =>
  need "bpp" header (fun bpp =>
  let n := nb_color bpp header in
  when (negb (n =? 0)) (Palette (lit "palette") 32 RGBA_fields n)
  (PAsk (fun _ a => seekByte (num data_start) a
  (PAsk (fun _ a => parseImageData (lit "pixels") (Z.min (num file_size - num data_start) ((size - a) / 8)) header PRet)))))).
Definition BmpFile (read : read_fun) (size : Z) : shown := run read size (bmp_fields size) true size 0.
(** bmp.py:162-169: validate, for a file that has the whole header: [header_size] is not a field of the file, and asking for it raises *)
Definition bmp_validate (read : read_fun) : res bool :=
  do b <- readBytes read 0 2;
  if negb (str_eqb b (lit "BM")) then Ok false
  else do s <- readBits read 112 32 LE;
  if negb ((s =? 12) || (s =? 40) || (s =? 108)) then Err MissingField
  else do p <- readBits read 208 16 LE; Ok (p =? 1).
(** bmp.py:75-80, 203-204: the description; bmp.py:206-207: the size of the content *)
Definition getFormatVersion (header : list fld) : Z := if has_field "gamma_blue" header then 4 else if has_field "important_color" header then 3 else 2.
Definition bmp_description (l : list fld) : res str :=
  match group (lit "header") l with Some h => Ok (lit "Microsoft Bitmap version " ++ dec (getFormatVersion h)) | None => Err MissingField end.
Definition bmp_content_size (l : list fld) : res Z := match get (lit "file_size") l with Some v => Ok (num v * 8) | None => Err MissingField end.

(** ** Metadata *)
Import MetaModel.
(** bmp.py:153-160: the names of the methods of compression, as shown: enum.py:9-25 *)
Definition bmp_compression (v : Z) : str :=
  if v =? 0 then lit "Uncompressed" else if v =? 1 then lit "RLE 8-bit" else if v =? 2 then lit "RLE 4-bit" else if v =? 3 then lit "Bitfields"
  else if v =? 4 then lit "JPEG" else if v =? 5 then lit "PNG" else dec v.
(** image.py:30-51: extract of BmpMetadata, for the fields [l] of a file: what it has done when it returns or raises *)
Definition bmp_extract (e : env) (m : meta) (l : list fld) : meta * bool :=
  match group (lit "header") l with
  | None => (m, true)
  | Some h =>
      ask "width" h m (fun width => andthen (assign e m [("width"%string, MInt width)]) (fun m =>
      ask "height" h m (fun height => andthen (assign e m [("height"%string, MInt height)]) (fun m =>
      ask "bpp" h m (fun bpp =>
      andthen (if bpp =? 0 then (m, true)
               else andthen (if (bpp <=? 8) && has_field "used_colors" h then ask "used_colors" h m (fun n => assign e m [("nb_colors"%string, MInt n)]) else (m, true))
                            (fun m => assign e m [("bits_per_pixel"%string, MInt bpp)])) (fun m =>
      ask "compression" h m (fun c => andthen (assign e m [("compression"%string, MStr (bmp_compression c)); ("format_version"%string, MStr (lit "Microsoft Bitmap version " ++ dec (getFormatVersion h)))]) (fun m =>
      ask "horizontal_dpi" h m (fun x => andthen (assign e m [("width_dpi"%string, MInt x)]) (fun m =>
      ask "vertical_dpi" h m (fun y => andthen (assign e m [("height_dpi"%string, MInt y)]) (fun m =>
      match size_of (lit "pixels") l with Some s => computeComprRate e m s | None => (m, true) end))))))))))))
  end.
Definition bmp_metadata (e : env) (l : list fld) : meta := with_mime e (fst (bmp_extract e root l)) (lit "image/x-ms-bmp") (lit "Little endian").

(** Model of parser/image/tga.py, parser/image/pcx.py, parser/image/ico.py, and of their extractors of metadata (metadata/image.py). *)
From Coq Require Import String.
From Verif Require Export Base BitsModel StreamModel DictModel FieldModel ToolsModel GenModel ExtractModel BmpModel Lit.
From Verif Require MetaModel.
Open Scope Z_scope.

Definition u8 (name : string) (k : prog) : prog := emit (lit name) (KNum 8 LE); k.
Definition u16 (name : string) (k : prog) : prog := emit (lit name) (KNum 16 LE); k.
(** ** Truevision Targa: tga.py:79-106, createFields.  The test of line 101 compares the field, and not its value, with 1, 2 and 3: fields have no __eq__, and it is false.  Hence
    Pixels and Line (tga.py:14-41) are never used. *)
Definition tga_fields : prog :=
  have id_length := (lit "id_length") (KNum 8 LE);
  have palette_type := (lit "palette_type") (KNum 8 LE);
  u8 "codec" (u16 "palette_ofs" (u16 "nb_color" (u8 "color_map_size" (u16 "x_min" (u16 "y_min" (u16 "width" (u16 "height" (
  have bpp := (lit "bpp") (KNum 8 LE);
  emit (lit "alpha_depth") (KNum 4 LE); emit (lit "x_flip") (KNum 1 LE); emit (lit "y_flip") (KNum 1 LE); emit (lit "reserved_flags") (KNum 2 LE);
  when (negb (num id_length =? 0)) (fun k => emit (lit "image_id") (KBytes (num id_length)); k) (
  when (num palette_type =? 1) (Palette (lit "palette") 24 RGB_fields (Z.shiftl 1 (num bpp))) (
  PAsk (fun stop a => let size := (stop - a) / 8 in when (negb (size =? 0)) (fun k => emit (lit "raw_pixels") (KBytes size); k) PRet)))))))))))
.
Definition TargaFile (read : read_fun) (size : Z) : shown := run read size tga_fields true size 0.
(** tga.py:52-60: CODEC_NAME, and what Enum shows (enum.py:9-25) *)
Definition codec_name (v : Z) : option string :=
  match v with 0 => Some "No image data"%string | 1 => Some "Palette uncompressed"%string | 2 => Some "True-color uncompressed"%string | 3 => Some "Grayscale uncompressed"%string | 9 => Some "Palette RLE"%string
  | 10 => Some "True-color RLE"%string | 11 => Some "Grayscale RLE"%string | _ => None end.
Definition enum (name : option string) (v : Z) : str := match name with Some s => lit s | None => dec v end.
(** [self["name"].value] of a file *)
Definition value (name : string) (l : list fld) : res Z := match get (lit name) l with Some v => Ok (num v) | None => Err MissingField end.
(** tga.py:63-70: validate *)
Definition tga_validate (l : list fld) : res bool :=
  do codec <- value "codec" l;
  match codec_name codec with
  | None => Ok false
  | Some _ =>
      do palette <- value "palette_type" l;
      if negb ((palette =? 0) || (palette =? 1)) then Ok false
      else do bpp <- value "bpp" l; Ok ((bpp =? 8) || (bpp =? 15) || (bpp =? 16) || (bpp =? 24) || (bpp =? 32))
  end.

(** ** PC Paintbrush: pcx.py:45-73, createFields.  PaddingBytes is shown as its bytes; the size of the file is known. *)
Definition pcx_fields : prog :=
  u8 "id" (u8 "version" (u8 "compression" (
  have bpp := (lit "bpp") (KNum 8 LE);
  u16 "xmin" (u16 "ymin" (u16 "xmax" (u16 "ymax" (u16 "horiz_dpi" (u16 "vert_dpi" (
  Palette (lit "palette_4bits") 24 RGB_fields 16 (
  emit (lit "reserved[]") (KBytes 1);
  u8 "nb_color_plan" (u16 "bytes_per_line" (u16 "color_mode" (
  emit (lit "reserved[]") (KBytes 58);
  PAsk (fun stop a =>
  let size := (stop - a) / 8 - (if num bpp =? 8 then 256 * 3 else 0) in
  emit (lit "image_data") (KBytes size);
  when (num bpp =? 8) (Palette (lit "palette_8bits") 24 RGB_fields 256) PRet)))))))))))))).
Definition PcxFile (read : read_fun) (size : Z) : shown := run read size pcx_fields true size 0.
(** pcx.py:25-32: version_name; pcx.py:34-43: validate: [reserved[0]] is the first of the fields reserved[] (C23) *)
Definition pcx_version (v : Z) : option string :=
  match v with 0 => Some "Version 2.5 of PC Paintbrush"%string | 2 => Some "Version 2.8 with palette information"%string | 3 => Some "Version 2.8 without palette information"%string
  | 4 => Some "PC Paintbrush for Windows"%string | 5 => Some "Version 3.0 (or greater) of PC Paintbrush"%string | _ => None end.
Definition pcx_validate (l : list fld) : res bool :=
  do id <- value "id" l;
  if negb (id =? 10) then Ok false
  else do version <- value "version" l;
  match pcx_version version with
  | None => Ok false
  | Some _ =>
      do bpp <- value "bpp" l;
      if negb ((bpp =? 1) || (bpp =? 2) || (bpp =? 4) || (bpp =? 8) || (bpp =? 24) || (bpp =? 32)) then Ok false
      else match get (lit "reserved[]") l with Some v => Ok (str_eqb (bytes v) [0]) | None => Err MissingField end
  end.

(** ** Icons and cursors of Windows: ico.py:15-25 and win32.py:164-178: createFields of IconHeader and BitmapInfoHeader *)
Definition IconHeader_fields : prog := u8 "width" (u8 "height" (u8 "nb_color" (u8 "reserved" (u16 "planes" (u16 "bpp" (u32 "size" (u32 "offset" PRet))))))).
Definition BitmapInfoHeader_fields : prog :=
  u32 "hdr_size" (u32 "width" (u32 "height" (u16 "nb_planes" (u16 "bpp" (u32 "codec" (u32 "size" (u32 "xres" (u32 "yres" (u32 "color_used" (u32 "color_important" PRet)))))))))).
(** ico.py:53-67: createFields of IconData, for the fields [h] of its header *)
Definition IconData_fields (h : list fld) : prog :=
  PAsk (fun _ start =>
  PSet (lit "header") (Some 320) BitmapInfoHeader_fields (fun _ =>
  need "nb_color" h (fun nb => need "bpp" h (fun bpp =>
  let n := if bpp =? 8 then 256 else nb in
  when (negb (n =? 0)) (Palette (lit "palette") 32 RGBA_fields n) (
  need "size" h (fun size => PAsk (fun _ a => emit (lit "pixels") (KBytes (size - (a - start) / 8)); PRet))))))).
(** ico.py:113-125: createFields *)
Fixpoint icon_headers (n : nat) (k : list (list fld) -> prog) : prog :=
  match n with O => k [] | S n => PSet (lit "icon_header[]") None IconHeader_fields (fun h => icon_headers n (fun hs => k (h :: hs))) end.
Fixpoint icon_datas (hs : list (list fld)) : prog :=
  match hs with
  | [] => PRet
  | h :: hs => need "offset" h (fun o => PAsk (fun _ a => if negb (o * 8 =? a) then PErr ParserError else PSet (lit "icon_data[]") None (IconData_fields h) (fun _ => icon_datas hs)))
  end.
Definition ico_fields : prog :=
  u16 "signature" (u16 "type" (have nb_items := (lit "nb_items") (KNum 16 LE); icon_headers (Z.to_nat (num nb_items)) icon_datas)).
Definition IcoFile (read : read_fun) (size : Z) : shown := run read size ico_fields true size 0.
(** ico.py:31-45: isValid of IconHeader *)
Definition header_valid (h : list fld) : res bool :=
  do nb <- value "nb_color" h; do bpp <- value "bpp" h; do planes <- value "planes" h;
  let last := (bpp =? 0) && (planes =? 0) in
  if nb =? 0 then Ok ((((bpp =? 8) || (bpp =? 24) || (bpp =? 32)) && (planes =? 1)) || ((planes =? 4) && (bpp =? 0)) || last)
  else if nb =? 16 then Ok ((((bpp =? 4) || (bpp =? 16)) && (planes =? 1)) || last)
  else Ok false.
(** The field sets with a name that ends with "[]": [self.array(name)] *)
Definition sets (name : string) (l : list fld) : list (list fld) := flat_map (fun f => match f with G n _ _ k _ => if str_eqb n (lit name) then [k] else [] | F _ _ _ _ => [] end) l.
(** ico.py:95-111: validate: the headers are together, after the number of items *)
Fixpoint all_valid (hs : list (list fld)) : res bool := match hs with [] => Ok true | h :: hs => do b <- header_valid h; if b then all_valid hs else Ok false end.
Definition ico_validate (l : list fld) : res bool :=
  do s <- value "signature" l;
  if negb (s =? 0) then Ok false
  else do t <- value "type" l; if negb ((t =? 1) || (t =? 2)) then Ok false else all_valid (sets "icon_header[]" l).
(** ico.py:127-136: createDescription *)
Definition type_name (t : Z) : option string := match t with 1 => Some "icon"%string | 2 => Some "cursor"%string | _ => None end.
Fixpoint join (sep : str) (l : list str) : str := match l with [] => [] | [x] => x | x :: l => x ++ sep ++ join sep l end.
Fixpoint sizes (hs : list (list fld)) : res (list str) :=
  match hs with
  | [] => Ok []
  | h :: hs => do w <- value "width" h; do t <- value "height" h; do b <- value "bpp" h; do l <- sizes hs; Ok ((dec w ++ lit "x" ++ dec t ++ lit "x" ++ dec b) :: l)
  end.
Definition ico_description (l : list fld) : res str :=
  do t <- value "type" l;
  do s <- sizes (sets "icon_header[]" l);
  Ok (lit "Microsoft Windows " ++ enum (type_name t) t ++ match s with [] => [] | _ => lit ": " ++ join (lit ", ") s end).
(** ico.py:138-143: createContentSize *)
Definition extents (name : string) (l : list fld) : list (Z * Z) := flat_map (fun f => match f with G n a s _ _ => if str_eqb n (lit name) then [(a, s)] else [] | F _ _ _ _ => [] end) l.
Definition ico_content_size (l : list fld) : res (option Z) :=
  do count <- value "nb_items" l;
  if count =? 0 then Ok None else match nth_error (extents "icon_data[]" l) (Z.to_nat (count - 1)) with Some (a, s) => Ok (Some (a + s)) | None => Err MissingField end.

(** ** Metadata *)
Import MetaModel.
(** image.py:277-287: extract of TargaMetadata: no file has a field pixels *)
Definition tga_extract (e : env) (m : meta) (l : list fld) : meta * bool :=
  ask "width" l m (fun w => andthen (assign e m [("width"%string, MInt w)]) (fun m =>
  ask "height" l m (fun h => andthen (assign e m [("height"%string, MInt h)]) (fun m =>
  ask "bpp" l m (fun b => andthen (assign e m [("bits_per_pixel"%string, MInt b)]) (fun m =>
  ask "nb_color" l m (fun n => andthen (if n =? 0 then (m, true) else assign e m [("nb_colors"%string, MInt n)]) (fun m =>
  ask "codec" l m (fun c => andthen (assign e m [("compression"%string, MStr (enum (codec_name c) c))]) (fun m =>
  match size_of (lit "pixels") l with Some s => computeComprRate e m s | None => (m, true) end)))))))))).
Definition tga_metadata (e : env) (l : list fld) : meta := with_mime e (fst (tga_extract e root l)) (lit "image/targa") (lit "Little endian").
(** image.py:136-150: extract of PcxMetadata *)
Definition pcx_extract (e : env) (m : meta) (l : list fld) : meta * bool :=
  ask "xmax" l m (fun x => andthen (assign e m [("width"%string, MInt (1 + x))]) (fun m =>
  ask "ymax" l m (fun y => andthen (assign e m [("height"%string, MInt (1 + y))]) (fun m =>
  ask "horiz_dpi" l m (fun x => andthen (assign e m [("width_dpi"%string, MInt x)]) (fun m =>
  ask "vert_dpi" l m (fun y => andthen (assign e m [("height_dpi"%string, MInt y)]) (fun m =>
  ask "bpp" l m (fun b => andthen (assign e m [("bits_per_pixel"%string, MInt b)]) (fun m =>
  andthen (if (1 <=? b) && (b <=? 8) then assign e m [("nb_colors"%string, MInt (2 ^ b))] else (m, true)) (fun m =>
  andthen (assign e m [("compression"%string, MStr (lit "Run-length encoding (RLE)"))]) (fun m =>
  ask "version" l m (fun v => andthen (assign e m [("format_version"%string, MStr (lit "PCX: " ++ enum (pcx_version v) v))]) (fun m =>
  match size_of (lit "image_data") l with Some s => computeComprRate e m s | None => (m, true) end)))))))))))))).
Definition pcx_metadata (e : env) (l : list fld) : meta := with_mime e (fst (pcx_extract e root l)) (lit "image/x-pcx") (lit "Little endian").
(** image.py:96-118: what is read from the headers by the extract of IcoMetadata, one metadata for each icon.  Simplified: the compression, the rate of compression and the names of
    the groups are not modelled. *)
Definition icon_extract (e : env) (m : meta) (h : list fld) : meta * bool :=
  ask "width" h m (fun x => andthen (assign e m [("width"%string, MInt x)]) (fun m =>
  ask "height" h m (fun y => andthen (assign e m [("height"%string, MInt y)]) (fun m =>
  ask "bpp" h m (fun bpp => ask "nb_color" h m (fun n =>
  let bpp := if n =? 0 then (if bpp =? 0 then 8 else bpp) else if bpp =? 0 then (if n =? 2 then 1 else if n =? 16 then 4 else if n =? 256 then 8 else bpp) else bpp in
  andthen (if n =? 0 then (m, true) else assign e m [("nb_colors"%string, MInt n)]) (fun m =>
  assign e m [("bits_per_pixel"%string, MInt bpp)]))))))).
Definition ico_metadata (e : env) (l : list fld) : list meta := map (fun h => fst (icon_extract e root h)) (sets "icon_header[]" l).

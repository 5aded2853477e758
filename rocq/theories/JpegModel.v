(** Model of the chunks of parser/image/jpeg.py, and of computeQuality, startOfFrame and extractAPP0 of metadata/jpeg.py. *)
From Coq Require Import String.
From Verif Require Export Base BitsModel StreamModel DictModel FieldModel GenModel ExtractModel Lit.
From Verif Require MetaModel.
Open Scope Z_scope.

Definition u8 (name : string) (k : prog) : prog := emit (lit name) (KNum 8 BE); k.
Definition u16 (name : string) (k : prog) : prog := emit (lit name) (KNum 16 BE); k.
Definition u4 (name : string) (k : prog) : prog := emit (lit name) (KNum 4 BE); k.
(** jpeg.py:97-123: JpegChunkApp0; common.py:4-17, 42-44: PaletteRGB *)
Definition rgb (k : prog) : prog := PSet (lit "color[]") (Some 24) (u8 "red" (u8 "green" (u8 "blue" PRet))) (fun _ => k).
Definition App0_fields : prog :=
  have jfif := (lit "jfif") (KText 5);
  if negb (str_eqb (bytes jfif) (lit "JFIF" ++ [0])) then PErr ParserError
  else
  u8 "ver_maj" (u8 "ver_min" (
  have units := (lit "units") (KNum 8 BE);
  (if num units =? 0 then fun k => u16 "aspect_x" (u16 "aspect_y" k) else fun k => u16 "x_density" (u16 "y_density" k)) (
  have w := (lit "thumb_w") (KNum 8 BE);
  have h := (lit "thumb_h") (KNum 8 BE);
  if num w * num h =? 0 then PRet
  else PSet (lit "thumb_palette") (Some (256 * 24)) (times rgb 256 PRet) (fun _ => emit (lit "thumb_data") (KBytes (num w * num h)); PRet)))).
(** jpeg.py:126-153: Ducky and APP12 *)
Definition Ducky (k : prog) : prog :=
  PSet (lit "item[]") None (have type := (lit "type") (KNum 16 BE); if num type =? 0 then PRet else have size := (lit "size") (KNum 16 BE); if num size =? 0 then PRet else emit (lit "data") (KBytes (num size)); PRet) (fun _ => k).
Definition rounds (body : prog -> prog) : prog := PAsk (fun stop a => loop body (S (Z.to_nat (stop - a)))).
Definition APP12_fields : prog := emit (lit "ducky") (KText 5); rounds Ducky.
(** jpeg.py:156-175: StartOfFrame *)
Definition SOFComponent (k : prog) : prog := PSet (lit "component[]") None (u8 "component_id" (u4 "horiz_sample" (u4 "vert_sample" (u8 "quant_table" PRet)))) (fun _ => k).
Definition StartOfFrame_fields : prog :=
  u8 "precision" (u16 "height" (u16 "width" (have n := (lit "nr_components") (KNum 8 BE); times SOFComponent (Z.to_nat (num n)) PRet))).
(** jpeg.py:178-181: Comment *)
Definition Comment_fields : prog := PAsk (fun stop a => emit (lit "comment") (KText ((stop - a) / 8)); PRet).
(** jpeg.py:184-200: AdobeChunk.  Simplified: the bytes of NullBits and NullBytes are shown whatever they are. *)
Definition Adobe_fields : prog :=
  look start := 0 (KBytes 5) false;
  if negb (str_eqb (bytes start) (lit "Adobe")) then PAsk (fun stop a => emit (lit "raw") (KBytes ((stop - a) / 8)); PRet)
  else emit (lit "adobe") (KText 5); u16 "version" (emit (lit "flag00") (KNum 1 BE); emit (lit "flags0_reserved") (KNum 15 BE); emit (lit "flags1") (KBytes 2); u8 "color_transform" PRet).
(** jpeg.py:203-224: StartOfScan *)
Definition SOSComponent (n : Z) (k : prog) : prog :=
  PSet (lit "component[]") None (have id := (lit "component_id") (KNum 8 BE); if negb ((1 <=? num id) && (num id <=? n)) then PErr ParserError else u4 "dc_coding_table" (u4 "ac_coding_table" PRet)) (fun _ => k).
Definition StartOfScan_fields : prog :=
  have n := (lit "nr_components") (KNum 8 BE);
  times (SOSComponent (num n)) (Z.to_nat (num n)) (u8 "spectral_start" (u8 "spectral_end" (u4 "bit_pos_high" (u4 "bit_pos_low" PRet)))).
(** jpeg.py:227-230: RestartInterval *)
Definition RestartInterval_fields : prog := u16 "interval" PRet.
(** jpeg.py:86-94, 233-258: JPEG_NATURAL_ORDER and the tables of quantization *)
Definition JPEG_NATURAL_ORDER : list Z :=
  [0; 1; 8; 16; 9; 2; 3; 10; 17; 24; 32; 25; 18; 11; 4; 5; 12; 19; 26; 33; 40; 48; 41; 34; 27; 20; 13; 6; 7; 14; 21; 28;
   35; 42; 49; 56; 57; 50; 43; 36; 29; 22; 15; 23; 30; 37; 44; 51; 58; 59; 52; 45; 38; 31; 39; 46; 53; 60; 61; 54; 47; 55; 62; 63].
Definition index_name (name : string) (i : Z) : str := lit name ++ lit "[" ++ dec i ++ lit "]".
Fixpoint coeffs (n : Z) (l : list Z) : prog := match l with [] => PRet | i :: l => emit (index_name "coeff" i) (KNum n BE); coeffs n l end.
Definition QuantizationTable (k : prog) : prog :=
  PSet (lit "qt[]") None (have wide := (lit "is_16bit") (KNum 4 BE); have index := (lit "index") (KNum 4 BE);
    if 4 <=? num index then PErr ParserError else coeffs (if num wide =? 0 then 8 else 16) JPEG_NATURAL_ORDER) (fun _ => k).
Definition DefineQuantizationTable_fields : prog := rounds QuantizationTable.
(** jpeg.py:261-289: the tables of Huffman codes; zlib.py:30: build_tree raises ValueError when there is no code.  The tree itself is not a field (C35). *)
Definition value_name (i j : Z) : str := lit "value[" ++ dec i ++ lit "][" ++ dec j ++ lit "]".
Fixpoint count_fields (i : Z) (n : nat) (c : list Z -> prog) : prog :=
  match n with O => c [] | S n => have v := (index_name "count" i) (KNum 8 BE); count_fields (i + 1) n (fun l => c (num v :: l)) end.
Fixpoint value_row (i j : Z) (n : nat) (k : prog) : prog := match n with O => k | S n => emit (value_name i j) (KNum 8 BE); value_row i (j + 1) n k end.
Fixpoint value_rows (i : Z) (counts : list Z) (k : prog) : prog := match counts with [] => k | c :: counts => value_row i 0 (Z.to_nat c) (value_rows (i + 1) counts k) end.
Definition HuffmanTable (k : prog) : prog :=
  PSet (lit "huffman_table[]") None (u4 "table_class" (u4 "index" (count_fields 1 16 (fun counts =>
    value_rows 1 counts (if fold_right Z.add 0 counts =? 0 then PErr ValueError else PRet))))) (fun _ => k).
Definition DefineHuffmanTable_fields : prog := rounds HuffmanTable.
(** Contents that are not modelled (Exif, Photoshop, the coded data of pictures): one field of bytes *)
Definition opaque : prog := PAsk (fun stop a => emit (lit "content") (KBytes ((stop - a) / 8)); PRet).
(** jpeg.py:470-511: TAG_INFO: the name and the parser of a chunk *)
Definition START_OF_FRAME (tag : Z) : bool := (0xc0 <=? tag) && (tag <=? 0xcf) && negb (tag =? 0xc4) && negb (tag =? 0xc8) && negb (tag =? 0xcc).
Definition restart_name (n : Z) : str := lit "restart_marker_" ++ dec n ++ lit "[]".
Definition TAG_INFO (tag : Z) : option (str * option prog) :=
  if START_OF_FRAME tag then Some (lit "start_frame", Some StartOfFrame_fields)
  else if (0xd0 <=? tag) && (tag <=? 0xd7) then Some (restart_name (tag - 0xd0), None)
  else match tag with
  | 0xc4 => Some (lit "huffman[]", Some DefineHuffmanTable_fields)
  | 0xd8 => Some (lit "start_image", None)
  | 0xd9 => Some (lit "end_image", None)
  | 0xda => Some (lit "start_scan[]", Some StartOfScan_fields)
  | 0xdb => Some (lit "quantization[]", Some DefineQuantizationTable_fields)
  | 0xdc => Some (lit "nb_line", None)
  | 0xdd => Some (lit "restart_interval", Some RestartInterval_fields)
  | 0xe0 => Some (lit "app0", Some App0_fields)
  | 0xe1 => Some (lit "exif", Some opaque)
  | 0xe2 => Some (lit "icc", None)
  | 0xec => Some (lit "app12", Some APP12_fields)
  | 0xed => Some (lit "photoshop", Some opaque)
  | 0xee => Some (lit "adobe", Some Adobe_fields)
  | 0xfe => Some (lit "comment[]", Some Comment_fields)
  | _ => None
  end.
(** jpeg.py:513-528: __init__ of JpegChunk: the type, read through the fields of the chunk; whether a chunk 0xE1 starts with "Exif" *)
Definition chunk_type (read : read_fun) (ssize stop a : Z) : res val :=
  do h <- readBits read a 8 BE;
  if negb (h =? 0xff) then Err ParserError
  else if stop <? a + 16 then Err MissingField
  else do t <- readBits read (a + 8) 8 BE; Ok (VNum t).
Definition chunk_exif (tag : Z) (read : read_fun) (ssize stop a : Z) : res val :=
  if tag =? 0xe1 then do b <- readBytes read (a + 32) 6; Ok (VNum (if str_eqb b (lit "Exif" ++ [0; 0]) then 1 else 0)) else Ok (VNum 0).
Definition chunk_info (tag exif : Z) : str * option prog :=
  if tag =? 0xe1 then if exif =? 1 then (lit "exif", Some opaque) else (lit "chunk[]", None)
  else match TAG_INFO tag with Some i => i | None => (lit "chunk[]", None) end.
(** jpeg.py:530-545: createFields of JpegChunk *)
Definition Chunk_fields (parser : option prog) : prog :=
  have h := (lit "header") (KNum 8 BE);
  if negb (num h =? 0xff) then PErr ParserError
  else
  have t := (lit "type") (KNum 8 BE);
  let tag := num t in
  if (tag =? 0xd8) || (tag =? 0xd9) || ((0xd0 <=? tag) && (tag <=? 0xd7)) then PRet
  else
  have s := (lit "size") (KNum 16 BE);
  let size := num s - 2 in
  if 0 <? size then match parser with Some p => PSet (lit "content") (Some (size * 8)) p (fun _ => PRet) | None => emit (lit "data") (KBytes size); PRet end
  else PRet.
(** jpeg.py:513-545: The chunk, and what the generator does with its type and its fields.  Simplified: a second chunk with the name of another one keeps it, where the code adds a number. *)
Definition JpegChunk (k : Z -> list fld -> prog) : prog :=
  PDo chunk_type (fun t => PDo (chunk_exif (num t)) (fun x => let i := chunk_info (num t) (num x) in PSet (fst i) None (Chunk_fields (snd i)) (k (num t)))).
(** jpeg.py:378-401: the size of the coded data: up to the next marker, or the end of the file; the search stops at 100 MB *)
Fixpoint data_end (read : read_fun) (ssize a : Z) (n : nat) (start : Z) : res Z :=
  match n with
  | O => Err OutOfFuel
  | S n =>
      do pos <- searchBytes read ssize [0xff] start (Some (100 * 1024 * 1024 * 8));
      match pos with
      | None => Ok (ssize - a)
      | Some p => do b <- readBytes read p 2; if str_eqb b [0xff; 0] then data_end read ssize a n (p + 16) else Ok (p - a)
      end
  end.
Definition data_size (read : read_fun) (ssize stop a : Z) : res val := do n <- data_end read ssize a (S (Z.to_nat ssize)) a; Ok (VNum n).
(** jpeg.py:376-461: JpegImageData; a field set without bits is deleted, and the parser stops (generic_field_set.py:184-190, 203-213).  Simplified: its fields, the units of the picture, are not modelled. *)
Definition JpegImageData (k : prog) : prog := PDo data_size (fun n => if num n <=? 0 then PErr StopIteration else PSet (lit "image_data[]") (Some (num n)) opaque (fun _ => k)).
(** [chunk["content"]] *)
Definition content (l : list fld) : option (list fld) := group (lit "content") l.
(** jpeg.py:583-612: createFields of JpegFile; the state: whether there was a start of frame, and the first chunk that defines a restart interval.  The part after the loop
    (jpeg.py:614-627) does nothing when the file has a size, as the loop goes to the end of it. *)
Definition jpeg_chunk (s : bool * option (list fld)) (k : bool * option (list fld) -> prog) : prog :=
  JpegChunk (fun tag l =>
    let '(frame, interval) := s in
    let interval := match interval with Some _ => interval | None => if tag =? 0xdd then Some l else None end in
    (if START_OF_FRAME tag then fun c : bool -> prog => match content l with Some _ => c true | None => PErr MissingField end else fun c => c frame) (fun frame =>
    if tag =? 0xda then
      if negb frame then k (frame, interval)
      else match content l with
           | None => PErr MissingField
           | Some _ => match interval with
                       | None => JpegImageData (k (frame, interval))
                       | Some i => match content i with
                                   | None => PErr MissingField
                                   | Some c => match get (lit "interval") c with None => PErr MissingField | Some _ => JpegImageData (k (frame, interval)) end
                                   end
                       end
           end
    else if (0xd0 <=? tag) && (tag <=? 0xd7) then JpegImageData (k (frame, interval))
    else k (frame, interval))).
Definition jpeg_fields : prog := PAsk (fun stop a => loop_from jpeg_chunk (S (Z.to_nat (stop - a))) (false, None)).
Definition JpegFile (read : read_fun) (size : Z) : shown := run read size jpeg_fields true size 0.
(** jpeg.py:568-581: validate: the types of the first three fields *)
Definition type_known (f : fld) : bool :=
  match f with G _ _ _ l _ => match get (lit "type") l with Some t => match TAG_INFO (num t) with Some _ => true | None => false end | None => false end | F _ _ _ _ => false end.
Definition jpeg_validate (read : read_fun) (size : Z) : res bool :=
  do b <- readBytes read 0 2;
  if negb (str_eqb b [0xff; 0xd8]) then Ok false
  else let '(l, e, _) := JpegFile read size in
       Ok (forallb type_known (firstn 3 l) && match e with None => true | Some _ => (3 <=? zlen l) end).
(** jpeg.py:629-635: createDescription *)
Definition jpeg_description (l : list fld) : res str :=
  match group (lit "start_frame") l with
  | None => Ok (lit "JPEG picture")
  | Some f => match content f with
              | None => Ok (lit "JPEG picture")
              | Some c => match get (lit "width") c, get (lit "height") c with
                          | Some w, Some h => Ok (lit "JPEG picture: " ++ dec (num w) ++ lit "x" ++ dec (num h) ++ lit " pixels")
                          | _, _ => Err MissingField
                          end
              end
  end.
(** jpeg.py:637-649: createContentSize; no field of a file has the name "end" or "data" *)
Fixpoint first_of (name : str) (l : list fld) : option fld := match l with [] => None | f :: l => if str_eqb (f_name f) name then Some f else first_of name l end.
Definition jpeg_content_size (read : read_fun) (size : Z) : res (option Z) :=
  match first_of (lit "image_data[]") (fst (fst (JpegFile read size))) with
  | None => Ok None
  | Some f => do pos <- searchBytes read size [0xff; 0xd9] (f_addr f) (Some (100 * 1024 * 1024 * 8));
              Ok (match pos with Some p => Some (p + 16) | None => None end)
  end.
(** jpeg.py:34-45 *)
Definition QUALITY_HASH_COLOR : list Z :=
  [1020; 1015; 932; 848; 780; 735; 702; 679; 660; 645; 632; 623; 613; 607; 600; 594; 589; 585; 581; 571; 555; 542; 529; 514; 494; 474; 457; 439; 424; 410; 397; 386; 373; 364; 351; 341; 334; 324; 317; 309; 299; 294; 287; 279; 274; 267; 262; 257; 251; 247; 243; 237; 232; 227; 222; 217; 213; 207; 202; 198; 192; 188; 183; 177; 173; 168; 163; 157; 153; 148; 143; 139; 132; 128; 125; 119; 115; 108; 104; 99; 94; 90; 84; 79; 74; 70; 64; 59; 55; 49; 45; 40; 34; 30; 25; 20; 15; 11; 6; 4; 0].
(** jpeg.py:47-58 *)
Definition QUALITY_SUM_COLOR : list Z :=
  [32640; 32635; 32266; 31495; 30665; 29804; 29146; 28599; 28104; 27670; 27225; 26725; 26210; 25716; 25240; 24789; 24373; 23946; 23572; 22846; 21801; 20842; 19949; 19121; 18386; 17651; 16998; 16349; 15800; 15247; 14783; 14321; 13859; 13535; 13081; 12702; 12423; 12056; 11779; 11513; 11135; 10955; 10676; 10392; 10208; 9928; 9747; 9564; 9369; 9193; 9017; 8822; 8639; 8458; 8270; 8084; 7896; 7710; 7527; 7347; 7156; 6977; 6788; 6607; 6422; 6236; 6054; 5867; 5684; 5495; 5305; 5128; 4945; 4751; 4638; 4442; 4248; 4065; 3888; 3698; 3509; 3326; 3139; 2957; 2775; 2586; 2405; 2216; 2037; 1846; 1666; 1483; 1297; 1109; 927; 735; 554; 375; 201; 128; 0].
(** jpeg.py:60-71 *)
Definition QUALITY_HASH_GRAY : list Z :=
  [510; 505; 422; 380; 355; 338; 326; 318; 311; 305; 300; 297; 293; 291; 288; 286; 284; 283; 281; 280; 279; 278; 277; 273; 262; 251; 243; 233; 225; 218; 211; 205; 198; 193; 186; 181; 177; 172; 168; 164; 158; 156; 152; 148; 145; 142; 139; 136; 133; 131; 129; 126; 123; 120; 118; 115; 113; 110; 107; 105; 102; 100; 97; 94; 92; 89; 87; 83; 81; 79; 76; 74; 70; 68; 66; 63; 61; 57; 55; 52; 50; 48; 44; 42; 39; 37; 34; 31; 29; 26; 24; 21; 18; 16; 13; 11; 8; 6; 3; 2; 0].
(** jpeg.py:73-84 *)
Definition QUALITY_SUM_GRAY : list Z :=
  [16320; 16315; 15946; 15277; 14655; 14073; 13623; 13230; 12859; 12560; 12240; 11861; 11456; 11081; 10714; 10360; 10027; 9679; 9368; 9056; 8680; 8331; 7995; 7668; 7376; 7084; 6823; 6562; 6345; 6125; 5939; 5756; 5571; 5421; 5240; 5086; 4976; 4829; 4719; 4616; 4463; 4393; 4280; 4166; 4092; 3980; 3909; 3835; 3755; 3688; 3621; 3541; 3467; 3396; 3323; 3247; 3170; 3096; 3021; 2952; 2874; 2804; 2727; 2657; 2583; 2509; 2437; 2362; 2290; 2211; 2136; 2068; 1996; 1915; 1858; 1773; 1692; 1620; 1552; 1477; 1398; 1326; 1251; 1179; 1109; 1031; 961; 884; 814; 736; 667; 592; 518; 441; 369; 292; 221; 151; 86; 64; 0].
(** metadata/jpeg.py:122-166: computeQuality: the quality and whether it is approximate.  [l]: the fields of the file. *)
Definition named (name : string) (l : list fld) : list (list fld) := flat_map (fun f => match f with G n _ _ k _ => if str_eqb n (lit name) then [k] else [] | F _ _ _ _ => [] end) l.
Fixpoint qts (l : list (list fld)) : res (list (list fld)) := match l with [] => Ok [] | dqt :: l => match content dqt with Some c => do r <- qts l; Ok (named "qt[]" c ++ r) | None => Err MissingField end end.
Definition qtlist (l : list fld) : res (list (list fld)) := qts (named "quantization[]" l).
Definition coeff (i : Z) (qt : list fld) : res Z := match get (index_name "coeff" i) qt with Some v => Ok (num v) | None => Err MissingField end.
Fixpoint sum_coeff (l : list (Z * list fld)) : res Z := match l with [] => Ok 0 | (i, qt) :: l => do v <- coeff i qt; do s <- sum_coeff l; Ok (v + s) end.
Fixpoint find_quality (hashval sumcoeff index : Z) (hashes sums : list Z) : option (Z * bool) :=
  match hashes, sums with
  | h :: hashes, s :: sums =>
      if 100 <=? index then None
      else if (h <=? hashval) || (s <=? sumcoeff) then Some (index + 1, (h <? hashval) || (s <? sumcoeff))
      else find_quality hashval sumcoeff (index + 1) hashes sums
  | _, _ => None
  end.
Definition computeQuality (l : list fld) : res (option (Z * bool)) :=
  do tables <- qtlist l;
  match tables with
  | [] => Ok None
  | qt0 :: more =>
      do sumcoeff <- sum_coeff (flat_map (fun qt => map (fun i => (Z.of_nat i, qt)) (seq 0 64)) (qt0 :: more));
      match (do a <- coeff 2 qt0; do b <- coeff 53 qt0;
             match more with
             | [] => Ok (a + b, QUALITY_HASH_GRAY, QUALITY_SUM_GRAY)
             | qt1 :: _ => do c <- coeff 0 qt1; do d <- coeff 63 qt1; Ok (a + b + (c + d), QUALITY_HASH_COLOR, QUALITY_SUM_COLOR)
             end) with
      | Err _ => Ok None
      | Ok (hashval, hashtable, sumtable) => Ok (find_quality hashval sumcoeff 0 hashtable sumtable)
      end
  end.
Definition quality_text (q : Z * bool) : str := lit "JPEG quality: " ++ dec (fst q) ++ lit "%" ++ if snd q then lit " (approximate)" else [].
(** jpeg.py:494-508: START_OF_FRAME; metadata/jpeg.py:105-120: startOfFrame *)
Import MetaModel.
Definition frame_name (tag : Z) : str :=
  match tag with
  | 0xc0 => lit "Baseline" | 0xc1 => lit "Extended sequential" | 0xc2 => lit "Progressive" | 0xc3 => lit "Lossless"
  | 0xc5 => lit "Differential sequential" | 0xc6 => lit "Differential progressive" | 0xc7 => lit "Differential lossless"
  | 0xc9 => lit "Extended sequential, arithmetic coding" | 0xca => lit "Progressive, arithmetic coding" | 0xcb => lit "Lossless, arithmetic coding"
  | 0xcd => lit "Differential sequential, arithmetic coding" | 0xce => lit "Differential progressive, arithmetic coding" | _ => lit "Differential lossless, arithmetic coding"
  end.
Definition startOfFrame (e : env) (m : meta) (chunk sof : list fld) : meta * bool :=
  ask "type" chunk m (fun tag => andthen (assign e m [("compression"%string, MStr (lit "JPEG (" ++ frame_name tag ++ lit ")"))]) (fun m =>
  ask "width" sof m (fun w => andthen (assign e m [("width"%string, MInt w)]) (fun m =>
  ask "height" sof m (fun h => andthen (assign e m [("height"%string, MInt h)]) (fun m =>
  ask "nr_components" sof m (fun n => andthen (assign e m [("bits_per_pixel"%string, MInt (8 * n))]) (fun m =>
  if n =? 3 then assign e m [("pixel_format"%string, MStr (lit "YCbCr"))]
  else if n =? 1 then assign e m [("pixel_format"%string, MStr (lit "Grayscale")); ("nb_colors"%string, MInt 256)]
  else (m, true))))))))).
(** metadata/jpeg.py:168-174: extractAPP0; [%02u] *)
Definition dec2 (n : Z) : str := (if n <? 10 then lit "0" else []) ++ dec n.
Definition extractAPP0 (e : env) (m : meta) (app0 : list fld) : meta * bool :=
  ask "ver_maj" app0 m (fun a => ask "ver_min" app0 m (fun b => andthen (assign e m [("format_version"%string, MStr (lit "JFIF " ++ dec a ++ lit "." ++ dec2 b))]) (fun m =>
  if has_field "y_density" app0
  then ask "x_density" app0 m (fun x => andthen (assign e m [("width_dpi"%string, MInt x)]) (fun m => ask "y_density" app0 m (fun y => assign e m [("height_dpi"%string, MInt y)])))
  else (m, true)))).
(** metadata/jpeg.py:72-103: extract, of a file without the contents of Exif and Photoshop, which are not modelled.  No field has the name start_scan, as start_scan[] is always numbered (C23), nor data.
    [text]: the text made from the bytes of a string, stripped (C30, C60).  The functions with @fault_tolerant keep what was done when they raise. *)
Definition path (name : string) (l : list fld) : option (list fld) := match group (lit name) l with Some k => content k | None => None end.
Definition comments (text : list Z -> str) (l : list fld) : list (string * mval) :=
  flat_map (fun k => match content k with Some c => match GenModel.get (lit "comment") c with Some v => [("comment"%string, MStr (text (bytes v)))] | None => [] end | None => [] end) (named "comment[]" l).
Definition jpeg_extract (e : env) (text : list Z -> str) (m : meta) (l : list fld) : meta * bool :=
  let m := match group (lit "start_frame") l with Some k => match content k with Some c => fst (startOfFrame e m k c) | None => m end | None => m end in
  let m := match path "app0" l with Some c => fst (extractAPP0 e m c) | None => m end in
  andthen (assign e m (comments text l)) (fun m =>
  let m := match computeQuality l with Ok (Some q) => fst (assign e m [("comment"%string, MStr (quality_text q))]) | _ => m end in
  andthen (match group (lit "photoshop") l with Some _ => if has_key m "producer" then (m, true) else assign e m [("producer"%string, MStr (lit "Adobe Photoshop"))] | None => (m, true) end) (fun m =>
  if has_key m "compression" then assign e m [("compression"%string, MStr (lit "JPEG"))] else (m, true))).
Definition jpeg_metadata (e : env) (text : list Z -> str) (l : list fld) : meta := with_mime e (fst (jpeg_extract e text root l)) (lit "image/jpeg") (lit "Big endian").

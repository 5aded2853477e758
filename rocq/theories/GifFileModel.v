(** Model of GifFile (parser/image/gif.py), but for the codes of LZW (GifModel.v), and of GifMetadata (metadata/image.py). *)
From Coq Require Import String.
From Verif Require Export Base BitsModel StreamModel DictModel FieldModel GenModel ExtractModel BmpModel Lit.
From Verif Require MetaModel HumanModel.
Open Scope Z_scope.

(** [while True: ...] in a generator, where each turn yields a field or ends the loop: a turn for every bit left, and one more *)
Fixpoint forever {S : Type} (body : S -> (S -> prog) -> prog) (n : nat) (s : S) : prog :=
  match n with O => PErr OutOfFuel | Datatypes.S n => PAsk (fun _ _ => body s (forever body n)) end.
Definition endless {S : Type} (body : S -> (S -> prog) -> prog) (s : S) : prog := PAsk (fun stop a => forever body (Datatypes.S (Z.to_nat (stop - a))) s).
Definition u16 (name : string) (k : prog) : prog := emit (lit name) (KNum 16 LE); k.
Definition u8 (name : string) (k : prog) : prog := emit (lit name) (KNum 8 LE); k.
Definition terminator : prog := emit (lit "terminator") (KBytes 1); PRet.
(** gif.py:129-160: createFields of Image; fragment.py:29-40: CustomFragment *)
Definition image_block (s : unit) (k : unit -> prog) : prog :=
  look size := 0 (KNum 8 LE) false;
  if num size =? 0 then terminator
  else u8 "image_block_size[]" (PSet (lit "image_block[]") (Some (num size * 8)) (emit (lit "rawdata") (KBytes (num size * 8 / 8)); PRet) (fun _ => k tt)).
Definition Image_fields : prog :=
  u16 "left" (u16 "top" (u16 "width" (u16 "height" (
  have size := (lit "size_local_map") (KNum 3 LE);
  emit (lit "reserved") (KNum 2 LE); emit (lit "sort_flag") (KNum 1 LE); emit (lit "interlaced") (KNum 1 LE);
  have map := (lit "has_local_map") (KNum 1 LE);
  when (negb (num map =? 0)) (Palette (lit "local_map") 24 RGB_fields (Z.shiftl 1 (1 + num size)))
  (u8 "lzw_min_code_size" (endless image_block tt)))))).
(** gif.py:180-195: parseApplicationExtension.  [parent["netscape_code"]] is the first field with this name.  Simplified: the name is compared as bytes, not as the text made from them. *)
Definition app_block (app : str) (code : option Z) (k : option Z -> prog) : prog :=
  look size := 0 (KNum 8 LE) false;
  if num size =? 0 then terminator
  else u8 "size[]" (
    if str_eqb app (lit "NETSCAPE2.0") && (num size =? 3) then
      have c := (lit "netscape_code") (KNum 8 LE);
      let code := match code with Some c => c | None => num c end in
      if code =? 1 then u16 "loop_count" (k (Some code)) else emit (lit "raw[]") (KBytes 2); k (Some code)
    else emit (lit "raw[]") (KBytes (num size)); k code).
Definition parseApplicationExtension : prog := have app := (lit "app_name") (KPascal 1 true); endless (app_block (bytes app)) None.
(** gif.py:198-210: parseGraphicControl *)
Definition parseGraphicControl : prog :=
  have size := (lit "size") (KNum 8 LE);
  emit (lit "has_transp") (KNum 1 LE); emit (lit "user_input") (KNum 1 LE); emit (lit "disposal_method") (KNum 3 LE); emit (lit "reserved[]") (KNum 3 LE);
  if negb (num size =? 4) then PErr ParserError else u16 "delay" (u8 "transp" terminator).
(** gif.py:213-218: parseComments; gif.py:221-235: parseTextExtension; gif.py:238-245: defaultExtensionParser *)
Definition comment_block (s : unit) (k : unit -> prog) : prog := have c := (lit "comment[]") (KPascal 1 true); if zlen (bytes c) =? 0 then PRet else k tt.
Definition parseComments : prog := endless comment_block tt.
Definition parseTextExtension : prog :=
  u8 "block_size" (u16 "left" (u16 "top" (u16 "width" (u16 "height" (u8 "cell_width" (u8 "cell_height" (u8 "fg_color" (u8 "bg_color" (endless comment_block tt))))))))).
Definition other_block (s : unit) (k : unit -> prog) : prog :=
  have size := (lit "size[]") (KNum 8 LE); if 0 <? num size then emit (lit "content[]") (KBytes (num size)); k tt else PRet.
(** gif.py:248-266: Extension: its name and its parser are chosen by its first field *)
Definition ext_code (code : Z) : string * prog :=
  if code =? 0xf9 then ("graphic_ctl[]"%string, parseGraphicControl)
  else if code =? 0xfe then ("comments[]"%string, parseComments)
  else if code =? 0xff then ("app_ext[]"%string, parseApplicationExtension)
  else if code =? 0x01 then ("text_ext[]"%string, parseTextExtension)
  else ("extensions[]"%string, endless other_block tt).
Definition Extension (k : prog) : prog :=
  look code := 0 (KNum 8 LE) true; PSet (lit (fst (ext_code (num code)))) None (u8 "code" (snd (ext_code (num code)))) (fun _ => k).
(** gif.py:272-288: ScreenDescriptor *)
Definition Screen_fields : prog :=
  u16 "width" (u16 "height" (
  emit (lit "size_global_map") (KNum 3 LE); emit (lit "sort_flag") (KNum 1 LE); emit (lit "color_res") (KNum 3 LE); emit (lit "global_map") (KNum 1 LE);
  u8 "background" (look aspect := 0 (KNum 8 LE) false; u8 "pixel_aspect_ratio" PRet))).
(** gif.py:325-353: createFields of GifFile.  A Character is shown as its code. *)
Definition gif_block (s : unit) (k : unit -> prog) : prog :=
  have code := (lit "separator[]") (KNum 8 LE);
  if num code =? 33 then Extension (k tt)
  else if num code =? 44 then PSet (lit "image[]") None Image_fields (fun _ => k tt)
  else if num code =? 59 then PRet else PErr ParserError.
Definition gif_fields : prog :=
  emit (lit "magic") (KText 3); emit (lit "version") (KText 3);
  PSet (lit "screen") None Screen_fields (fun screen =>
  need "global_map" screen (fun has => need "size_global_map" screen (fun size =>
  when (negb (has =? 0)) (Palette (lit "color_map") 24 RGB_fields (Z.shiftl 1 (size + 1)))
  (endless gif_block tt)))).
Definition GifFile (read : read_fun) (size : Z) : shown := run read size gif_fields true size 0.
(** gif.py:314-323: validate, for a file that has the whole screen descriptor *)
Definition gif_validate (read : read_fun) (size : Z) : res bool :=
  do b <- readBytes read 0 6;
  if negb (str_eqb b (lit "GIF87a") || str_eqb b (lit "GIF89a")) then Ok false
  else match group (lit "screen") (fst (fst (GifFile read size))) with
       | Some s => match get (lit "width") s, get (lit "height") s with
                   | Some w, Some h => Ok (negb ((num w =? 0) || (num h =? 0)) && negb (6000 <? num w) && negb (6000 <? num h))
                   | _, _ => Err MissingField
                   end
       | None => Err MissingField
       end.
(** gif.py:355-362: createContentSize *)
Fixpoint first_of (name : str) (l : list fld) : option fld := match l with [] => None | f :: l => if str_eqb (f_name f) name then Some f else first_of name l end.
Definition gif_content_size (read : read_fun) (size : Z) : res (option Z) :=
  match first_of (lit "image[]") (fst (fst (GifFile read size))) with
  | None => Err MissingField
  | Some f =>
      let start := f_addr f + f_size f in
      do pos <- searchBytes read size [0; 59] start (Some (start + 100 * 1024 * 1024 * 8));
      Ok (match pos with Some p => if p =? 0 then None else Some (p + 16) | None => None end)
  end.
(** fragment.py:14-22: the stream of the blocks of an image, given to GifImageBlock *)
Definition image_stream (l : list fld) : list Z :=
  flat_map (fun f => match f with G n _ _ k _ => if str_eqb n (lit "image_block[]") then match get (lit "rawdata") k with Some v => bytes v | None => [] end else [] | F _ _ _ _ => [] end) l.
(** gif.py:162-165: descriptions of images *)
Definition image_description (l : list fld) : res str :=
  match get (lit "width") l, get (lit "height") l, get (lit "left") l, get (lit "top") l with
  | Some w, Some h, Some x, Some y => Ok (lit "Image: " ++ dec (num w) ++ lit "x" ++ dec (num h) ++ lit " pixels at (" ++ dec (num x) ++ lit "," ++ dec (num y) ++ lit ")")
  | _, _, _, _ => Err MissingField
  end.
(** gif.py:208: the text of the delay; a number of milliseconds for humanDuration (tools.py:119-161) *)
Definition delay_display (delay : Z) : res str := HumanModel.humanDuration delay.
(** gif.py:268-269: the description of an extension with another code *)
Definition extension_description (l : list fld) : res str := match get (lit "func") l with Some v => Ok (lit "Extension: function " ++ dec (num v)) | None => Err MissingField end.

(** ** Metadata *)
Import MetaModel.
(** image.py:255-274: extract and useScreen of GifMetadata.  [text]: the text made from the bytes of a string, stripped (C30, C60).  [gif.array("comments")] are the fields
    comments[0], comments[1]...; no field has the name graphic_ctl, as graphic_ctl[] is always numbered (C23). *)
Definition named (name : string) (l : list fld) : list (list fld) := flat_map (fun f => match f with G n _ _ k _ => if str_eqb n (lit name) then [k] else [] | F _ _ _ _ => [] end) l.
Definition useScreen (e : env) (m : meta) (s : list fld) : meta * bool :=
  ask "width" s m (fun w => andthen (assign e m [("width"%string, MInt w)]) (fun m =>
  ask "height" s m (fun h => andthen (assign e m [("height"%string, MInt h)]) (fun m =>
  ask "size_global_map" s m (fun n => assign e m [("bits_per_pixel"%string, MInt (1 + n))]))))).
Definition gif_extract (e : env) (text : list Z -> str) (m : meta) (l : list fld) : meta * bool :=
  let m := match group (lit "screen") l with Some s => fst (useScreen e m s) | None => m end in
  andthen (if has_key m "bits_per_pixel" then assign e m [("nb_colors"%string, MInt (Z.shiftl 1 (int_of m "bits_per_pixel")))] else (m, true)) (fun m =>
  andthen (assign e m [("compression"%string, MStr (lit "LZW"))]) (fun m =>
  match GenModel.get (lit "version") l with
  | None => (m, false)
  | Some v =>
      andthen (assign e m [("format_version"%string, MStr (lit "GIF version " ++ text (bytes v)))]) (fun m =>
      andthen (assign e m (flat_map (fun k => map (fun v => ("comment"%string, MStr (text (bytes v)))) (gets (lit "comment[]") k)) (named "comments[]" l))) (fun m =>
      let transp := match group (lit "graphic_ctl") l with Some k => match GenModel.get (lit "has_transp") k with Some v => negb (num v =? 0) | None => false end | None => false end in
      assign e m [("pixel_format"%string, MStr (if transp then lit "Color index with transparency" else lit "Color index"))]))
  end)).
Definition gif_metadata (e : env) (text : list Z -> str) (l : list fld) : meta := with_mime e (fst (gif_extract e text root l)) (lit "image/gif") (lit "Little endian").

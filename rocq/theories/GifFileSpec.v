(** GIF pictures, for the claims about their parser. *)
From Coq Require Import String.
From Verif Require Import Base BitsModel BitsSpec NumSpec DictModel FieldModel GenModel GenSpec ItemSpec ZipSpec Lit.
Open Scope Z_scope.

Definition byte_ok (v : Z) : Prop := 0 <= v < 2 ^ 8.
Definition short_ok (v : Z) : Prop := 0 <= v < 2 ^ 16.
(** The screen: size, the number of colors of the map (a power of two: 1 is for four colors), whether it is sorted, the resolution of colors, whether there is a map, the background and the aspect *)
Record screen := Screen { s_width : Z; s_height : Z; s_size : Z; s_sort : Z; s_res : Z; s_map : Z; s_background : Z; s_aspect : Z }.
Definition screen_ok (s : screen) : Prop :=
  short_ok (s_width s) /\ short_ok (s_height s) /\ 0 <= s_size s < 2 ^ 3 /\ 0 <= s_sort s < 2 ^ 1 /\ 0 <= s_res s < 2 ^ 3 /\ 0 <= s_map s < 2 ^ 1 /\ byte_ok (s_background s) /\ byte_ok (s_aspect s).
Definition screen_items (s : screen) : list item :=
  [le 2 "width" (s_width s); le 2 "height" (s_height s);
   IBits LITTLE_ENDIAN 1 [bits 3 "size_global_map" (s_size s); bits 1 "sort_flag" (s_sort s); bits 3 "color_res" (s_res s); bits 1 "global_map" (s_map s)];
   le 1 "background" (s_background s); le 1 "pixel_aspect_ratio" (s_aspect s)].
(** Maps of colors: red, green and blue *)
Definition rgb : Type := Z * Z * Z.
Definition rgb_ok (c : rgb) : Prop := let '(r, g, b) := c in byte_ok r /\ byte_ok g /\ byte_ok b.
Definition rgb_item (c : rgb) : item := let '(r, g, b) := c in ISet (lit "color[]") [le 1 "red" r; le 1 "green" g; le 1 "blue" b].
Definition map_items (name : string) (l : list rgb) : list item := match l with [] => [] | _ => [ISet (lit name) (map rgb_item l)] end.
Definition map_ok (has size : Z) (l : list rgb) : Prop := Forall rgb_ok l /\ zlen l = (if has =? 0 then 0 else 2 ^ (size + 1)).
(** Blocks of 1 to 255 bytes *)
Definition block_ok (x : list Z) : Prop := 1 <= zlen x < 2 ^ 8.
Definition zero (name : string) : item := I (lit name) (SBytes [0]).
(** Images *)
Record image := Image { i_left : Z; i_top : Z; i_width : Z; i_height : Z; i_size : Z; i_reserved : Z; i_sort : Z; i_interlaced : Z; i_map : Z; i_colors : list rgb; i_code : Z; i_blocks : list (list Z) }.
Definition image_ok (i : image) : Prop :=
  short_ok (i_left i) /\ short_ok (i_top i) /\ short_ok (i_width i) /\ short_ok (i_height i) /\ 0 <= i_size i < 2 ^ 3 /\ 0 <= i_reserved i < 2 ^ 2 /\ 0 <= i_sort i < 2 ^ 1 /\ 0 <= i_interlaced i < 2 ^ 1 /\ 0 <= i_map i < 2 ^ 1 /\
  map_ok (i_map i) (i_size i) (i_colors i) /\ byte_ok (i_code i) /\ Forall block_ok (i_blocks i).
Definition image_items (i : image) : list item :=
  [le 2 "left" (i_left i); le 2 "top" (i_top i); le 2 "width" (i_width i); le 2 "height" (i_height i);
   IBits LITTLE_ENDIAN 1 [bits 3 "size_local_map" (i_size i); bits 2 "reserved" (i_reserved i); bits 1 "sort_flag" (i_sort i); bits 1 "interlaced" (i_interlaced i); bits 1 "has_local_map" (i_map i)]] ++
  map_items "local_map" (i_colors i) ++ [le 1 "lzw_min_code_size" (i_code i)] ++
  flat_map (fun x => [le 1 "image_block_size[]" (zlen x); ISet (lit "image_block[]") [I (lit "rawdata") (SBytes x)]]) (i_blocks i) ++ [zero "terminator"].
(** Extensions: graphic control, comments, application, plain text, others *)
Inductive extension :=
| Control (transp user disposal reserved delay index : Z)
| Comments (l : list (list Z))
| App (name : list Z) (l : list (list Z))
| Text (block left top width height cell_width cell_height fg bg : Z) (l : list (list Z))
| Other (code : Z) (l : list (list Z)).
Definition comment_items (l : list (list Z)) : list item := flat_map (fun x => [I (lit "comment[]") (SPascal 1 true x)]) l ++ [I (lit "comment[]") (SPascal 1 true [])].
(** The blocks of three bytes of the application NETSCAPE2.0: a code and, when it is 1, the number of loops *)
Definition netscape : list Z := lit "NETSCAPE2.0".
Definition app_items (name x : list Z) : list item :=
  [le 1 "size[]" (zlen x)] ++
  match x with
  | [c; a; b] => if str_eqb name netscape then [le 1 "netscape_code" c] ++ (if c =? 1 then [le 2 "loop_count" (a + 256 * b)] else [I (lit "raw[]") (SBytes [a; b])]) else [I (lit "raw[]") (SBytes x)]
  | _ => [I (lit "raw[]") (SBytes x)]
  end.
(** All the blocks of three bytes of an extension of NETSCAPE2.0 have the same code *)
Definition codes_agree (name : list Z) (l : list (list Z)) : Prop := name = netscape -> forall x y, In x l -> In y l -> zlen x = 3 -> zlen y = 3 -> hd 0 x = hd 0 y.
Definition extension_ok (e : extension) : Prop :=
  match e with
  | Control t u d r delay i => 0 <= t < 2 ^ 1 /\ 0 <= u < 2 ^ 1 /\ 0 <= d < 2 ^ 3 /\ 0 <= r < 2 ^ 3 /\ short_ok delay /\ byte_ok i
  | Comments l => Forall block_ok l
  | App name l => zlen name < 2 ^ 8 /\ Forall block_ok l /\ Forall is_bytes l /\ codes_agree name l
  | Text b x y w h cw ch fg bg l => byte_ok b /\ short_ok x /\ short_ok y /\ short_ok w /\ short_ok h /\ byte_ok cw /\ byte_ok ch /\ byte_ok fg /\ byte_ok bg /\ Forall block_ok l
  | Other code l => byte_ok code /\ ~ In code [0x01; 0xf9; 0xfe; 0xff] /\ Forall block_ok l
  end.
Definition extension_item (e : extension) : item :=
  match e with
  | Control t u d r delay i => ISet (lit "graphic_ctl[]") [le 1 "code" 0xf9; le 1 "size" 4; IBits LITTLE_ENDIAN 1 [bits 1 "has_transp" t; bits 1 "user_input" u; bits 3 "disposal_method" d; bits 3 "reserved[]" r];
                                                           le 2 "delay" delay; le 1 "transp" i; zero "terminator"]
  | Comments l => ISet (lit "comments[]") (le 1 "code" 0xfe :: comment_items l)
  | App name l => ISet (lit "app_ext[]") ([le 1 "code" 0xff; I (lit "app_name") (SPascal 1 true name)] ++ flat_map (app_items name) l ++ [zero "terminator"])
  | Text b x y w h cw ch fg bg l =>
      ISet (lit "text_ext[]") ([le 1 "code" 0x01; le 1 "block_size" b; le 2 "left" x; le 2 "top" y; le 2 "width" w; le 2 "height" h; le 1 "cell_width" cw; le 1 "cell_height" ch; le 1 "fg_color" fg; le 1 "bg_color" bg] ++ comment_items l)
  | Other code l => ISet (lit "extensions[]") ([le 1 "code" code] ++ flat_map (fun x => [le 1 "size[]" (zlen x); I (lit "content[]") (SBytes x)]) l ++ [le 1 "size[]" 0])
  end.
(** The blocks of a file *)
Inductive part := Ext (e : extension) | Img (i : image).
Definition part_ok (p : part) : Prop := match p with Ext e => extension_ok e | Img i => image_ok i end.
Definition part_items (p : part) : list item :=
  match p with Ext e => [le 1 "separator[]" 33; extension_item e] | Img i => [le 1 "separator[]" 44; ISet (lit "image[]") (image_items i)] end.
Record gif := Gif { g_version : list Z; g_screen : screen; g_colors : list rgb; g_parts : list part }.
Definition gif_items (g : gif) : list item :=
  [I (lit "magic") (SText (lit "GIF")); I (lit "version") (SText (g_version g)); ISet (lit "screen") (screen_items (g_screen g))] ++
  map_items "color_map" (g_colors g) ++ flat_map part_items (g_parts g) ++ [le 1 "separator[]" 59].
Definition gif_ok (g : gif) : Prop :=
  zlen (g_version g) = 3 /\ screen_ok (g_screen g) /\ map_ok (s_map (g_screen g)) (s_size (g_screen g)) (g_colors g) /\ Forall part_ok (g_parts g).

(** Pictures of Targa and PC Paintbrush, and icons of Windows, for the claims about their parsers. *)
From Coq Require Import String.
From Verif Require Import Base BitsModel BitsSpec NumSpec DictModel FieldModel GenModel GenSpec ItemSpec ZipSpec Lit.
Open Scope Z_scope.

Definition byte (v : Z) : Prop := 0 <= v < 2 ^ 8.
Definition short (v : Z) : Prop := 0 <= v < 2 ^ 16.
Definition long (v : Z) : Prop := 0 <= v < 2 ^ 32.
(** Colors: three or four bytes *)
Definition color : Type := Z * Z * Z.
Definition color_ok (c : color) : Prop := let '(r, g, b) := c in byte r /\ byte g /\ byte b.
Definition color_item (c : color) : item := let '(r, g, b) := c in ISet (lit "color[]") [le 1 "red" r; le 1 "green" g; le 1 "blue" b].
Definition color4 : Type := Z * Z * Z * Z.
Definition color4_ok (c : color4) : Prop := let '(r, g, b, a) := c in byte r /\ byte g /\ byte b /\ byte a.
Definition color4_item (c : color4) : item := let '(r, g, b, a) := c in ISet (lit "color[]") [le 1 "red" r; le 1 "green" g; le 1 "blue" b; le 1 "alpha" a].
(** A Targa picture: its identification, whether it has a map of colors, the kind of image, the place, number and size of the colors of the map, the origin, the size, the bits per pixel, the descriptor
    (alpha bits, right to left, top to bottom, 2 bits), the colors, and what follows: coded or not, the pixels *)
Record tga := Tga { t_id : list Z; t_has_map : Z; t_kind : Z; t_first : Z; t_count : Z; t_entry : Z; t_x : Z; t_y : Z; t_width : Z; t_height : Z; t_bpp : Z; t_alpha : Z; t_right : Z; t_top : Z; t_flags : Z;
                    t_map : list color; t_pixels : list Z }.
Definition tga_ok (t : tga) : Prop :=
  zlen (t_id t) < 2 ^ 8 /\ byte (t_has_map t) /\ byte (t_kind t) /\ short (t_first t) /\ short (t_count t) /\ byte (t_entry t) /\ short (t_x t) /\ short (t_y t) /\ short (t_width t) /\ short (t_height t) /\ byte (t_bpp t) /\
  0 <= t_alpha t < 2 ^ 4 /\ 0 <= t_right t < 2 ^ 1 /\ 0 <= t_top t < 2 ^ 1 /\ 0 <= t_flags t < 2 ^ 2 /\ Forall color_ok (t_map t) /\ zlen (t_map t) = (if t_has_map t =? 1 then 2 ^ t_bpp t else 0) /\ zlen (t_pixels t) <= 2 ^ 64.
Definition tga_items (t : tga) : list item :=
  [le 1 "id_length" (zlen (t_id t)); le 1 "palette_type" (t_has_map t); le 1 "codec" (t_kind t); le 2 "palette_ofs" (t_first t); le 2 "nb_color" (t_count t); le 1 "color_map_size" (t_entry t);
   le 2 "x_min" (t_x t); le 2 "y_min" (t_y t); le 2 "width" (t_width t); le 2 "height" (t_height t); le 1 "bpp" (t_bpp t);
   IBits LITTLE_ENDIAN 1 [bits 4 "alpha_depth" (t_alpha t); bits 1 "x_flip" (t_right t); bits 1 "y_flip" (t_top t); bits 2 "reserved_flags" (t_flags t)]] ++
  some_bytes_item "image_id" (t_id t) ++ (match t_map t with [] => [] | l => [ISet (lit "palette") (map color_item l)] end) ++ some_bytes_item "raw_pixels" (t_pixels t).
(** A picture of PC Paintbrush: at the end, 256 colors when pixels have 8 bits *)
Record pcx := Pcx { p_id : Z; p_version : Z; p_coding : Z; p_bpp : Z; p_xmin : Z; p_ymin : Z; p_xmax : Z; p_ymax : Z; p_xdpi : Z; p_ydpi : Z; p_colors : list color; p_reserved : Z; p_planes : Z; p_line : Z; p_mode : Z;
                    p_filler : list Z; p_pixels : list Z; p_palette : list color }.
Definition pcx_ok (p : pcx) : Prop :=
  byte (p_id p) /\ byte (p_version p) /\ byte (p_coding p) /\ byte (p_bpp p) /\ short (p_xmin p) /\ short (p_ymin p) /\ short (p_xmax p) /\ short (p_ymax p) /\ short (p_xdpi p) /\ short (p_ydpi p) /\
  Forall color_ok (p_colors p) /\ zlen (p_colors p) = 16 /\ byte (p_planes p) /\ short (p_line p) /\ short (p_mode p) /\ zlen (p_filler p) = 58 /\ p_pixels p <> [] /\ zlen (p_pixels p) <= 2 ^ 64 /\
  Forall color_ok (p_palette p) /\ zlen (p_palette p) = (if p_bpp p =? 8 then 256 else 0).
Definition pcx_items (p : pcx) : list item :=
  [le 1 "id" (p_id p); le 1 "version" (p_version p); le 1 "compression" (p_coding p); le 1 "bpp" (p_bpp p); le 2 "xmin" (p_xmin p); le 2 "ymin" (p_ymin p); le 2 "xmax" (p_xmax p); le 2 "ymax" (p_ymax p);
   le 2 "horiz_dpi" (p_xdpi p); le 2 "vert_dpi" (p_ydpi p); ISet (lit "palette_4bits") (map color_item (p_colors p)); I (lit "reserved[]") (SBytes [p_reserved p]); le 1 "nb_color_plan" (p_planes p);
   le 2 "bytes_per_line" (p_line p); le 2 "color_mode" (p_mode p); I (lit "reserved[]") (SBytes (p_filler p)); I (lit "image_data") (SBytes (p_pixels p))] ++
  match p_palette p with [] => [] | l => [ISet (lit "palette_8bits") (map color_item l)] end.
(** An icon: what its header has besides the place of its image; the header of the image, its colors (as many as the first header tells, 256 when pixels have 8 bits) and its pixels *)
Record icon := Icon { i_width : Z; i_height : Z; i_colors : Z; i_reserved : Z; i_planes : Z; i_bpp : Z; d_size : Z; d_width : Z; d_height : Z; d_planes : Z; d_bpp : Z; d_codec : Z; d_bytes : Z; d_xres : Z; d_yres : Z; d_used : Z; d_important : Z;
                      i_palette : list color4; i_pixels : list Z }.
Definition image_items (i : icon) : list item :=
  [ISet (lit "header") [le 4 "hdr_size" (d_size i); le 4 "width" (d_width i); le 4 "height" (d_height i); le 2 "nb_planes" (d_planes i); le 2 "bpp" (d_bpp i); le 4 "codec" (d_codec i); le 4 "size" (d_bytes i);
     le 4 "xres" (d_xres i); le 4 "yres" (d_yres i); le 4 "color_used" (d_used i); le 4 "color_important" (d_important i)]] ++
  (match i_palette i with [] => [] | l => [ISet (lit "palette") (map color4_item l)] end) ++ [I (lit "pixels") (SBytes (i_pixels i))].
Definition image_len (i : icon) : Z := 40 + 4 * zlen (i_palette i) + zlen (i_pixels i).
Definition icon_ok (i : icon) : Prop :=
  byte (i_width i) /\ byte (i_height i) /\ byte (i_colors i) /\ byte (i_reserved i) /\ short (i_planes i) /\ short (i_bpp i) /\ long (d_size i) /\ long (d_width i) /\ long (d_height i) /\ short (d_planes i) /\ short (d_bpp i) /\
  long (d_codec i) /\ long (d_bytes i) /\ long (d_xres i) /\ long (d_yres i) /\ long (d_used i) /\ long (d_important i) /\ Forall color4_ok (i_palette i) /\ zlen (i_palette i) = (if i_bpp i =? 8 then 256 else i_colors i) /\ i_pixels i <> [].
(** The header of an icon whose image is at a place *)
Definition header_items (i : icon) (at_ : Z) : list item :=
  [le 1 "width" (i_width i); le 1 "height" (i_height i); le 1 "nb_color" (i_colors i); le 1 "reserved" (i_reserved i); le 2 "planes" (i_planes i); le 2 "bpp" (i_bpp i); le 4 "size" (image_len i); le 4 "offset" at_].
Fixpoint placed (l : list icon) (at_ : Z) : list (icon * Z) := match l with [] => [] | i :: l => (i, at_) :: placed l (at_ + image_len i) end.
Definition all_len (l : list icon) : Z := fold_right Z.add 0 (map image_len l).
Definition ico_items (type : Z) (l : list icon) : list item :=
  [le 2 "signature" 0; le 2 "type" type; le 2 "nb_items" (zlen l)] ++ map (fun ia => ISet (lit "icon_header[]") (header_items (fst ia) (snd ia))) (placed l (6 + 16 * zlen l)) ++ map (fun i => ISet (lit "icon_data[]") (image_items i)) l.
Definition ico_ok (type : Z) (l : list icon) : Prop := short type /\ zlen l < 2 ^ 16 /\ 6 + 16 * zlen l + all_len l < 2 ^ 32 /\ Forall icon_ok l.

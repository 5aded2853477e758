(** BMP pictures, for the claims about their parser: the files of Windows 3 and 4 (headers of 40 and 108 bytes). *)
From Coq Require Import String.
From Verif Require Import Base BitsModel BitsSpec NumSpec DictModel FieldModel GenModel GenSpec ItemSpec ZipSpec Lit.
Open Scope Z_scope.

Definition xyz : Type := Z * Z * Z.
Record v4 := V4 { v_masks : Z * Z * Z * Z; v_space : Z; v_red : xyz; v_green : xyz; v_blue : xyz; v_gamma : xyz }.
Record header := Header { h_width : Z; h_height : Z; h_planes : Z; h_bpp : Z; h_compression : Z; h_image_size : Z; h_xdpi : Z; h_ydpi : Z; h_used : Z; h_important : Z; h_v4 : option v4 }.
Definition u32_ok (v : Z) : Prop := 0 <= v < 2 ^ 32.
Definition xyz_ok (x : xyz) : Prop := let '(a, b, c) := x in u32_ok a /\ u32_ok b /\ u32_ok c.
Definition v4_ok (v : v4) : Prop := let '(a, b, c, d) := v_masks v in u32_ok a /\ u32_ok b /\ u32_ok c /\ u32_ok d /\ u32_ok (v_space v) /\ xyz_ok (v_red v) /\ xyz_ok (v_green v) /\ xyz_ok (v_blue v) /\ xyz_ok (v_gamma v).
Definition header_ok (h : header) : Prop :=
  u32_ok (h_width h) /\ u32_ok (h_height h) /\ 0 <= h_planes h < 2 ^ 16 /\ 0 <= h_bpp h < 2 ^ 16 /\ u32_ok (h_compression h) /\ u32_ok (h_image_size h) /\ u32_ok (h_xdpi h) /\ u32_ok (h_ydpi h) /\ u32_ok (h_used h) /\ u32_ok (h_important h) /\
  match h_v4 h with Some v => v4_ok v | None => True end.
Definition xyz_item (name : string) (x : xyz) : item := let '(a, b, c) := x in ISet (lit name) [le 4 "x" a; le 4 "y" b; le 4 "z" c].
Definition v4_items (v : v4) : list item :=
  let '(a, b, c, d) := v_masks v in let '(r, g, bl) := v_gamma v in
  [le 4 "red_mask" a; le 4 "green_mask" b; le 4 "blue_mask" c; le 4 "alpha_mask" d; le 4 "color_space" (v_space v); xyz_item "red_primary" (v_red v); xyz_item "green_primary" (v_green v); xyz_item "blue_primary" (v_blue v);
   le 4 "gamma_red" r; le 4 "gamma_green" g; le 4 "gamma_blue" bl].
Definition header_items (h : header) : list item :=
  [le 4 "header_size" (match h_v4 h with Some _ => 108 | None => 40 end); le 4 "width" (h_width h); le 4 "height" (h_height h); le 2 "nb_plan" (h_planes h); le 2 "bpp" (h_bpp h);
   le 4 "compression" (h_compression h); le 4 "image_size" (h_image_size h); le 4 "horizontal_dpi" (h_xdpi h); le 4 "vertical_dpi" (h_ydpi h); le 4 "used_colors" (h_used h); le 4 "important_color" (h_important h)] ++
  match h_v4 h with Some v => v4_items v | None => [] end.
(** A color of the palette: its four bytes, as a number *)
Definition color_item (v : Z) : item := ISet (lit "color[]") [le 1 "red" (v mod 256); le 1 "green" (v / 256 mod 256); le 1 "blue" (v / 65536 mod 256); le 1 "alpha" (v / 16777216)].
(** A line: its pixels; the bytes after them, up to a multiple of four bytes; and the half of a byte before these when the pixels have four bits and their number is odd *)
Record line := Line { dots : list Z; half : Z; pad : list Z }.
Inductive image := Lines (l : list line) (tail : list Z) | Packed (x : list Z).
Definition odd_line (bpp : Z) (n : Z) : bool := (bpp =? 4) && Z.odd n.
Definition line_ok (bpp width : Z) (l : line) : Prop :=
  zlen (dots l) = width /\ Forall (fun v => 0 <= v < 2 ^ bpp) (dots l) /\ 0 <= half l < 16 /\
  let rest := (if odd_line bpp width then 4 else 0) + 8 * zlen (pad l) in rest < 32 /\ (bpp * width + rest) mod 32 = 0.
Definition dot_item (bpp v : Z) : item :=
  if bpp =? 32 then le 4 "pixel[]" v else if bpp =? 24 then ISet (lit "pixel[]") [le 1 "red" (v mod 256); le 1 "green" (v / 256 mod 256); le 1 "blue" (v / 65536)] else le 1 "pixel[]" v.
Definition nibbles (l : list Z) : list (str * list bool) := map (bits 4 "pixel[]") l.
Definition line_items (bpp : Z) (l : line) : list item :=
  if bpp =? 4 then
    if Z.odd (zlen (dots l)) then [IBits LITTLE_ENDIAN (Z.to_nat ((4 * zlen (dots l) + 4) / 8 + zlen (pad l))) (nibbles (dots l) ++ [(lit "padding[]", low 4 (half l) ++ bits_le (pad l))])]
    else IBits LITTLE_ENDIAN (Z.to_nat (4 * zlen (dots l) / 8)) (nibbles (dots l)) :: some_bytes_item "padding[]" (pad l)
  else map (dot_item bpp) (dots l) ++ some_bytes_item "padding[]" (pad l).
(** The lines are stored from the last one of the picture to the first *)
Fixpoint numbered (bpp : Z) (ls : list line) : list item :=
  match ls with [] => [] | l :: ls => ISet (lit "line[" ++ dec (zlen ls) ++ lit "]") (line_items bpp l) :: numbered bpp ls end.
Definition image_items (bpp : Z) (i : image) : list item :=
  match i with Lines ls tail => [ISet (lit "pixels") (numbered bpp ls ++ some_bytes_item "padding" tail)] | Packed x => [I (lit "pixels") (SBytes x)] end.
Record bmp := Bmp { b_reserved : list Z; b_header : header; b_palette : list Z; b_gap : list Z; b_image : image }.
Definition palette_items (l : list Z) : list item := match l with [] => [] | _ => [ISet (lit "palette") (map color_item l)] end.
Definition header_size (h : header) : Z := match h_v4 h with Some _ => 108 | None => 40 end.
Definition data_start (b : bmp) : Z := 14 + header_size (b_header b) + 4 * zlen (b_palette b) + zlen (b_gap b).
Definition file_size (b : bmp) : Z := data_start b + zlen (bytes_of_all (image_items (h_bpp (b_header b)) (b_image b))).
Definition bmp_items (b : bmp) : list item :=
  [I (lit "signature") (SText (lit "BM")); le 4 "file_size" (file_size b); I (lit "reserved") (SBytes (b_reserved b)); le 4 "data_start" (data_start b); ISet (lit "header") (header_items (b_header b))] ++
  palette_items (b_palette b) ++ some_bytes_item "padding[]" (b_gap b) ++ image_items (h_bpp (b_header b)) (b_image b).
Definition bmp_ok (b : bmp) : Prop :=
  let h := b_header b in
  zlen (b_reserved b) = 4 /\ header_ok h /\ file_size b < 2 ^ 32 /\
  Forall u32_ok (b_palette b) /\ zlen (b_palette b) = (if (1 <=? h_bpp h) && (h_bpp h <=? 8) then if h_used h =? 0 then 2 ^ h_bpp h else h_used h else 0) /\
  match b_image b with
  | Lines ls tail => In (h_compression h) [0; 3] /\ In (h_bpp h) [4; 8; 24; 32] /\ 1 <= h_width h /\ 1 <= h_height h /\ zlen ls = h_height h /\ Forall (line_ok (h_bpp h) (h_width h)) ls /\ is_bytes tail
  | Packed x => x <> [] /\ (In (h_compression h) [0; 3] -> ~ In (h_bpp h) [4; 8; 24; 32])
  end.

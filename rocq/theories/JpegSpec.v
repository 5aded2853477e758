(** JPEG pictures, for the claims about their parser (ITU-T T.81, JFIF 1.02). *)
From Coq Require Import String.
From Verif Require Import Base BitsModel BitsSpec NumSpec DictModel FieldModel GenModel GenSpec ItemSpec ZipSpec MidiSpec Lit.
Open Scope Z_scope.

Definition short (v : Z) : Prop := 0 <= v < 2 ^ 16.
Definition nibble (v : Z) : Prop := 0 <= v < 2 ^ 4.
Definition two4 (a b : string) (x y : Z) : item := IBits BIG_ENDIAN 1 [high 4 a x; high 4 b y].
(** Components of frames (id, sampling factors, quantization table) and of scans (id, Huffman tables) *)
Definition frame_component : Type := Z * Z * Z * Z.
Definition frame_component_ok (c : frame_component) : Prop := let '(id, h, v, q) := c in byte id /\ nibble h /\ nibble v /\ byte q.
Definition frame_component_item (c : frame_component) : item :=
  let '(id, h, v, q) := c in ISet (lit "component[]") [be 1 "component_id" id; two4 "horiz_sample" "vert_sample" h v; be 1 "quant_table" q].
Definition scan_component : Type := Z * Z * Z.
Definition scan_component_ok (n : Z) (c : scan_component) : Prop := let '(id, dc, ac) := c in 1 <= id <= n /\ nibble dc /\ nibble ac.
Definition scan_component_item (c : scan_component) : item := let '(id, dc, ac) := c in ISet (lit "component[]") [be 1 "component_id" id; two4 "dc_coding_table" "ac_coding_table" dc ac].
(** Names with indices *)
Definition nth_name (name : string) (i : Z) : str := lit name ++ lit "[" ++ dec i ++ lit "]".
(** The zigzag: the places (line, column) of the coefficients of a block, diagonal after diagonal, up the even ones and down the odd ones; 8 * line + column *)
Definition diagonal (s : nat) : list Z :=
  let down := flat_map (fun r => if (r <=? s)%nat && (s - r <? 8)%nat then [8 * Z.of_nat r + Z.of_nat (s - r)] else []) (seq 0 8) in if Nat.even s then rev down else down.
Definition zigzag : list Z := flat_map diagonal (seq 0 15).
(** Quantization tables: whether numbers have 16 bits, the destination, and the 64 coefficients in the order of the file *)
Record quant := Quant { q_wide : Z; q_index : Z; q_coeffs : list Z }.
Definition quant_ok (t : quant) : Prop :=
  nibble (q_wide t) /\ 0 <= q_index t < 4 /\ zlen (q_coeffs t) = 64 /\ Forall (fun v => 0 <= v < (if q_wide t =? 0 then 2 ^ 8 else 2 ^ 16)) (q_coeffs t).
Definition quant_item (t : quant) : item :=
  ISet (lit "qt[]") (two4 "is_16bit" "index" (q_wide t) (q_index t) ::
    map (fun iv => I (nth_name "coeff" (fst iv)) (SNum (if q_wide t =? 0 then 1 else 2) BIG_ENDIAN (snd iv))) (combine zigzag (q_coeffs t))).
(** Tables of Huffman codes: class, destination, and the symbols of the codes of 1 bit, 2 bits... 16 bits *)
Record codes := Codes { c_class : Z; c_index : Z; c_symbols : list (list Z) }.
Definition codes_ok (t : codes) : Prop :=
  nibble (c_class t) /\ nibble (c_index t) /\ zlen (c_symbols t) = 16 /\ Forall (fun r => zlen r < 2 ^ 8 /\ Forall byte r) (c_symbols t) /\ concat (c_symbols t) <> [].
Definition numbered {A} (from : Z) (l : list A) : list (Z * A) := combine (map (fun i => from + Z.of_nat i) (seq 0 (List.length l))) l.
Definition codes_item (t : codes) : item :=
  ISet (lit "huffman_table[]") (two4 "table_class" "index" (c_class t) (c_index t) ::
    map (fun ir => I (nth_name "count" (fst ir)) (SNum 1 BIG_ENDIAN (zlen (snd ir)))) (numbered 1 (c_symbols t)) ++
    flat_map (fun ir => map (fun jv => I (lit "value[" ++ dec (fst ir) ++ lit "][" ++ dec (fst jv) ++ lit "]") (SNum 1 BIG_ENDIAN (snd jv))) (numbered 0 (snd ir))) (numbered 1 (c_symbols t))).
(** Coded data: the byte 0xFF is always followed by 0 *)
Inductive coded : list Z -> Prop :=
| coded_nil : coded []
| coded_byte b x : b <> 0xff -> coded x -> coded (b :: x)
| coded_ff x : coded x -> coded (0xff :: 0 :: x).
(** The parts of a picture, between the marker of its start and the one of its end *)
Inductive part :=
| Jfif (major minor units x y thumb_w thumb_h : Z)
| Adobe (version blend reserved : Z) (flags : list Z) (transform : Z)
| Ducky (blocks : list (Z * list Z))
| Frame (tag precision height width : Z) (components : list frame_component)
| Tables (l : list quant)
| Huffman (l : list codes)
| Interval (n : Z)
| Comment (x : list Z)
| Exif (x : list Z)
| Photoshop (x : list Z)
| Segment (tag : Z) (x : list Z)
| Scan (components : list scan_component) (spectral_start spectral_end high_bit low_bit : Z) (x : list Z)
| Rst (n : Z) (x : list Z).
Definition frame_tags : list Z := [0xc0; 0xc1; 0xc2; 0xc3; 0xc5; 0xc6; 0xc7; 0xc9; 0xca; 0xcb; 0xcd; 0xce; 0xcf].
Definition part_tag (p : part) : Z :=
  match p with
  | Jfif _ _ _ _ _ _ _ => 0xe0 | Adobe _ _ _ _ _ => 0xee | Ducky _ => 0xec | Frame t _ _ _ _ => t | Tables _ => 0xdb | Huffman _ => 0xc4 | Interval _ => 0xdd | Comment _ => 0xfe
  | Exif _ => 0xe1 | Photoshop _ => 0xed | Segment t _ => t | Scan _ _ _ _ _ _ => 0xda | Rst n _ => 0xd0 + n
  end.
Definition part_name (p : part) : str :=
  match p with
  | Jfif _ _ _ _ _ _ _ => lit "app0" | Adobe _ _ _ _ _ => lit "adobe" | Ducky _ => lit "app12" | Frame _ _ _ _ _ => lit "start_frame" | Tables _ => lit "quantization[]" | Huffman _ => lit "huffman[]"
  | Interval _ => lit "restart_interval" | Comment _ => lit "comment[]" | Exif _ => lit "exif" | Photoshop _ => lit "photoshop"
  | Segment t _ => if t =? 0xe2 then lit "icc" else if t =? 0xdc then lit "nb_line" else lit "chunk[]"
  | Scan _ _ _ _ _ _ => lit "start_scan[]" | Rst n _ => lit "restart_marker_" ++ dec n ++ lit "[]"
  end.
Definition ducky_items (b : Z * list Z) : item := ISet (lit "item[]") ([be 2 "type" (fst b); be 2 "size" (zlen (snd b))] ++ match snd b with [] => [] | x => [I (lit "data") (SBytes x)] end).
(** The content of parts *)
Definition content_items (p : part) : list item :=
  match p with
  | Jfif a b u x y w h => [I (lit "jfif") (SText (lit "JFIF" ++ [0])); be 1 "ver_maj" a; be 1 "ver_min" b; be 1 "units" u] ++
      (if u =? 0 then [be 2 "aspect_x" x; be 2 "aspect_y" y] else [be 2 "x_density" x; be 2 "y_density" y]) ++ [be 1 "thumb_w" w; be 1 "thumb_h" h]
  | Adobe v b r f t => [I (lit "adobe") (SText (lit "Adobe")); be 2 "version" v; IBits BIG_ENDIAN 2 [high 1 "flag00" b; high 15 "flags0_reserved" r]; I (lit "flags1") (SBytes f); be 1 "color_transform" t]
  | Ducky l => I (lit "ducky") (SText (lit "Ducky")) :: map ducky_items l ++ [ISet (lit "item[]") [be 2 "type" 0]]
  | Frame _ p h w l => [be 1 "precision" p; be 2 "height" h; be 2 "width" w; be 1 "nr_components" (zlen l)] ++ map frame_component_item l
  | Tables l => map quant_item l
  | Huffman l => map codes_item l
  | Interval n => [be 2 "interval" n]
  | Comment x => match x with [] => [] | _ => [I (lit "comment") (SText x)] end
  | Exif x => [I (lit "content") (SBytes (lit "Exif" ++ [0; 0] ++ x))]
  | Photoshop x => match x with [] => [] | _ => [I (lit "content") (SBytes x)] end
  | Segment _ x => match x with [] => [] | _ => [I (lit "data") (SBytes x)] end
  | Scan l s e h lo _ => [be 1 "nr_components" (zlen l)] ++ map scan_component_item l ++ [be 1 "spectral_start" s; be 1 "spectral_end" e; two4 "bit_pos_high" "bit_pos_low" h lo]
  | Rst _ _ => []
  end.
Definition content_size (p : part) : Z := zlen (bytes_of_all (content_items p)).
Definition part_ok (p : part) : Prop :=
  content_size p + 2 < 2 ^ 16 /\
  match p with
  | Jfif a b u x y w h => byte a /\ byte b /\ byte u /\ short x /\ short y /\ byte w /\ byte h /\ w * h = 0
  | Adobe v b r f t => short v /\ 0 <= b < 2 /\ 0 <= r < 2 ^ 15 /\ zlen f = 2 /\ byte t
  | Ducky l => Forall (fun b => short (fst b) /\ fst b <> 0 /\ zlen (snd b) < 2 ^ 16) l
  | Frame t p h w l => In t frame_tags /\ byte p /\ short h /\ short w /\ zlen l < 2 ^ 8 /\ Forall frame_component_ok l
  | Tables l => Forall quant_ok l
  | Huffman l => Forall codes_ok l
  | Interval n => short n
  | Comment _ | Exif _ | Photoshop _ => True
  | Segment t x => In t [0xc8; 0xcc; 0xdc; 0xde; 0xdf; 0xe2; 0xef] \/ 0xe3 <= t <= 0xeb \/ 0xf0 <= t <= 0xfd \/ (t = 0xe1 /\ 6 <= zlen x /\ firstn 6 x <> lit "Exif" ++ [0; 0])
  | Scan l s e h lo x => Forall (scan_component_ok (zlen l)) l /\ zlen l < 2 ^ 8 /\ byte s /\ byte e /\ nibble h /\ nibble lo /\ coded x /\ x <> []
  | Rst n x => 0 <= n < 8 /\ coded x /\ x <> []
  end.
Definition in_set (p : part) : bool := match p with Segment _ _ => false | _ => true end.
Definition marker (tag : Z) : list item := [be 1 "header" 0xff; be 1 "type" tag].
Definition part_item (p : part) : item :=
  ISet (part_name p) (marker (part_tag p) ++
    match p with
    | Rst _ _ => []
    | _ => be 2 "size" (content_size p + 2) :: match content_items p with [] => [] | l => if in_set p then [ISet (lit "content") l] else l end
    end).
Definition image (x : list Z) : item := ISet (lit "image_data[]") [I (lit "content") (SBytes x)].
Definition part_items (p : part) : list item := part_item p :: match p with Scan _ _ _ _ _ x | Rst _ x => [image x] | _ => [] end.
Definition jpeg_items (l : list part) : list item := ISet (lit "start_image") (marker 0xd8) :: flat_map part_items l ++ [ISet (lit "end_image") (marker 0xd9)].
(** The scans come after a frame *)
Definition is_frame (p : part) : bool := match p with Frame _ _ _ _ _ => true | _ => false end.
Definition needs_frame (p : part) : bool := match p with Scan _ _ _ _ _ _ | Rst _ _ => true | _ => false end.
Fixpoint framed (seen : bool) (l : list part) : Prop := match l with [] => True | p :: l => (needs_frame p = true -> seen = true) /\ framed (seen || is_frame p) l end.
Definition jpeg_ok (l : list part) : Prop := Forall part_ok l /\ framed false l /\ zlen (bytes_of_all (jpeg_items l)) <= 100 * 1024 * 1024.
(** The parts the parser has a name for *)
Definition named_part (p : part) : bool := match p with Segment t _ => (t =? 0xdc) || (t =? 0xe1) || (t =? 0xe2) | _ => true end.
(** The tables of ITU-T T.81, annex K, line after line, as they are in the files of libjpeg for a quality from 1 to 100 *)
Definition luminance : list Z :=
  [16; 11; 10; 16; 24; 40; 51; 61; 12; 12; 14; 19; 26; 58; 60; 55; 14; 13; 16; 24; 40; 57; 69; 56; 14; 17; 22; 29; 51; 87; 80; 62;
   18; 22; 37; 56; 68; 109; 103; 77; 24; 35; 55; 64; 81; 104; 113; 92; 49; 64; 78; 87; 103; 121; 120; 101; 72; 92; 95; 98; 112; 100; 103; 99].
Definition chrominance : list Z := [17; 18; 24; 47; 99; 99; 99; 99; 18; 21; 26; 66; 99; 99; 99; 99; 24; 26; 56; 99; 99; 99; 99; 99; 47; 66] ++ List.repeat 99 38.
Definition scaled (q : Z) (base : list Z) : list Z := let s := if q <? 50 then 5000 / q else 200 - 2 * q in map (fun v => Z.min 255 (Z.max 1 ((v * s + 50) / 100))) base.
Definition in_file_order (t : list Z) : list Z := map (fun i => nth (Z.to_nat i) t 0) zigzag.
Definition quants (l : list part) : list quant := flat_map (fun p => match p with Tables t => t | _ => [] end) l.
(** The kinds of frames (T.81, table B.1): the two low bits of the marker are the process, then a bit for differential frames, then one for arithmetic coding *)
Definition frame_kind (t : Z) : str :=
  let differential := Z.testbit t 2 in
  (if differential then lit "Differential " else []) ++
  match t mod 4 with
  | 0 => lit "Baseline"
  | 1 => if differential then lit "sequential" else lit "Extended sequential"
  | 2 => if differential then lit "progressive" else lit "Progressive"
  | _ => if differential then lit "lossless" else lit "Lossless"
  end ++ (if Z.testbit t 3 then lit ", arithmetic coding" else []).

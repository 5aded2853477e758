(** PNG files, for the claims about their parser (RFC 2083). *)
From Coq Require Import String.
From Verif Require Import Base BitsModel BitsSpec NumSpec DictModel GenModel GenSpec ItemSpec Lit.
Open Scope Z_scope.

Definition byte (name : string) (v : Z) : item := I (lit name) (SNum 1 BIG_ENDIAN v).
Definition word (name : string) (v : Z) : item := I (lit name) (SNum 2 BIG_ENDIAN v).
Definition long (name : string) (v : Z) : item := I (lit name) (SNum 4 BIG_ENDIAN v).
(** What a chunk can hold *)
Inductive content :=
| Header (width height depth : Z) (alpha color palette : bool) (compression filter interlace : Z)
| Palette (l : list (Z * Z * Z))
| Gamma (g : Z)
| Text (keyword text : list Z)
| Time (year month day hour minute second : Z)
| Physical (x y unit : Z)
| Transparency (l : list Z)
| Background (red green blue : Z)
| Data (x : list Z)
| Other (tag x : list Z).
(** Its contents with their checksum *)
Definition chunk : Type := content * Z.
Definition tag_of (c : content) : list Z :=
  match c with
  | Header _ _ _ _ _ _ _ _ _ => lit "IHDR" | Palette _ => lit "PLTE" | Gamma _ => lit "gAMA" | Text _ _ => lit "tEXt" | Time _ _ _ _ _ _ => lit "tIME"
  | Physical _ _ _ => lit "pHYs" | Transparency _ => lit "tRNS" | Background _ _ _ => lit "bKGD" | Data _ => lit "IDAT" | Other tag _ => tag
  end.
Definition name_of (c : content) : list Z :=
  match c with
  | Header _ _ _ _ _ _ _ _ _ => lit "header" | Palette _ => lit "palette" | Gamma _ => lit "gamma" | Text _ _ => lit "text[]" | Time _ _ _ _ _ _ => lit "time"
  | Physical _ _ _ => lit "physical" | Transparency _ => lit "transparency" | Background _ _ _ => lit "background" | Data _ => lit "data[]"
  | Other tag _ => if str_eqb tag (lit "iTXt") then lit "utf8_text[]" else if str_eqb tag (lit "zTXt") then lit "comp_text[]" else if str_eqb tag (lit "IEND") then lit "end" else lit "chunk[]"
  end.
Definition typed : list (list Z) := map lit ["IHDR"; "PLTE"; "gAMA"; "tEXt"; "tIME"; "pHYs"; "tRNS"; "bKGD"; "IDAT"]%string.
Definition non_empty {A B} (l : list A) (f : list A -> B) : list B := match l with [] => [] | _ => [f l] end.
Definition body_of (c : content) : list item :=
  match c with
  | Header w h d a c p m f i =>
      [long "width" w; long "height" h; byte "bit_depth" d;
       IBits BIG_ENDIAN 1 [(lit "reserved", [false; false; false; false; false]); (lit "has_alpha", [a]); (lit "color", [c]); (lit "has_palette", [p])];
       byte "compression" m; byte "filter" f; byte "interlace" i]
  | Palette l => map (fun c => let '(r, g, b) := c in ISet (lit "color[]") [byte "red" r; byte "green" g; byte "blue" b]) l
  | Gamma g => [long "gamma" g]
  | Text k t => I (lit "keyword") (SLine 0 k) :: non_empty t (fun t => I (lit "text") (SText t))
  | Time y mo d h mi s => [word "year" y; byte "month" mo; byte "day" d; byte "hour" h; byte "minute" mi; byte "second" s]
  | Physical x y u => [long "pixel_per_unit_x" x; long "pixel_per_unit_y" y; byte "unit" u]
  | Transparency l => map (byte "alpha_value[]") l
  | Background r g b => [word "red" r; word "green" g; word "blue" b]
  | Data x => non_empty x (fun x => ISet (lit "compressed_data") [I (lit "rawdata") (SBytes x)])
  | Other _ x => non_empty x (fun x => I (lit "content") (SBytes x))
  end.
Definition chunk_item (c : chunk) : item :=
  ISet (name_of (fst c)) ([long "size" (zlen (bytes_of_all (body_of (fst c)))); I (lit "tag") (SText (tag_of (fst c)))] ++ body_of (fst c) ++ [long "crc32" (snd c)]).
Definition png (cs : list chunk) : list item := I (lit "id") (SBytes [0x89; 0x50; 0x4E; 0x47; 0x0D; 0x0A; 0x1A; 0x0A]) :: map chunk_item cs.
(** The values of the parts fit; a chunk is at most 64 MB, a text 65535 bytes. *)
Definition u8 (v : Z) : Prop := 0 <= v < 2 ^ 8.
Definition u16 (v : Z) : Prop := 0 <= v < 2 ^ 16.
Definition u32 (v : Z) : Prop := 0 <= v < 2 ^ 32.
Definition content_ok (c : content) : Prop :=
  zlen (bytes_of_all (body_of c)) + 12 <= 64 * 1024 * 1024 /\
  match c with
  | Header w h d a c p m f i => u32 w /\ u32 h /\ u8 d /\ u8 m /\ u8 f /\ u8 i
  | Palette l => Forall (fun c => let '(r, g, b) := c in u8 r /\ u8 g /\ u8 b) l
  | Gamma g => u32 g
  | Text k t => ~ In 0 k /\ zlen t <= 0xffff
  | Time y mo d h mi s => u16 y /\ u8 mo /\ u8 d /\ u8 h /\ u8 mi /\ u8 s
  | Physical x y u => u32 x /\ u32 y /\ u8 u
  | Transparency l => Forall u8 l
  | Background r g b => u16 r /\ u16 g /\ u16 b
  | Data x => True
  | Other tag x => zlen tag = 4 /\ ~ In tag typed
  end.
Definition chunk_ok (c : chunk) : Prop := content_ok (fst c) /\ u32 (snd c).
(** When the first chunk of image data is empty, all are. *)
Definition is_data (c : chunk) : bool := match fst c with Data _ => true | _ => false end.
Definition no_hole (cs : list chunk) : Prop := match filter is_data cs with (Data [], _) :: l => Forall (fun c => fst c = Data []) l | _ => True end.

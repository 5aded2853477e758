(** Sounds of the Audio Interchange File Format, for the claims about their parser. *)
From Coq Require Import String.
From Verif Require Import Base BitsModel BitsSpec NumSpec DictModel FieldModel GenModel GenSpec ItemSpec Lit.
From Verif Require Id3Spec.
Open Scope Z_scope.

Definition be (n : nat) (name : string) (v : Z) : item := I (lit name) (SNum n BE v).
Definition fits_in (n : nat) (v : Z) : Prop := 0 <= v < 2 ^ (8 * Z.of_nat n).
(** A number of samples per second, in 80 bits: the sign, the exponent, the bit before the point, the bits after it *)
Record rate := Rate { r_sign : bool; r_exp : list bool; r_one : bool; r_frac : list bool }.
Definition rate_ok (r : rate) : Prop := zlen (r_exp r) = 15 /\ zlen (r_frac r) = 63.
Definition rate_items (r : rate) : list item := [IBits BE 10 [(lit "negative", [r_sign r]); (lit "exponent", r_exp r); (lit "one", [r_one r]); (lit "mantissa", r_frac r)]].
(** Chunks: the description of the sound, with the four letters of its compression and the name of it in files AIFC; comments with their dates; the name
    and the author; the version; the sound, after its offset and the size of its blocks; an ID3 tag (C84); others *)
Inductive chunk :=
| Common (channels samples bits : Z) (r : rate) (codec : option (list Z * list Z))
| Comments (l : list (Z * list Z))
| Text (author : bool) (x : list Z)
| Version (t : Z)
| Sound (offset block : Z) (x : list Z)
| Tag (t : Id3Spec.tag2)
| Other (tag x : list Z).
Definition known : list str := [lit "COMM"; lit "COMT"; lit "NAME"; lit "AUTH"; lit "FVER"; lit "SSND"; lit "ID3 "].
Definition tag_of (c : chunk) : str :=
  match c with Common _ _ _ _ _ => lit "COMM" | Comments _ => lit "COMT" | Text a _ => if a then lit "AUTH" else lit "NAME" | Version _ => lit "FVER" | Sound _ _ _ => lit "SSND" | Tag _ => lit "ID3 " | Other tag _ => tag end.
Definition name_of (c : chunk) : str :=
  match c with Common _ _ _ _ _ => lit "common" | Comments _ => lit "comment" | Text a _ => if a then lit "author" else lit "name" | Version _ => lit "version" | Sound _ _ _ => lit "sound" | Tag _ => lit "id3" | Other _ _ => lit "chunk[]" end.
(** The bytes of the contents.  A comment has a date, the number of its marker (none: 0), the length of its text, and its text. *)
Definition comment_items (c : Z * list Z) : list item := [ISet (lit "comment[]") [be 4 "timestamp" (fst c); I (lit "text") (SPascal 4 false (snd c))]].
Definition common_items (channels samples bits : Z) (r : rate) : list item := [be 2 "nb_channel" channels; be 4 "nb_sample" samples; be 2 "sample_size" bits; ISet (lit "sample_rate") (rate_items r)].
Definition content (c : chunk) : list Z :=
  match c with
  | Common channels samples bits r codec => bytes_of_all (common_items channels samples bits r) ++ match codec with Some (c, name) => c ++ name | None => [] end
  | Comments l => uint BE 2 (zlen l) ++ flat_map (fun c => uint BE 4 (fst c) ++ uint BE 2 0 ++ uint BE 2 (zlen (snd c)) ++ snd c) l
  | Text _ x | Other _ x => x
  | Version t => uint BE 4 t
  | Sound offset block x => uint BE 4 offset ++ uint BE 4 block ++ x
  | Tag t => bytes_of_all (Id3Spec.tag2_items t)
  end.
(** One byte follows contents of an odd size. *)
Definition pad (c : chunk) : list Z := if zlen (content c) mod 2 =? 0 then [] else [0].
Definition chunk_bytes (c : chunk) : list Z := tag_of c ++ uint BE 4 (zlen (content c)) ++ content c ++ pad c.
Definition chunk_ok (c : chunk) : Prop :=
  zlen (content c) < 2 ^ 32 - 1 /\
  match c with
  | Common channels samples bits r codec => fits_in 2 channels /\ fits_in 4 samples /\ fits_in 2 bits /\ rate_ok r /\ match codec with Some (c, name) => zlen c = 4 /\ zlen name mod 2 = 0 | None => True end
  | Comments l => zlen l < 2 ^ 16 /\ Forall (fun c => fits_in 4 (fst c) /\ zlen (snd c) < 2 ^ 16 /\ zlen (snd c) mod 2 = 0) l
  | Text _ x => zlen x <= 65535
  | Version t => fits_in 4 t
  | Sound offset block x => fits_in 4 offset /\ fits_in 4 block
  | Tag t => Id3Spec.tag2_ok t
  | Other tag x => zlen tag = 4 /\ ~ In tag known
  end.
(** What must be shown of the contents *)
Definition some_text (x : list Z) : list item := match x with [] => [] | x => [I (lit "text") (SText x)] end.
Definition some_data (x : list Z) : list item := match x with [] => [] | x => [I (lit "data") (SBytes x)] end.
Definition content_items (c : chunk) : list item :=
  match c with
  | Common channels samples bits r codec => common_items channels samples bits r ++ match codec with Some (c, _) => [I (lit "codec") (SText c)] | None => [] end
  | Comments l => be 2 "nb_comment" (zlen l) :: flat_map comment_items l
  | Text _ x => some_text x ++ match pad c with [] => [] | p => [I (lit "padding") (SBytes p)] end
  | Version t => [be 4 "timestamp" t]
  | Sound offset block x => [be 4 "offset" offset; be 4 "block_size" block] ++ some_data (x ++ pad c)
  | Tag t => ISet (lit "id3v2") (Id3Spec.tag2_items t) :: match pad c with [] => [] | p => [I (lit "padding") (SBytes p)] end
  | Other _ x => some_data x
  end.
Definition chunk_items (c : chunk) : list item := [I (lit "type") (SText (tag_of c)); be 4 "size" (zlen (content c))] ++ content_items c.
(** The fields of the description end with an error when it has no compression, and those of a sound of odd size: a field is expected after the end. *)
Definition chunk_error (c : chunk) : option exn :=
  match c with
  | Common _ _ _ _ None => Some StopIteration
  | Sound _ _ _ => match pad c with [] => None | _ => Some StopIteration end
  | _ => None
  end.
Fixpoint show_chunks (l : list chunk) (p : Z) : list fld :=
  match l with
  | [] => []
  | c :: l => G (name_of c) (8 * p) (8 * zlen (chunk_bytes c)) (shows (chunk_items c) p) (chunk_error c) :: show_chunks l (p + zlen (chunk_bytes c))
  end.
(** A file AIFF or AIFC.  Its size is told without the first eight bytes. *)
Definition form (compressed : bool) : str := if compressed then lit "AIFC" else lit "AIFF".
Definition chunks_bytes (l : list chunk) : list Z := flat_map chunk_bytes l.
Definition head_items (compressed : bool) (l : list chunk) : list item := [I (lit "signature") (SText (lit "FORM")); be 4 "filesize" (4 + zlen (chunks_bytes l)); I (lit "type") (SText (form compressed))].
Definition aiff (compressed : bool) (l : list chunk) : list Z := bytes_of_all (head_items compressed l) ++ chunks_bytes l.
(** The compressions of AIFC files, and their names *)
Definition compressions : list (str * str) :=
  [(lit "ACE2", lit "ACE 2-to-1"); (lit "ACE8", lit "ACE 8-to-3"); (lit "MAC3", lit "MAC 3-to-1"); (lit "MAC6", lit "MAC 6-to-1"); (lit "NONE", lit "None"); (lit "sowt", lit "Little-endian, no compression")].

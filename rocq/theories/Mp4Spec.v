(** Atoms of MP4 files, for the claims about their parser. *)
From Coq Require Import String.
From Verif Require Import Base BitsModel BitsSpec NumSpec TlvModel TlvSpec Mp4Model Lit.
Open Scope Z_scope.

(** The header of an atom with a content of [n] bytes, with a size of 32 bits or, [wide], of 64; the tag uuid is followed by a tag of 16 bytes. *)
Definition user_bytes (user : option (list Z)) : list Z := match user with Some u => u | None => [] end.
Definition header (wide : bool) (tag : str) (user : option (list Z)) (n : Z) : list Z :=
  let n := zlen (user_bytes user) + n in
  (if wide then uint BIG_ENDIAN 4 1 ++ tag ++ uint BIG_ENDIAN 8 (16 + n) else uint BIG_ENDIAN 4 (8 + n) ++ tag) ++ user_bytes user.
Definition tag_ok (tag : str) (user : option (list Z)) : Prop :=
  zlen tag = 4 /\ match user with Some u => tag = lit "uuid" /\ zlen u = 16 | None => tag <> lit "uuid" end.
Definition size_ok (wide : bool) (user : option (list Z)) (n : Z) : Prop :=
  if wide then 16 + zlen (user_bytes user) + n < 2 ^ 64 else 8 + zlen (user_bytes user) + n < 2 ^ 32.
(** What an atom holds: [None]: bytes without meaning *)
Definition holds (tag : str) (user : option (list Z)) : option (str * kind) := match user with Some _ => None | None => tag_kind tag end.
(** What is shown of an atom with [n] bytes of content after a header of [h] bytes *)
Definition shown (tag : str) (user : option (list Z)) (h n : Z) : atom :=
  Atom (Some tag) user (if n =? 0 then None else Some (match holds tag user with Some (name, _) => name | None => lit "data" end, 8 * h)).
(** Is the content of this atom read as atoms? *)
Definition nests (c : place) (tag : str) (user : option (list Z)) : bool :=
  match holds tag user with Some (_, KList) => true | Some (_, KMeta) => match c with Plain => true | _ => false end | _ => false end.
(** An atom without atoms in it *)
Inductive leaf : place -> atom -> list Z -> Prop :=
| lf_intro c wide tag user x : tag_ok tag user -> size_ok wide user (zlen x) -> (nests c tag user = false \/ x = []) ->
    leaf c (shown tag user (zlen (header wide tag user (zlen x))) (zlen x)) (header wide tag user (zlen x) ++ x).
(** An atom with atoms in it: a list, or metadata, which may start with its version and flags, zero, before the first atom *)
Definition below (c : place) (name : str) : place :=
  if str_eqb name (lit "tags") then BelowTags else match c with Plain => Plain | _ => BelowTags end.
Inductive nest : place -> atom -> place -> list Z -> list Z -> list Z -> Prop :=
| n_list c wide tag name x : tag_ok tag None -> size_ok wide None (zlen x) -> x <> [] -> holds tag None = Some (name, KList) ->
    nest c (shown tag None (zlen (header wide tag None (zlen x))) (zlen x)) (below c name) (header wide tag None (zlen x)) x []
| n_meta wide tag name v y : let x := uint BIG_ENDIAN 4 v ++ y in tag_ok tag None -> size_ok wide None (zlen x) -> 0 < v < 2 ^ 32 -> holds tag None = Some (name, KMeta) ->
    nest Plain (shown tag None (zlen (header wide tag None (zlen x))) (zlen x)) MetaTags (header wide tag None (zlen x)) x []
| n_meta_full wide tag name x : let n := 4 + zlen x in tag_ok tag None -> size_ok wide None n -> holds tag None = Some (name, KMeta) ->
    nest Plain (shown tag None (zlen (header wide tag None n)) n) MetaTags (header wide tag None n ++ [0; 0; 0; 0]) x [].
Definition any_last (_ : place) (_ : list Z) : Prop := True.
Definition atoms := encs leaf nest any_last.
Definition atoms_at := laids leaf nest any_last.
Definition atom_at := laid leaf nest any_last.
(** The last atom of a file may have no size: 0. *)
Definition open_header (tag : str) (user : option (list Z)) : list Z := uint BIG_ENDIAN 4 0 ++ tag ++ user_bytes user.

(** Boxes that hold boxes only, and tables whose rows have so many numbers of so many bits (ISO/IEC 14496-12) *)
Definition iso_containers : list str := map lit ["moov"; "trak"; "edts"; "mdia"; "minf"; "dinf"; "stbl"; "udta"; "moof"; "traf"; "mfra"; "tref"]%string.
Definition iso_tables : list (str * (Z * Z)) := [(lit "stts", (2, 32)); (lit "ctts", (2, 32)); (lit "stsc", (3, 32)); (lit "stco", (1, 32)); (lit "co64", (1, 64)); (lit "stss", (1, 32))].
(** The brands that make a file video/mp4 *)
Definition mp4_brands : list str := map lit ["mp41"; "mp42"; "avc1"; "isom"; "iso2"]%string.

(** ** Tables of samples *)
(** Numbers of [bits] bits, one after the other; other bits up to the end of a byte *)
Definition packed (bits : Z) (l : list Z) (b : list Z) : Prop :=
  exists ds pad, bits_be b = List.concat ds ++ pad /\ Forall2 (fun d v => zlen d = bits /\ val_be d = v) ds l.
(** The content of the tables *)
Inductive table : kind -> list Z -> list Z -> Prop :=
| t_table per bits version n l b : zlen version = 4 -> 0 <= n < 2 ^ 32 -> zlen l = n * per -> packed bits l b ->
    table (KTable per bits) l (version ++ uint BIG_ENDIAN 4 n ++ b)
| t_sizes version l b : zlen version = 4 -> zlen l < 2 ^ 32 -> packed 32 l b ->
    table KSizes l (version ++ uint BIG_ENDIAN 4 0 ++ uint BIG_ENDIAN 4 (zlen l) ++ b)
| t_same version u n b : zlen version = 4 -> 0 < u < 2 ^ 32 -> 0 <= n < 2 ^ 32 ->
    table KSizes [] (version ++ uint BIG_ENDIAN 4 u ++ uint BIG_ENDIAN 4 n ++ b)
| t_compact version bits l b : zlen version = 7 -> 1 <= bits < 256 -> zlen l < 2 ^ 32 -> packed bits l b ->
    table KCompact l (version ++ uint BIG_ENDIAN 1 bits ++ uint BIG_ENDIAN 4 (zlen l) ++ b).

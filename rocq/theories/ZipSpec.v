(** ZIP archives, for the claims about their parser (PKWARE's APPNOTE.TXT). *)
From Coq Require Import String.
From Verif Require Import Base BitsModel BitsSpec StreamModel StreamSpec NumSpec DictModel GenModel GenSpec ItemSpec Lit.
Open Scope Z_scope.

Definition le (n : nat) (name : string) (v : Z) : item := I (lit name) (SNum n LITTLE_ENDIAN v).
(** The [n] low bits of a number, lowest first *)
Definition low (n : nat) (v : Z) : list bool := map (fun i => Z.testbit v (Z.of_nat i)) (seq 0 n).
Definition bits (n : nat) (name : string) (v : Z) : str * list bool := (lit name, low n v).
Definition version_item (name : string) (v : Z * Z) : item := ISet (lit name) [le 1 "zip_version" (fst v); le 1 "host_os" (snd v)].
(** The general purpose flags; [info]: bits 1 and 2, whose meaning depends on the method *)
Record flags := Flags { encrypted : Z; info : Z * Z; descriptor : Z; enhanced : Z; patched : Z; strong : Z; unused4 : Z; unicode : Z; incomplete : Z; masked : Z; unused2 : Z }.
Definition flags_item (method : Z) (f : flags) : item :=
  ISet (lit "flags") [IBits LITTLE_ENDIAN 2
    (bits 1 "is_encrypted" (encrypted f) ::
     (if method =? 6 then [bits 1 "use_8k_sliding" (fst (info f)); bits 1 "use_3shannon" (snd (info f))]
      else if (method =? 8) || (method =? 9) then [(lit "method", low 1 (fst (info f)) ++ low 1 (snd (info f)))]
      else if method =? 14 then [bits 1 "lzma_eos" (fst (info f)); bits 1 "unused[]" (snd (info f))]
      else [(lit "compression_info", low 1 (fst (info f)) ++ low 1 (snd (info f)))]) ++
     [bits 1 "has_descriptor" (descriptor f); bits 1 "enhanced_deflate" (enhanced f); bits 1 "is_patched" (patched f); bits 1 "strong_encrypt" (strong f); bits 4 "unused[]" (unused4 f);
      bits 1 "uses_unicode" (unicode f); bits 1 "incomplete" (incomplete f); bits 1 "encrypted_central_dir" (masked f); bits 2 "unused[]" (unused2 f)])].
Record date := Date { second : Z; minute : Z; hour : Z; day : Z; month : Z; year : Z }.
Definition date_item (d : date) : item :=
  ISet (lit "last_mod") [IBits LITTLE_ENDIAN 4 [bits 5 "second" (second d); bits 6 "minute" (minute d); bits 5 "hour" (hour d); bits 5 "day" (day d); bits 4 "month" (month d); bits 7 "year" (year d)]].
(** An extra field: its number and its bytes *)
Definition extra : Type := Z * list Z.
Definition some_bytes_item (name : string) (x : list Z) : list item := match x with [] => [] | _ => [I (lit name) (SBytes x)] end.
Definition some_text_item (name : string) (x : list Z) : list item := match x with [] => [] | _ => [I (lit name) (SText x)] end.
Definition extra_item (x : extra) : item := ISet (lit "extra[]") ([le 2 "field_id" (fst x); le 2 "field_data_size" (zlen (snd x))] ++ some_bytes_item "field_data" (snd x)).
Definition extras_items (l : list extra) : list item := match l with [] => [] | _ => [ISet (lit "extra") (map extra_item l)] end.
(** What local headers and central directories share *)
Record entry := Entry { version : Z * Z; flag_bits : flags; method : Z; modified : date; crc : Z; csize : Z; usize : Z; name : list Z; extras : list extra }.
Definition entry_items (e : entry) : list item :=
  [version_item "version_needed" (version e); flags_item (method e) (flag_bits e); le 2 "compression" (method e); date_item (modified e); le 4 "crc32" (crc e); le 4 "compressed_size" (csize e); le 4 "uncompressed_size" (usize e);
   le 2 "filename_length" (zlen (name e)); le 2 "extra_length" (zlen (bytes_of_all (map extra_item (extras e))))].
Definition descriptor_items (d : Z * Z * Z) : list item := let '(c, s, u) := d in [le 4 "file_crc32" c; le 4 "file_compressed_size" s; le 4 "file_uncompressed_size" u].
(** The records of an archive *)
Inductive record :=
| Local (e : entry) (data : list Z) (d : option (Z * Z * Z))
| Central (made_by : Z * Z) (e : entry) (disk internal external offset : Z) (comment : list Z)
| End (disk disk2 total total2 size offset : Z) (comment : list Z)
| Locator (disk offset total : Z)
| Signature (s : list Z)
| Spanning (d : Z * Z * Z)
| Temporary (d : Z * Z * Z).
Definition record_header (r : record) : Z :=
  match r with Local _ _ _ => 0x04034B50 | Central _ _ _ _ _ _ _ => 0x02014B50 | End _ _ _ _ _ _ _ => 0x06054B50 | Locator _ _ _ => 0x07064B50 | Signature _ => 0x05054B50 | Spanning _ => 0x08074B50 | Temporary _ => 0x30304B50 end.
Definition record_name (r : record) : string :=
  match r with Local _ _ _ => "file[]" | Central _ _ _ _ _ _ _ => "central_directory[]" | End _ _ _ _ _ _ _ => "end_central_directory" | Locator _ _ _ => "end_locator" | Signature _ => "signature" | Spanning _ => "spanning[]" | Temporary _ => "temporary_spanning[]" end.
Definition record_fields (r : record) : list item :=
  match r with
  | Local e data d =>
      entry_items e ++ some_text_item "filename" (name e) ++ extras_items (extras e) ++
      some_bytes_item (if method e =? 0 then "data" else "compressed_data") data ++ match d with Some d => [ISet (lit "data_desc") (descriptor_items d)] | None => [] end
  | Central m e disk internal external offset comment =>
      [version_item "version_made_by" m] ++ entry_items e ++
      [le 2 "comment_length" (zlen comment); le 2 "disk_number_start" disk; le 2 "internal_attr" internal; le 4 "external_attr" external; le 4 "offset_header" offset; I (lit "filename") (SText (name e))] ++
      extras_items (extras e) ++ some_text_item "comment" comment
  | End disk disk2 total total2 size offset comment =>
      [le 2 "number_disk" disk; le 2 "number_disk2" disk2; le 2 "total_number_disk" total; le 2 "total_number_disk2" total2; le 4 "size" size; le 4 "offset" offset; I (lit "comment") (SPascal 2 true comment)]
  | Locator disk offset total => [le 4 "disk_number" disk; le 8 "relative_offset" offset; le 4 "disk_total_number" total]
  | Signature s => [I (lit "signature") (SPascal 2 true s)]
  | Spanning d | Temporary d => descriptor_items d
  end.
Definition record_items (r : record) : list item := [le 4 "header[]" (record_header r); ISet (lit (record_name r)) (record_fields r)].
(** An archive: records, each after bytes that are not part of the archive, usually none (a program that extracts the archive, padding) *)
Definition piece : Type := list Z * record.
Definition piece_items (x : piece) : list item := some_bytes_item "unparsed[]" (fst x) ++ record_items (snd x).
Definition zip (rs : list piece) : list item := flat_map piece_items rs.

Definition u (n : Z) (v : Z) : Prop := 0 <= v < 2 ^ n.
Definition version_ok (v : Z * Z) : Prop := u 8 (fst v) /\ u 8 (snd v).
Definition flags_ok (f : flags) : Prop :=
  u 1 (encrypted f) /\ u 1 (fst (info f)) /\ u 1 (snd (info f)) /\ u 1 (descriptor f) /\ u 1 (enhanced f) /\ u 1 (patched f) /\ u 1 (strong f) /\ u 4 (unused4 f) /\ u 1 (unicode f) /\ u 1 (incomplete f) /\ u 1 (masked f) /\ u 2 (unused2 f).
Definition date_ok (d : date) : Prop := u 5 (second d) /\ u 6 (minute d) /\ u 5 (hour d) /\ u 5 (day d) /\ u 4 (month d) /\ u 7 (year d).
Definition extra_ok (x : extra) : Prop := u 16 (fst x) /\ zlen (snd x) < 2 ^ 16.
Definition entry_ok (e : entry) : Prop :=
  version_ok (version e) /\ flags_ok (flag_bits e) /\ u 16 (method e) /\ date_ok (modified e) /\ u 32 (crc e) /\ u 32 (csize e) /\ u 32 (usize e) /\ zlen (name e) < 2 ^ 16 /\ Forall extra_ok (extras e) /\ zlen (bytes_of_all (map extra_item (extras e))) < 2 ^ 16.
Definition desc_ok (d : Z * Z * Z) : Prop := let '(c, s, u') := d in u 32 c /\ u 32 s /\ u 32 u'.
(** The length of the data of an entry is in its header; a descriptor without header follows the data when the flags say so and the checksum of the header is zero; an entry without data is
    not said to be incomplete. *)
Definition record_ok (r : record) : Prop :=
  match r with
  | Local e data d =>
      entry_ok e /\ csize e = zlen data /\ (data = [] -> incomplete (flag_bits e) = 0) /\
      (if (descriptor (flag_bits e) =? 1) && (crc e =? 0) then match d with Some d => desc_ok d | None => False end else d = None)
  | Central m e disk internal external offset comment => version_ok m /\ entry_ok e /\ name e <> [] /\ u 16 disk /\ u 16 internal /\ u 32 external /\ u 32 offset /\ zlen comment < 2 ^ 16
  | End disk disk2 total total2 size offset comment => u 16 disk /\ u 16 disk2 /\ u 16 total /\ u 16 total2 /\ u 32 size /\ u 32 offset /\ zlen comment < 2 ^ 16
  | Locator disk offset total => u 32 disk /\ u 64 offset /\ u 32 total
  | Signature s => zlen s < 2 ^ 16
  | Spanning d | Temporary d => desc_ok d
  end.
(** No "PK" in the bytes before a record *)
Definition piece_ok (x : piece) : Prop := zlen (fst x) <= 2 ^ 64 /\ (forall i, ~ occurs_at [0x50; 0x4B] (fst x) i) /\ record_ok (snd x).
(** The compression methods (APPNOTE.TXT, 4.4.5) that were there before 2012, and those since: Zstandard, MP3, XZ, JPEG, WavPack and the mark of AES encryption *)
Definition old_methods : list Z := [0; 1; 2; 3; 4; 5; 6; 7; 8; 9; 10; 11; 12; 13; 14; 15; 16; 17; 18; 19; 98].
Definition new_methods : list Z := [93; 94; 95; 96; 97; 99].

(** Model of parser/archive/zip.py. *)
From Coq Require Import String.
From Verif Require Export Base BitsModel StreamModel DictModel GenModel Lit.
Open Scope Z_scope.

(** zip.py:53-78: ZipVersion *)
Definition ZipVersion (name : str) (k : prog) : prog :=
  PSet name (Some 16)
    (emit (lit "zip_version") (KNum 8 LE);
     emit (lit "host_os") (KNum 8 LE);
     PRet) (fun _ => k).
(** zip.py:81-116: ZipGeneralFlags *)
Definition ZipGeneralFlags (k : list fld -> prog) : prog :=
  PSet (lit "flags") (Some 16)
    (look method := 16 (KNum 16 LE) false;
     emit (lit "is_encrypted") (KNum 1 LE);
     let rest :=
       (emit (lit "has_descriptor") (KNum 1 LE);
        emit (lit "enhanced_deflate") (KNum 1 LE);
        emit (lit "is_patched") (KNum 1 LE);
        emit (lit "strong_encrypt") (KNum 1 LE);
        emit (lit "unused[]") (KNum 4 LE);
        emit (lit "uses_unicode") (KNum 1 LE);
        emit (lit "incomplete") (KNum 1 LE);
        emit (lit "encrypted_central_dir") (KNum 1 LE);
        emit (lit "unused[]") (KNum 2 LE);
        PRet) in
     if num method =? 6 then
       (emit (lit "use_8k_sliding") (KNum 1 LE);
        emit (lit "use_3shannon") (KNum 1 LE);
        rest)
     else if (num method =? 8) || (num method =? 9) then
       (emit (lit "method") (KNum 2 LE);
        rest)
     else if num method =? 14 then
       (emit (lit "lzma_eos") (KNum 1 LE);
        emit (lit "unused[]") (KNum 1 LE);
        rest)
     else
       (emit (lit "compression_info") (KNum 2 LE);
        rest)) k.
(** zip.py:147-153: ExtraField *)
Definition ExtraField (k : prog) : prog :=
  PSet (lit "extra[]") None
    (emit (lit "field_id") (KNum 16 LE);
     have size := (lit "field_data_size") (KNum 16 LE);
     when (0 <? num size) (fun k => emit (lit "field_data") (KBytes (num size)); k) PRet) (fun _ => k).
(** zip.py:156-160: ExtraFields, for a field set of [size] bytes *)
Definition ExtraFields (size : Z) (k : prog) : prog :=
  PSet (lit "extra") (Some (size * 8)) (loop ExtraField (S (Z.to_nat (size * 8)))) (fun _ => k).
(** field/timestamp.py:45-60: TimeDateMSDOS32 *)
Definition TimeDateMSDOS32 (name : str) (k : prog) : prog :=
  PSet name (Some 32)
    (emit (lit "second") (KNum 5 LE);
     emit (lit "minute") (KNum 6 LE);
     emit (lit "hour") (KNum 5 LE);
     emit (lit "day") (KNum 5 LE);
     emit (lit "month") (KNum 4 LE);
     emit (lit "year") (KNum 7 LE);
     PRet) (fun _ => k).
(** zip.py:163-173: ZipStartCommonFields.  The values used afterwards: the fields of flags, the method, the checksum, the compressed size, the lengths of the name and of the extra fields *)
Definition ZipStartCommonFields (k : list fld -> Z -> Z -> Z -> Z -> Z -> prog) : prog :=
  ZipVersion (lit "version_needed")
  (ZipGeneralFlags (fun flags =>
   have method := (lit "compression") (KNum 16 LE);
   TimeDateMSDOS32 (lit "last_mod")
   (have crc := (lit "crc32") (KNum 32 LE);
    have csize := (lit "compressed_size") (KNum 32 LE);
    emit (lit "uncompressed_size") (KNum 32 LE);
    have name := (lit "filename_length") (KNum 16 LE);
    have extra := (lit "extra_length") (KNum 16 LE);
    k flags (num method) (num crc) (num csize) (num name) (num extra)))).
(** zip.py:176-180, 311, 313: a flag: [self["flags/name"].value].  Without it, reading it raises MissingField. *)
Definition flag (name : string) (flags : list fld) (k : bool -> prog) : prog :=
  match get (lit name) flags with Some v => k (num v =? 1) | None => PErr MissingField end.
(** zip.py:183-205: ZipCentralDirectory *)
Definition ZipCentralDirectory : prog :=
  ZipVersion (lit "version_made_by")
  (ZipStartCommonFields (fun flags method crc csize name extra =>
   flag "uses_unicode" flags (fun _ =>
   have comment := (lit "comment_length") (KNum 16 LE);
   emit (lit "disk_number_start") (KNum 16 LE);
   emit (lit "internal_attr") (KNum 16 LE);
   emit (lit "external_attr") (KNum 32 LE);
   emit (lit "offset_header") (KNum 32 LE);
   emit (lit "filename") (KText name);
   when (0 <? extra) (ExtraFields extra)
   (when (0 <? num comment) (fun k => emit (lit "comment") (KText (num comment)); k) PRet)))).
(** zip.py:211-230: Zip64EndCentralDirectory *)
Definition Zip64EndCentralDirectory : prog :=
  have size := (lit "zip64_end_size") (KNum 64 LE);
  ZipVersion (lit "version_made_by")
  (ZipVersion (lit "version_needed")
  (emit (lit "number_disk") (KNum 32 LE);
   emit (lit "number_disk2") (KNum 32 LE);
   emit (lit "number_entries") (KNum 64 LE);
   emit (lit "number_entries2") (KNum 64 LE);
   emit (lit "size") (KNum 64 LE);
   emit (lit "offset") (KNum 64 LE);
   when (0 <? num size) (fun k => emit (lit "data_sector") (KBytes (num size)); k) PRet)).
(** zip.py:233-245: ZipEndCentralDirectory *)
Definition ZipEndCentralDirectory : prog :=
  emit (lit "number_disk") (KNum 16 LE);
  emit (lit "number_disk2") (KNum 16 LE);
  emit (lit "total_number_disk") (KNum 16 LE);
  emit (lit "total_number_disk2") (KNum 16 LE);
  emit (lit "size") (KNum 32 LE);
  emit (lit "offset") (KNum 32 LE);
  emit (lit "comment") (KPascal 2 true);
  PRet.
(** zip.py:248-259: ZipDataDescriptor *)
Definition ZipDataDescriptor : prog :=
  emit (lit "file_crc32") (KNum 32 LE);
  emit (lit "file_compressed_size") (KNum 32 LE);
  emit (lit "file_uncompressed_size") (KNum 32 LE);
  PRet.
(** zip.py:266-275: FileEntry.data.  Simplified: what the bytes decompress to is not modelled (C47). *)
Definition data_name (method : Z) : str := if method =? 0 then lit "data" else lit "compressed_data".
(** zip.py:277-294: FileEntry.resync *)
Definition resync (method crc : Z) (k : prog) : prog :=
  PDo (fun read ssize stop a => do size <- searchBytesLength read ssize [0x50; 0x4B; 7; 8] false a None; match size with None => Err TypeError | Some n => Ok (VNum n) end) (fun size =>
  if num size <=? 0 then PErr ParserError
  else emit (data_name method) (KBytes (num size));
       emit (lit "header[]") (KNum 32 LE);
       PSet (lit "data_desc") (Some 96) ZipDataDescriptor (fun desc =>
       match crc =? 0, get (lit "file_compressed_size") desc with
       | true, None => PErr MissingField
       | true, Some n => if num n =? num size then k else PErr ParserError
       | false, _ => k
       end)).
(** zip.py:296-314: FileEntry *)
Definition FileEntry : prog :=
  ZipStartCommonFields (fun flags method crc csize name extra =>
  when (negb (name =? 0)) (fun k => flag "uses_unicode" flags (fun _ => emit (lit "filename") (KText name); k))
  (when (negb (extra =? 0)) (ExtraFields extra)
  (let last := flag "has_descriptor" flags (fun d => when (d && (crc =? 0)) (fun k => PSet (lit "data_desc") (Some 96) ZipDataDescriptor (fun _ => k)) PRet) in
   if 0 <? csize then emit (data_name method) (KBytes csize); last
   else flag "incomplete" flags (fun i => if i then resync method crc last else last)))).
(** zip.py:326-341 *)
Definition ZipSignature : prog := emit (lit "signature") (KPascal 2 true); PRet.
Definition Zip64EndCentralDirectoryLocator : prog :=
  emit (lit "disk_number") (KNum 32 LE);
  emit (lit "relative_offset") (KNum 64 LE);
  emit (lit "disk_total_number") (KNum 32 LE);
  PRet.
(** zip.py:400-409: CHUNK_TYPES: names, static sizes and fields *)
Definition CHUNK_TYPES (header : Z) : option (str * option Z * prog) :=
  if header =? 0x04034B50 then Some (lit "file[]", None, FileEntry)
  else if header =? 0x08074B50 then Some (lit "spanning[]", Some 96, ZipDataDescriptor)
  else if header =? 0x30304b50 then Some (lit "temporary_spanning[]", Some 96, ZipDataDescriptor)
  else if header =? 0x02014b50 then Some (lit "central_directory[]", None, ZipCentralDirectory)
  else if header =? 0x06054b50 then Some (lit "end_central_directory", None, ZipEndCentralDirectory)
  else if header =? 0x06064b50 then Some (lit "end64_central_directory", None, Zip64EndCentralDirectory)
  else if header =? 0x05054B50 then Some (lit "signature", None, ZipSignature)
  else if header =? 0x07064b50 then Some (lit "end_locator", None, Zip64EndCentralDirectoryLocator)
  else None.
(** zip.py:437-452: the search of the next header from the address [a]: how many bits are skipped, and the header; nothing when the generator returns *)
Fixpoint zip_scan (read : read_fun) (ssize a skip : Z) (n : nat) : res (list Z) :=
  let over := if a =? 0 then Err ParserError else Ok [] in
  match n with
  | O => Err OutOfFuel
  | S n =>
      match readBits read (a + skip) 32 LE with
      | Err ReadStreamError => over
      | Err e => Err e
      | Ok header =>
          match CHUNK_TYPES header with
          | Some _ => Ok [skip; header]
          | None =>
              match searchBytes read ssize [0x50; 0x4B] (a + skip + 8) None with
              | Err ReadStreamError => over
              | Err e => Err e
              | Ok None => over
              | Ok (Some p) => zip_scan read ssize a (p - a) n
              end
          end
      end
  end.
(** zip.py:453-460 *)
Definition zip_record (k : prog) : prog :=
  PDo (fun read ssize stop a => do l <- zip_scan read ssize a 0 (S (Z.to_nat ssize)); Ok (VBytes l)) (fun found =>
  match bytes found with
  | skip :: header :: _ =>
      when (negb (skip =? 0)) (fun k => emit (lit "unparsed[]") (KBytes (skip / 8)); k)
      (emit (lit "header[]") (KNum 32 LE);
       match CHUNK_TYPES header with
       | Some (name, size, fields) => PSet name size fields (fun _ => k)
       | None => PErr KeyError
       end)
  | _ => PRet
  end).
(** zip.py:432-460: createFields, for a file of [size] bits *)
Definition zip_fields (size : Z) : prog := loop zip_record (S (Z.to_nat size)).
Definition ZipFile (read : read_fun) (size : Z) : shown := run read size (zip_fields size) true size 0.
(** The first field set with a name, and what its fields are *)
Definition get_set (name : str) (l : list fld) : option (list fld) :=
  match find (fun f => str_eqb (f_name f) name) l with Some (G _ _ _ l _) => Some l | _ => None end.
(** zip.py:411-430, 320-323: validate.  Every exception but the first read is a refusal. *)
Definition known_method (m : Z) : bool := ((0 <=? m) && (m <=? 19)) || (m =? 98).
Definition zip_validate (read : read_fun) (size : Z) : res bool :=
  do magic <- readBytes read 0 4;
  if negb (str_eqb magic [0x50; 0x4B; 3; 4]) then Ok false
  else let l := fst (fst (ZipFile read size)) in
       match get (lit "header[]") l with
       | Some h => if num h =? 0x04034B50
                   then match get_set (lit "file[]") l with
                        | Some f => match get (lit "compression") f with Some m => Ok (known_method (num m)) | None => Err MissingField end
                        | None => Ok false
                        end
                   else Ok false
       | None => Ok false
       end.
(** zip.py:468-473: createFilenameSuffix, for archives whose first entry is named "mimetype"; other archives have the suffix ".zip" *)
Definition zip_suffix_mime (read : read_fun) (size : Z) : res (option (list Z)) :=
  match get_set (lit "file[]") (fst (fst (ZipFile read size))) with
  | None => Err MissingField
  | Some f => match get (lit "filename") f with
              | None => Err MissingField
              | Some n => if str_eqb (bytes n) (lit "mimetype")
                          then match get (lit "compressed_data") f with Some d => Ok (Some (bytes d)) | None => Err MissingField end
                          else Ok None
              end
  end.
(** zip.py:462-466: createMimeType *)
Definition zip_mime (read : read_fun) (size : Z) : res (list Z) :=
  match get_set (lit "file[]") (fst (fst (ZipFile read size))) with
  | None => Err MissingField
  | Some f => match get (lit "filename") f with
              | None => Err MissingField
              | Some n => if str_eqb (bytes n) (lit "mimetype")
                          then match get (lit "data") f with Some d => Ok (bytes d) | None => Err MissingField end
                          else Ok (lit "application/zip")
              end
  end.
(** zip.py:21, 475-481: createContentSize *)
Definition zip_content_size (read : read_fun) (size : Z) : res (option Z) :=
  do pos <- searchBytes read size [0x50; 0x4B; 5; 6] 0 (Some (1000 * 1024 * 1024 * 8));
  Ok (match pos with Some pos => Some (pos + 22 * 8) | None => None end).

(** Model of parser/container/mp4.py: atoms, and the tables of samples. *)
From Coq Require Import String.
From Verif Require Export Base BitsModel StreamModel DictModel TlvModel Lit.
Open Scope Z_scope.

(** ** The content of atoms *)
(** mp4.py:1110-1247: tag_info.  For every tag, the name of the field set with the content, and what it is: a list of atoms
    (AtomList, 158-162), the metadata (META, 690-704), a table of samples with this number of numbers of so many bits per entry (751-790, 940-947,
    978-986), the two tables of sizes (950-960, 962-976), or something else.  Simplified: the fields of other contents are not modelled, among
    them those of stsd, dref, ilst, keys, sinf and schi, which hold atoms too. *)
Inductive kind := KList | KMeta | KTable (per : Z) (bits : Z) | KSizes | KCompact | KOther.
Definition tag_info : list (str * (str * kind)) :=
  [
   (lit "ftyp", (lit "file_type", KOther));
   (lit "moov", (lit "movie", KList));
   (lit "mvhd", (lit "movie_hdr", KOther));
   (lit "trak", (lit "track", KList));
   (lit "tkhd", (lit "track_hdr", KOther));
   (lit "tref", (lit "tref", KList));
   (lit "hint", (lit "hint", KOther));
   (lit "cdsc", (lit "cdsc", KOther));
   (lit "edts", (lit "edts", KList));
   (lit "elst", (lit "elst", KOther));
   (lit "load", (lit "load", KOther));
   (lit "senc", (lit "senc", KOther));
   (lit "mdia", (lit "media", KList));
   (lit "mdhd", (lit "media_hdr", KOther));
   (lit "hdlr", (lit "hdlr", KOther));
   (lit "minf", (lit "minf", KList));
   (lit "vmhd", (lit "vmhd", KOther));
   (lit "smhd", (lit "smhd", KOther));
   (lit "hmhd", (lit "hmhd", KOther));
   (lit "dinf", (lit "dinf", KList));
   (lit "dref", (lit "dref", KOther));
   (lit "url ", (lit "url", KOther));
   (lit "urn ", (lit "urn", KOther));
   (lit "stbl", (lit "stbl", KList));
   (lit "stsd", (lit "stsd", KOther));
   (lit "esds", (lit "esds", KOther));
   (lit "avcC", (lit "avcC", KOther));
   (lit "btrt", (lit "btrt", KOther));
   (lit "dec3", (lit "dec3", KOther));
   (lit "sinf", (lit "sinf", KOther));
   (lit "frma", (lit "frma", KOther));
   (lit "schm", (lit "schm", KOther));
   (lit "schi", (lit "schi", KOther));
   (lit "tenc", (lit "tenc", KOther));
   (lit "stts", (lit "stts", KTable 2 32));
   (lit "ctts", (lit "ctts", KTable 2 32));
   (lit "stsc", (lit "stsc", KTable 3 32));
   (lit "stsz", (lit "stsz", KSizes));
   (lit "stz2", (lit "stz2", KCompact));
   (lit "stco", (lit "stco", KTable 1 32));
   (lit "co64", (lit "co64", KTable 1 64));
   (lit "stss", (lit "stss", KTable 1 32));
   (lit "pssh", (lit "pssh", KOther));
   (lit "moof", (lit "moof", KList));
   (lit "mfhd", (lit "mfhd", KOther));
   (lit "traf", (lit "traf", KList));
   (lit "tfhd", (lit "tfgd", KOther));
   (lit "trun", (lit "trun", KOther));
   (lit "mfra", (lit "mfra", KList));
   (lit "tfra", (lit "tfra", KOther));
   (lit "mfro", (lit "mfro", KOther));
   (lit "sidx", (lit "sidx", KOther));
   (lit "udta", (lit "udta", KList));
   (lit "meta", (lit "meta", KMeta));
   (lit "keys", (lit "keys", KOther));
   (lit "ilst", (lit "ilst", KOther));
   (lit "trkn", (lit "trkn", KList));
   (lit "disk", (lit "disk", KList));
   (lit "tmpo", (lit "tempo", KList));
   (lit "cpil", (lit "cpil", KList));
   (lit "gnre", (lit "gnre", KList));
   (169 :: lit "cpy", (lit "copyright", KList));
   (169 :: lit "day", (lit "date", KList));
   (169 :: lit "dir", (lit "director", KList));
   (169 :: lit "ed1", (lit "edit1", KList));
   (169 :: lit "ed2", (lit "edit2", KList));
   (169 :: lit "ed3", (lit "edit3", KList));
   (169 :: lit "ed4", (lit "edit4", KList));
   (169 :: lit "ed5", (lit "edit5", KList));
   (169 :: lit "ed6", (lit "edit6", KList));
   (169 :: lit "ed7", (lit "edit7", KList));
   (169 :: lit "ed8", (lit "edit8", KList));
   (169 :: lit "ed9", (lit "edit9", KList));
   (169 :: lit "fmt", (lit "format", KList));
   (169 :: lit "inf", (lit "info", KList));
   (169 :: lit "prd", (lit "producer", KList));
   (169 :: lit "prf", (lit "performers", KList));
   (169 :: lit "req", (lit "requirements", KList));
   (169 :: lit "src", (lit "source", KList));
   (169 :: lit "nam", (lit "name", KList));
   (169 :: lit "des", (lit "description", KList));
   (169 :: lit "cmt", (lit "comment", KList));
   (169 :: lit "alb", (lit "album", KList));
   (169 :: lit "gen", (lit "genre", KList));
   (169 :: lit "ART", (lit "artist", KList));
   (169 :: lit "too", (lit "encoder", KList));
   (169 :: lit "wrt", (lit "writer", KList));
   (lit "covr", (lit "cover", KList));
   (lit "----", (lit "misc", KList));
   (lit "tags", (lit "tags", KList));
   (lit "tseg", (lit "tseg", KList));
   (lit "chpl", (lit "chpl", KOther))
  ].
Definition tag_kind (tag : str) : option (str * kind) := option_map snd (find (fun x => str_eqb tag (fst x)) tag_info).
Definition UUID : str := lit "uuid".
(** What is shown of an atom: its tag, the user tag of a uuid, and the field with its content: its name, its offset in the atom in bits; it
    ends where the atom ends.  [None]: the field is missing. *)
Record atom := Atom { a_tag : option str; a_user : option (list Z); a_content : option (str * Z) }.
(** Where an atom is: in the file or a list; in a list below a field named "tags"; in the list "tags" of the metadata, whose size is
    not known before its atoms are (703) *)
Inductive place := Plain | BelowTags | MetaTags.

Section Parser.
Context (read : read_fun).

(** mp4.py:1264-1276: the user tag and the content, [size] bytes after the [h] bits before them, of an atom in a list that ends at the
    address [stop].  What does not fit there is cut or deleted: the atom ends with the list (generic_field_set.py:185-217).  Simplified: a user tag
    that is cut is not shown. *)
Definition atom_content (c : place) (stop addr : Z) (tag : str) (size h : Z) : res (head atom place) :=
  do u <- (if str_eqb tag UUID then
             do _ <- readBits read (addr + h + 60) 4 BIG_ENDIAN;
             if stop <? addr + h + 128 then Ok None
             else do user <- readBytes read (addr + h) 16; Ok (Some (Some user, size - 16, h + 128))
           else Ok (Some (None, size, h)));
  match u with
  | None => Ok (Head (Atom (Some tag) None None) (stop - addr) BRaw)
  | Some (user, size, h) =>
      if (size <=? 0) || (stop <=? addr + h) then Ok (Head (Atom (Some tag) user None) h BRaw)
      else
        match (match user with None => tag_kind tag | Some _ => None end) with
        | None => Ok (Head (Atom (Some tag) user (Some (lit "data", h))) (h + size * 8) BRaw)
        | Some (name, k) =>
            Ok (Head (Atom (Some tag) user (Some (name, h))) (h + size * 8)
                 match k with
                 | KList => BKids (if str_eqb name (lit "tags") then BelowTags else match c with Plain => Plain | _ => BelowTags end) h 0
                 | KMeta =>
                     match c with
                     | Plain =>
                         match readBits read (addr + h) 32 BIG_ENDIAN with
                         | Ok v => BKids MetaTags (if v =? 0 then h + 32 else h) 0
                         | Err _ => BRaw
                         end
                     | _ => BRaw
                     end
                 | _ => BRaw
                 end)
        end
  end.
(** mp4.py:1109, 1250-1263: Atom.createFields.  When its size does not fit in the list, ParserError.  String.createValue: the tag is ASCII or
    ISO-8859-1 (C12).  An atom without size in the list "tags" of the metadata asks for the size of the list, which asks the generator of
    the list for one more Atom at the same place, without end (RecursionError). *)
Definition atom_head (c : place) (stop addr : Z) : res (head atom place) :=
  if stop <? addr + 32 then Err ParserError
  else
    do size <- readBits read addr 32 BIG_ENDIAN;
    if stop <? addr + 64 then Ok (Head (Atom None None None) (stop - addr) BRaw)
    else
      do tag <- readBytes read (addr + 32) 4;
      if size =? 1 then
        if stop <? addr + 128 then Ok (Head (Atom (Some tag) None None) (stop - addr) BRaw)
        else do s64 <- readBits read (addr + 64) 64 BIG_ENDIAN; atom_content c stop addr tag (s64 - 16) 128
      else if size =? 0 then match c with MetaTags => Err OtherError | _ => atom_content c stop addr tag ((stop - addr) / 8 - 8) 64 end
      else atom_content c stop addr tag (size - 8) 64.
End Parser.
(** The list "tags" of the metadata has no size of its own: when one of its atoms raises, all of it is deleted
    (generic_field_set.py:165-180, 362-373). *)
Definition is_meta (i : atom) : bool := match a_content i with Some (name, _) => str_eqb name (lit "meta") | None => false end.
Fixpoint prune (t : tree atom) : tree atom :=
  let 'Tree a s i k := t in
  Tree a s i match k with
             | KNone => KNone
             | KSome l e => KSome (match e with Some _ => if is_meta i then [] else map prune l | None => map prune l end) e
             end.
(** mp4.py:1318-1320: the atoms of a file of [size] bits, and the exception that ended them *)
Definition MP4File (read : read_fun) (size : Z) : list (tree atom) * option exn :=
  let fuel := S (Z.to_nat (size / 8)) in
  let r := walk (parse (atom_head read) fuel Plain) fuel 0 size 0 in
  (map prune (fst r), snd r).
(** mp4.py:1309-1317: validate *)
Definition mp4_validate (read : read_fun) : res bool :=
  do size <- readBits read 0 32 BIG_ENDIAN;
  if size <? 8 then Ok false
  else do tag <- readBytes read 32 4; Ok (existsb (str_eqb tag) [lit "ftyp"; lit "moov"; lit "free"; lit "skip"]).
(** mp4.py:542-548, 1291-1298, 1322-1338: the MIME type from the first atom (its tag, and where its content is): [None]: the one
    of its class *)
Definition BRANDS : list str := [lit "mp41"; lit "mp42"; lit "avc1"; lit "isom"; lit "iso2"].
Fixpoint brands (read : read_fun) (n : nat) (stop a : Z) : res bool :=
  match n with
  | O => Err OutOfFuel
  | S n => if stop <? a + 32 then Ok false
           else do b <- readBytes read a 4; if existsb (str_eqb b) BRANDS then Ok true else brands read n stop (a + 32)
  end.
Definition mp4_mime (read : read_fun) (first : tree atom) : res (option bool) :=
  let 'Tree a s i _ := first in
  match a_tag i with
  | None => Ok (Some false)
  | Some tag =>
      if negb (str_eqb tag (lit "ftyp")) then Ok None
      else match a_content i with
           | None => Ok (Some false)
           | Some (_, h) =>
               if s <? h + 32 then Ok (Some false)
               else do b <- readBytes read (a + h) 4;
                    if existsb (str_eqb b) BRANDS then Ok (Some true)
                    else if s <? h + 64 then Ok (Some false)
                    else do r <- brands read (S (Z.to_nat (s / 8))) (a + s) (a + h + 64); Ok (Some r)
           end
  end.

(** ** Tables of samples *)
(** [n] numbers of [bits] bits from the address [a] of a field set that ends at [stop]; one that goes beyond its end is deleted, which
    ends the fields. *)
Fixpoint samples (read : read_fun) (bits : Z) (n : nat) (stop a : Z) : list Z * option exn :=
  match n with
  | O => ([], None)
  | S n =>
      if stop <? a + bits then ([], Some StopIteration)
      else match readBits read a bits BIG_ENDIAN with
           | Err e => ([], Some e)
           | Ok v => let r := samples read bits n stop (a + bits) in (v :: fst r, snd r)
           end
  end.
(** The number of a table of this kind at [a]: the bits of each, how many, where they are.  Simplified: a table without its first fields is
    empty. *)
Definition table_layout (read : read_fun) (k : kind) (stop a : Z) : res (Z * Z * Z) :=
  match k with
  | KTable per bits =>
      if stop <? a + 64 then Err StopIteration
      else do n <- readBits read (a + 32) 32 BIG_ENDIAN; Ok (bits, n * per, a + 64)
  | KSizes =>
      if stop <? a + 96 then Err StopIteration
      else do u <- readBits read (a + 32) 32 BIG_ENDIAN;
           do n <- readBits read (a + 64) 32 BIG_ENDIAN; Ok (32, if u =? 0 then n else 0, a + 96)
  | KCompact =>
      if stop <? a + 96 then Err StopIteration
      else do bits <- readBits read (a + 56) 8 BIG_ENDIAN;
           do n <- readBits read (a + 64) 32 BIG_ENDIAN; Ok (bits, n, a + 96)
  | _ => Err ParserError
  end.
Definition Table (read : read_fun) (k : kind) (stop a : Z) : list Z * option exn :=
  match table_layout read k stop a with
  | Err e => ([], Some e)
  | Ok (bits, n, b) => samples read bits (Z.to_nat n) stop b
  end.

(** Model of the chunks of parser/container/riff.py. *)
From Coq Require Import String.
From Verif Require Export Base BitsModel StreamModel DictModel FieldModel TlvModel Lit.
Open Scope Z_scope.

(** A chunk: its name (before its number), tag, size, sub-tag if it is a list, and
    the bytes of its content, [None] if it goes beyond the end of the chunk, which its
    parent cut.  Simplified: the fields inside the content of a chunk that is not a list
    (riff.py:16-229) are not distinguished. *)
Record ck := Ck { ck_name : str; ck_tag : str; ck_size : Z; ck_subtag : str; ck_content : option (list Z) }.

Fixpoint assoc (k : str) (l : list (str * str)) : option str :=
  match l with [] => None | (k', v) :: l => if str_eqb k k' then Some v else assoc k l end.
(** riff.py:233-250, 293-302, 305-317, 343-356: TAG_INFO of the class of chunks used for a type of file *)
Definition tag_info (type : str) : list (str * str) :=
  (if str_eqb type (lit "AVI ") then
     [(lit "strh", lit "stream_hdr"); (lit "strf", lit "stream_fmt"); (lit "avih", lit "avi_hdr"); (lit "idx1", lit "index"); (lit "dmlh", lit "odml_hdr")]
   else if str_eqb type (lit "CDDA") then [(lit "fmt ", lit "cdda")]
   else if str_eqb type (lit "WAVE") then [(lit "fmt ", lit "format"); (lit "fact", lit "nb_sample"); (lit "data", lit "audio_data")]
   else if str_eqb type (lit "ACON") then [(lit "anih", lit "anim_hdr"); (lit "seq ", lit "anim_seq"); (lit "rate", lit "anim_rate"); (lit "icon", lit "icon[]")]
   else []) ++
  [(lit "LIST", lit "list[]"); (lit "JUNK", lit "junk[]"); (lit "INAM", lit "title"); (lit "IART", lit "artist"); (lit "ICMT", lit "comment");
   (lit "ICOP", lit "copyright"); (lit "IENG", lit "author"); (lit "ICRD", lit "creation_date"); (lit "ISFT", lit "producer"); (lit "IDIT", lit "datetime")].
(** riff.py:252-258: subtag_info *)
Definition subtag_info : list (str * str) :=
  [(lit "INFO", lit "info"); (lit "hdrl", lit "headers"); (lit "strl", lit "stream[]"); (lit "movi", lit "movie"); (lit "odml", lit "odml")].
(** riff.py:263-274: the name given by Chunk.__init__ *)
Definition chunk_name (type tag subtag : str) : str :=
  match assoc tag (tag_info type) with
  | None => lit "field[]"
  | Some name => if str_eqb tag (lit "LIST") then match assoc subtag subtag_info with Some name' => name' | None => name end else name
  end.

Section Parser.
Context (read : read_fun).
(** riff.py:260-302: Chunk, in a file of a type; the second part of the context tells if the chunk is in a
    list.  Its tag, its size and, for a list, its sub-tag are read by __init__. *)
Definition chunk_head (ctx : str * bool) (stop addr : Z) : res (head ck (str * bool)) :=
  if stop <? addr + 32 then Err ParserError
  else if stop <? addr + 64 then Err MissingField
  else
    do size <- readBits read (addr + 32) 32 LITTLE_ENDIAN;
    do tag <- readBytes read addr 4;
    let total := (8 + alignValue size 2) * 8 in
    if str_eqb tag (lit "LIST") then
      if (size =? 0) || (total <? 96) then Err MissingField
      else do subtag <- readBytes read (addr + 64) 4;
           Ok (Head (Ck (chunk_name (fst ctx) tag subtag) tag size subtag None) total (BKids (fst ctx, true) 96 64))
    else
      do content <- (if size =? 0 then Ok (Some [])
                     else if stop <? addr + 64 + size * 8 then Ok None
                     else do c <- readBytes read (addr + 64) size; Ok (Some c));
      Ok (Head (Ck (chunk_name (fst ctx) tag []) tag size [] content) total BRaw).

(** riff.py:405-428: RiffFile.createFields for a file of [stream_size] bits: the size in the
    header, the type, the chunks with the exception that ended them, and the size in bits of the
    padding at the end of the file *)
Record riff := Riff { r_filesize : Z; r_type : str; r_chunks : list (tree ck); r_err : option exn; r_padding : option Z }.
Definition total_size (l : list (tree ck)) : Z := fold_right (fun t s => t_size t + s) 0 l.
Definition RiffFile (stream_size : Z) : res riff :=
  do filesize <- readBits read 32 32 LITTLE_ENDIAN;
  do type <- readBytes read 64 4;
  let fuel := S (Z.to_nat (stream_size / 8)) in
  let r := walk (parse chunk_head fuel (type, false)) fuel (stream_size - (filesize * 8 + 8)) stream_size 96 in
  let current := 96 + total_size (fst r) in
  Ok (Riff filesize type (fst r) (snd r)
       match snd r with None => if current <? stream_size then Some ((stream_size - current) / 8 * 8) else None | Some _ => None end).
(** riff.py:398-403: validate *)
Definition riff_validate : res bool :=
  do sig <- readBytes read 0 4;
  if negb (str_eqb sig (lit "RIFF")) then Ok false
  else do type <- readBytes read 64 4; Ok (existsb (str_eqb type) [lit "WAVE"; lit "CDDA"; lit "AVI "; lit "ACON"]).
(** riff.py:456-458: createContentSize *)
Definition riff_content_size (stream_size : Z) : res Z :=
  do filesize <- readBits read 32 32 LITTLE_ENDIAN; Ok (Z.min ((filesize + 8) * 8) stream_size).
End Parser.

(** Model of parser/archive/tar.py. *)
From Coq Require Import String.
From Verif Require Export Base StreamModel ToolsModel TextModel DictModel TorrentModel Lit.
Open Scope Z_scope.

(** A String field of [n] bytes at the byte [off] of the entry: ISO-8859-1, or ASCII
    with its fallback to ISO-8859-1, so that the characters are the bytes;
    string_field.py:294-299: strip *)
Definition str_field (read : read_fun) (addr off n : Z) (strip_ : list Z) : res str :=
  do text <- readBytes read (addr + 8 * off) n; Ok (strip (fun c => existsb (Z.eqb c) strip_) text).
(** tar.py:71-75: octal2int *)
Definition octal2int (text : str) : Z := match py_int 8 text with Some v => v | None => 0 end.

(** tar.py:39-55: the fields of a FileEntry used below, as texts; its address in bits *)
Record entry := { e_addr : Z; e_name : str; e_mode : str; e_uid : str; e_gid : str; e_sizetext : str; e_mtime : str;
                  e_type : Z; e_lname : str; e_uname : str; e_gname : str; e_prefix : str }.
Definition FileEntry (read : read_fun) (addr : Z) : res entry :=
  let blank := [32; 0] in
  do name <- str_field read addr 0 100 [0];
  do mode <- str_field read addr 100 8 blank;
  do uid <- str_field read addr 108 8 blank;
  do gid <- str_field read addr 116 8 blank;
  do size <- str_field read addr 124 12 blank;
  do mtime <- str_field read addr 136 12 blank;
  do type <- readBits read (addr + 8 * 156) 8 BIG_ENDIAN;
  do lname <- str_field read addr 157 100 blank;
  do uname <- str_field read addr 265 32 blank;
  do gname <- str_field read addr 297 32 blank;
  do prefix <- str_field read addr 345 155 [0];
  Ok {| e_addr := addr; e_name := name; e_mode := mode; e_uid := uid; e_gid := gid; e_sizetext := size; e_mtime := mtime;
        e_type := type; e_lname := lname; e_uname := uname; e_gname := gname; e_prefix := prefix |}.
(** tar.py:29-30, 57: the size of the content, in bytes *)
Definition e_filesize (e : entry) : Z := octal2int (e_sizetext e).
(** tar.py:57-59: the content: its address and size in bits and its file name *)
Definition e_content (e : entry) : option (Z * Z * str) :=
  if negb (e_filesize e =? 0) then Some (e_addr e + 8 * 512, 8 * e_filesize e, e_name e) else None.
(** tar.py:61-63: the size of the entry in bits, with its padding *)
Definition e_size (e : entry) : Z :=
  let current_size := 8 * 512 + (if negb (e_filesize e =? 0) then 8 * e_filesize e else 0) in
  let size := paddingSize (current_size / 8) 512 in
  if negb (size =? 0) then current_size + 8 * size else current_size.
(** tar.py:68-69: isEmpty *)
Definition isEmpty (e : entry) : bool := str_eqb (e_name e) [].

(** tar.py:117-125: the loop of createFields on a stream of [stream_size] bits: the
    entries, and the address of the terminator if there is one.  An entry that goes
    beyond the end of the stream is the last one (the field set cuts it: C27).
    A content of negative size is a FieldError (byte_field.py:24-25), after which the
    field set would go on (C27); here the loop ends with an error. *)
Fixpoint tar_loop (fuel : nat) (read : read_fun) (stream_size addr : Z) : res (list entry * option Z) :=
  match fuel with
  | O => Err OutOfFuel
  | S fuel =>
      if stream_size <? addr + 1 then Ok ([], None)
      else
        do e <- FileEntry read addr;
        if isEmpty e then Ok ([], Some addr)
        else if e_filesize e <? 0 then Err ParserError
        else if stream_size <? addr + e_size e then Ok ([e], None)
        else do r <- tar_loop fuel read stream_size (addr + e_size e); Ok (e :: fst r, snd r)
  end.
Definition TarFile (read : read_fun) (stream_size : Z) : res (list entry * option Z) :=
  tar_loop (S (Z.to_nat (stream_size / 8))) read stream_size 0.

(** tar.py:77-87: the file name of the description of an entry *)
Definition described_name (e : entry) : str :=
  match e_prefix e with [] => e_name e | _ => e_prefix e ++ lit "/" ++ e_name e end.
(** tar.py:102, 105: the signature: [ustar *\0|[ \0]*$] at the beginning of the 8 bytes *)
Fixpoint spaces_nul (t : list Z) : bool := match t with 0 :: _ => true | 32 :: t => spaces_nul t | _ => false end.
Fixpoint blank_end (t : list Z) : bool :=
  match t with [] => true | [10] => true | c :: t => ((c =? 32) || (c =? 0)) && blank_end t end.
Definition tar_sign (t : list Z) : bool :=
  (is_prefix (lit "ustar") t && spaces_nul (skipn 5 t)) || blank_end t.
(** tar.py:104-115: validate; [true] when it returns True *)
Definition tar_validate (read : read_fun) (stream_size : Z) : res bool :=
  do sign <- readBytes read (8 * 257) 8;
  if negb (tar_sign sign) then Ok false
  else
    do r <- TarFile read stream_size;
    match fst r with
    | [] => Ok false
    | e :: _ => Ok (match py_int 8 (e_uid e), py_int 8 (e_gid e), py_int 8 (e_sizetext e) with Some _, Some _, Some _ => true | _, _, _ => false end)
    end.
(** tar.py:127-128: createContentSize *)
Definition tar_content_size (r : list entry * option Z) : res Z :=
  match snd r with Some a => Ok (a + 512 * 8) | None => Err MissingField end.

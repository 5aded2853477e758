(** Model of the values of small fields: padding (field/padding.py), dates of MS-DOS
    (field/timestamp.py, parser/file_system/fat.py), network addresses
    (parser/network/common.py), GUID (parser/common/win32.py), run lists of
    NTFS (parser/file_system/ntfs.py), cylinder numbers (parser/file_system/mbr.py).
    A field is an address in a stream given by its [read] function. *)
From Coq Require Import String.
From Verif Require Export Base BitsModel StreamModel DictModel FieldModel HumanModel Lit.
Open Scope Z_scope.

(** ** Padding *)
(** padding.py:100-112: the loop of checkPattern on the content from [index] on:
    [None] when the pattern goes on to the end, else the byte of the warning. *)
Fixpoint pattern_loop (fuel : nat) (pattern content : list Z) (index : Z) : res (option Z) :=
  match fuel with
  | O => Err OutOfFuel
  | S fuel =>
      match content with
      | [] => Ok None
      | _ :: _ =>
          if negb (str_eqb (firstn (List.length pattern) content) pattern) then Ok (Some index)
          else pattern_loop fuel pattern (skipn (List.length pattern) content) (index + zlen pattern)
      end
  end.
(** What a padding field shows: its pattern, or its content; the warning is the byte
    of the first difference. *)
Inductive shows := Pattern | Content (warning : option Z).
(** padding.py:74-97: PaddingBytes.checkPattern, for a field of [nbytes] at [addr];
    MAX_SIZE is 4096.  A larger field is read at its beginning only. *)
Definition check_bytes (enabled : bool) (read : read_fun) (addr nbytes : Z) (pattern : option (list Z)) : res shows :=
  if negb enabled then Ok (Content None)
  else match pattern with
  | None => Ok (Content None)
  | Some pattern =>
      do content <- readBytes read addr (if 4096 <? nbytes then 4096 else nbytes);
      do w <- pattern_loop (S (List.length content)) pattern content 0;
      Ok (match w with None => Pattern | Some i => Content (Some i) end)
  end.
(** padding.py:25-42: PaddingBits.checkPattern; MAX_SIZE is 128 bits *)
Definition check_bits (enabled : bool) (read : read_fun) (addr nbits : Z) (e : endian) (pattern : option Z) : res shows :=
  if negb enabled then Ok (Content None)
  else match pattern with
  | Some 0 =>
      do value <- readBits read addr (if 128 <? nbits then 128 else nbits) e;
      Ok (if negb (value =? 0) then Content (Some 0) else Pattern)
  | _ => Ok (Content None)
  end.

(** ** Dates *)
(** Python's datetime(y, m, d, h, mi, s, us): microseconds since 0001-01-01, ValueError
    for a date that does not exist. *)
Definition py_datetime (y m d h mi s us : Z) : res Z :=
  if (1 <=? y) && (y <=? 9999) && (1 <=? m) && (m <=? 12) && (1 <=? d) && (d <=? month_days y m) &&
     (0 <=? h) && (h <? 24) && (0 <=? mi) && (mi <? 60) && (0 <=? s) && (s <? 60) && (0 <=? us) && (us <? 1000000)
  then Ok (datetime y m d + ((h * 60 + mi) * 60 + s) * 1000000 + us)
  else Err ValueError.
(** Fields of the given numbers of bits, one after the other. *)
Fixpoint read_fields (read : read_fun) (e : endian) (addr : Z) (sizes : list Z) : res (list Z) :=
  match sizes with
  | [] => Ok []
  | n :: sizes => do v <- readBits read addr n e; do l <- read_fields read e (addr + n) sizes; Ok (v :: l)
  end.
(** timestamp.py:62-65: createValue *)
Definition dos_datetime (year month day hour minute second : Z) : res Z :=
  py_datetime (1980 + year) (if month =? 0 then 1 else month) (if day =? 0 then 1 else day) hour minute (2 * second) 0.
(** timestamp.py:45-68: TimeDateMSDOS32 *)
Definition TimeDateMSDOS32 (read : read_fun) (e : endian) (addr : Z) : res Z :=
  do l <- read_fields read e addr [5; 6; 5; 5; 4; 7];
  match l with
  | [second; minute; hour; day; month; year] => dos_datetime year month day hour minute second
  | _ => Err AssertionError
  end.
(** timestamp.py:71-82: DateTimeMSDOS32 *)
Definition DateTimeMSDOS32 (read : read_fun) (e : endian) (addr : Z) : res Z :=
  do l <- read_fields read e addr [5; 4; 7; 5; 6; 5];
  match l with
  | [day; month; year; second; minute; hour] => dos_datetime year month day hour minute second
  | _ => Err AssertionError
  end.
(** fat.py:90-137: Date, its description: a date, nothing, or "invalid" *)
Inductive fat_date := NoDate | InvalidDate | At (us : Z).
Definition at_or_invalid (r : res Z) : fat_date := match r with Ok t => At t | Err _ => InvalidDate end.
(** fat.py:117-137 with date = [year; month; day; ...], the list before line 131 *)
Definition describe_date (year month day : Z) (time : option (Z * Z * Z * Z)) : fat_date :=
  let '(hour, minute, s, us) := match time with Some t => t | None => (0, 0, 0, 0) end in
  if forallb (Z.eqb 0) [year; month; day; hour; minute; s; us] then NoDate
  else at_or_invalid (py_datetime (year + 1980) month day hour minute s us).
Definition fat_create (read : read_fun) (addr : Z) : res fat_date :=
  do l <- read_fields read LITTLE_ENDIAN addr [8; 5; 6; 5; 5; 4; 7];
  match l with
  | [cs; sec; min; hour; day; month; year] =>
      let cs := 200 * sec + cs in
      Ok (describe_date year month day (Some (hour, min, cs / 100, cs mod 100 * 10000)))
  | _ => Err AssertionError
  end.
Definition fat_access (read : read_fun) (addr : Z) : res fat_date :=
  do l <- read_fields read LITTLE_ENDIAN addr [5; 4; 7];
  match l with
  | [day; month; year] => Ok (describe_date year month day None)
  | _ => Err AssertionError
  end.
Definition fat_modify (read : read_fun) (addr : Z) : res fat_date :=
  do l <- read_fields read LITTLE_ENDIAN addr [5; 6; 5; 5; 4; 7];
  match l with
  | [sec; min; hour; day; month; year] =>
      let cs := 200 * sec in
      Ok (describe_date year month day (Some (hour, min, cs / 100, cs mod 100 * 10000)))
  | _ => Err AssertionError
  end.

(** ** Addresses and identifiers *)
(** Lower case hexadecimal digit *)
Definition hex_lower (d : Z) : Z := if d <? 10 then 48 + d else 87 + d.
(** ["%0nX" % v] for 0 <= v < 16^n, with the given digits *)
Fixpoint hexn (digit : Z -> Z) (n : nat) (v : Z) : str :=
  match n with O => [] | S n => hexn digit n (v / 16) ++ [digit (v mod 16)] end.
(** network/common.py:38-40: IPv4_Address *)
Definition IPv4_Address (read : read_fun) (addr : Z) : res str :=
  do v <- readBytes read addr 4; Ok (join [46] (map dec v)).
(** network/common.py:51-59: IPv6_Address: the parts, the last one first *)
Fixpoint ipv6_parts (n : nat) (value : Z) : list str :=
  match n with
  | O => []
  | S n => hexn hex_lower 4 (Z.land value 0xffff) :: ipv6_parts n (Z.shiftr value 16)
  end.
Definition IPv6_Address (read : read_fun) (addr : Z) (e : endian) : res str :=
  do value <- readBits read addr 128 e; Ok (join [58] (rev (ipv6_parts 8 value))).
(** network/common.py:117-119: MAC48_Address: [str2hex(bytes, format="%02x:")[:-1]] *)
Definition MAC48_Address (read : read_fun) (addr : Z) : res str :=
  do bytes <- readBytes read addr 6;
  let t := flat_map (fun b => hexn hex_lower 2 b ++ [58]) bytes in Ok (firstn (List.length t - 1) t).
(** win32.py:125-132: GUID.createValue *)
Definition GUID (read : read_fun) (addr : Z) (e : endian) : res str :=
  do a <- readBits read addr 32 e;
  do b <- readBits read (addr + 32) 16 e;
  do c <- readBits read (addr + 48) 16 e;
  do d <- readBytes read (addr + 64) 2;
  do f <- readBytes read (addr + 80) 6;
  Ok (hexn hex_digit 8 a ++ [45] ++ hexn hex_digit 4 b ++ [45] ++ hexn hex_digit 4 c ++ [45] ++ str2hex d [] ++ [45] ++ str2hex f []).
(** win32.py:114-115 and 121-123, 132-134: the version and the variant of a GUID *)
Definition guid_version (read : read_fun) (addr : Z) (e : endian) : res Z := readBits read (addr + 32 + 16 + 12) 4 e.
Definition guid_variant (read : read_fun) (addr : Z) (e : endian) : res Z := readBits read (addr + 64) 3 e.

(** ** Run lists *)
(** ntfs.py:97-111: the header, length and offset fields of a RunListEntry at [addr],
    and the address after it; [None] for a field that is not there *)
Definition run_fields (read : read_fun) (addr : Z) : res (Z * option Z * option (Z * Z) * Z) :=
  do header <- readBits read addr 8 LITTLE_ENDIAN;
  if header =? 0 then Ok (0, None, None, addr + 8)
  else
    let offlen := Z.shiftr header 4 in
    let lenlen := Z.land header 0xf in
    do length <- (if negb (lenlen =? 0) then do v <- readBits read (addr + 8) (lenlen * 8) LITTLE_ENDIAN; Ok (Some v) else Ok None);
    do offset <- (if negb (offlen =? 0) then do v <- readBits read (addr + 8 + lenlen * 8) (offlen * 8) LITTLE_ENDIAN; Ok (Some (v, offlen * 8)) else Ok None);
    Ok (header, length, offset, addr + 8 + lenlen * 8 + offlen * 8).
(** ntfs.py:113-127: createValue of a RunListEntry *)
Definition run_value (length : option Z) (offset : option (Z * Z)) : Z * Z :=
  (match length with Some l => l | None => 0 end,
   match offset with
   | Some (offset, offlen) => if negb (Z.land offset (Z.shiftl 1 (offlen - 1)) =? 0) then offset - Z.shiftl 1 offlen else offset
   | None => 0
   end).
(** ntfs.py:131-136: the entries of a RunList: header and value of each *)
Fixpoint run_entries (fuel : nat) (read : read_fun) (addr : Z) : res (list (Z * (Z * Z))) :=
  match fuel with
  | O => Err OutOfFuel
  | S fuel =>
      do r <- run_fields read addr;
      let '(header, length, offset, addr) := r in
      if header =? 0 then Ok [(header, run_value length offset)]
      else do l <- run_entries fuel read addr; Ok ((header, run_value length offset) :: l)
  end.
(** ntfs.py:138-146: createValue *)
Fixpoint run_list (entries : list (Z * (Z * Z))) (curoff : Z) : list (Z * Z) :=
  match entries with
  | [] => []
  | (header, (length, offset)) :: l =>
      let curoff := curoff + offset in
      if negb (header =? 0) then (length, curoff) :: run_list l curoff else run_list l curoff
  end.
Definition RunList (fuel : nat) (read : read_fun) (addr : Z) : res (list (Z * Z)) :=
  do l <- run_entries fuel read addr; Ok (run_list l 0).

(** ** Partitions *)
(** mbr.py:26-34: CylinderNumber *)
Definition CylinderNumber (read : read_fun) (addr : Z) (e : endian) : res Z :=
  do i <- readBits read addr 10 e; Ok (Z.lor (Z.shiftr i 2) (Z.shiftl (i mod 4) 8)).
(** mbr.py:145-146: sector and cylinder; the parser is little endian *)
Definition partition_start (read : read_fun) (addr : Z) : res (Z * Z) :=
  do sector <- readBits read addr 6 LITTLE_ENDIAN;
  do cylinder <- CylinderNumber read (addr + 6) LITTLE_ENDIAN;
  Ok (sector, cylinder).

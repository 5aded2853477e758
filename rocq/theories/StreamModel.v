(** Model of hachoir/stream/input.py: the generic InputStream methods and the
    stateless streams (StringInputStream, InputSubStream, ConcatStream of
    complete streams). *)
From Verif Require Export Base BitsModel ToolsModel.

(** The abstract [read] method: (bit address, bit size) -> (shift, data,
    missing) or an exception (stream/input.py:183-188). *)
Definition read_fun := Z -> Z -> res (Z * list Z * bool).

(** stream/input.py:460-467: StringInputStream.read *)
Definition string_read (data : list Z) : read_fun := fun address size =>
  let '(address, shift) := (address / 8, address mod 8) in
  let size := Z.shiftr (size + shift + 7) 3 in
  let d := py_slice data address (address + size) in
  let got := zlen d in
  if negb (got =? size) then Err ReadStreamError
  else Ok (shift, d, false).

(** stream/input.py:425-438: InputIOStream.read on a seekable file holding
    [data] (its size is known from the start, so [_size] does not change). *)
Definition file_read (data : list Z) : read_fun := fun address size =>
  if size =? 0 then Ok (0, [], false)
  else
    do _ <- assert_ (0 <? size);
    let '(address, shift) := (address / 8, address mod 8) in
    let size := Z.shiftr (size + shift + 7) 3 in
    let d := sub data address size in
    if negb (size =? zlen d) then Err ReadStreamError
    else Ok (shift, d, false).

(** [1 << n]: ValueError for a negative count. *)
Definition py_shl1 (n : Z) : res Z := if n <? 0 then Err ValueError else Ok (Z.shiftl 1 n).
(** [v >> n]: ValueError for a negative count. *)
Definition py_shr (v n : Z) : res Z := if n <? 0 then Err ValueError else Ok (Z.shiftr v n).

(** stream/input.py:201-208: the part of readBits after the read. *)
Definition readBits_value (shift : Z) (data : list Z) (missing : bool) (nbits : Z) (e : endian) : res Z :=
  if missing then Err ReadStreamError
  else
    do value <- str2long data e;
    do value <- match e with
                | BIG_ENDIAN | MIDDLE_ENDIAN => py_shr value (zlen data * 8 - shift - nbits)
                | LITTLE_ENDIAN => py_shr value shift
                end;
    do m <- py_shl1 nbits;
    Ok (Z.land value (m - 1)).

(** stream/input.py:190-208: readBits *)
Definition readBits (read : read_fun) (address nbits : Z) (e : endian) : res Z :=
  match e with
  | MIDDLE_ENDIAN =>
      let '(wordaddr, remainder) := (address / 16, address mod 16) in
      let wordnbits := alignValue (remainder + nbits) 16 in
      do r <- read (wordaddr * 16) wordnbits;
      let '(_, data, missing) := r in
      readBits_value remainder data missing nbits e
  | _ =>
      do r <- read address nbits;
      let '(shift, data, missing) := r in
      readBits_value shift data missing nbits e
  end.

(** stream/input.py:210-218: readInteger *)
Definition readInteger (read : read_fun) (address : Z) (signed : bool) (nbits : Z) (e : endian) : res Z :=
  do value <- readBits read address nbits e;
  if signed then
    do half <- py_shl1 (nbits - 1);
    if half <=? value then do m <- py_shl1 nbits; Ok (value - m) else Ok value
  else Ok value.

(** stream/input.py:220-226: readBytes *)
Definition readBytes (read : read_fun) (address nb_bytes : Z) : res (list Z) :=
  do r <- read address (8 * nb_bytes);
  let '(shift, data, missing) := r in
  if negb (shift =? 0) then Err InputStreamError
  else if missing then Err ReadStreamError
  else Ok data.

(** [needle == l[:len(needle)]] *)
Fixpoint is_prefix (needle l : list Z) : bool :=
  match needle, l with
  | [], _ => true
  | _, [] => false
  | x :: n', y :: l' => (x =? y) && is_prefix n' l'
  end.
(** [l.find(needle)] of Python bytes: lowest index, or -1. *)
Fixpoint find_from (needle l : list Z) (i : Z) : Z :=
  if is_prefix needle l then i
  else match l with [] => -1 | _ :: l' => find_from needle l' (i + 1) end.
Definition bytes_find (needle l : list Z) : Z := find_from needle l 0.

(** stream/input.py:259-276: the loop of searchBytes for a stream whose
    [_size] does not change while reading.  [end_address] is not None here
    except when the size is unknown ([_size = None]). *)
Fixpoint searchBytes_loop (fuel : nat) (read : read_fun) (needle : list Z)
         (start_address : Z) (end_address : option Z) (size : Z) (buffer : list Z) : res (option Z) :=
  match fuel with
  | O => Err OutOfFuel
  | S f =>
      let step (size : Z) :=
        do data <- readBytes read start_address size;
        let start_address := start_address + 8 * size in
        let buffer := py_from buffer (zlen buffer - zlen needle + 1) ++ data in
        let found := bytes_find needle buffer in
        if 0 <=? found then Ok (Some (start_address + (found - zlen buffer) * 8))
        else searchBytes_loop f read needle start_address end_address size buffer in
      match end_address with
      | Some e =>
          let todo := Z.shiftr (e - start_address) 3 in
          if todo <? size then
            if todo <=? 0 then Ok None else step todo
          else step size
      | None => step size
      end
  end.

(** stream/input.py:243-276: searchBytes, on a stream whose size in bits is
    [stream_size] (constant: every stream but a pipe whose end has not been
    seen).  Fuel: each turn of the loop advances by at least one byte. *)
Definition searchBytes (read : read_fun) (stream_size : Z) (needle : list Z)
           (start_address : Z) (end_address : option Z) : res (option Z) :=
  if negb (start_address mod 8 =? 0) then Err InputStreamError
  else
    let length := zlen needle in
    let size := Z.max (3 * length) 4096 in
    let end_address :=
      if negb (stream_size =? 0) &&
         (match end_address with None => true | Some e => stream_size <? e end)
      then Some stream_size else end_address in
    let fuel := match end_address with
                | Some e => S (S (Z.to_nat (Z.shiftr (e - start_address) 3)))
                | None => 1%nat
                end in
    searchBytes_loop fuel read needle start_address end_address size [].

(** stream/input.py:228-241: searchBytesLength *)
Definition searchBytesLength (read : read_fun) (stream_size : Z) (needle : list Z)
           (include_needle : bool) (start_address : Z) (end_address : option Z) : res (option Z) :=
  do pos <- searchBytes read stream_size needle start_address end_address;
  match pos with
  | None => Ok None
  | Some pos =>
      let length := (pos - start_address) / 8 in
      Ok (Some (if include_needle then length + zlen needle else length))
  end.

(** stream/input.py:172-178: sizeGe on a stream whose content is completely
    known ([_current_size = _size = size], e.g. StringInputStream).  The last
    branch feeds, i.e. reads the last bit asked for. *)
Definition sizeGe (read : read_fun) (current_size : Z) (size_of_stream : option Z)
           (size : Z) (const : bool) : res bool :=
  if size <=? current_size then Ok true
  else if match size_of_stream with Some s => (0 <? s) && (s <? size) | None => false end
       then Ok false
       else if const then Ok false
            else do r <- read (size - 1) 1; let '(_, _, missing) := r in Ok (negb missing).

(** stream/input.py:493-494: InputSubStream.read *)
Definition substream_read (parent : read_fun) (offset : Z) : read_fun := fun address size =>
  parent (offset + address) size.

(** stream/input.py:472-485: size computed by the InputSubStream constructor;
    an explicit zero or negative size and a window starting outside the stream
    raise ValueError. *)
Definition substream_size (stream_size offset : Z) (size : option Z) : res Z :=
  let size := match size with None => stream_size - offset | Some s => s end in
  if size <=? 0 then Err ValueError else Ok size.

(** stream/input.py:599-619: ConcatStream.read when the first stream has
    [size0] bits and the size of the second does not change while reading. *)
Definition concat_read (read0 : read_fun) (size0 : Z) (read1 : read_fun) : read_fun := fun address size =>
  let s := size0 - address in
  do st <-
    (if 0 <? s then
       let s := Z.min size s in
       do r <- read0 address s;
       let '(shift, data, w) := r in
       do _ <- assert_ (negb w);
       Ok (Some shift, data, 0, size - s)
     else Ok (None, [], - s, size));
  let '(shift, data, a, s) := st in
  if negb (s =? 0) then
    do r <- read1 a s;
    let '(u, v, missing) := r in
    if missing then Err ReadStreamError
    else
      do shift <- match shift with
                  | None => Ok u
                  | Some sh => do _ <- assert_ (u =? 0); Ok sh
                  end;
      Ok (shift, data ++ v, missing)
  else
    match shift with
    | Some sh => Ok (sh, data, false)
    | None => Err TypeError (* [(None, b'', False)]: unusable shift; only for size = 0 *)
    end.

(** Model of hachoir/stream/output.py: OutputStream. *)
From Verif Require Export Base BitsModel StreamModel.

(** stream/output.py:15-21: the attributes of OutputStream.  [out] is the
    sequence of bytes given to [self._output.write] so far. *)
Record ostream := { out : list Z; bit_pos : Z; byte : Z }.
Definition ostream_init : ostream := {| out := []; bit_pos := 0; byte := 0 |}.

(** [self._output.write(bytes([b]))]: ValueError when [b] is not a byte. *)
Definition write_byte (o : list Z) (b : Z) : res (list Z) :=
  if (0 <=? b) && (b <? 256) then Ok (o ++ [b]) else Err ValueError.

Definition not_middle (e : endian) : bool := match e with MIDDLE_ENDIAN => false | _ => true end.

(** stream/output.py:36-54 *)
Definition writeBit (st : ostream) (state : bool) (e : endian) : res ostream :=
  do _ <- assert_ (not_middle e);
  if bit_pos st =? 7 then
    let b := if state then Z.lor (byte st) (match e with BIG_ENDIAN => 1 | _ => 128 end) else byte st in
    do o <- write_byte (out st) b;
    Ok {| out := o; bit_pos := 0; byte := 0 |}
  else
    let b := if state
             then Z.lor (byte st) (match e with BIG_ENDIAN => Z.shiftl 1 (bit_pos st)
                                              | _ => Z.shiftl 1 (7 - bit_pos st) end)
             else byte st in
    Ok {| out := out st; bit_pos := bit_pos st + 1; byte := b |}.

(** stream/output.py:84-93: the byte-per-byte loop; returns (out, count, value). *)
Fixpoint writeBits_loop (fuel : nat) (o : list Z) (count value : Z) (e : endian)
  : res (list Z * Z * Z) :=
  match fuel with
  | O => Err OutOfFuel
  | S f =>
      if 8 <=? count then
        let count := count - 8 in
        let '(b, value) := match e with
                           | BIG_ENDIAN => (Z.shiftr value count, Z.land value (Z.shiftl 1 count - 1))
                           | _ => (Z.land value 0xFF, Z.shiftr value 8)
                           end in
        do o <- write_byte o b;
        writeBits_loop f o count value e
      else Ok (o, count, value)
  end.
(** stream/output.py:84-106 *)
Definition writeBits_aligned (o : list Z) (count value : Z) (e : endian) : res ostream :=
  do r <- writeBits_loop (S (Z.to_nat count)) o count value e;
  let '(o, count, value) := r in
  do _ <- assert_ ((0 <=? count) && (count <? 8));
  if 0 <? count then
    do _ <- assert_ ((0 <=? value) && (value <? 2 ^ count));
    Ok {| out := o; bit_pos := count;
          byte := match e with BIG_ENDIAN => Z.shiftl value (8 - count) | _ => value end |}
  else
    do _ <- assert_ (value =? 0);
    Ok {| out := o; bit_pos := count; byte := 0 |}.
(** stream/output.py:56-106.  A negative [count] makes [2**count] a float in
    (0,1), so that [value = 0] passes the assertion and falls through; such calls
    are outside the model (AssertionError here). *)
Definition writeBits (st : ostream) (count value : Z) (e : endian) : res ostream :=
  do _ <- assert_ (not_middle e);
  do _ <- assert_ ((0 <=? count) && (0 <=? value) && (value <? 2 ^ count));
  if negb (bit_pos st =? 0) then
    let n := 8 - bit_pos st in
    if n <=? count then
      let count := count - n in
      let '(b, value) :=
        match e with
        | BIG_ENDIAN => (Z.lor (byte st) (Z.shiftr value count), Z.land value (Z.shiftl 1 count - 1))
        | _ => (Z.lor (byte st) (Z.shiftl (Z.land value (Z.shiftl 1 n - 1)) (bit_pos st)), Z.shiftr value n)
        end in
      do o <- write_byte (out st) b;
      writeBits_aligned o count value e
    else
      let b := match e with
               | BIG_ENDIAN => Z.lor (byte st) (Z.shiftl value (8 - bit_pos st - count))
               | _ => Z.lor (byte st) (Z.shiftl value (bit_pos st))
               end in
      Ok {| out := out st; bit_pos := bit_pos st + count; byte := b |}
  else writeBits_aligned (out st) count value e.

(** stream/output.py:144-147 *)
Definition writeBytes (st : ostream) (data : list Z) : res ostream :=
  if negb (bit_pos st =? 0) then Err NotImplementedError
  else Ok {| out := out st ++ data; bit_pos := bit_pos st; byte := byte st |}.

(** stream/output.py:108-112 *)
Definition writeInteger (st : ostream) (value : Z) (signed : bool) (size_byte : Z) (e : endian) : res ostream :=
  do value <- (if signed then do m <- py_shl1 (size_byte * 8 - 1); Ok (value + m) else Ok value);
  do raw <- long2raw value e (Some size_byte);
  writeBytes st raw.

(** stream/output.py:129-142: the buffered copy loop. *)
Fixpoint copyBytes_loop (fuel : nat) (st : ostream) (input : read_fun) (address nb_bytes buffer_size : Z)
  : res ostream :=
  match fuel with
  | O => Err OutOfFuel
  | S f =>
      if 0 <? nb_bytes then
        let buffer_size := if nb_bytes <? buffer_size then nb_bytes else buffer_size in
        do data <- readBytes input address buffer_size;
        do st <- writeBytes st data;
        copyBytes_loop f st input (address + buffer_size * 8) (nb_bytes - buffer_size) buffer_size
      else Ok st
  end.
(** stream/output.py:124-142 *)
Definition copyBytesFrom (st : ostream) (input : read_fun) (address nb_bytes : Z) : res ostream :=
  if negb (address mod 8 =? 0) then Err OutputStreamError
  else copyBytes_loop (S (Z.to_nat nb_bytes)) st input address nb_bytes (Z.shiftl 1 12).

(** core/config.py:10 *)
Definition max_bit_length : Z := 256.
(** stream/output.py:114-122 *)
Definition copyBitsFrom (st : ostream) (input : read_fun) (address nb_bits : Z) (e : endian) : res ostream :=
  if (nb_bits mod 8 =? 0) && (address mod 8 =? 0) && (bit_pos st mod 8 =? 0)
  then copyBytesFrom st input address (nb_bits / 8)
  else
    do _ <- assert_ (nb_bits <=? max_bit_length);
    do data <- readBits input address nb_bits e;
    writeBits st nb_bits data e.

(** A history of writeBits calls. *)
Fixpoint writeBits_all (st : ostream) (ws : list (Z * Z)) (e : endian) : res ostream :=
  match ws with
  | [] => Ok st
  | (count, value) :: ws' => do st <- writeBits st count value e; writeBits_all st ws' e
  end.

(** Model of hachoir/core/bits.py and hachoir/core/endian.py. *)
From Verif Require Export Base.

(** core/endian.py:5-8 *)
Inductive endian : Set := BIG_ENDIAN | LITTLE_ENDIAN | MIDDLE_ENDIAN.

(** core/bits.py:10-17.  Python precedence: [<<] binds tighter than [|]. *)
Definition swap16 (value : Z) : Z :=
  Z.lor (Z.shiftl (Z.land value 0xFF) 8) (Z.shiftr value 8).

(** core/bits.py:20-31 *)
Definition swap32 (value : Z) : Z :=
  Z.lor (Z.lor (Z.lor
    (Z.shiftl (Z.land value 0x000000FF) 24)
    (Z.shiftl (Z.land value 0x0000FF00) 8))
    (Z.shiftr (Z.land value 0x00FF0000) 8))
    (Z.shiftr (Z.land value 0xFF000000) 24).

(** [l[0::2]] and [l[1::2]] (Python extended slices used at
    core/bits.py:44-45). *)
Fixpoint evens {A} (l : list A) : list A :=
  match l with [] => [] | [x] => [x] | x :: _ :: l' => x :: evens l' end.
Definition odds {A} (l : list A) : list A :=
  match l with [] => [] | _ :: l' => evens l' end.
(** The list [r] with [r[0::2] = a] and [r[1::2] = b], for equal lengths. *)
Fixpoint interleave {A} (a b : list A) : list A :=
  match a, b with
  | x :: a', y :: b' => x :: y :: interleave a' b'
  | _, _ => []
  end.

(** core/bits.py:34-46: [ret[1::2] = data[0::2]; ret[0::2] = data[1::2]]. *)
Definition arrswapmid {A} (data : list A) : res (list A) :=
  do _ <- assert_ (zlen data mod 2 =? 0);
  Ok (interleave (odds data) (evens data)).

(** core/bits.py:49-56 *)
Definition strswapmid (data : list Z) : res (list Z) := arrswapmid data.

(** Characters are code points. *)
Definition chr0 : Z := 48.
Definition chr1 : Z := 49.
Definition space : Z := 32.

(** core/bits.py:59-82.  [text] is the list of code points. *)
Definition bin2long (text : list Z) (e : endian) : res Z :=
  do _ <- assert_ (match e with MIDDLE_ENDIAN => false | _ => true end);
  let bits := map (fun c => c - chr0) (filter (fun c => (c =? chr0) || (c =? chr1)) text) in
  let bits := match e with BIG_ENDIAN => bits | _ => rev bits end in
  do _ <- assert_ (0 <? zlen bits);
  Ok (fold_left (fun value bit => value * 2 + bit) bits 0).

(** "%02X" % c for 0 <= c < 256 (core/bits.py:85-106 with the default
    format, prefix and glue). *)
Definition hex_digit (d : Z) : Z := if d <? 10 then 48 + d else 55 + d.
Definition hex2 (c : Z) : list Z := [hex_digit (c / 16); hex_digit (c mod 16)].
(** core/bits.py:85-106, parameters prefix="", format="%02X"; [glue] kept. *)
Fixpoint join (glue : list Z) (parts : list (list Z)) : list Z :=
  match parts with
  | [] => []
  | [p] => p
  | p :: ps => p ++ glue ++ join glue ps
  end.
Definition str2hex (value glue : list Z) : list Z := join glue (map hex2 value).

(** core/bits.py:125-128: first loop of countBits. *)
Fixpoint countBits_up (fuel : nat) (count bits value : Z) : res (Z * Z * Z) :=
  match fuel with
  | O => Err OutOfFuel
  | S f => if Z.shiftl 1 bits <=? value
           then countBits_up f (count + bits) (Z.shiftl bits 1) (Z.shiftr value bits)
           else Ok (count, bits, value)
  end.
(** core/bits.py:134-136: inner loop. *)
Fixpoint countBits_inner (fuel : nat) (count bits value : Z) : res (Z * Z) :=
  match fuel with
  | O => Err OutOfFuel
  | S f => if Z.shiftl 1 bits <=? value
           then countBits_inner f (count + bits) bits (Z.shiftr value bits)
           else Ok (count, value)
  end.
(** core/bits.py:129-136: second loop. *)
Fixpoint countBits_down (fuel : nat) (count bits value : Z) : res Z :=
  match fuel with
  | O => Err OutOfFuel
  | S f =>
      if 2 <=? value then
        let bits := if negb (bits =? 1) then Z.shiftr bits 1 else bits - 1 in
        match countBits_inner f count bits value with
        | Err e => Err e
        | Ok (count, value) => countBits_down f count bits value
        end
      else Ok count
  end.
(** core/bits.py:109-137.  The fuel is the number of binary digits plus 2. *)
Definition countBits (value : Z) : res Z :=
  do _ <- assert_ (0 <=? value);
  let fuel := S (S (Z.to_nat (Z.log2 value + 1))) in
  do r <- countBits_up fuel 1 1 value;
  let '(count, bits, value) := r in
  countBits_down fuel count bits value.

(** core/bits.py:140-160 *)
Definition byte2bin (number : Z) (classic_mode : bool) : list Z :=
  map (fun i => let mask := if classic_mode then Z.shiftl 1 (7 - i) else Z.shiftl 1 i in
                if Z.land number mask =? mask then chr1 else chr0)
      [0; 1; 2; 3; 4; 5; 6; 7].

(** core/bits.py:177-181.  [text == ""] is always false ([text] is a list), so
    the loop runs while [value != 0]. *)
Fixpoint long2raw_digits (fuel : nat) (value : Z) : res (list Z) :=
  match fuel with
  | O => Err OutOfFuel
  | S f => if value =? 0 then Ok []
           else do t <- long2raw_digits f (Z.shiftr value 8); Ok (value mod 256 :: t)
  end.
(** core/bits.py:163-188.  [size = None] and [size = 0] are both falsy. *)
Definition long2raw (value : Z) (e : endian) (size : option Z) : res (list Z) :=
  let has_size := match size with None => false | Some s => negb (s =? 0) end in
  do _ <- assert_ ((negb has_size && (0 <? value)) || (0 <=? value));
  do _ <- assert_ (match e with MIDDLE_ENDIAN => false | _ => true end);
  do text <- long2raw_digits (S (Z.to_nat (Z.log2 value + 1))) value;
  let text := match size with
              | Some s => if has_size
                          then text ++ repeat 0 (Z.to_nat (Z.max (s - zlen text) 0))
                          else text
              | None => text
              end in
  Ok (match e with BIG_ENDIAN => rev text | _ => text end).

(** core/bits.py:212-217: the low [size] bits of [value], least significant
    first, as characters. *)
Fixpoint long2bin_text (size : nat) (value : Z) : list Z :=
  match size with
  | O => []
  | S n => (if Z.land value 1 =? 1 then chr1 else chr0) :: long2bin_text n (Z.shiftr value 1)
  end.
(** core/bits.py:220-228: cut into groups of 8 separated by spaces;
    [text[7::-1]] is the reversed first 8 characters. *)
Fixpoint long2bin_groups (fuel : nat) (text result : list Z) (classic_mode : bool) : res (list Z) :=
  match fuel with
  | O => Err OutOfFuel
  | S f =>
      match text with
      | [] => Ok result
      | _ =>
          let result := match result with [] => result | _ => result ++ [space] end in
          let chunk := firstn 8 text in
          let result := result ++ (if classic_mode then rev chunk else chunk) in
          long2bin_groups f (skipn 8 text) result classic_mode
      end
  end.
(** core/bits.py:191-229 *)
Definition long2bin (size value : Z) (e : endian) (classic_mode : bool) : res (list Z) :=
  do _ <- assert_ (match e with MIDDLE_ENDIAN => false | _ => true end);
  do _ <- assert_ (0 <=? value);
  let text := long2bin_text (Z.to_nat size) value in
  let text := match e with LITTLE_ENDIAN => rev text | _ => text end in
  long2bin_groups (S (length text)) text [] classic_mode.

(** core/bits.py:232-248.  [value] is the list of code points of the string. *)
Definition str2bin (value : list Z) (classic_mode : bool) : list Z :=
  fold_left (fun text c =>
               (match text with [] => [] | _ => text ++ [space] end)
               ++ byte2bin c classic_mode) value [].

(** [int.from_bytes(data, "little")] *)
Definition from_bytes_little (data : list Z) : Z :=
  fold_right (fun b acc => b + 256 * acc) 0 data.
(** [int.from_bytes(data, "big")] *)
Definition from_bytes_big (data : list Z) : Z :=
  fold_left (fun acc b => acc * 256 + b) data 0.

(** core/bits.py:273-302 *)
Definition str2long (data : list Z) (e : endian) : res Z :=
  match e with
  | LITTLE_ENDIAN => Ok (from_bytes_little data)
  | BIG_ENDIAN => Ok (from_bytes_big data)
  | MIDDLE_ENDIAN => do d <- strswapmid data; Ok (from_bytes_big d)
  end.

(** Model of makePrintable and makeUnicode (hachoir/core/tools.py:250-354).
    A str is a list of code points.  Simplifications: the charset is one of
    ASCII, ISO-8859-1 and UTF-8; [quote] is one character; the encoded bytes
    are decoded again at the end, so they are represented by the characters they
    encode (in the three charsets a byte below 128 is the character of that code
    and belongs to no other character, so the substitution of bytes is the one
    of characters). *)
From Coq Require Import String.
From Verif Require Export Base DictModel Lit.

(** "%x" digits in lower case *)
Definition hexd (d : Z) : Z := if d <? 10 then 48 + d else 87 + d.
(** the n last hexadecimal digits: "%02x", "%04x", "%08x" *)
Fixpoint hexn (n : nat) (c : Z) : str := match n with O => [] | S n => hexn n (c / 16) ++ [hexd (c mod 16)] end.

(** tools.py:251-262: controlchars *)
Definition controlchar (code : Z) : str :=
  if code =? 10 then lit "\n" else if code =? 13 then lit "\r" else if code =? 9 then lit "\t"
  else if code =? 7 then lit "\a" else if code =? 8 then lit "\b" else lit "\x" ++ hexn 2 code.
(** tools.py:250: regex_control_code, and its substitution *)
Definition is_control (c : Z) : bool := (c <? 32) || (c =? 127).
Definition escape_controls (data : str) : str := flat_map (fun c => if is_control c then controlchar c else [c]) data.

Inductive charset := ASCII | LATIN1 | UTF8.
(** Python: which characters a charset encodes *)
Definition encodable (cs : charset) (c : Z) : bool :=
  match cs with ASCII => c <? 128 | LATIN1 => c <? 256 | UTF8 => negb ((0xD800 <=? c) && (c <? 0xE000)) end.
(** Python: the error handler "backslashreplace" *)
Definition backslashreplace (c : Z) : str :=
  if c <? 256 then lit "\x" ++ hexn 2 c else if c <? 65536 then lit "\u" ++ hexn 4 c else lit "\U" ++ hexn 8 c.
Definition encode (cs : charset) (data : str) : str := flat_map (fun c => if encodable cs c then [c] else backslashreplace c) data.

(** [re.sub(br"\\x0([0-7])(?=[^0-7]|$)", br"\\\1", data)] *)
Definition octal (c : Z) : bool := (48 <=? c) && (c <? 56).
Definition ends_octal (t : str) : bool := match t with c :: _ => negb (octal c) | [] => true end.
Fixpoint smart_sub (fuel : nat) (data : str) : str :=
  match fuel with
  | O => data
  | S fuel =>
      match data with
      | [] => []
      | c :: t =>
          match t with
          | x :: z :: d :: t' =>
              if (c =? 92) && (x =? 120) && (z =? 48) && octal d && ends_octal t' then 92 :: d :: smart_sub fuel t'
              else c :: smart_sub fuel t
          | _ => c :: smart_sub fuel t
          end
      end
  end.

(** tools.py:265-324: makePrintable; [is_bytes] says that [data] is a bytes
    object (read as ISO-8859-1). *)
Definition makePrintable (is_bytes : bool) (data : str) (cs : charset) (quote : option Z) (smart : bool) : str :=
  let '(data, cs) :=
    match data with
    | _ :: _ =>
        let cs := if is_bytes then ASCII else cs in
        let data := escape_controls data in
        let data :=
          match quote with
          | Some q =>
              let data := if (q =? 34) || (q =? 39) then flat_map (fun c => if c =? q then [92; q] else [c]) data else data in
              [q] ++ data ++ [q]
          | None => data
          end in
        (data, cs)
    | [] => (match quote with Some _ => lit "(empty)" | None => [] end, cs)
    end in
  let data := encode cs data in
  if smart then smart_sub (length data) data else data.

(** tools.py:327-354: makeUnicode of a str or a bytes object *)
Definition makeUnicode (text : str) : str :=
  let text := escape_controls text in smart_sub (length text) text.

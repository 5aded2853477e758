(** What a user expects of string fields, over plain byte strings. *)
From Verif Require Import Base BitsModel StreamSpec TextModel.

(** The text that starts at byte [s] is made of [n] characters of [length term]
    bytes, none of which is the terminator [term], and is followed by the
    terminator. *)
Definition terminated (data term : list Z) (s n : Z) : Prop :=
  let w := zlen term in
  0 <= n /\ s + w * n + w <= zlen data /\ sub data (s + w * n) w = term /\
  forall k, 0 <= k < n -> sub data (s + w * k) w <> term.

(** The bytes of the terminator also appear inside the text, across two of its
    characters. *)
Definition straddled (data term : list Z) (s n : Z) : Prop :=
  exists j, s <= j /\ j + zlen term <= s + zlen term * n /\ sub data j (zlen term) = term.

(** The encodings of Unicode: code points to bytes. *)
Definition unit_le (u : Z) : list Z := [u mod 256; u / 256].
Definition unit_be (u : Z) : list Z := [u / 256; u mod 256].
Definition utf16_units (c : Z) : list Z :=
  if c <? 0x10000 then [c] else [0xD800 + (c - 0x10000) / 1024; 0xDC00 + (c - 0x10000) mod 1024].
Definition utf8_char (c : Z) : list Z :=
  if c <? 0x80 then [c]
  else if c <? 0x800 then [0xC0 + c / 64; 0x80 + c mod 64]
  else if c <? 0x10000 then [0xE0 + c / 4096; 0x80 + c / 64 mod 64; 0x80 + c mod 64]
  else [0xF0 + c / 262144; 0x80 + c / 4096 mod 64; 0x80 + c / 64 mod 64; 0x80 + c mod 64].
Definition quad_le (c : Z) : list Z := [c mod 256; c / 256 mod 256; c / 65536 mod 256; c / 16777216].
Definition quad_be (c : Z) : list Z := [c / 16777216; c / 65536 mod 256; c / 256 mod 256; c mod 256].
Definition encode (cs : charset) (text : list Z) : list Z :=
  match cs with
  | UTF8 => flat_map utf8_char text
  | UTF16LE => flat_map unit_le (flat_map utf16_units text)
  | UTF16BE => flat_map unit_be (flat_map utf16_units text)
  | UTF32LE => flat_map quad_le text
  | UTF32BE => flat_map quad_be text
  | _ => text
  end.
(** A Unicode text, without surrogates. *)
Definition unicode (c : Z) : Prop := 0 <= c < 0x110000 /\ ~ 0xD800 <= c < 0xE000.

(** The result of removing the characters of [p] at both ends of a text. *)
Definition stripped (p : Z -> bool) (text r : list Z) : Prop :=
  exists before after, text = before ++ r ++ after /\ forallb p before = true /\ forallb p after = true /\
    (forall c t, r = c :: t -> p c = false) /\ (forall c t, r = t ++ [c] -> p c = false).

(** What Python's UTF-8 decoder accepts: the encodings of Unicode texts. *)
Definition utf8_codec (utf8_ok : list Z -> bool) : Prop :=
  forall data, utf8_ok data = true <-> exists text, Forall unicode text /\ data = encode UTF8 text.

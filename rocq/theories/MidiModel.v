(** Model of parser/audio/midi.py and of the names of notes of parser/common/tracker.py. *)
From Coq Require Import String.
From Verif Require Export Base BitsModel StreamModel DictModel FieldModel GenModel Lit.
Open Scope Z_scope.

(** midi.py:22-38: Integer: the value and the size; no number has more than 32 bits, so the loop has at most four turns *)
Fixpoint vlq (read : read_fun) (n : nat) (addr value size : Z) : res (Z * Z) :=
  match n with
  | O => Err OutOfFuel
  | S n =>
      do bits <- readBits read addr 8 BE;
      let value := Z.shiftl value 7 + Z.land bits 127 in
      if Z.land bits 128 =? 0 then Ok (value, size)
      else let size := size + 8 in if 32 <? size then Err ParserError else vlq read n (addr + 8) value size
  end.
Definition Integer : fkind := KCode (fun read a => vlq read 4 a 0 8).
Definition u8 (name : string) (k : prog) : prog := emit (lit name) (KNum 8 BE); k.
(** midi.py:41-91: the parsers of the data of commands *)
Definition parseNote : prog := u8 "note" (u8 "velocity" PRet).
Definition parseControl : prog := u8 "control" (u8 "value" PRet).
Definition parsePatch : prog := u8 "program" PRet.
Definition parseChannel : prog := u8 "channel" PRet.
Definition parsePitch : prog := u8 "bottom" (u8 "top" PRet).
Definition parseText (size : Z) : prog := emit (lit "text") (KText size); PRet.
Definition parseSMPTEOffset : prog :=
  emit (lit "padding") (KNum 1 BE); emit (lit "frame_rate") (KNum 2 BE); emit (lit "hour") (KNum 5 BE); u8 "minute" (u8 "second" (u8 "frame" (u8 "subframe" PRet))).
Definition parseTempo : prog := emit (lit "microsec_quarter") (KNum 24 BE); PRet.
Definition parseTimeSignature : prog := u8 "numerator" (u8 "denominator" (u8 "nb_tick" (u8 "nb_32nd_note" PRet))).
(** midi.py:95-113: COMMAND_PARSER *)
Definition command_parser (c : Z) : option prog :=
  match c / 16 with
  | 8 | 9 | 10 => Some parseNote
  | 11 => Some parseControl
  | 12 => Some parsePatch
  | 13 => Some parseChannel
  | 14 => Some parsePitch
  | _ => None
  end.
(** midi.py:115-133: META_COMMAND_PARSER *)
Definition meta_parser (m size : Z) : option prog :=
  if (1 <=? m) && (m <=? 7) then Some (parseText size)
  else if m =? 0x20 then Some parseChannel
  else if m =? 0x51 then Some parseTempo
  else if m =? 0x54 then Some parseSMPTEOffset
  else if m =? 0x58 then Some parseTimeSignature
  else None.
(** midi.py:144-176: createFields of Command.  [prev]: the command of the one before, if there is one. *)
Definition command_data (c : Z) : prog :=
  if c =? 0xff then
    have m := (lit "meta_command") (KNum 8 BE);
    have size := (lit "data_len") Integer;
    if num size =? 0 then PRet
    else match meta_parser (num m) (num size) with Some p => p | None => emit (lit "data") (KBytes (num size)); PRet end
  else match command_parser c with Some p => p | None => PErr ParserError end.
Definition Command_fields (prev : option Z) : prog :=
  emit (lit "time") Integer;
  look next := 0 (KNum 8 BE) false;
  if Z.land (num next) 0x80 =? 0 then match prev with None => PErr ParserError | Some c => command_data c end
  else have c := (lit "command") (KNum 8 BE); command_data (num c).
(** The command that a Command remembers *)
Definition command_of (prev : option Z) (l : list fld) : option Z := match get (lit "command") l with Some v => Some (num v) | None => prev end.
(** midi.py:185-202: Track *)
Definition Command (prev : option Z) (k : option Z -> prog) : prog := PSet (lit "command[]") None (Command_fields prev) (fun l => k (command_of prev l)).
Definition Track_fields : prog :=
  emit (lit "marker") (KText 4); emit (lit "size") (KNum 32 BE); PAsk (fun stop a => loop_from Command (S (Z.to_nat (stop - a))) None).
Definition Track (k : prog) : prog := look size := 32 (KNum 32 BE) true; PSet (lit "track[]") (Some ((8 + num size) * 8)) Track_fields (fun _ => k).
(** midi.py:214-226: Header; midi.py:253-257: createFields of MidiFile *)
Definition Header_fields : prog := emit (lit "size") (KNum 32 BE); emit (lit "file_format") (KNum 16 BE); emit (lit "nb_track") (KNum 16 BE); emit (lit "delta_time") (KNum 16 BE); PRet.
Definition midi_fields : prog :=
  emit (lit "signature") (KText 4); PSet (lit "header") (Some 80) Header_fields (fun _ => PAsk (fun stop a => loop Track (S (Z.to_nat (stop - a))))).
Definition MidiFile (read : read_fun) (size : Z) : shown := run read size midi_fields true size 0.
Fixpoint group (name : str) (l : list fld) : option (list fld) :=
  match l with [] => None | G n _ _ k _ :: l => if str_eqb n name then Some k else group name l | F _ _ _ _ :: l => group name l end.
Definition header_value (name : string) (l : list fld) : res Z :=
  match group (lit "header") l with Some h => match get (lit name) h with Some v => Ok (num v) | None => Err MissingField end | None => Err MissingField end.
(** midi.py:246-251: validate *)
Definition midi_validate (read : read_fun) (size : Z) : res bool :=
  do b <- readBytes read 0 4;
  if negb (str_eqb b (lit "MThd")) then Ok false
  else do s <- header_value "size" (fst (fst (MidiFile read size))); Ok (s =? 6).
(** midi.py:228-230, 259-260: descriptions of the header and of the file *)
Definition file_format_display (v : Z) : str :=
  match v with 0 => lit "Single track" | 1 => lit "Multiple tracks, synchronous" | 2 => lit "Multiple tracks, asynchronous" | _ => dec v end.
Definition midi_description (l : list fld) : res str :=
  do f <- header_value "file_format" l; do n <- header_value "nb_track" l; Ok (lit "MIDI audio: " ++ file_format_display f ++ lit "; " ++ dec n ++ lit " tracks").
(** midi.py:262-270: createContentSize; track[n] is the field number n with this name *)
Definition tracks (l : list fld) : list fld := filter (fun f => str_eqb (f_name f) (lit "track[]")) l.
Definition midi_content_size (read : read_fun) (size : Z) : res (option Z) :=
  let l := fst (fst (MidiFile read size)) in
  do n <- header_value "nb_track" l;
  if n - 1 <? 0 then Err MissingField
  else match nth_error (tracks l) (Z.to_nat (n - 1)) with
       | None => Err MissingField
       | Some f => do pos <- searchBytes read size [0xff; 0x2f; 0x00] (f_addr f) (Some (10 * 1024 * 1024 * 8));
                   Ok (match pos with Some p => Some (p + 3 * 8) | None => None end)
       end.
(** tracker.py:5-9: NOTE_NAME; a later assignment to a key of a dict replaces the one before *)
Definition NOTES : list string := ["C"; "C#"; "D"; "D#"; "E"; "F"; "F#"; "G"; "G#"; "G#"; "A"; "A#"; "B"]%string.
Definition NOTE_NAME : list (Z * str) :=
  flat_map (fun octave => map (fun '(index, note) => (Z.of_nat octave * 12 + Z.of_nat index, lit note ++ lit " (octave " ++ dec (Z.of_nat octave) ++ lit ")")) (combine (seq 0 (List.length NOTES)) NOTES)) (seq 0 10).
Definition note_display (v : Z) : str :=
  match find (fun kv => fst kv =? v) (rev NOTE_NAME) with Some kv => snd kv | None => dec v end.

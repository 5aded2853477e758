(** MIDI files, for the claims about their parser (Standard MIDI Files 1.0). *)
From Coq Require Import String.
From Verif Require Import Base BitsModel BitsSpec NumSpec DictModel FieldModel GenModel GenSpec ItemSpec ZipSpec Lit.
Open Scope Z_scope.

Definition be (n : nat) (name : string) (v : Z) : item := I (lit name) (SNum n BIG_ENDIAN v).
(** The [n] low bits of a number, highest first *)
Definition high (n : nat) (name : string) (v : Z) : str * list bool := (lit name, rev (low n v)).
Definition b7 (v : Z) : Prop := 0 <= v < 128.
Definition byte (v : Z) : Prop := 0 <= v < 2 ^ 8.
(** Numbers of variable length: one to four bytes, seven bits each, the last one less than 128 and the others not *)
Definition is_vlq (x : list Z) : Prop := exists init last, x = init ++ [last] /\ Forall (fun b => 128 <= b < 256) init /\ b7 last /\ zlen x <= 4.
Definition vlq_value (x : list Z) : Z := fold_left (fun v b => 128 * v + b mod 128) x 0.
Definition var (name : string) (x : list Z) : item := I (lit name) (SCode x (vlq_value x)).
(** Channel messages: the kind (8 to 14), the channel, and the data *)
Inductive message := Note (kind channel note velocity : Z) | Control (channel control value : Z) | Program (channel program : Z) | Touch (channel value : Z) | Pitch (channel bottom top : Z).
Definition status (m : message) : Z :=
  match m with Note k c _ _ => 16 * k + c | Control c _ _ => 16 * 11 + c | Program c _ => 16 * 12 + c | Touch c _ => 16 * 13 + c | Pitch c _ _ => 16 * 14 + c end.
Definition message_ok (m : message) : Prop :=
  match m with
  | Note k c n v => 8 <= k <= 10 /\ 0 <= c < 16 /\ b7 n /\ b7 v | Control c n v => 0 <= c < 16 /\ b7 n /\ b7 v
  | Program c p => 0 <= c < 16 /\ b7 p | Touch c v => 0 <= c < 16 /\ b7 v | Pitch c b t => 0 <= c < 16 /\ b7 b /\ b7 t
  end.
Definition message_items (m : message) : list item :=
  match m with
  | Note _ _ n v => [be 1 "note" n; be 1 "velocity" v] | Control _ n v => [be 1 "control" n; be 1 "value" v]
  | Program _ p => [be 1 "program" p] | Touch _ v => [be 1 "channel" v] | Pitch _ b t => [be 1 "bottom" b; be 1 "top" t]
  end.
(** Meta events: their type, and their data *)
Inductive meta :=
| Empty (type : Z)
| Text (type : Z) (x : list Z)
| Prefix (channel : Z)
| Tempo (microseconds : Z)
| Offset (padding rate hour minute second frame subframe : Z)
| Signature (numerator denominator ticks notes : Z)
| Data (type : Z) (x : list Z).
Definition meta_type (m : meta) : Z := match m with Empty t | Text t _ | Data t _ => t | Prefix _ => 0x20 | Tempo _ => 0x51 | Offset _ _ _ _ _ _ _ => 0x54 | Signature _ _ _ _ => 0x58 end.
Definition meta_items (m : meta) : list item :=
  match m with
  | Empty _ => []
  | Text _ x => [I (lit "text") (SText x)]
  | Prefix c => [be 1 "channel" c]
  | Tempo v => [be 3 "microsec_quarter" v]
  | Offset p r h mi s f sf => [IBits BIG_ENDIAN 1 [high 1 "padding" p; high 2 "frame_rate" r; high 5 "hour" h]; be 1 "minute" mi; be 1 "second" s; be 1 "frame" f; be 1 "subframe" sf]
  | Signature n d t q => [be 1 "numerator" n; be 1 "denominator" d; be 1 "nb_tick" t; be 1 "nb_32nd_note" q]
  | Data _ x => [I (lit "data") (SBytes x)]
  end.
Definition meta_ok (m : meta) : Prop :=
  match m with
  | Empty t => byte t
  | Text t x => 1 <= t <= 7 /\ 1 <= zlen x <= 0xffff
  | Prefix c => byte c
  | Tempo v => 0 <= v < 2 ^ 24
  | Offset p r h mi s f sf => 0 <= p < 2 /\ 0 <= r < 4 /\ 0 <= h < 32 /\ byte mi /\ byte s /\ byte f /\ byte sf
  | Signature n d t q => byte n /\ byte d /\ byte t /\ byte q
  | Data t x => byte t /\ ~ 1 <= t <= 7 /\ ~ In t [0x20; 0x51; 0x54; 0x58] /\ 1 <= zlen x < 2 ^ 28
  end.
(** Events: a time and a message, whose status may not be written when it is the one before, or a meta event with the length of its data *)
Inductive event := Message (time : list Z) (running : bool) (m : message) | Meta (time : list Z) (size : list Z) (m : meta).
Definition event_items (e : event) : list item :=
  match e with
  | Message t running m => var "time" t :: (if running then [] else [be 1 "command" (status m)]) ++ message_items m
  | Meta t n m => [var "time" t; be 1 "command" 0xff; be 1 "meta_command" (meta_type m); var "data_len" n] ++ meta_items m
  end.
Definition event_item (e : event) : item := ISet (lit "command[]") (event_items e).
(** The running status after an event: none after a meta event *)
Definition after_event (e : event) : option Z := match e with Message _ _ m => Some (status m) | Meta _ _ _ => None end.
Fixpoint events_ok (prev : option Z) (l : list event) : Prop :=
  match l with
  | [] => True
  | e :: l =>
      match e with
      | Message t running m => is_vlq t /\ message_ok m /\ (running = true -> prev = Some (status m))
      | Meta t n m => is_vlq t /\ is_vlq n /\ meta_ok m /\ vlq_value n = zlen (bytes_of_all (meta_items m))
      end /\ events_ok (after_event e) l
  end.
(** Tracks and files *)
Definition track_size (l : list event) : Z := zlen (bytes_of_all (map event_item l)).
Definition track_item (l : list event) : item := ISet (lit "track[]") ([I (lit "marker") (SText (lit "MTrk")); be 4 "size" (track_size l)] ++ map event_item l).
Definition track_ok (l : list event) : Prop := events_ok None l /\ track_size l < 2 ^ 32.
Record midi := Midi { m_format : Z; m_count : Z; m_division : Z; m_tracks : list (list event) }.
Definition start_items (m : midi) : list item :=
  [I (lit "signature") (SText (lit "MThd")); ISet (lit "header") [be 4 "size" 6; be 2 "file_format" (m_format m); be 2 "nb_track" (m_count m); be 2 "delta_time" (m_division m)]].
Definition midi_items (m : midi) : list item := start_items m ++ map track_item (m_tracks m).
Definition midi_ok (m : midi) : Prop := 0 <= m_format m < 2 ^ 16 /\ 0 <= m_count m < 2 ^ 16 /\ 0 <= m_division m < 2 ^ 16 /\ Forall track_ok (m_tracks m).

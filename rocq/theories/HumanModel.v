(** Model of the formatting helpers and timestamps of hachoir/core/tools.py.
    Simplifications: numbers are non-negative integers (the floats the functions
    also accept are not modelled); "%u" of a non-negative number is [dec]; the
    repr of a float (last line of humanFrequency) is not modelled. *)
From Coq Require Import String.
From Verif Require Export Base DictModel BitsModel FieldModel FloatModel Lit.

(** ["%.nf" % x] for n = 1, 2 *)
Definition format_f1 (x : Z * Z) : str :=
  let t := fdigits 1 x in dec (t / 10) ++ lit "." ++ dec (t mod 10).
Definition format_f2 (x : Z * Z) : str :=
  let t := fdigits 2 x in dec (t / 100) ++ lit "." ++ dec (t / 10 mod 10) ++ dec (t mod 10).

(** The loop shared by humanFilesize, humanBitSize and humanFrequency
    (tools.py:182-186, 207-211, 244-248): [last] is the unit of the last turn. *)
Fixpoint human_units (divisor : Z) (units : list str) (last : str) (size : Z * Z) : str :=
  match units with
  | [] => dec (ftrunc size) ++ lit " " ++ last
  | unit :: units =>
      let size := fdiv size divisor in
      if flt size divisor then format_f1 size ++ lit " " ++ unit else human_units divisor units unit size
  end.
(** tools.py:164-186: humanFilesize *)
Definition humanFilesize (size : Z) : res str :=
  if size <? 10000 then Ok (dec size ++ lit " bytes")
  else
    do f <- py_float size;
    Ok (human_units 1024 [lit "KB"; lit "MB"; lit "GB"; lit "TB"] [] f).
(** tools.py:189-211: humanBitSize *)
Definition humanBitSize (size : Z) : res str :=
  let divisor := 1000 in
  if size <? divisor then Ok (dec size ++ lit " bits")
  else
    do f <- py_float size;
    Ok (human_units divisor [lit "Kbit"; lit "Mbit"; lit "Gbit"; lit "Tbit"] [] f).
(** tools.py:214-224: humanBitRate *)
Definition humanBitRate (size : Z) : res str := do t <- humanBitSize size; Ok (t ++ lit "/sec").

(** Python's timedelta: a number of microseconds; OverflowError beyond
    999999999 days. *)
Definition us_per_day := 86400000000.
Definition timedelta (us : Z) : res Z :=
  if (- 999999999 <=? us / us_per_day) && (us / us_per_day <=? 999999999) then Ok us else Err OtherError.
Definition td_days (us : Z) : Z := us / us_per_day.
Definition td_seconds (us : Z) : Z := us mod us_per_day / 1000000.
Definition td_microseconds (us : Z) : Z := us mod 1000000.

(** tools.py:119-161: humanDuration of a number of milliseconds.  [text] is
    kept in the order of the code (smallest unit first). *)
Definition humanDuration (delta : Z) : res str :=
  do delta <- timedelta (delta * 1000);
  let text := if 1000 <=? td_microseconds delta then [dec (td_microseconds delta / 1000) ++ lit " ms"] else [] in
  let '(minutes, seconds) := (td_seconds delta / 60, td_seconds delta mod 60) in
  let '(hours, minutes) := (minutes / 60, minutes mod 60) in
  let text := if negb (seconds =? 0) then text ++ [dec seconds ++ lit " sec"] else text in
  let text := if negb (minutes =? 0) then text ++ [dec minutes ++ lit " min"] else text in
  let text := if negb (hours =? 0) then text ++ [dec hours ++ lit " hours"] else text in
  let '(years, days) := (td_days delta / 365, td_days delta mod 365) in
  let text := if negb (days =? 0) then text ++ [dec days ++ lit " days"] else text in
  let text := if negb (years =? 0) then text ++ [dec years ++ lit " years"] else text in
  if 3 <? zlen text then Ok (join (lit " ") (rev (py_from text (-3))))
  else match text with [] => Ok (lit "0 ms") | _ => Ok (join (lit " ") (rev text)) end.

(** tools.py:94-116: humanDurationNanosec *)
Definition humanDurationNanosec (nsec : Z) : res str :=
  if nsec <? 1000 then Ok (dec nsec ++ lit " nsec")
  else
    let '(usec, nsec) := (nsec / 1000, nsec mod 1000) in
    if usec <? 1000 then Ok (format_f2 (fadd (fl usec 1) (fdiv (fl nsec 1) 1000)) ++ lit " usec")
    else
      let '(msec, usec) := (usec / 1000, usec mod 1000) in
      if msec <? 1000 then Ok (format_f2 (fadd (fl msec 1) (fdiv (fl usec 1) 1000)) ++ lit " ms")
      else humanDuration msec.

(** ** Unix modes *)
(** Python's stat.S_IFMT and the S_IF* and S_IS* constants, in hexadecimal *)
Definition s_ifmt (mode : Z) : Z := Z.land mode 0xF000.
(** tools.py:406-421: _ftypelet *)
Definition ftypelet (mode : Z) : Z :=
  if (s_ifmt mode =? 0x8000) || (s_ifmt mode =? 0) then 45        (* '-' *)
  else if s_ifmt mode =? 0x6000 then 98                           (* 'b' *)
  else if s_ifmt mode =? 0x2000 then 99                           (* 'c' *)
  else if s_ifmt mode =? 0x4000 then 100                          (* 'd' *)
  else if s_ifmt mode =? 0x1000 then 112                          (* 'p' *)
  else if s_ifmt mode =? 0xA000 then 108                          (* 'l' *)
  else if s_ifmt mode =? 0xC000 then 115                          (* 's' *)
  else 63.                                                          (* '?' *)
(** [chars[i] = c] *)
Fixpoint set_char (chars : str) (i : nat) (c : Z) : str :=
  match chars, i with
  | _ :: t, O => c :: t
  | x :: t, S i => x :: set_char t i c
  | [], _ => []
  end.
(** "%o" *)
Fixpoint oct_loop (fuel : nat) (n : Z) (acc : str) : str :=
  match fuel with
  | O => acc
  | S fuel => if n <? 8 then (48 + n) :: acc else oct_loop fuel (n / 8) ((48 + n mod 8) :: acc)
  end.
Definition oct (n : Z) : str := oct_loop (S (Z.to_nat (Z.log2 n))) n [].
(** tools.py:438-455: the characters of humanUnixAttributes *)
Definition mode_chars (mode : Z) : str :=
  let chars := ftypelet mode :: lit "rwxrwxrwx" in
  let chars := fold_left (fun chars i => if Z.land mode (Z.shiftl 1 (9 - Z.of_nat i)) =? 0 then set_char chars i 45 else chars)
                 [1; 2; 3; 4; 5; 6; 7; 8; 9]%nat chars in
  let chars := if negb (Z.land mode 0x800 =? 0) then
                 if negb (nth 3 chars 0 =? 120) then set_char chars 3 83 else set_char chars 3 115 else chars in
  let chars := if negb (Z.land mode 0x400 =? 0) then
                 if negb (nth 6 chars 0 =? 120) then set_char chars 6 83 else set_char chars 6 115 else chars in
  if negb (Z.land mode 0x200 =? 0) then
    if negb (nth 9 chars 0 =? 120) then set_char chars 9 84 else set_char chars 9 116 else chars.
(** tools.py:424-456: humanUnixAttributes *)
Definition humanUnixAttributes (mode : Z) : str :=
  mode_chars mode ++ lit " (" ++ oct mode ++ lit ")".

(** ** Newlines *)
(** [text.replace("\r\n", "\n")] *)
Fixpoint replace_crlf (text : str) : str :=
  match text with
  | [] => []
  | c :: t =>
      if c =? 13 then
        match t with
        | d :: t' => if d =? 10 then 10 :: replace_crlf t' else c :: replace_crlf t
        | [] => [c]
        end
      else c :: replace_crlf t
  end.
(** [text.replace("\r", "\n")] *)
Definition replace_cr (text : str) : str := map (fun c => if c =? 13 then 10 else c) text.
(** [re.compile("\n+").sub("\n", text)]: [in_run] is set inside a match *)
Fixpoint squeeze (in_run : bool) (text : str) : str :=
  match text with
  | [] => []
  | c :: t => if c =? 10 then (if in_run then squeeze true t else 10 :: squeeze true t) else c :: squeeze false t
  end.
(** tools.py:625-639: normalizeNewline *)
Definition normalizeNewline (text : str) : str := squeeze false (replace_cr (replace_crlf text)).

(** ** Timestamps *)
(** Days from 0001-01-01 to the first of January of a year, and the microsecond
    count of midnight on a date: Python's datetime(y, m, d) is the number of
    microseconds since 0001-01-01. *)
Definition days_before_year (y : Z) : Z := let y := y - 1 in y * 365 + y / 4 - y / 100 + y / 400.
Definition is_leap (y : Z) : bool := (y mod 4 =? 0) && (negb (y mod 100 =? 0) || (y mod 400 =? 0)).
Definition month_days (y m : Z) : Z :=
  if m =? 2 then (if is_leap y then 29 else 28)
  else if (m =? 4) || (m =? 6) || (m =? 9) || (m =? 11) then 30 else 31.
Fixpoint days_before_month (y : Z) (m : nat) : Z :=
  match m with O | 1%nat => 0 | S m => days_before_month y m + month_days y (Z.of_nat m) end.
Definition datetime (y m d : Z) : Z := (days_before_year y + days_before_month y (Z.to_nat m) + (d - 1)) * us_per_day.
(** datetime + timedelta: OverflowError outside years 1..9999. *)
Definition dt_add (t us : Z) : res Z :=
  let r := t + us in if (0 <=? r) && (r <? days_before_year 10000 * us_per_day) then Ok r else Err OtherError.

(** tools.py:474, 502, 557, 580: the epochs *)
Definition UNIX_TIMESTAMP_T0 := datetime 1970 1 1.
Definition MAC_TIMESTAMP_T0 := datetime 1904 1 1.
Definition WIN64_TIMESTAMP_T0 := datetime 1601 1 1.
Definition UUID60_TIMESTAMP_T0 := datetime 1582 10 15.

(** tools.py:477-499: timestampUNIX *)
Definition timestampUNIX (value : Z) : res Z :=
  if negb ((0 <=? value) && (value <=? 2147483647)) then Err ValueError
  else do d <- timedelta (value * 1000000); dt_add UNIX_TIMESTAMP_T0 d.
(** tools.py:505-519: timestampMac32; [None] is the text "invalid Mac
    timestamp", which is returned and not raised. *)
Definition timestampMac32 (value : Z) : res (option Z) :=
  if negb ((0 <=? value) && (value <=? 4294967295)) then Ok None
  else do d <- timedelta (value * 1000000); do t <- dt_add MAC_TIMESTAMP_T0 d; Ok (Some t).
(** [timedelta(microseconds=x)] of the float x = value / 10: rounded to the
    nearest microsecond, ties to even. *)
Definition timedelta_tenths (value : Z) : res Z :=
  if 2 ^ 1024 <=? value / 10 then Err OtherError else timedelta (fround (fl value 10)).
(** tools.py:522-536: durationWin64 *)
Definition durationWin64 (value : Z) : res Z :=
  if value <? 0 then Err ValueError else timedelta_tenths value.
(** tools.py:539-553: durationMillisWin64 *)
Definition durationMillisWin64 (value : Z) : res Z :=
  if value <? 0 then Err ValueError else timedelta (value * 1000).
(** [try: ... except OverflowError: raise ValueError] *)
Definition overflow_to_value {A} (r : res A) : res A := match r with Err OtherError => Err ValueError | r => r end.
(** tools.py:560-577: timestampWin64 *)
Definition timestampWin64 (value : Z) : res Z :=
  overflow_to_value (do d <- durationWin64 value; dt_add WIN64_TIMESTAMP_T0 d).
(** tools.py:583-601: timestampUUID60 *)
Definition timestampUUID60 (value : Z) : res Z :=
  if value <? 0 then Err ValueError
  else overflow_to_value (do d <- timedelta_tenths value; dt_add UUID60_TIMESTAMP_T0 d).

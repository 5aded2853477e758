(** What a user expects of the texts of hachoir/core/tools.py. *)
From Coq Require Import String.
From Verif Require Import Base DictModel BitsModel FieldModel Lit.

(** One decimal: the text of t/10. *)
Definition tenths (t : Z) : str := dec (t / 10) ++ lit "." ++ dec (t mod 10).
Definition hundredths (t : Z) : str := dec (t / 100) ++ lit "." ++ dec (t / 10 mod 10) ++ dec (t mod 10).

(** A size with a unit of [base]^k: the printed number is within half of its
    last digit of the size. *)
Definition size_text (base : Z) (units : list str) (n k : Z) (text : str) : Prop :=
  exists unit t, nth_error units (Z.to_nat (k - 1)) = Some unit /\ text = tenths t ++ lit " " ++ unit /\
    2 * Z.abs (t * base ^ k - 10 * n) <= base ^ k.

(** A duration: amounts of decreasing units, given in milliseconds. *)
Definition duration_units : list (Z * str) :=
  [(31536000000, lit "years"); (86400000, lit "days"); (3600000, lit "hours"); (60000, lit "min"); (1000, lit "sec"); (1, lit "ms")].
Definition part_text (p : Z * (Z * str)) : str := dec (fst p) ++ lit " " ++ snd (snd p).
Definition total (parts : list (Z * (Z * str))) : Z := fold_right (fun p s => fst p * fst (snd p) + s) 0 parts.
(** The units of the parts are units of the list, in its order. *)
Inductive in_order {A} : list A -> list A -> Prop :=
| io_nil l : in_order [] l
| io_skip s x l : in_order s l -> in_order s (x :: l)
| io_take s x l : in_order s l -> in_order (x :: s) (x :: l).
(** Each unit is the largest that fits and its amount too: what remains after
    it is less than the unit. *)
Fixpoint greedy (delta : Z) (parts : list (Z * (Z * str))) : Prop :=
  match parts with
  | [] => True
  | (count, (unit, _)) :: parts =>
      (forall u, In u duration_units -> fst u <= delta -> fst u <= unit) /\
      1 <= count /\ 0 <= delta - count * unit < unit /\ greedy (delta - count * unit) parts
  end.

(** The letters of a mode: [r], [w] and the letter of the execution bit, which
    also shows a special bit [s] with the letters [both] and [alone]. *)
Definition letter (b : bool) (c : Z) : Z := if b then c else 45.
Definition exec_letter (x s : bool) (both alone : Z) : Z := if s then (if x then both else alone) else letter x 120.
Definition mode_spec (type : Z) (mode : Z) : str :=
  let b := Z.testbit mode in
  [type; letter (b 8) 114; letter (b 7) 119; exec_letter (b 6) (b 11) 115 83;
   letter (b 5) 114; letter (b 4) 119; exec_letter (b 3) (b 10) 115 83;
   letter (b 2) 114; letter (b 1) 119; exec_letter (b 0) (b 9) 116 84].
(** The type letters of stat(2): type field of the mode (bits 12 to 15). *)
Definition type_letters : list (Z * Z) := [(8, 45); (0, 45); (6, 98); (2, 99); (4, 100); (1, 112); (10, 108); (12, 115)].
(** Reading an octal number back. *)
Fixpoint unoct (acc : Z) (l : str) : Z := match l with [] => acc | d :: l => unoct (8 * acc + (d - 48)) l end.

(** Each maximal run of carriage returns and line feeds becomes one line feed. *)
Definition newline (c : Z) : Prop := c = 10 \/ c = 13.
Inductive unix_newlines : str -> str -> Prop :=
| un_nil : unix_newlines [] []
| un_char c t r : ~ newline c -> unix_newlines t r -> unix_newlines (c :: t) (c :: r)
| un_run run t r : run <> [] -> Forall newline run -> (forall c u, t = c :: u -> ~ newline c) ->
    unix_newlines t r -> unix_newlines (run ++ t) (10 :: r).

(** A moment is a number of microseconds since 0001-01-01 00:00 (proleptic
    Gregorian calendar); [day n] is midnight n days later.  1970-01-01 is day
    719162, 1904-01-01 is 695055, 1601-01-01 is 584388, 1582-10-15 is 577735 and
    the day after 9999-12-31 is 3652059. *)
Definition day (n : Z) : Z := 86400000000 * n.
(** A timestamp that counts tenths of microseconds since [epoch]:
    the outcome is a date or ValueError; a date is before the year 10000 and
    differs from epoch + v/10 by at most half a microsecond plus (v/10) 2^-53,
    hence is a nearest microsecond for v < 2^53; negative values and those of the
    year 10000 and later are refused, those more than [slack] tenths before it
    are accepted; the order of timestamps is kept. *)
Definition slack := 300.
Definition tenth_us_timestamp (epoch : Z) (f : Z -> res Z) : Prop :=
  (forall v, (exists t, f v = Ok t) \/ f v = Err ValueError) /\
  (forall v t, f v = Ok t -> 0 <= v /\ epoch <= t < day 3652059 /\
     2 ^ 53 * (Z.abs (10 * (t - epoch) - v) - 5) <= v /\
     (v < 2 ^ 53 -> Z.abs (10 * (t - epoch) - v) <= 5)) /\
  (forall v, (v < 0 \/ 10 * (day 3652059 - epoch) <= v -> f v = Err ValueError) /\
             (0 <= v < 10 * (day 3652059 - epoch) - slack -> exists t, f v = Ok t)) /\
  (forall v w t u, v <= w -> f v = Ok t -> f w = Ok u -> t <= u).

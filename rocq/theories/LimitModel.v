(** Model of limitedTime (core/timeout.py, the signal.alarm implementation) and of
    limitedMemory (core/memory.py, the resource implementation). *)
From Verif Require Export Base.

(** What a Python function does: it gives a value or raises *)
Inductive outcome (A : Type) := Returns (a : A) | Raises (e : exn).
Arguments Returns {A} a. Arguments Raises {A} e.

(** ** Time *)
(** The handler of SIGALRM and the seconds before the pending alarm *)
Inductive handler := TimeoutHandler | OtherHandler (n : Z).
Record sigstate := { sig_handler : handler; sig_alarm : option Z }.
(** An int, a float whose ceiling is an int, another object *)
Inductive number := NInt (n : Z) | NFloat (ceiling : Z) | NOther.
(** timeout.py:31-38: fixTimeout *)
Definition fixTimeout (s : number) : outcome Z :=
  match s with NInt n => Returns (Z.max n 1) | NFloat n => Returns (Z.max n 1) | NOther => Raises AssertionError end.
(** timeout.py:46-54. signal() refuses to work out of the main thread, before
    anything is changed; alarm() refuses a number that is not a C int.
    [func] is any function: it may change the signal state. *)
Definition limitedTime {A} (main_thread : bool) (s : number) (func : sigstate -> sigstate * outcome A) (st : sigstate) : sigstate * outcome A :=
  match fixTimeout s with
  | Raises e => (st, Raises e)
  | Returns second =>
      if negb main_thread then (st, Raises ValueError)
      else
        let old_alarm := sig_handler st in
        let st := {| sig_handler := TimeoutHandler; sig_alarm := sig_alarm st |} in
        let (st, o) :=
          if second <? 2 ^ 31 then func {| sig_handler := sig_handler st; sig_alarm := Some second |}
          else (st, Raises OtherError) in
        let st := {| sig_handler := sig_handler st; sig_alarm := None |} in
        ({| sig_handler := old_alarm; sig_alarm := sig_alarm st |}, o)
  end.

(** ** Memory *)
(** RLIMIT_AS: soft and hard limits in bytes, as Python shows them (-1: no limit) *)
Record rlimits := { soft : Z; hard : Z }.
Definition unsigned (n : Z) : Z := n mod 2 ^ 64.
(** resource.setrlimit: ValueError for a soft limit above the hard one, and for
    a larger hard limit without the privilege; OverflowError above 2^63-1 *)
Definition setrlimit (priv : bool) (s h : Z) (st : rlimits) : res rlimits :=
  if (2 ^ 63 <=? s) || (s <? - 2 ^ 63) then Err OtherError
  else if unsigned h <? unsigned s then Err ValueError
  else if (unsigned (hard st) <? unsigned h) && negb priv then Err ValueError
  else Ok {| soft := s; hard := h |}.
(** memory.py:53-60: getMemoryLimit *)
Definition getMemoryLimit (page : Z) (st : rlimits) : Z := if 0 <? soft st then soft st * page else soft st.
(** memory.py:62-69: setMemoryLimit, with a number *)
Definition setMemoryLimit (priv : bool) (max_mem : Z) (st : rlimits) : res (bool * rlimits) :=
  match setrlimit priv max_mem (-1) st with
  | Ok st => Ok (true, st)
  | Err ValueError => Ok (false, st)
  | Err e => Err e
  end.
(** memory.py:74-104: limitedMemory; [rss]: getMemorySize() *)
Definition limitedMemory {A} (page : Z) (priv : bool) (rss : option Z) (limit : Z) (func : rlimits -> rlimits * outcome A) (st : rlimits) : rlimits * outcome A :=
  let setup :=
    match rss with
    | None => Ok (None, st)
    | Some m =>
        let old_limit := getMemoryLimit page st in
        do r <- setMemoryLimit priv (m + limit) st;
        Ok (if fst r then Some old_limit else None, snd r)
    end in
  match setup with
  | Err e => (st, Raises e)
  | Ok (limited, st) =>
      let (st, o) := func st in
      match limited with
      | None => (st, o)
      | Some old_limit =>
          match setMemoryLimit priv old_limit st with
          | Ok (_, st) => (st, o)
          | Err e => (st, Raises e)
          end
      end
  end.

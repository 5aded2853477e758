(** What regexes denote.  A denotation is a set of pairs of positions (i, j) of
    a text: the part from i to j matches.  The zero-width tests, the characters
    "." stands for and the text are parameters. *)
From Verif Require Import Base DictModel RegexModel.

Definition span := nat -> nat -> Prop.
Definition s_empty : span := fun i j => i = j.
Definition s_seq (R S : span) : span := fun i j => exists k, R i k /\ S k j.
Definition s_alt (R S : span) : span := fun i j => R i j \/ S i j.
Fixpoint s_power (n : nat) (R : span) : span := match n with O => s_empty | S n => s_seq R (s_power n R) end.
Definition s_repeat (R : span) (lo : Z) (hi : option Z) : span :=
  fun i j => exists n, lo <= Z.of_nat n /\ (match hi with Some h => Z.of_nat n <= h | None => True end) /\ s_power n R i j.
Definition same (R S : span) : Prop := forall i j, R i j <-> S i j.

(** The zero-width tests and the dot of an engine, for one text. *)
Record engine := { text : str; at_word : nat -> Prop; at_start : nat -> Prop; at_end : nat -> Prop; dot : Z -> Prop }.
Definition s_char (e : engine) (P : Z -> Prop) : span := fun i j => exists c, nth_error (text e) i = Some c /\ P c /\ j = S i.
Definition s_test (P : nat -> Prop) : span := fun i j => i = j /\ P i.
Definition s_string (e : engine) (t : str) : span := fun i j => j = (i + length t)%nat /\ firstn (length t) (skipn i (text e)) = t.
Definition in_ranges (l : list item) (c : Z) : Prop := exists i, In i l /\ cmin i <= c <= cmax i.

(** The denotation of a regex object: that of the text str(regex) in an engine. *)
Section Denote.
Context (e : engine).
Fixpoint denote (r : regex) : span :=
  match r with
  | REmpty => s_empty
  | RWord => s_test (at_word e)
  | RStart => s_test (at_start e)
  | REnd => s_test (at_end e)
  | RDot => s_char e (dot e)
  | RString t => s_string e t
  | RRange l ex => s_char e (fun c => if ex then ~ in_ranges l c else in_ranges l c)
  | RAnd l => fold_right (fun r S => s_seq (denote r) S) s_empty l
  | ROr l => fold_right (fun r S => s_alt (denote r) S) (fun _ _ => False) l
  | RRepeat r lo hi => s_repeat (denote r) lo hi
  end.
End Denote.

(** How a user builds a regex, and what they mean by it. *)
Inductive expr :=
| XString (t : str) | XRange (chars : str) | XDot | XStart | XEnd | XWord
| XAnd (a b : expr) | XOr (a b : expr) | XRepeat (a : expr) (lo : Z) (hi : option Z).
Fixpoint meaning (e : engine) (x : expr) : span :=
  match x with
  | XString t => s_string e t
  | XRange chars => s_char e (fun c => In c chars)
  | XDot => s_char e (dot e)
  | XStart => s_test (at_start e)
  | XEnd => s_test (at_end e)
  | XWord => s_test (at_word e)
  | XAnd a b => s_seq (meaning e a) (meaning e b)
  | XOr a b => s_alt (meaning e a) (meaning e b)
  | XRepeat a lo hi => s_repeat (meaning e a) lo hi
  end.
(** The operations of the module. *)
Fixpoint build (same_items : list item -> list item -> bool) (x : expr) : res regex :=
  match x with
  | XString t => Ok (createString t)
  | XRange chars => Ok (createRange chars false)
  | XDot => Ok RDot
  | XStart => Ok RStart
  | XEnd => Ok REnd
  | XWord => Ok RWord
  | XAnd a b => do a' <- build same_items a; do b' <- build same_items b; Ok (and_ a' b')
  | XOr a b => do a' <- build same_items a; do b' <- build same_items b; bar same_items a' b'
  | XRepeat a lo hi => do a' <- build same_items a; mk_repeat same_items a' lo hi
  end.

(** Expressions the module accepts: ranges of at least one character, and
    repetition counts lo <= hi with 1 <= hi. *)
Definition bounds_ok (lo : Z) (hi : option Z) : Prop := 0 <= lo /\ match hi with Some h => lo <= h /\ 1 <= h | None => True end.
Fixpoint proper (x : expr) : Prop :=
  match x with
  | XRange chars => chars <> []
  | XAnd a b | XOr a b => proper a /\ proper b
  | XRepeat a lo hi => proper a /\ bounds_ok lo hi
  | _ => True
  end.
Fixpoint no_repeat (x : expr) : Prop :=
  match x with XAnd a b | XOr a b => no_repeat a /\ no_repeat b | XRepeat _ _ _ => False | _ => True end.
(** The operands for which the simplifications of RegexRepeat are exact.
    A repetition {n,p} repeated {lo,hi} becomes {n*lo,p*hi}: that is exact when
    the intervals [k*n, k*p] for k in [lo,hi] leave no gap. An alternative
    (a{n,}|b){lo,} becomes (a{n}|b){lo,}, which is exact when n <= 1. *)
Definition gapless (n : Z) (p : option Z) (lo : Z) (hi : option Z) : Prop :=
  n <= 1 \/ hi = Some lo \/ match p with None => 1 <= lo | Some p => (lo + 1) * n <= lo * p + 1 end.
Definition repeat_ok (r : regex) (lo : Z) (hi : option Z) : Prop :=
  match r with
  | RRepeat _ n p => (lo = 0 /\ hi = Some 1) \/ gapless n p lo hi
  | ROr l => hi = None -> forall q n, In (RRepeat q n None) l -> n <= 1
  | _ => True
  end.
Fixpoint exact_repeats (same_items : list item -> list item -> bool) (x : expr) : Prop :=
  match x with
  | XAnd a b | XOr a b => exact_repeats same_items a /\ exact_repeats same_items b
  | XRepeat a lo hi => exact_repeats same_items a /\ forall r, build same_items a = Ok r -> repeat_ok r lo hi
  | _ => True
  end.

(** Objects the constructors accept (RegexAnd and RegexOr have items, RegexRepeat
    has bounds); [literal] objects have no zero-width test and no excluded range. *)
Fixpoint well_built (r : regex) : Prop :=
  match r with
  | RAnd l | ROr l => l <> [] /\ (fix all (l : list regex) : Prop := match l with [] => True | x :: l => well_built x /\ all l end) l
  | RRepeat r lo hi => well_built r /\ bounds_ok lo hi
  | _ => True
  end.
Fixpoint literal (r : regex) : Prop :=
  match r with
  | RWord | RStart | REnd => False
  | RRange l ex => ex = false /\ exists c, in_ranges l c
  | RAnd l | ROr l => (fix all (l : list regex) : Prop := match l with [] => True | x :: l => literal x /\ all l end) l
  | RRepeat r _ _ => literal r
  | _ => True
  end.
(** The text [t] is matched wherever it occurs, if "." matches its characters. *)
Definition matched_everywhere (r : regex) (t : str) : Prop :=
  forall e pre post, text e = pre ++ t ++ post -> (forall c, dot e c) -> denote e r (length pre) (length pre + length t)%nat.

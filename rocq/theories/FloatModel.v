(** Python's non-negative finite floats (IEEE 754 doubles) as exact fractions
    (numerator, denominator > 0), and the rounding of its operations.  This is
    vocabulary of Python, not code of hachoir.  Simplification: magnitudes
    below the smallest normal number do not occur; numbers too large are
    handled by the callers. *)
From Verif Require Export Base.

(** The integer nearest to p/q, ties to even. *)
Definition rhe (p q : Z) : Z :=
  let n := p / q in
  let r := p mod q in
  if 2 * r <? q then n else if q <? 2 * r then n + 1 else if Z.even n then n else n + 1.

(** [2^k <= p/q] *)
Definition pow_le (k p q : Z) : bool := if 0 <=? k then q * 2 ^ k <=? p else q <=? p * 2 ^ (- k).
(** The exponent k of p/q: 2^k <= p/q < 2^(k+1). *)
Definition flog2 (p q : Z) : Z :=
  let k := Z.log2 p - Z.log2 q in
  if pow_le k p q then k else k - 1.

(** The double nearest to p/q (53 bits, ties to even): what [float(p)], [p / q]
    and the operations on floats return. *)
Definition fl (p q : Z) : Z * Z :=
  if p =? 0 then (0, 1)
  else
    let e := flog2 p q - 52 in
    if 0 <=? e then (rhe p (q * 2 ^ e) * 2 ^ e, 1) else (rhe (p * 2 ^ (- e)) q, 2 ^ (- e)).

(** [float(n)] of a non-negative integer; OverflowError when it is too large. *)
Definition py_float (n : Z) : res (Z * Z) :=
  if 2 ^ 1024 - 2 ^ 970 <=? n then Err OtherError else Ok (fl n 1).
(** [x / d] for a float x and an integer d *)
Definition fdiv (x : Z * Z) (d : Z) : Z * Z := fl (fst x) (snd x * d).
(** [x + y] *)
Definition fadd (x y : Z * Z) : Z * Z := fl (fst x * snd y + fst y * snd x) (snd x * snd y).
(** [x < d] *)
Definition flt (x : Z * Z) (d : Z) : bool := fst x <? d * snd x.
(** [int(x)] *)
Definition ftrunc (x : Z * Z) : Z := fst x / snd x.
(** [round(x)]: nearest integer, ties to even *)
Definition fround (x : Z * Z) : Z := rhe (fst x) (snd x).
(** The digits of ["%.nf" % x]: the nearest multiple of 10^-n, ties to even, times 10^n. *)
Definition fdigits (n : Z) (x : Z * Z) : Z := rhe (10 ^ n * fst x) (snd x).

(** Model of the arithmetic and search helpers of hachoir/core/tools.py. *)
From Verif Require Export Base.

(** core/tools.py:41-57.  [align = 0] raises ZeroDivisionError in Python; the
    model is only used with [align > 0]. *)
Definition paddingSize (value align : Z) : Z :=
  if negb (value mod align =? 0) then align - value mod align else 0.

(** core/tools.py:60-77 *)
Definition alignValue (value align : Z) : Z :=
  if negb (value mod align =? 0) then value + align - value mod align else value.

(** core/tools.py:379-388: loop of binarySearch.  [seq[index]] out of range
    would raise IndexError. *)
Fixpoint binarySearch_loop {A} (fuel : nat) (seq : list A) (cmp_func : A -> Z)
         (lower upper : Z) : res (option Z) :=
  match fuel with
  | O => Err OutOfFuel
  | S f =>
      if lower <? upper then
        let index := Z.shiftr (lower + upper) 1 in
        do x <- py_nth seq index;
        let diff := cmp_func x in
        if diff <? 0 then binarySearch_loop f seq cmp_func lower index
        else if 0 <? diff then binarySearch_loop f seq cmp_func (index + 1) upper
        else Ok (Some index)
      else Ok None
  end.
(** core/tools.py:357-388 *)
Definition binarySearch {A} (seq : list A) (cmp_func : A -> Z) : res (option Z) :=
  binarySearch_loop (S (length seq)) seq cmp_func 0 (zlen seq).

(** core/tools.py:394-403: loop of lowerBound *)
Fixpoint lowerBound_loop {A} (fuel : nat) (seq : list A) (cmp_func : A -> bool)
         (f seqlen : Z) : res Z :=
  match fuel with
  | O => Err OutOfFuel
  | S n =>
      if 0 <? seqlen then
        let h := Z.shiftr seqlen 1 in
        let m := f + h in
        do x <- py_nth seq m;
        if cmp_func x then lowerBound_loop n seq cmp_func (m + 1) (seqlen - (h + 1))
        else lowerBound_loop n seq cmp_func f h
      else Ok f
  end.
(** core/tools.py:391-403 *)
Definition lowerBound {A} (seq : list A) (cmp_func : A -> bool) : res Z :=
  lowerBound_loop (S (length seq)) seq cmp_func 0 (zlen seq).

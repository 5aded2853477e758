(** LZW as GIF uses it, from the side of the writer. *)
From Coq Require Import String.
From Verif Require Import Base BitsSpec DeflateSpec DictModel FieldModel Lit.
Open Scope Z_scope.

Section Lzw.
  (** The pixels are the integers below [2 ^ sb]. *)
  Context (sb : Z).
  Definition clear_code : Z := 2 ^ sb.
  Definition end_code : Z := 2 ^ sb + 1.
  Definition first_free : Z := 2 ^ sb + 2.
  (** The code [c] names the string [w], when the strings added to the table
      are [table], the oldest first. *)
  Inductive names (table : list (list Z)) : Z -> list Z -> Prop :=
  | nm_pixel p : 0 <= p < 2 ^ sb -> names table p [p]
  | nm_added k w : nth_error table k = Some w -> names table (first_free + Z.of_nat k) w.
  (** The writer takes a string of the table from the front of the pixels,
      writes its code, and adds that string and the next pixel to the table,
      unless the table holds 4096 codes. *)
  Inductive lzw (table : list (list Z)) : list Z -> list Z -> Prop :=
  | lzw_last c w : names table c w -> lzw table w [c]
  | lzw_step c w p rest codes : names table c w -> first_free + zlen table < 4096 ->
      lzw (table ++ [w ++ [p]]) (p :: rest) codes -> lzw table (w ++ p :: rest) (c :: codes)
  | lzw_full c w p rest codes : names table c w -> 4096 <= first_free + zlen table ->
      lzw table (p :: rest) codes -> lzw table (w ++ p :: rest) (c :: codes).
  (** The codes since the last reset are numbered from 0.  Number [n] is
      written on as many bits as the largest code of a table with [n] strings,
      but never more than 12. *)
  Definition width (n : Z) : Z := Z.min 12 (Z.log2 (2 ^ sb + 1 + n) + 1).
  Fixpoint write_codes (n : Z) (codes : list Z) : list bool :=
    match codes with [] => [] | c :: codes => le_digits (width n) c ++ write_codes (n + 1) codes end.
  (** The bits of an image: after each group of codes but the last the writer
      resets the table; the first group is often empty. *)
  Definition image_bits (groups : list (list Z)) (last : list Z) : list bool :=
    flat_map (fun codes => write_codes 0 (codes ++ [clear_code])) groups ++ write_codes 0 (last ++ [end_code]).
  (** A group of codes writes these pixels, starting with an empty table. *)
  Definition writes (pixels codes : list Z) : Prop := (pixels = [] /\ codes = []) \/ lzw [] pixels codes.
  (** The table does not fill up. *)
  Definition has_room (codes : list Z) : Prop := 2 ^ sb + 1 + zlen codes < 4096.

  (** The usual writer: [w] is the longest string of the table found so far. *)
  Definition code_of (table : list (list Z)) (w : list Z) : option Z :=
    match w with
    | [p] => Some p
    | _ => (fix go (t : list (list Z)) (k : Z) := match t with [] => None | x :: t => if list_eq_dec Z.eq_dec x w then Some k else go t (k + 1) end) table first_free
    end.
  Fixpoint greedy (table : list (list Z)) (w : list Z) (c : Z) (pixels : list Z) : list Z :=
    match pixels with
    | [] => [c]
    | p :: rest =>
        match code_of table (w ++ [p]) with
        | Some c' => greedy table (w ++ [p]) c' rest
        | None => c :: greedy (if first_free + zlen table <? 4096 then table ++ [w ++ [p]] else table) [p] p rest
        end
    end.
End Lzw.

(** A Python expression made of lists: [[a, b, c]] or [[v]*n], joined by [+]. *)
Inductive segment := SList (l : list Z) | SRun (v n : Z).
Definition segment_value (s : segment) : list Z := match s with SList l => l | SRun v n => repeat v (Z.to_nat n) end.
Fixpoint comma (l : list Z) : str := match l with [] => [] | [x] => dec x | x :: l => dec x ++ lit ", " ++ comma l end.
Definition segment_text (s : segment) : str :=
  match s with SList l => lit "[" ++ comma l ++ lit "]" | SRun v n => lit "[" ++ dec v ++ lit "]*" ++ dec n end.
Fixpoint plus_text (l : list segment) : str :=
  match l with [] => [] | [s] => segment_text s | s :: l => segment_text s ++ lit " + " ++ plus_text l end.

(** Evaluation of such an expression, character by character: the lists before
    the last [+], the list being read, the number being read, and whether a
    star was read. *)
Record reading := { r_done : list Z; r_list : list Z; r_number : option Z; r_star : bool }.
Definition close_number (r : reading) : list Z := r_list r ++ match r_number r with Some v => [v] | None => [] end.
Fixpoint repeat_list (l : list Z) (n : nat) : list Z := match n with O => [] | S n => l ++ repeat_list l n end.
Definition close_list (r : reading) : list Z :=
  r_done r ++ (if r_star r then repeat_list (r_list r) (match r_number r with Some v => Z.to_nat v | None => O end) else r_list r).
Definition read_char (r : reading) (c : Z) : reading :=
  if c =? 91 (* [ *) then {| r_done := r_done r; r_list := []; r_number := None; r_star := false |}
  else if (c =? 44) || (c =? 93) (* , ] *) then {| r_done := r_done r; r_list := close_number r; r_number := None; r_star := false |}
  else if c =? 42 (* * *) then {| r_done := r_done r; r_list := r_list r; r_number := None; r_star := true |}
  else if c =? 43 (* + *) then {| r_done := close_list r; r_list := []; r_number := None; r_star := false |}
  else if (48 <=? c) && (c <=? 57) then
    {| r_done := r_done r; r_list := r_list r; r_number := Some (10 * match r_number r with Some v => v | None => 0 end + (c - 48)); r_star := r_star r |}
  else r.
Definition eval_lists (text : str) : list Z :=
  close_list (fold_left read_char text {| r_done := []; r_list := []; r_number := None; r_star := false |}).

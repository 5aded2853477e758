(** Model of hachoir/field/seekable_field_set.py: getgaps and the repair of a
    seekable field set at the end of parsing. *)
From Verif Require Export Base.

(** [sorted(blocks, key=lambda b: b[0])]: a stable sort. *)
Fixpoint insert_block (b : Z * Z) (l : list (Z * Z)) : list (Z * Z) :=
  match l with
  | [] => [b]
  | c :: l' => if fst c <=? fst b then c :: insert_block b l' else b :: l
  end.
Definition sort_blocks (l : list (Z * Z)) : list (Z * Z) := fold_left (fun acc b => insert_block b acc) l [].

(** seekable_field_set.py:15-24: the loop of getgaps, on sorted blocks. *)
Fixpoint gaps_loop (start : Z) (blocks : list (Z * Z)) (fin : Z) : list (Z * Z) :=
  match blocks with
  | [] => if start <? fin then [(start, fin - start)] else []
  | (s, l) :: blocks =>
      let out := if start <? s then [(start, s - start)] else [] in
      let start := if start <? s then s else start in
      let start := if start <? s + l then s + l else start in
      out ++ gaps_loop start blocks fin
  end.
(** seekable_field_set.py:7-24: getgaps *)
Definition getgaps (start length : Z) (blocks : list (Z * Z)) : list (Z * Z) :=
  gaps_loop start (sort_blocks blocks) (start + length).

(** ** The end of parsing of a seekable field set *)
(** A field is its address relative to the set and its size; [base] is the
    absolute address of the set.  seekable_field_set.py:56-59: the deletions;
    [l] is the reversed list of fields. *)
Fixpoint drop_last (size : Z) (l : list (Z * Z)) (cur : Z) : res (list (Z * Z) * Z) :=
  if size <? cur then
    match l with
    | [] => Err IndexError
    | f :: l => drop_last size l (cur - snd f)
    end
  else Ok (l, cur).
Definition max_end (base : Z) (l : list (Z * Z)) : option Z :=
  match l with
  | [] => None
  | f :: l => Some (fold_left (fun m g => Z.max m (base + fst g + snd g)) l (base + fst f + snd f))
  end.
(** seekable_field_set.py:46-83: _fixLastField.  Returns the fields, the new
    size and the new current size; the names of the added fields are not
    modelled.  [max()] of no block is a ValueError. *)
Definition fix_seekable (base size cur : Z) (l : list (Z * Z)) : res (list (Z * Z) * Z * Z) :=
  do lc <- drop_last size (rev l) cur;
  let '(l, cur) := lc in
  let l := rev l in
  let blocks := map (fun f => (base + fst f, snd f)) l in
  match max_end base l with
  | None => Err ValueError
  | Some m =>
      let size := Z.max size (m - base) in
      let gaps := getgaps base size blocks in
      Ok (l ++ map (fun g => (fst g - base, snd g)) gaps, size, size)
  end.

(** Model of subfile/pattern.py and subfile/search.py: searching files in a file.
    Progress messages, statistics and copies to an output directory are left out;
    the magics given as regular expressions too (C54 is about them). *)
From Verif Require Export Base DictModel StreamModel.

(** A magic: its text, its place (in bits) in a file, the parser class *)
Record magic := { g_text : list Z; g_offset : Z; g_class : Z }.
(** subfile/pattern.py:25-28 with regex/pattern.py:110-117: a text that is already
    known is skipped *)
Fixpoint load_magics (known : list magic) (l : list magic) : list magic :=
  match l with
  | [] => known
  | g :: l => load_magics (if existsb (fun h => str_eqb (g_text g) (g_text h)) known then known else known ++ [g]) l
  end.
(** regex/pattern.py: max_length *)
Definition max_length (l : list magic) : Z := fold_right (fun g n => Z.max (zlen (g_text g)) n) 0 l.

Section Search.
(** [pick d]: the magic that the compiled regex chooses at the start of d, of those
    that match there *)
Context (pick : list Z -> option magic).
(** regex/pattern.py:144-154 and subfile/pattern.py:34-36: the matches, from left to
    right, each after the end of the one before; class and bit offset of the file *)
Fixpoint scan (skip : nat) (pos : Z) (d : list Z) : list (Z * Z) :=
  match d with
  | [] => []
  | _ :: d' =>
      match skip with
      | S k => scan k (pos + 1) d'
      | O => match pick d with
             | Some g => (g_class g, pos * 8 - g_offset g) :: scan (length (g_text g) - 1) (pos + 1) d'
             | None => scan 0 (pos + 1) d'
             end
      end
  end.
(** search.py:216-226: guess; what is known of a valid parser: content_size and
    skipSubfile *)
Record found := { f_size : option Z; f_skip : bool }.
Context (guess : Z -> Z -> option found).
Definition truthy (n : option Z) : bool := match n with Some n => negb (n =? 0) | None => false end.
Definition before_next (off : Z) (next : option Z) : bool := match next with Some n => negb (n =? 0) && (off <? n) | None => false end.
(** search.py:183-214: the loop of findMagic; what it yields and next_offset *)
Fixpoint find_loop (start stop : Z) (l : list (Z * Z)) (next : option Z) : list (Z * Z) * option Z :=
  match l with
  | [] => ([], next)
  | (cls, off) :: l =>
      let off := off + start in
      if off <? 0 then find_loop start stop l next
      else if before_next off next then find_loop start stop l next
      else match guess off cls with
           | None => find_loop start stop l next
           | Some f =>
               match f_size f, f_skip f with
               | Some c, true =>
                   let next := off + c in
                   if stop <=? next then ([(off, cls)], Some next)
                   else let (r, n) := find_loop start stop l (Some next) in ((off, cls) :: r, n)
               | _, _ => let (r, n) := find_loop start stop l next in ((off, cls) :: r, n)
               end
           end
  end.
Context (read : read_fun) (size slice : Z).
(** search.py:170-214: findMagic *)
Definition findMagic (start : Z) (next : option Z) : res (list (Z * Z) * option Z) :=
  let stop := Z.min (start + slice) size in
  do data <- readBytes read start ((stop - start) / 8);
  Ok (find_loop start stop (scan 0 0 data) next).
(** search.py:126-142: searchSubfiles *)
Fixpoint search_loop (fuel : nat) (current : Z) (next : option Z) : res (list (Z * Z)) :=
  if current <? size then
    match fuel with
    | O => Err OutOfFuel
    | S fuel =>
        do r <- findMagic current next;
        let current := current + slice in
        let current := if truthy (snd r) then match snd r with Some n => Z.max current n | None => current end else current in
        let current := Z.min current size in
        do rest <- search_loop fuel current (snd r);
        Ok (fst r ++ rest)
    end
  else Ok [].
End Search.
(** search.py:19-20, 41-58, 100-113 and 76-98: the constructor, mainHeader and main.
    [magics]: None if loadParsers was not called. *)
Definition SLICE_SIZE : Z := 64 * 1024.
Definition main (pick : list Z -> option magic) (guess : Z -> Z -> option found) (magics : option (list magic)) (read : read_fun) (stream_size offset : Z) (limit : option Z) : res (list (Z * Z)) :=
  match magics with
  | None => Err AttributeError
  | Some l =>
      let size := match limit with Some s => Z.min stream_size ((offset + s) * 8) | None => stream_size end in
      let slice := Z.max (SLICE_SIZE * 8) (max_length l * 8) in
      search_loop pick guess read size slice (Z.to_nat size) (offset * 8) None
  end.

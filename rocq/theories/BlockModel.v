(** Model of the blocks of parser/container/mkv.py: frames and their lacing. *)
From Verif Require Export Base BitsModel StreamModel VarintModel.

Section Parser.
(** [fuel] is more than the number of bytes of the stream. *)
Context (read : read_fun) (fuel : nat).

(** A field of [n] bits at the address [a] of a field set that goes from the address [start] to [stop]: one that goes beyond the end is
    refused if it is the first (generic_field_set.py:189-190), deleted otherwise (203-208), which ends the fields. *)
Definition fits (start stop a n : Z) : res unit :=
  if stop <? a + n then Err (if a =? start then ParserError else StopIteration) else Ok tt.
(** [n] numbers, one after the other, and the address of what follows *)
Fixpoint numbers (num : Z -> res (option Z * Z)) (n : nat) (start stop a : Z) : res (list (option Z) * Z) :=
  match n with
  | O => Ok ([], a)
  | S n =>
      do v <- num a;
      do _ <- fits start stop a (snd v);
      do r <- numbers num n start stop (a + snd v);
      Ok (fst v :: fst r, snd r)
  end.
(** Frames of the given sizes in bytes (field/byte_field.py:23: not empty); if [last], one more with the rest: the
    addresses and sizes of the frames in bits, with the exception that ended them *)
Definition frame (start stop a : Z) (size : option Z) : res Z :=
  match size with
  | None => Err TypeError
  | Some n => if n <? 1 then Err OtherError else do _ <- fits start stop a (n * 8); Ok (n * 8)
  end.
Fixpoint frames (start stop a : Z) (l : list (option Z)) (last : bool) : list (Z * Z) * option exn :=
  match l with
  | [] =>
      if last then match frame start stop a (Some ((stop - a) / 8)) with Ok n => ([(a, n)], None) | Err e => ([], Some e) end
      else ([], None)
  | s :: l =>
      match frame start stop a s with
      | Err e => ([], Some e)
      | Ok n => let r := frames start stop (a + n) l last in ((a, n) :: fst r, snd r)
      end
  end.
(** mkv.py:208-213: the sizes given by a first size and differences; [None]: TypeError *)
Fixpoint ebml_sizes (size : option Z) (l : list (option Z)) : list (option Z) :=
  size :: match l with
          | [] => []
          | d :: l => ebml_sizes (match size, d with Some s, Some d => Some (s + d) | _, _ => None end) l
          end.
(** ogg.py:28-39 without a maximum *)
Definition xiph_num (a : Z) : res (option Z * Z) := do v <- xiph_int read fuel None a; Ok (Some (fst v), snd v).
(** mkv.py:192-220: Lace, from the address [a] to [stop], with the field n_frames *)
Definition Lace (lacing n_frames a stop : Z) : list (Z * Z) * option exn :=
  let n := Z.to_nat n_frames in
  if lacing =? 0 then
    match numbers xiph_num n a stop a with
    | Err e => ([], Some e)
    | Ok (sizes, a') => frames a stop a' sizes true
    end
  else if lacing =? 1 then
    frames a stop a (List.repeat (Some ((stop - a) / 8 / (n_frames + 1))) (S n)) false
  else
    match numbers (ebml_unsigned read) 1 a stop a with
    | Err e => ([], Some e)
    | Ok (size, a1) =>
        match numbers (ebml_signed read) (n - 1) a stop a1 with
        | Err e => ([], Some e)
        | Ok (dsizes, a2) => frames a stop a2 (ebml_sizes (hd None size) dsizes) true
        end
    end.

(** mkv.py:223-262: Block, in an element named Block, SimpleBlock[] or otherwise, from the address [a] to [stop].  Simplified: when
    a field before the frames is missing, the others are not shown. *)
Inductive holder := InBlock | InSimpleBlock | InOther.
Record block := Blk { k_track : option Z; k_time : Z; k_keyframe : option Z; k_invisible : Z; k_lacing : Z; k_discardable : option Z;
                      k_frames : list (Z * Z); k_err : option exn }.
Definition Block (h : holder) (a stop : Z) : res block :=
  do t <- ebml_unsigned read a;
  let b := a + snd t in
  do _ <- fits a stop a (snd t);
  do _ <- fits a stop b 16;
  do time <- readInteger read b true 16 BIG_ENDIAN;
  let c := b + 16 in
  do _ <- fits a stop c 8;
  match h with
  | InOther => Ok (Blk (fst t) time None 0 0 None [] None)
  | _ =>
      let simple := match h with InSimpleBlock => true | _ => false end in
      do key <- readBits read c 1 BIG_ENDIAN;
      do inv <- readBits read (c + 4) 1 BIG_ENDIAN;
      do lacing <- readBits read (c + 5) 2 BIG_ENDIAN;
      do disc <- readBits read (c + 7) 1 BIG_ENDIAN;
      let f := c + 8 in
      let size := (stop - f) / 8 in
      do r <- (if negb (lacing =? 0) then
                 do _ <- fits a stop f 8;
                 do n <- readInteger read f false 8 BIG_ENDIAN;
                 if size - 1 <=? 0 then Err StopIteration
                 else Ok (Lace (lacing - 1) n (f + 8) (f + 8 + (size - 1) * 8))
               else Ok (frames a stop f [Some size] false));
      Ok (Blk (fst t) time (if simple then Some key else None) inv lacing (if simple then Some disc else None) (fst r) (snd r))
  end.
End Parser.

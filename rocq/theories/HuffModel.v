(** Model of build_tree and HuffmanCode, hachoir/parser/archive/zlib.py:27-72
    (the same build_tree is in hachoir/parser/archive/lzx.py through zlib). *)
From Verif Require Export Base BitsSpec.

(** [l[i] = v] for an index in range. *)
Fixpoint upd {A} (l : list A) (i : nat) (v : A) : list A :=
  match l, i with
  | [], _ => []
  | _ :: l, O => v :: l
  | x :: l, S i => x :: upd l i v
  end.
Definition get (l : list Z) (i : Z) : Z := nth (Z.to_nat i) l 0.

(** zlib.py:31: max(lengths) *)
Definition max_length (lengths : list Z) : Z := fold_right Z.max 0 lengths.
(** zlib.py:34-36: bit_counts *)
Definition bit_counts (lengths : list Z) : list Z :=
  fold_left (fun bc i => if i =? 0 then bc else upd bc (Z.to_nat i) (get bc i + 1)) lengths
    (repeat 0 (Z.to_nat (max_length lengths + 1))).
(** zlib.py:38-40: the loop that fills next_code[1:], on bit_counts[:-1] *)
Fixpoint next_codes (code : Z) (bcs : list Z) : list Z :=
  match bcs with
  | [] => []
  | b :: bcs => let code := (code + b) * 2 in code :: next_codes code bcs
  end.
Definition next_code (lengths : list Z) : list Z := 0 :: next_codes 0 (removelast (bit_counts lengths)).
(** The dictionary: the last value stored for a key is in front. *)
Definition htree := list ((Z * Z) * Z).
Fixpoint tree_get (t : htree) (k : Z * Z) : option Z :=
  match t with
  | [] => None
  | ((ln, c), v) :: t => if (fst k =? ln) && (snd k =? c) then Some v else tree_get t k
  end.
(** zlib.py:41-44 *)
Fixpoint assign (i : Z) (lengths next : list Z) (t : htree) : htree :=
  match lengths with
  | [] => t
  | ln :: lengths =>
      if ln =? 0 then assign (i + 1) lengths next t
      else assign (i + 1) lengths (upd next (Z.to_nat ln) (get next ln + 1)) (((ln, get next ln), i) :: t)
  end.
(** zlib.py:27-45: build_tree *)
Definition build_tree (lengths : list Z) : res htree :=
  match lengths with
  | [] => Err ValueError   (* max() of an empty list *)
  | _ => Ok (assign 0 lengths (next_code lengths) [])
  end.
(** zlib.py:50-67: HuffmanCode.__init__, on the bits that follow the address of
    the field; gives the symbol, the size of the code and the remaining bits.
    The bits are the ones readBits(addr, 1, endian) returns at consecutive
    addresses (C01, C02); at the end of the stream it raises. *)
Fixpoint huff_read (t : htree) (size value : Z) (bits : list bool) : res (Z * Z * list bool) :=
  match tree_get t (size, value) with
  | Some v => Ok (v, size, bits)
  | None =>
      if 256 <? size then Err ParserError
      else match bits with
           | [] => Err ReadStreamError
           | b :: bits => huff_read t (size + 1) (value * 2 + b2z b) bits
           end
  end.
Definition huffman_code (t : htree) (bits : list bool) : res (Z * Z * list bool) := huff_read t 0 0 bits.

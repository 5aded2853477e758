(** Model of the LZW decoder of hachoir/parser/image/gif.py.

    As in DeflateModel, the stream is the list of its bits, least significant
    bit of each byte first, and [Bits(self, name, n)] is the integer of the next
    n bits ([read_le]).  Field names are not modelled; a description is the kind
    of the code, the chain it shows and the decoded length it shows. *)
From Coq Require Import String.
From Verif Require Export Base BitsSpec DeflateModel ToolsModel DictModel FieldModel Lit.
Open Scope Z_scope.

(** gif.py:39-48: add_rle, for chains of integers *)
Definition add_rle (previous runlen : Z) (result : list str) : list str :=
  if 1 <? runlen then result ++ [lit "[" ++ dec previous ++ lit "]*" ++ dec runlen]
  else match rev result with
       | r :: before =>
           if existsb (Z.eqb 42) r then result ++ [lit "[" ++ dec previous ++ lit "]"]
           else rev before ++ [lit "[" ++ py_slice r 1 (-1) ++ lit ", " ++ dec previous ++ lit "]"]
       | [] => result ++ [lit "[" ++ dec previous ++ lit "]"]
       end.
(** gif.py:56-64: the loop over the other elements *)
Fixpoint rle_loop (chain : list Z) (previous runlen : Z) (result : list str) : list str :=
  match chain with
  | [] => add_rle previous runlen result
  | e :: chain => if e =? previous then rle_loop chain previous (runlen + 1) result
                  else rle_loop chain e 1 (add_rle previous runlen result)
  end.
(** " + ".join(l) *)
Fixpoint join_plus (l : list str) : str :=
  match l with [] => [] | [s] => s | s :: l => s ++ lit " + " ++ join_plus l end.
(** gif.py:30-65 *)
Definition rle_repr (chain : list Z) : str :=
  match chain with [] => lit "[]" | e :: chain => join_plus (rle_loop chain e 1 []) end.

(** What the description of a code says. *)
Inductive gnote := GReset | GEnd | GLiteral (v : Z) | GFound (chain : list Z) | GGuessed (chain : list Z) | GPadding.
(** A field: its size in bits, its value, its kind, the decoded length shown. *)
Record gfield := { g_size : Z; g_value : Z; g_note : gnote; g_decoded : Z }.
(** The dictionary: newest entry first. *)
Definition gdict := list (Z * list Z).
Definition dict_get (d : gdict) (c : Z) : option (list Z) :=
  match find (fun e => fst e =? c) d with Some e => Some (snd e) | None => None end.
(** The variables of the loop: self.nbits, dictionary, compress_code, obuf, output *)
Record gstate := { s_nbits : Z; s_dict : gdict; s_next : Z; s_obuf : list Z; s_output : list Z }.
(** gif.py:76-79 *)
Definition gif_start (startbits : Z) : gstate :=
  {| s_nbits := startbits; s_dict := []; s_next := 2 ^ startbits + 2; s_obuf := []; s_output := [] |}.
(** gif.py:81-82: the width of the next code *)
Definition code_width (s : gstate) : Z := if 2 ^ s_nbits s <=? s_next s then s_nbits s + 1 else s_nbits s.
(** gif.py:91-94, 97: the state after a reset code; [output] goes on *)
Definition gif_reset (startbits : Z) (s : gstate) : gstate :=
  {| s_nbits := startbits + 1; s_dict := []; s_next := 2 ^ startbits + 2; s_obuf := []; s_output := s_output s |}.
(** gif.py:84-90: the width of the field of a reset code read on [n] bits *)
Definition reset_width (n next : Z) : Z := if next =? 2 ^ (n - 1) then n - 1 else n.
(** gif.py:102-109: a literal read on [n] bits *)
Definition gif_literal (n v : Z) (s : gstate) : gstate * gnote :=
  let out := s_output s ++ [v] in
  match s_obuf s with
  | [] => ({| s_nbits := n; s_dict := s_dict s; s_next := s_next s; s_obuf := [v]; s_output := out |}, GLiteral v)
  | ob => ({| s_nbits := n; s_dict := (s_next s, ob ++ [v]) :: s_dict s; s_next := s_next s + 1; s_obuf := [v]; s_output := out |}, GLiteral v)
  end.
(** gif.py:110-123: a compression code read on [n] bits *)
Definition gif_compressed (n v : Z) (s : gstate) : res (gstate * gnote) :=
  do cn <- match dict_get (s_dict s) v with
           | Some chain => Ok (chain, GFound chain)
           | None => match s_obuf s with
                     | [] => Err IndexError
                     | h :: _ => Ok (s_obuf s ++ [h], GGuessed (s_obuf s ++ [h]))
                     end
           end;
  let '(chain, note) := cn in
  do h <- py_nth chain 0;
  Ok ({| s_nbits := n; s_dict := (s_next s, s_obuf s ++ [h]) :: s_dict s; s_next := s_next s + 1;
         s_obuf := chain; s_output := s_output s ++ chain |}, note).
(** How the loop ends: the bits after the end code and the pixels, or an error. *)
Definition goutcome := res (list bool * list Z).
Definition yields (f : gfield) (r : list gfield * goutcome) : list gfield * goutcome := (f :: fst r, snd r).
(** gif.py:80-125: the loop; every turn yields one field. *)
Fixpoint gif_loop (fuel : nat) (startbits : Z) (s : gstate) (bits : list bool) : list gfield * goutcome :=
  match fuel with
  | O => ([], Err OutOfFuel)
  | S fuel =>
      let n := code_width s in
      match read_le n bits with
      | Err e => ([], Err e)
      | Ok (v, rest) =>
          if v =? 2 ^ startbits then
            let w := reset_width n (s_next s) in
            match read_le w bits with
            | Err e => ([], Err e)
            | Ok (v', rest') =>
                yields {| g_size := w; g_value := v'; g_note := GReset; g_decoded := zlen (s_output s) |}
                       (gif_loop fuel startbits (gif_reset startbits s) rest')
            end
          else if v =? 2 ^ startbits + 1 then
            ([{| g_size := n; g_value := v; g_note := GEnd; g_decoded := zlen (s_output s) |}], Ok (rest, s_output s))
          else
            match (if v <? 2 ^ startbits then Ok (gif_literal n v s) else gif_compressed n v s) with
            | Err e => ([], Err e)
            | Ok (s', note) =>
                yields {| g_size := n; g_value := v; g_note := note; g_decoded := zlen (s_output s') |}
                       (gif_loop fuel startbits s' rest)
            end
      end
  end.
Definition fields_size (l : list gfield) : Z := fold_right (fun f a => g_size f + a) 0 l.
(** gif.py:74-128: the fields of the block and the pixels; the padding is not
    read.  [startbits] is the attribute of the parser class, [data] the stream. *)
Definition gif_block (startbits : Z) (data : list Z) : list gfield * res (list Z) :=
  let bits := bits_le data in
  let '(fields, out) := gif_loop (S (List.length bits)) startbits (gif_start startbits) bits in
  match out with
  | Err e => (fields, Err e)
  | Ok (_, pixels) =>
      let padding := paddingSize (fields_size fields) 8 in
      (fields ++ (if padding =? 0 then [] else [{| g_size := padding; g_value := 0; g_note := GPadding; g_decoded := zlen pixels |}]), Ok pixels)
  end.

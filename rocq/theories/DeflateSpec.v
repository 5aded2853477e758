(** DEFLATE (RFC 1951), from the side of the writer. *)
From Verif Require Import Base BitsSpec HuffSpec.

(** [n] bits of [v], least significant first. *)
Definition le_digits (n v : Z) : list bool := map (fun k => Z.testbit v (Z.of_nat k)) (seq 0 (Z.to_nat n)).
(** The bits of the code of a symbol, when the code lengths are [lengths]. *)
Definition codeword (lengths : list Z) (s : Z) (bits : list bool) : Prop :=
  exists c, canonical lengths s c /\ bits = digits (len_of lengths s) c.

(** [r] is [data] followed by [n] bytes, each equal to the one [offset] before. *)
Definition copied (data : list Z) (n offset : Z) (r : list Z) : Prop :=
  zlen r = zlen data + n /\ firstn (length data) r = data /\
  forall i, zlen data <= i < zlen r -> nth (Z.to_nat i) r 0 = nth (Z.to_nat (i - offset)) r 0.

(** 3.2.5: length symbols 257..285 and distance symbols 0..29. *)
Definition len_extra (s : Z) : Z := if (s <? 265) || (s =? 285) then 0 else (s - 261) / 4.
Definition len_base (s : Z) : Z :=
  if s <? 265 then s - 254 else if s =? 285 then 258 else (4 + (s - 261) mod 4) * 2 ^ ((s - 261) / 4) + 3.
Definition dist_extra (d : Z) : Z := if d <? 4 then 0 else d / 2 - 1.
Definition dist_base (d : Z) : Z := if d <? 4 then d + 1 else (2 + d mod 2) * 2 ^ (d / 2 - 1) + 1.

Inductive token := TLit (b : Z) | TCopy (len dist : Z).
(** The bits of a token. *)
Inductive token_bits (ll dl : list Z) : token -> list bool -> Prop :=
| tb_lit b bits : 0 <= b < 256 -> codeword ll b bits -> token_bits ll dl (TLit b) bits
| tb_copy s x d y b1 b2 : 257 <= s <= 285 -> 0 <= x < 2 ^ len_extra s -> 0 <= d <= 29 -> 0 <= y < 2 ^ dist_extra d ->
    codeword ll s b1 -> codeword dl d b2 ->
    token_bits ll dl (TCopy (len_base s + x) (dist_base d + y))
      (b1 ++ le_digits (len_extra s) x ++ b2 ++ le_digits (dist_extra d) y).
Inductive tokens_bits (ll dl : list Z) : list token -> list bool -> Prop :=
| ts_end bits : codeword ll 256 bits -> tokens_bits ll dl [] bits
| ts_cons t ts b bs : token_bits ll dl t b -> tokens_bits ll dl ts bs -> tokens_bits ll dl (t :: ts) (b ++ bs).
(** What the tokens add to [out]. *)
Inductive expands : list Z -> list token -> list Z -> Prop :=
| ex_nil out : expands out [] out
| ex_lit out b ts out' : expands (out ++ [b]) ts out' -> expands out (TLit b :: ts) out'
| ex_copy out len dist mid ts out' : 1 <= dist <= zlen out -> copied out len dist mid -> expands mid ts out' ->
    expands out (TCopy len dist :: ts) out'.

(** 3.2.6: the fixed codes *)
Definition fixed_ll : list Z := repeat 8 144 ++ repeat 9 112 ++ repeat 7 24 ++ repeat 8 8.
Definition fixed_dl : list Z := repeat 5 32.

(** 3.2.7: code lengths are written with literal lengths and runs. *)
Inductive run := RLen (v : Z) | RPrev (n : Z) | RZero (n : Z).
Inductive run_bits (cl : list Z) : run -> list bool -> Prop :=
| rb_len v b : 0 <= v <= 15 -> codeword cl v b -> run_bits cl (RLen v) b
| rb_prev n b : 3 <= n <= 6 -> codeword cl 16 b -> run_bits cl (RPrev n) (b ++ le_digits 2 (n - 3))
| rb_zero3 n b : 3 <= n <= 10 -> codeword cl 17 b -> run_bits cl (RZero n) (b ++ le_digits 3 (n - 3))
| rb_zero7 n b : 11 <= n <= 138 -> codeword cl 18 b -> run_bits cl (RZero n) (b ++ le_digits 7 (n - 11)).
Inductive runs_bits (cl : list Z) : list run -> list bool -> Prop :=
| rs_nil : runs_bits cl [] []
| rs_cons r rs b bs : run_bits cl r b -> runs_bits cl rs bs -> runs_bits cl (r :: rs) (b ++ bs).
(** The code lengths that the runs denote, after the lengths [before]. *)
Fixpoint run_values (before : list Z) (rs : list run) : list Z :=
  match rs with
  | [] => before
  | RLen v :: rs => run_values (before ++ [v]) rs
  | RPrev n :: rs => run_values (before ++ repeat (last before 0) (Z.to_nat n)) rs
  | RZero n :: rs => run_values (before ++ repeat 0 (Z.to_nat n)) rs
  end.
(** The lengths of the code length code, in the order of 3.2.7. *)
Definition cl_order : list Z := [16; 17; 18; 0; 8; 7; 9; 6; 10; 5; 11; 4; 12; 3; 13; 2; 14; 1; 15].
Definition cl_bits (cl : list Z) (n : nat) : list bool := flat_map (fun i => le_digits 3 (len_of cl i)) (firstn n cl_order).

(** Block types: stored, with the fixed codes, with its own codes. *)
Inductive block :=
| BStored (data : list Z)
| BFixed (ts : list token)
| BDynamic (ll dl cl : list Z) (rs : list run) (ts : list token).
Definition bit_of (f : bool) : Z := if f then 1 else 0.
(** The bits of a block that starts at bit [pos]. *)
Inductive block_bits (pos : Z) (final : bool) : block -> list bool -> Prop :=
| bb_stored data pad : zlen data < 65536 -> (pos + 3 + zlen pad) mod 8 = 0 -> zlen pad < 8 ->
    block_bits pos final (BStored data)
      (le_digits 1 (bit_of final) ++ le_digits 2 0 ++ pad ++ le_digits 16 (zlen data) ++ le_digits 16 (65535 - zlen data) ++ bits_le data)
| bb_fixed ts bs : tokens_bits fixed_ll fixed_dl ts bs ->
    block_bits pos final (BFixed ts) (le_digits 1 (bit_of final) ++ le_digits 2 1 ++ bs)
| bb_dynamic ll dl cl rs ts nc b1 bs :
    257 <= zlen ll <= 288 -> 1 <= zlen dl <= 32 -> zlen cl = 19 -> (4 <= nc <= 19)%nat ->
    Forall (fun n => 0 <= n <= 7) cl -> Forall (fun n => 0 <= n <= 15) ll -> Forall (fun n => 0 <= n <= 15) dl ->
    kraft cl -> kraft ll -> kraft dl ->
    (forall i, In i (skipn nc cl_order) -> len_of cl i = 0) ->
    run_values [] rs = ll ++ dl -> runs_bits cl rs b1 -> tokens_bits ll dl ts bs ->
    block_bits pos final (BDynamic ll dl cl rs ts)
      (le_digits 1 (bit_of final) ++ le_digits 2 2 ++ le_digits 5 (zlen ll - 257) ++ le_digits 5 (zlen dl - 1) ++
       le_digits 4 (Z.of_nat nc - 4) ++ cl_bits cl nc ++ b1 ++ bs).
(** What a block adds to [out]. *)
Inductive block_expands (out : list Z) : block -> list Z -> Prop :=
| be_stored data : block_expands out (BStored data) (out ++ data)
| be_fixed ts out' : expands out ts out' -> block_expands out (BFixed ts) out'
| be_dynamic ll dl cl rs ts out' : expands out ts out' -> block_expands out (BDynamic ll dl cl rs ts) out'.
(** A whole stream: blocks, the last one marked final. *)
Inductive stream_bits (pos : Z) : list block -> list bool -> Prop :=
| sb_last b bits : block_bits pos true b bits -> stream_bits pos [b] bits
| sb_more b bs bits rest : block_bits pos false b bits -> stream_bits (pos + zlen bits) bs rest -> stream_bits pos (b :: bs) (bits ++ rest).
Inductive stream_expands : list Z -> list block -> list Z -> Prop :=
| se_nil out : stream_expands out [] out
| se_cons out b bs mid out' : block_expands out b mid -> stream_expands mid bs out' -> stream_expands out (b :: bs) out'.
(** Restrictions under which the decoder is right: no data in stored blocks; a
    repetition of the previous length only after a literal length or another
    repetition; no run across the end of the literal lengths. *)
Fixpoint repeats_ok (ok : bool) (rs : list run) : Prop :=
  match rs with
  | [] => True
  | RLen _ :: rs => repeats_ok true rs
  | RPrev _ :: rs => ok = true /\ repeats_ok true rs
  | RZero _ :: rs => repeats_ok false rs
  end.
Definition block_plain (b : block) : Prop :=
  match b with
  | BStored data => data = []
  | BFixed _ => True
  | BDynamic ll dl _ rs _ => repeats_ok false rs /\ exists r1 r2, rs = r1 ++ r2 /\ run_values [] r1 = ll
  end.

(** What a user expects of canonical Huffman codes (RFC 1951, 3.2.2). *)
From Verif Require Import Base BitsSpec.

Definition len_of (lengths : list Z) (i : Z) : Z := if i <? 0 then 0 else nth (Z.to_nat i) lengths 0.
(** The symbols with their code lengths, from symbol [i] on. *)
Fixpoint symbols (i : Z) (lengths : list Z) : list (Z * Z) :=
  match lengths with [] => [] | ln :: l => (i, ln) :: symbols (i + 1) l end.
Definition zsum (l : list Z) : Z := fold_right Z.add 0 l.
(** Part of the code space, in units of 2^-[top], used by a code of length [ln]. *)
Definition space (top ln : Z) : Z := if ln =? 0 then 0 else 2 ^ (top - ln).
(** Kraft: the lengths do not use more than the whole code space. *)
Definition kraft (lengths : list Z) : Prop :=
  exists top, 0 <= top /\ Forall (fun ln => 0 <= ln <= top) lengths /\ zsum (map (space top) lengths) <= 2 ^ top.
(** Shorter codes first, then by symbol. *)
Definition precedes (s t : Z * Z) : bool := (snd s <? snd t) || ((snd s =? snd t) && (fst s <? fst t)).
(** The space used by the symbols before [s] in this order. *)
Definition space_before (top : Z) (lengths : list Z) (s : Z * Z) : Z :=
  zsum (map (fun t => space top (snd t)) (filter (fun t => precedes t s) (symbols 0 lengths))).
(** [c], left-justified, starts where the space of the preceding symbols ends. *)
Definition canonical (lengths : list Z) (i c : Z) : Prop :=
  let ln := len_of lengths i in
  0 < ln /\ forall top, Forall (fun n => n <= top) lengths -> c * 2 ^ (top - ln) = space_before top lengths (i, ln).
(** The [n] binary digits of [v], most significant first. *)
Definition digits (n v : Z) : list bool := map (fun k => Z.testbit v (n - 1 - Z.of_nat k)) (seq 0 (Z.to_nat n)).
Definition prefix_of {A} (p l : list A) : Prop := exists r, l = p ++ r.

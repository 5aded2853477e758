(** What a user expects of the values of small fields. *)
From Coq Require Import String.
From Verif Require Import Base DictModel HumanModel Lit.
Open Scope Z_scope.

(** The content is the pattern again and again. *)
Definition repeats (pattern content : list Z) : Prop := exists n, content = List.concat (List.repeat pattern n).

(** A date and time that exists. *)
Definition date_ok (y m d : Z) : Prop := 1 <= m <= 12 /\ 1 <= d <= month_days y m.
Definition time_ok (h mi s : Z) : Prop := 0 <= h < 24 /\ 0 <= mi < 60 /\ 0 <= s < 60.
(** Microseconds since 0001-01-01. *)
Definition moment (y m d h mi s us : Z) : Z := datetime y m d + ((h * 60 + mi) * 60 + s) * 1000000 + us.
(** The 16-bit words of MS-DOS. *)
Definition dos_date (y m d : Z) : Z := d + 32 * m + 512 * (y - 1980).
Definition dos_time (h mi s : Z) : Z := s / 2 + 32 * mi + 2048 * h.
Definition word_le (w : Z) : list Z := [w mod 256; w / 256].

(** The hexadecimal digits of bytes. *)
Definition lower := lit "0123456789abcdef".
Definition upper := lit "0123456789ABCDEF".
Definition hex_text (alphabet : str) (bytes : list Z) : str :=
  flat_map (fun b => [nth (Z.to_nat (b / 16)) alphabet 0; nth (Z.to_nat (b mod 16)) alphabet 0]) bytes.

(** The unsigned number that bytes denote, least significant first. *)
Fixpoint le_value (bytes : list Z) : Z := match bytes with [] => 0 | b :: l => b + 256 * le_value l end.
(** The signed number (two's complement) on [n] bytes. *)
Definition le_signed (bytes : list Z) (v : Z) : Prop :=
  - 2 ^ (8 * zlen bytes - 1) <= v < 2 ^ (8 * zlen bytes - 1) /\ le_value bytes = v mod 2 ^ (8 * zlen bytes).

(** The bytes of the runs of an NTFS file: (length, first cluster) of each run; the
    cluster is written relative to that of the run before ([prev]). *)
Inductive run_bytes : Z -> list (Z * Z) -> list Z -> Prop :=
| rb_end prev : run_bytes prev [] [0]
| rb_run prev length cluster runs l o rest : 1 <= zlen l <= 15 -> 1 <= zlen o <= 15 ->
    le_value l = length -> le_signed o (cluster - prev) -> run_bytes cluster runs rest ->
    run_bytes prev ((length, cluster) :: runs) (zlen o * 16 + zlen l :: l ++ o ++ rest).

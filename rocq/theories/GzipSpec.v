(** gzip files, for the claims about their parser (RFC 1952). *)
From Coq Require Import String.
From Verif Require Import Base BitsModel BitsSpec NumSpec DictModel GenModel Lit.
Open Scope Z_scope.

(** A member of a gzip file.  [g_flags]: is_text, the three reserved bits; [g_xfl]: the eight bits of XFL. *)
Record member := Member {
  g_method : Z; g_text : bool; g_r : bool * bool * bool; g_mtime : Z; g_xfl : bool * (bool * bool) * (bool * bool * bool * bool * bool); g_os : Z;
  g_extra : option (list Z); g_name : option (list Z); g_comment : option (list Z); g_crc16 : option Z; g_content : list Z; g_crc : Z; g_size : Z }.
Definition is_some {A} (o : option A) : bool := match o with Some _ => true | None => false end.
Definition opt {A B} (o : option A) (f : A -> list B) : list B := match o with Some x => f x | None => [] end.
Definition flag_bits (m : member) : list bool :=
  let '(r0, r1, r2) := g_r m in [g_text m; is_some (g_crc16 m); is_some (g_extra m); is_some (g_name m); is_some (g_comment m); r0; r1; r2].
Definition xfl_bits (m : member) : list bool := let '(x0, (x1, x2), (x3, x4, x5, x6, x7)) := g_xfl m in [x0; x1; x2; x3; x4; x5; x6; x7].
Definition u (n : nat) (v : Z) : list Z := uint LITTLE_ENDIAN n v.
Definition gz_head (m : member) : list Z :=
  [0x1F; 0x8B] ++ u 1 (g_method m) ++ u 1 (val_le (flag_bits m)) ++ u 4 (g_mtime m) ++ u 1 (val_le (xfl_bits m)) ++ u 1 (g_os m).
Definition gz_extra (m : member) : list Z := opt (g_extra m) (fun x => u 2 (zlen x) ++ x).
Definition gz_name (m : member) : list Z := opt (g_name m) (fun x => x ++ [0]).
Definition gz_comment (m : member) : list Z := opt (g_comment m) (fun x => x ++ [0]).
Definition gz_crc16 (m : member) : list Z := opt (g_crc16 m) (u 2).
Definition gzip (m : member) : list Z :=
  gz_head m ++ gz_extra m ++ gz_name m ++ gz_comment m ++ gz_crc16 m ++ g_content m ++ u 4 (g_crc m) ++ u 4 (g_size m).
Definition gzip_ok (m : member) : Prop :=
  0 <= g_method m < 2 ^ 8 /\ 0 <= g_mtime m < 2 ^ 32 /\ 0 <= g_os m < 2 ^ 8 /\ 0 <= g_crc m < 2 ^ 32 /\ 0 <= g_size m < 2 ^ 32 /\
  match g_extra m with Some x => zlen x < 2 ^ 16 | None => True end /\
  match g_name m with Some x => ~ In 0 x | None => True end /\
  match g_comment m with Some x => ~ In 0 x | None => True end /\
  match g_crc16 m with Some v => 0 <= v < 2 ^ 16 | None => True end /\
  zlen (g_content m) <= 2 ^ 64.
(** What must be shown of it: every part where it is *)
Definition bit_at (name : str) (a : Z) (b : bool) : fld := F name a 1 (VNum (val_le [b])).
Definition number_at (name : str) (p n v : Z) : fld := F name (8 * p) (8 * n) (VNum v).
Definition bytes_at (name : str) (p : Z) (x : list Z) : fld := F name (8 * p) (8 * zlen x) (VBytes x).
Definition line_at (name : str) (p : Z) (x : list Z) : fld := F name (8 * p) (8 * (zlen x + 1)) (VBytes x).
Definition gz_head_fields (m : member) : list fld :=
  let '(r0, r1, r2) := g_r m in let '(x0, (x1, x2), (x3, x4, x5, x6, x7)) := g_xfl m in
  [ bytes_at (lit "signature") 0 [0x1F; 0x8B]; number_at (lit "compression") 2 1 (g_method m);
    bit_at (lit "is_text") 24 (g_text m); bit_at (lit "has_crc16") 25 (is_some (g_crc16 m)); bit_at (lit "has_extra") 26 (is_some (g_extra m));
    bit_at (lit "has_filename") 27 (is_some (g_name m)); bit_at (lit "has_comment") 28 (is_some (g_comment m)); F (lit "reserved[]") 29 3 (VNum (val_le [r0; r1; r2]));
    number_at (lit "mtime") 4 4 (g_mtime m);
    bit_at (lit "reserved[]") 64 x0; bit_at (lit "slowest") 65 x1; bit_at (lit "fastest") 66 x2; F (lit "reserved[]") 67 5 (VNum (val_le [x3; x4; x5; x6; x7]));
    number_at (lit "os") 9 1 (g_os m) ].
Definition gz_fields (m : member) : list fld :=
  let p1 := 10 + zlen (gz_extra m) in let p2 := p1 + zlen (gz_name m) in let p3 := p2 + zlen (gz_comment m) in let p4 := p3 + zlen (gz_crc16 m) in let p5 := p4 + zlen (g_content m) in
  gz_head_fields m ++
  opt (g_extra m) (fun x => [number_at (lit "extra_length") 10 2 (zlen x); bytes_at (lit "extra") 12 x]) ++
  opt (g_name m) (fun x => [line_at (lit "filename") p1 x]) ++
  opt (g_comment m) (fun x => [line_at (lit "comment") p2 x]) ++
  opt (g_crc16 m) (fun v => [number_at (lit "hdr_crc16") p3 2 v]) ++
  match g_content m with [] => [] | x => [bytes_at (lit "file") p4 x] end ++
  [number_at (lit "crc32") p5 4 (g_crc m); number_at (lit "size") (p5 + 4) 4 (g_size m)].

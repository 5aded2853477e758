(** The tar format (POSIX ustar), for the claims about the parser. *)
From Coq Require Import String Bool.
From Verif Require Import Base DictModel StreamSpec TextSpec TorrentModel TarModel Lit.
Open Scope Z_scope.

(** A number in octal digits. *)
Definition octal_digit (d : Z) : Prop := 48 <= d <= 55.
Definition octal_value (t : list Z) : Z := fold_left (fun v d => 8 * v + (d - 48)) t 0.
(** A numeric field: octal digits, maybe after spaces, and before spaces or null bytes. *)
Definition blank_byte (b : Z) : Prop := b = 32 \/ b = 0.
Definition octal_field (bytes : list Z) (v : Z) : Prop :=
  exists spaces digits blanks, bytes = spaces ++ digits ++ blanks /\ Forall (eq 32) spaces /\ Forall blank_byte blanks /\
    digits <> [] /\ Forall octal_digit digits /\ v = octal_value digits.
(** A text field: the text, then null bytes. *)
Definition text_field (bytes text : list Z) : Prop := (exists nul, bytes = text ++ nul /\ Forall (eq 0) nul) /\ ~ In 0 text.

(** A file of an archive. *)
Record member := { m_name : str; m_prefix : str; m_type : Z; m_mode : Z; m_uid : Z; m_gid : Z; m_mtime : Z;
                   m_link : str; m_user : str; m_group : str; m_content : list Z }.
(** The path of a file. *)
Definition m_path (m : member) : str := match m_prefix m with [] => m_name m | _ => m_prefix m ++ lit "/" ++ m_name m end.
(** The block of 512 bytes before the content of a file. *)
Definition header (m : member) (h : list Z) : Prop :=
  zlen h = 512 /\ text_field (sub h 0 100) (m_name m) /\ m_name m <> [] /\
  octal_field (sub h 100 8) (m_mode m) /\ octal_field (sub h 108 8) (m_uid m) /\ octal_field (sub h 116 8) (m_gid m) /\
  octal_field (sub h 124 12) (zlen (m_content m)) /\ octal_field (sub h 136 12) (m_mtime m) /\
  sub h 156 1 = [m_type m] /\ text_field (sub h 157 100) (m_link m) /\
  (sub h 257 6 = lit "ustar" ++ [0] \/ sub h 257 8 = lit "ustar  " ++ [0]) /\
  text_field (sub h 265 32) (m_user m) /\ text_field (sub h 297 32) (m_group m) /\ text_field (sub h 345 155) (m_prefix m).
(** The bytes of the files: header, content, null bytes up to a block. *)
Inductive members : list member -> list Z -> Prop :=
| ms_nil : members [] []
| ms_cons m h pad l b : header m h -> Forall (eq 0) pad -> 0 <= zlen pad < 512 -> (zlen (m_content m) + zlen pad) mod 512 = 0 -> members l b ->
    members (m :: l) (h ++ m_content m ++ pad ++ b).
(** The archive: the files, two null blocks, and whatever may be after it. *)
Definition archive (l : list member) (after : list Z) (data : list Z) : Prop :=
  exists b, members l b /\ data = b ++ List.repeat 0 1024 ++ after.

(** ** What the parser shows of a file *)
(** Texts without the spaces around them. *)
Definition trimmed (text shown : str) : Prop := stripped (fun c => (c =? 32) || (c =? 0)) text shown.
(** The entry shown for the file whose header is at the byte [p] of [data]; numbers are
    shown as texts that Python's int() reads. *)
Definition shows (data : list Z) (p : Z) (m : member) (e : entry) : Prop :=
  e_addr e = 8 * p /\ e_name e = m_name m /\ e_prefix e = m_prefix m /\ described_name e = m_path m /\ e_type e = m_type m /\
  py_int 8 (e_mode e) = Some (m_mode m) /\ py_int 8 (e_uid e) = Some (m_uid m) /\ py_int 8 (e_gid e) = Some (m_gid m) /\
  py_int 8 (e_mtime e) = Some (m_mtime m) /\ py_int 8 (e_sizetext e) = Some (zlen (m_content m)) /\
  trimmed (m_link m) (e_lname e) /\ trimmed (m_user m) (e_uname e) /\ trimmed (m_group m) (e_gname e) /\
  match e_content e with
  | None => m_content m = []
  | Some (a, n, name) => exists q, a = 8 * q /\ n = 8 * zlen (m_content m) /\ occurs_at (m_content m) data q /\ name = m_name m
  end.
(** The entries shown for the files of the bytes [p] to [q]: they follow one another. *)
Inductive listed (data : list Z) : Z -> list member -> list entry -> Z -> Prop :=
| ls_nil p : listed data p [] [] p
| ls_cons p m l e es k q : shows data p m e -> e_size e = 8 * k -> listed data (p + k) l es q -> listed data p (m :: l) (e :: es) q.
(** Entries that follow one another from the block [k] to the block [n]. *)
Inductive follow : Z -> list entry -> Z -> Prop :=
| fo_nil k : follow k [] k
| fo_cons k e es j n : e_addr e = 8 * (512 * k) -> e_size e = 8 * (512 * j) -> 1 <= j -> follow (k + j) es n -> follow k (e :: es) n.

(** RIFF files, for the claims about their parser. *)
From Coq Require Import String.
From Verif Require Import Base BitsModel DictModel FieldModel NumSpec TlvModel TlvSpec RiffModel Lit.
Open Scope Z_scope.

(** A chunk that is not a list: tag, size, content, and a byte of padding after an odd size. *)
Inductive chunk (c : str * bool) : ck -> list Z -> Prop :=
| chunk_even tag content : zlen tag = 4 -> tag <> lit "LIST" -> zlen content < 2 ^ 32 -> Z.even (zlen content) = true ->
    chunk c (Ck (chunk_name (fst c) tag []) tag (zlen content) [] (Some content)) (tag ++ uint LITTLE_ENDIAN 4 (zlen content) ++ content)
| chunk_odd tag content pad : zlen tag = 4 -> tag <> lit "LIST" -> zlen content < 2 ^ 32 -> Z.even (zlen content) = false ->
    chunk c (Ck (chunk_name (fst c) tag []) tag (zlen content) [] (Some content)) (tag ++ uint LITTLE_ENDIAN 4 (zlen content) ++ content ++ [pad]).
(** A list: its type, then its chunks. *)
Inductive list_chunk (c : str * bool) : ck -> str * bool -> list Z -> list Z -> list Z -> Prop :=
| list_intro sub body : zlen sub = 4 -> 4 + zlen body < 2 ^ 32 -> Z.even (zlen body) = true ->
    list_chunk c (Ck (chunk_name (fst c) (lit "LIST") sub) (lit "LIST") (4 + zlen body) sub None) (fst c, true)
      (lit "LIST" ++ uint LITTLE_ENDIAN 4 (4 + zlen body) ++ sub) body [].
(** A list does not end with an empty chunk. *)
Definition last_chunk (c : str * bool) (b : list Z) : Prop := snd c = true -> 8 < zlen b.
Definition chunks (type : str) : list (doc ck) -> list Z -> Prop := encs chunk list_chunk last_chunk (type, false).
Definition chunks_at (type : str) : Z -> list (doc ck) -> list Z -> list (tree ck) -> Prop := laids chunk list_chunk last_chunk (type, false).
(** A file: the chunks [body], and what is after them *)
Definition riff_bytes (type body post : list Z) : list Z := lit "RIFF" ++ uint LITTLE_ENDIAN 4 (4 + zlen body) ++ type ++ body ++ post.

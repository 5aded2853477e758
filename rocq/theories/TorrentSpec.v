(** What bencoded bytes are (BEP 3), and what is accepted beyond it. *)
From Coq Require Import String.
From Verif Require Import Base DictModel FieldNames TorrentModel Lit.
Open Scope Z_scope.

(** The decimal text of a number, without leading zeros. *)
Definition decimal (t : str) (v : Z) : Prop := t <> [] /\ Forall digit t /\ undec 0 t = v /\ (forall l, t = 48 :: l -> l = []).
Definition signed_decimal (t : str) (v : Z) : Prop := decimal t v \/ exists t', t = 45 :: t' /\ decimal t' (- v) /\ v < 0.

(** A document: integers, strings of bytes, lists and dictionaries. *)
Inductive bval := BInt (z : Z) | BStr (s : list Z) | BList (l : list bval) | BDict (l : list (list Z * bval)).
(** Its bytes *)
Inductive bencode_str : list Z -> list Z -> Prop :=
| bes s t : decimal t (zlen s) -> bencode_str s (t ++ lit ":" ++ s).
Inductive bencode : bval -> list Z -> Prop :=
| be_int z t : signed_decimal t z -> bencode (BInt z) (lit "i" ++ t ++ lit "e")
| be_str s b : bencode_str s b -> bencode (BStr s) b
| be_list l b : bencode_items l b -> bencode (BList l) (lit "l" ++ b ++ lit "e")
| be_dict l b : bencode_pairs l b -> bencode (BDict l) (lit "d" ++ b ++ lit "e")
with bencode_items : list bval -> list Z -> Prop :=
| bel_nil : bencode_items [] []
| bel_cons v l b b' : bencode v b -> bencode_items l b' -> bencode_items (v :: l) (b ++ b')
with bencode_pairs : list (list Z * bval) -> list Z -> Prop :=
| bed_nil : bencode_pairs [] []
| bed_cons k v l bk b b' : bencode_str k bk -> bencode v b -> bencode_pairs l b' -> bencode_pairs ((k, v) :: l) (bk ++ b ++ b').
(** The limits of the parser: integers of 21 characters, strings of 6-digit lengths. *)
Fixpoint in_limits (v : bval) : Prop :=
  match v with
  | BInt z => - 10 ^ 20 < z < 10 ^ 21
  | BStr s => zlen s < 10 ^ 6
  | BList l => (fix all l := match l with [] => True | v :: l => in_limits v /\ all l end) l
  | BDict l => (fix all l := match l with [] => True | (k, v) :: l => zlen k < 10 ^ 6 /\ in_limits v /\ all l end) l
  end.

(** What is shown of a document: the values, and the names of the items of a
    dictionary: the key, with "_" for a space. *)
Definition shows_str (s : list Z) (c : content) : Prop :=
  c = if zlen s =? 0 then CEmpty else if zlen s <? 512 then CText s else CRaw s.
Definition key_name (k : list Z) : str :=
  if (zlen k =? 0) || (512 <=? zlen k) then lit "item[]" else map (fun c => if c =? 32 then 95 else c) k.
Inductive shows : bval -> content -> Prop :=
| sh_int z : shows (BInt z) (CInt (Some z))
| sh_str s c : shows_str s c -> shows (BStr s) c
| sh_list l ts : shows_items l ts -> shows (BList l) (CList ts)
| sh_dict l ts : shows_pairs l ts -> shows (BDict l) (CDict ts)
with shows_items : list bval -> list tree -> Prop :=
| shl_nil : shows_items [] []
| shl_cons v l t ts : shows v (t_content t) -> shows_items l ts -> shows_items (v :: l) (t :: ts)
with shows_pairs : list (list Z * bval) -> list (str * tree * tree) -> Prop :=
| shd_nil : shows_pairs [] []
| shd_cons k v l tk tv ts : shows_str k (t_content tk) -> shows v (t_content tv) -> shows_pairs l ts ->
    shows_pairs ((k, v) :: l) ((key_name k, tk, tv) :: ts).

(** The fields in the file: [at_ a bytes t]: the bytes of the field [t], found at the bit
    address [a]; the fields of a set follow each other between its two delimiters. *)
Inductive at_ : Z -> list Z -> tree -> Prop :=
| at_int a t : t <> [] -> zlen t <= 21 -> ~ In 101 t ->
    at_ a (lit "i" ++ t ++ lit "e") (Node a (8 * (zlen t + 2)) (CInt (py_int 10 t)))
| at_str a d t s c : digit d -> zlen (d :: t) <= 6 -> ~ In 58 (d :: t) -> py_int 10 (d :: t) = Some (zlen s) -> shows_str s c ->
    at_ a ((d :: t) ++ lit ":" ++ s) (Node a (8 * (zlen (d :: t) + 1 + zlen s)) c)
| at_list a b ts : at_items (a + 8) b ts -> at_ a (lit "l" ++ b ++ lit "e") (Node a (8 * (zlen b + 2)) (CList ts))
| at_dict a b ts : at_pairs (a + 8) b ts -> at_ a (lit "d" ++ b ++ lit "e") (Node a (8 * (zlen b + 2)) (CDict ts))
with at_items : Z -> list Z -> list tree -> Prop :=
| ati_nil a : at_items a [] []
| ati_cons a b b' t ts : at_ a b t -> at_items (a + 8 * zlen b) b' ts -> at_items a (b ++ b') (t :: ts)
with at_pairs : Z -> list Z -> list (str * tree * tree) -> Prop :=
| atp_nil a : at_pairs a [] []
| atp_cons a b b' b'' k v ts : at_ a b k -> at_ (a + 8 * zlen b) b' v -> at_pairs (a + 8 * zlen b + 8 * zlen b') b'' ts ->
    at_pairs a (b ++ b' ++ b'') ((item_name k, k, v) :: ts).

(** The texts that int() takes for decimal numbers: spaces around, a sign, digits in groups separated by underscores *)
Definition int_text (t : str) (v : Z) : Prop :=
  exists s1 sign g gs s2, t = s1 ++ sign ++ (g ++ List.concat (map (cons 95) gs)) ++ s2 /\ Forall (fun c => is_space c = true) (s1 ++ s2) /\
    Forall (fun g => g <> [] /\ Forall digit g) (g :: gs) /\
    (((sign = [] \/ sign = [43]) /\ v = undec 0 (g ++ List.concat gs)) \/ (sign = [45] /\ v = - undec 0 (g ++ List.concat gs))).

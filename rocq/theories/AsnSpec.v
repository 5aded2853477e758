(** ASN.1 values and their encodings (X.690, definite lengths), for the claims about the parser. *)
From Coq Require Import String.
From Verif Require Import Base BitsModel DictModel FieldModel VarintSpec AsnModel Lit.
Open Scope Z_scope.

Inductive value :=
| VBool (b : bool)
| VInt (z : Z)
| VEnum (z : Z)
| VBits (unused : Z) (bytes : list Z)
| VOctets (bytes : list Z)
| VNull
| VOid (arcs : list Z)
| VText (tag : Z) (bytes : list Z)
| VSeq (items : list value)
| VSet (items : list value)
| VTagged (cls tag : Z) (items : list value)
| VPrim (cls tag : Z) (bytes : list Z).

(** Two's complement, most significant byte first. *)
Definition twos (bytes : list Z) : Z :=
  from_bytes_big bytes - (match bytes with b :: _ => if 128 <=? b then 256 ^ zlen bytes else 0 | [] => 0 end).
(** An integer is encoded in as few bytes as possible: its first nine bits are not all equal. *)
Definition minimal (bytes : list Z) : Prop :=
  match bytes with [] => False | x :: y :: _ => ~ (x = 0 /\ y < 128) /\ ~ (x = 255 /\ 128 <= y) | _ => True end.
(** The length: one byte, or up to eight bytes after a first one. *)
Inductive enc_length (n : Z) : list Z -> Prop :=
| el_short : 0 <= n < 128 -> enc_length n (asn_short n)
| el_long k : (1 <= k <= 8)%nat -> 0 <= n < 256 ^ Z.of_nat k -> enc_length n (asn_long k n).
(** The arcs of an object identifier after the first two, of 56 bits at most. *)
Inductive enc_arcs : list Z -> list Z -> Prop :=
| ea_nil : enc_arcs [] []
| ea_cons v n l b : (n <= 7)%nat -> 0 <= v < 128 ^ (Z.of_nat n + 1) -> enc_arcs l b -> enc_arcs (v :: l) (vlq n v ++ b).
(** The types of character strings. *)
Definition text_tag (tag : Z) : Prop := tag = 12 \/ 18 <= tag <= 30.
(** Tag, length and content. *)
Definition tlv (cls form tag : Z) (content b : list Z) : Prop :=
  exists len, enc_length (zlen content) len /\ b = [64 * cls + 32 * form + tag] ++ len ++ content.

Inductive enc : value -> list Z -> Prop :=
| e_bool (v : bool) c b : (c <> 0 <-> v = true) -> tlv 0 0 1 [c] b -> enc (VBool v) b
| e_int z c b : minimal c -> z = twos c -> tlv 0 0 2 c b -> enc (VInt z) b
| e_enum z c b : minimal c -> z = twos c -> tlv 0 0 10 c b -> enc (VEnum z) b
| e_bits u bytes b : 0 <= u < 8 -> tlv 0 0 3 (u :: bytes) b -> enc (VBits u bytes) b
| e_octets bytes b : tlv 0 0 4 bytes b -> enc (VOctets bytes) b
| e_null b : tlv 0 0 5 [] b -> enc VNull b
| e_oid x y l c b : 0 <= x <= 2 -> 0 <= y -> 40 * x + y < 128 -> (x < 2 -> y < 40) -> enc_arcs l c -> tlv 0 0 6 ((40 * x + y) :: c) b -> enc (VOid (x :: y :: l)) b
| e_oid2 y l n c b : (n <= 7)%nat -> 80 + y < 128 ^ (Z.of_nat n + 1) -> 48 <= y -> enc_arcs l c -> tlv 0 0 6 (vlq n (80 + y) ++ c) b -> enc (VOid (2 :: y :: l)) b
| e_text tag bytes b : text_tag tag -> tlv 0 0 tag bytes b -> enc (VText tag bytes) b
| e_seq l c b : enc_items l c -> tlv 0 1 16 c b -> enc (VSeq l) b
| e_set l c b : enc_items l c -> tlv 0 1 17 c b -> enc (VSet l) b
| e_tagged cls tag l c b : 1 <= cls <= 3 -> 0 <= tag <= 30 -> enc_items l c -> tlv cls 1 tag c b -> enc (VTagged cls tag l) b
| e_prim cls tag c b : 1 <= cls <= 3 -> 0 <= tag <= 30 -> tlv cls 0 tag c b -> enc (VPrim cls tag c) b
with enc_items : list value -> list Z -> Prop :=
| e_nil : enc_items [] []
| e_cons v l b c : enc v b -> enc_items l c -> enc_items (v :: l) (b ++ c).

(** Values that the parser handles: integers of 2048 bytes at most, sets of one element at most, and
    object identifiers whose second arc is below 40. *)
Inductive handled : value -> Prop :=
| h_bool v : handled (VBool v)
| h_int z : - 2 ^ 16383 <= z < 2 ^ 16383 -> handled (VInt z)
| h_enum z : - 2 ^ 16383 <= z < 2 ^ 16383 -> handled (VEnum z)
| h_bits u l : handled (VBits u l)
| h_octets l : handled (VOctets l)
| h_null : handled VNull
| h_oid x y l : y < 40 -> handled (VOid (x :: y :: l))
| h_text t l : handled (VText t l)
| h_seq l : Forall handled l -> handled (VSeq l)
| h_set l : (List.length l <= 1)%nat -> Forall handled l -> handled (VSet l)
| h_tagged c t l : Forall handled l -> handled (VTagged c t l)
| h_prim c t l : handled (VPrim c t l).

(** ** What is shown *)
Definition charset_of (tag : Z) : str := if tag =? 12 then lit "UTF-8" else if tag =? 30 then lit "UTF-16" else lit "ASCII".
(** The text of an object identifier: its arcs in decimal, between dots. *)
Definition dotted (arcs : list Z) : str := join_dots (map dec arcs).
Definition or_none (empty : bool) (c : content) : content := if empty then CNone else c.
Definition is_nil {A} (l : list A) : bool := match l with [] => true | _ => false end.
Inductive shows : value -> node -> Prop :=
| s_bool v c a s : (c <> 0 <-> v = true) -> shows (VBool v) (Node a s 0 0 1 (CBool c))
| s_int z a s : shows (VInt z) (Node a s 0 0 2 (CInt z))
| s_enum z a s : shows (VEnum z) (Node a s 0 0 10 (CInt z))
| s_bits u l a s : shows (VBits u l) (Node a s 0 0 3 (CBits u l))
| s_octets l a s : shows (VOctets l) (Node a s 0 0 4 (or_none (is_nil l) (CBytes l)))
| s_null a s : shows VNull (Node a s 0 0 5 CNone)
| s_oid x l first items a s : oid_text first items = dotted (x :: l) -> shows (VOid (x :: l)) (Node a s 0 0 6 (COid first items None))
| s_text tag l a s : shows (VText tag l) (Node a s 0 0 tag (or_none (is_nil l) (CText (charset_of tag) l)))
| s_seq l ns a s : Forall2 shows l ns -> shows (VSeq l) (Node a s 0 1 16 (or_none (is_nil l) (CItems ns None)))
| s_set l ns a s : Forall2 shows l ns -> shows (VSet l) (Node a s 0 1 17 (or_none (is_nil l) (CItems ns None)))
| s_tagged c t l ns a s : Forall2 shows l ns -> shows (VTagged c t l) (Node a s c 1 t (or_none (is_nil l) (CItems ns None)))
| s_prim c t l a s : shows (VPrim c t l) (Node a s c 0 t (or_none (is_nil l) (CText (lit "ASCII") l))).

(** The fields are within their parent, one after the other, without a hole; [full]: they
    take all the content of the object, in a set too.  Nothing is left unread for want of steps. *)
Definition leaf (c : content) : Prop :=
  match c with CItems _ _ => False | COid _ _ e => e <> Some OutOfFuel | CErr e => e <> OutOfFuel | _ => True end.
Inductive tiles (full : Prop) : node -> Prop :=
| t_items a s c f k items e p q : a + 16 <= p -> chain full p items q -> q <= a + s -> e <> Some OutOfFuel ->
    (full \/ (e = None /\ ~ (k = 17 /\ c = 0)) -> q = a + s) -> tiles full (Node a s c f k (CItems items e))
| t_leaf a s c f k x : leaf x -> tiles full (Node a s c f k x)
with chain (full : Prop) : Z -> list node -> Z -> Prop :=
| c_nil p : chain full p [] p
| c_cons p n l q : n_addr n = p -> 0 < n_size n -> tiles full n -> chain full (p + n_size n) l q -> chain full p (n :: l) q.

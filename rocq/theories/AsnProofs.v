(** Proofs about the ASN.1 parser. *)
From Coq Require Import String.
From Verif Require Import Base BaseProofs BitsModel BitsSpec BitsProofs ChunkBase DictModel FieldModel VarintModel VarintSpec VarintProofs AsnModel AsnSpec Lit.
Open Scope Z_scope.
Ltac Zify.zify_post_hook ::= Z.div_mod_to_equations.

(** ** The first byte *)
Lemma byte_class b : is_byte b -> val_be (sub (bits_be [b]) 0 2) = b / 64.
Proof. apply (byte_eq (fun b => val_be (sub (bits_be [b]) 0 2)) (fun b => b / 64)). vm_compute. reflexivity. Qed.
Lemma byte_form b : is_byte b -> val_be (sub (bits_be [b]) 2 1) = b / 32 mod 2.
Proof. apply (byte_eq (fun b => val_be (sub (bits_be [b]) 2 1)) (fun b => b / 32 mod 2)). vm_compute. reflexivity. Qed.
Lemma byte_key b : is_byte b -> val_be (sub (bits_be [b]) 3 5) = b mod 32.
Proof. apply (byte_eq (fun b => val_be (sub (bits_be [b]) 3 5)) (fun b => b mod 32)). vm_compute. reflexivity. Qed.

Lemma enc_length_len n len : enc_length n len -> 1 <= zlen len.
Proof. intros [H|k K H]; [change (zlen (asn_short n)) with 1; lia|]. unfold asn_long. rewrite zlen_cons. pose proof (zlen_nonneg (be_bytes k n)). lia. Qed.
Lemma zlen_be_bytes k : forall v, zlen (be_bytes k v) = Z.of_nat k.
Proof. induction k as [|k IH]; intros v; [reflexivity|]. cbn [be_bytes]. rewrite zlen_app, IH. change (zlen [v mod 256]) with 1. lia. Qed.

(** ** Integers *)
Lemma twos_half x l : is_bytes (x :: l) -> (128 <=? x) = (2 ^ (8 * zlen (x :: l) - 1) <=? from_bytes_big (x :: l)).
Proof.
  intros B. inversion B as [|? ? Bx Bl]; subst. pose proof (from_bytes_big_bound l Bl) as F. rewrite from_bytes_big_cons, zlen_cons.
  pose proof (zlen_nonneg l) as L. replace (8 * (1 + zlen l) - 1) with (7 + 8 * zlen l) by lia. rewrite Z.pow_add_r by lia. change (2 ^ 7) with 128.
  rewrite Z.pow_mul_r by lia. change (2 ^ 8) with 256. set (m := 256 ^ zlen l) in *. set (f := from_bytes_big l) in *. unfold is_byte in Bx. clearbody m f. clear -F Bx. nia.
Qed.
Lemma minimal_bound c : is_bytes c -> minimal c -> - 2 ^ 16383 <= twos c < 2 ^ 16383 -> 1 <= zlen c <= 2048.
Proof.
  intros B M T. destruct c as [|x c]; [contradiction|]. rewrite zlen_cons. pose proof (zlen_nonneg c) as L0. split; [lia|].
  destruct (Z_le_gt_dec (1 + zlen c) 2048) as [|G]; [assumption|exfalso]. destruct c as [|y c]; [change (zlen (@nil Z)) with 0 in G; lia|].
  inversion B as [|? ? Bx B']; subst. inversion B' as [|? ? By Bc]; subst. destruct M as [M1 M2]. unfold twos in T.
  rewrite !from_bytes_big_cons in T. rewrite !zlen_cons in *. pose proof (zlen_nonneg c) as L. pose proof (from_bytes_big_bound c Bc) as F.
  set (f := from_bytes_big c) in *. clearbody f. set (m := 256 ^ zlen c) in *.
  assert (E1 : 256 ^ (1 + zlen c) = 256 * m) by (unfold m; rewrite Z.pow_add_r by lia; reflexivity).
  assert (E2 : 256 ^ (1 + (1 + zlen c)) = 65536 * m) by (rewrite (Z.pow_add_r 256 1) by lia; rewrite E1; lia).
  assert (P : 2 ^ 16383 <= 128 * m).
  { unfold m. change 256 with (2 ^ 8). rewrite <- Z.pow_mul_r by lia. change 128 with (2 ^ 7). rewrite <- Z.pow_add_r by lia. apply Z.pow_le_mono_r; lia. }
  rewrite E1, E2 in T. set (big := 2 ^ 16383) in *. assert (Hm : 0 < m) by (unfold m; apply Z.pow_pos_nonneg; lia). clearbody big m. clear E1 E2 G L0 L B B'. unfold is_byte in *.
  destruct (128 <=? x) eqn:X.
  - destruct (Z.eq_dec x 255) as [->|]; nia.
  - destruct (Z.eq_dec x 0) as [->|]; nia.
Qed.

Section Read.
Context (read : read_fun) (data : list Z) (Hs : serves read data) (Hb : is_bytes data).

Lemma asn_length n len p : enc_length n len -> occurs_at len data p -> asn_int read (8 * p) = Ok (n, 8 * zlen len).
Proof using All.
  intros [H|k K H] O.
  - rewrite (asn_short_ok read data Hs Hb n p H O). reflexivity.
  - rewrite (asn_long_ok read data Hs Hb k n p K H O). unfold asn_long. rewrite zlen_cons, zlen_be_bytes. do 2 f_equal. lia.
Qed.
Lemma object_tlv cls form tag c b p h fuel stop : tlv cls form tag c b -> occurs_at b data p -> 0 <= cls < 4 -> 0 <= form < 2 -> 0 <= tag < 32 ->
  choose cls form tag = Ok h -> 8 * (p + zlen b) <= stop ->
  exists q, p + 2 <= q /\ q + zlen c = p + zlen b /\ occurs_at c data q /\
  Object read (S fuel) stop (8 * p) = Ok (Node (8 * p) (8 * zlen b) cls form tag
    (if is_nil c then CNone else read_content read (Object read fuel) (S fuel) h (8 * q) (zlen c) (8 * (p + zlen b)))).
Proof using All.
  intros (len & L & ->) O C F T Ch St. pose proof (enc_length_len _ _ L) as L1. apply occ_app in O as [O1 O]. apply occ_app in O as [O2 O3].
  change (zlen [64 * cls + 32 * form + tag]) with 1 in *. set (z := 64 * cls + 32 * form + tag) in *.
  exists (p + 1 + zlen len). pose proof (zlen_nonneg c). rewrite !zlen_app in *. change (zlen [z]) with 1 in *.
  split; [lia|]. split; [lia|]. split; [exact O3|]. assert (Bz : is_byte z) by (unfold is_byte, z; lia).
  cbn [Object]. replace (8 * p) with (8 * p + 0) at 1 by lia.
  rewrite (read_bits read data Hs Hb z p 0 2 O1), (read_bits read data Hs Hb z p 2 1 O1), (read_bits read data Hs Hb z p 3 5 O1) by lia. cbn [bind].
  rewrite byte_class, byte_form, byte_key by exact Bz. replace (z / 64) with cls by (unfold z; lia). replace (z / 32 mod 2) with form by (unfold z; lia). replace (z mod 32) with tag by (unfold z; lia).
  rewrite Ch. cbn [bind]. replace (8 * p + 8) with (8 * (p + 1)) by lia. rewrite (asn_length _ _ _ L O2). cbn [bind fst snd].
  replace (8 * (p + 1) + 8 * zlen len) with (8 * (p + 1 + zlen len)) by lia. replace (stop <? 8 * (p + 1 + zlen len)) with false by lia.
  replace (Z.min (8 + 8 * zlen len + zlen c * 8) (stop - 8 * p)) with (8 * (1 + (zlen len + zlen c))) by lia.
  replace (8 * p + 8 * (1 + (zlen len + zlen c))) with (8 * (p + (1 + (zlen len + zlen c)))) by lia.
  destruct c as [|x c]; [reflexivity|]. replace (zlen (x :: c) =? 0) with false by (rewrite zlen_cons; pose proof (zlen_nonneg c); lia).
  set (c' := x :: c) in *. assert (1 <= zlen c') by (unfold c'; rewrite zlen_cons; pose proof (zlen_nonneg c); lia).
  replace (8 * (p + (1 + (zlen len + zlen c'))) <=? 8 * (p + 1 + zlen len)) with false by lia. reflexivity.
Qed.

Lemma read_twos c p : occurs_at c data p -> c <> [] -> readInteger read (8 * p) true (zlen c * 8) BIG_ENDIAN = Ok (twos c).
Proof using All.
  intros O N. pose proof (occurs_bytes _ _ _ Hb O) as B. unfold readInteger. rewrite (Z.mul_comm (zlen c)). rewrite (read_big read data Hs Hb c p O N). cbn [bind].
  destruct c as [|x c]; [congruence|]. rewrite zlen_cons. pose proof (zlen_nonneg c). rewrite !py_shl1_ok by lia. cbn [bind]. rewrite !Z.shiftl_1_l.
  rewrite <- zlen_cons with (x := x). rewrite <- twos_half by exact B. unfold twos. destruct (128 <=? x); [|f_equal; lia].
  do 2 f_equal. rewrite Z.pow_mul_r by (rewrite ?zlen_cons; lia). reflexivity.
Qed.
Lemma zlen_vlq n v : zlen (vlq n v) = Z.of_nat n + 1.
Proof using.
  clear. unfold vlq. rewrite zlen_app. change (zlen [v mod 128]) with 1. f_equal. generalize (v / 128). induction n as [|n IH]; intros w; [reflexivity|].
  cbn [be_groups]. rewrite zlen_app, IH. change (zlen [128 + w mod 128]) with 1. lia.
Qed.
Lemma arcs_ok l c : enc_arcs l c -> forall p m, occurs_at c data p -> (List.length c < m)%nat -> oid_items read m (8 * (p + zlen c)) (8 * p) = (l, None).
Proof using All.
  induction 1 as [|v n l b N V E IH]; intros p m O M; (destruct m as [|m]; [lia|]); cbn [oid_items].
  - change (zlen (@nil Z)) with 0. replace (8 * (p + 0) <=? 8 * p) with true by lia. reflexivity.
  - apply occ_app in O as [O1 O2]. rewrite zlen_app, zlen_vlq in *. pose proof (zlen_nonneg b).
    replace (8 * (p + (Z.of_nat n + 1 + zlen b)) <=? 8 * p) with false by lia. rewrite (oid_ok read data Hs Hb n v p N V O1). cbv iota beta.
    replace (8 * (p + (Z.of_nat n + 1 + zlen b)) <? 8 * p + 8 * (Z.of_nat n + 1)) with false by lia.
    replace (8 * p + 8 * (Z.of_nat n + 1)) with (8 * (p + (Z.of_nat n + 1))) by lia.
    replace (8 * (p + (Z.of_nat n + 1 + zlen b))) with (8 * (p + (Z.of_nat n + 1) + zlen b)) by lia. rewrite IH; [reflexivity|exact O2|].
    rewrite app_length in M. pose proof (zlen_vlq n v) as Lv. unfold zlen in Lv. lia.
Qed.

Scheme enc_mut := Minimality for enc Sort Prop
  with enc_items_mut := Minimality for enc_items Sort Prop.
Combined Scheme enc_both from enc_mut, enc_items_mut.

Definition P_val (v : value) (b : list Z) : Prop := handled v -> forall p stop fuel, occurs_at b data p -> 8 * (p + zlen b) <= stop -> zlen b <= Z.of_nat fuel ->
  exists n, Object read fuel stop (8 * p) = Ok n /\ n_addr n = 8 * p /\ n_size n = 8 * zlen b /\ shows v n /\ tiles True n.
Definition P_items (l : list value) (c : list Z) : Prop := Forall handled l -> forall p fuel m, occurs_at c data p -> zlen c <= Z.of_nat fuel -> zlen c < Z.of_nat m ->
  exists ns, items (Object read fuel) m (8 * (p + zlen c)) (8 * p) = (ns, None) /\ Forall2 shows l ns /\ chain True (8 * p) ns (8 * (p + zlen c)).
Lemma tlv_len cls form tag c b : tlv cls form tag c b -> zlen c + 2 <= zlen b.
Proof using. intros (len & L & ->). apply enc_length_len in L. rewrite !zlen_app. change (zlen [_]) with 1. lia. Qed.
Lemma enc_len v b : enc v b -> 2 <= zlen b.
Proof using. intros E. inversion E; subst; match goal with H : tlv _ _ _ ?c _ |- _ => pose proof (tlv_len _ _ _ _ _ H); pose proof (zlen_nonneg c) end; lia. Qed.
Lemma items_nil l c : enc_items l c -> is_nil l = is_nil c.
Proof using. intros [|v l' b c' E _]; [reflexivity|]. apply enc_len in E. destruct b; [change (zlen (@nil Z)) with 0 in E; lia|reflexivity]. Qed.
Lemma list_nonempty {A} (c : list A) : is_nil c = false -> c <> [].
Proof using. intros H ->. discriminate. Qed.
Ltac leaf_ok := cbn [leaf]; first [exact I | discriminate].

Ltac start T p stop fuel O St Fu q E Q2 Oc :=
  let L := fresh "L" in pose proof (tlv_len _ _ _ _ _ T) as L; destruct fuel as [|fuel]; [match type of L with zlen ?c + 2 <= _ => pose proof (zlen_nonneg c) end; lia|];
  destruct (object_tlv _ _ _ _ _ p _ fuel stop T O ltac:(lia) ltac:(lia) ltac:(lia) eq_refl St) as (q & Q1 & Q2 & Oc & E); rewrite E;
  eexists; split; [reflexivity|]; split; [reflexivity|]; split; [reflexivity|].
Lemma complete : (forall v b, enc v b -> P_val v b) /\ (forall l c, enc_items l c -> P_items l c).
Proof using All.
  apply enc_both; unfold P_val, P_items.
  - intros v c b V T H p stop fuel O St Fu. start T p stop fuel O St Fu q E Q2 Oc. cbn [is_nil].
    cbn [read_content]. change (zlen [c]) with 1 in *. change (negb (1 =? 1)) with false. cbv iota. replace (8 * (p + zlen b) <? 8 * q + 8) with false by lia.
    rewrite (read_byte read data Hs Hb c q BIG_ENDIAN Oc) by discriminate. cbn [bind ok_or]. split; [constructor; exact V|apply t_leaf; leaf_ok].
  - intros z c b M V T H p stop fuel O St Fu. start T p stop fuel O St Fu q E Q2 Oc. inversion H as [|z0 Bz | | | | | | | | | |]; subst.
    destruct (minimal_bound c (occurs_bytes _ _ _ Hb Oc) M Bz) as [C1 C2]. replace (is_nil c) with false by (destruct c; [contradiction|reflexivity]).
    cbn [read_content]. replace ((zlen c * 8 <? 8) || (16384 <? zlen c * 8)) with false by lia. replace (8 * (p + zlen b) <? 8 * q + zlen c * 8) with false by lia.
    rewrite (read_twos c q Oc) by (destruct c; [contradiction|discriminate]). cbn [bind ok_or]. split; [constructor|apply t_leaf; leaf_ok].
  - intros z c b M V T H p stop fuel O St Fu. start T p stop fuel O St Fu q E Q2 Oc. inversion H as [| |z0 Bz | | | | | | | | |]; subst.
    destruct (minimal_bound c (occurs_bytes _ _ _ Hb Oc) M Bz) as [C1 C2]. replace (is_nil c) with false by (destruct c; [contradiction|reflexivity]).
    cbn [read_content]. replace ((zlen c * 8 <? 8) || (16384 <? zlen c * 8)) with false by lia. replace (8 * (p + zlen b) <? 8 * q + zlen c * 8) with false by lia.
    rewrite (read_twos c q Oc) by (destruct c; [contradiction|discriminate]). cbn [bind ok_or]. split; [constructor|apply t_leaf; leaf_ok].
  - intros u l b U T H p stop fuel O St Fu. start T p stop fuel O St Fu q E Q2 Oc. cbn [is_nil read_content].
    replace (8 * (p + zlen b) <? 8 * q + zlen (u :: l) * 8) with false by lia. pose proof Oc as Oc'. apply occurs_cons in Oc' as [O1 O2].
    rewrite (read_byte read data Hs Hb u q BIG_ENDIAN O1) by discriminate. cbn [bind]. rewrite zlen_cons. destruct l as [|y l].
    + change (1 <? 1 + zlen (@nil Z)) with false. cbn [ok_or]. split; [constructor|apply t_leaf; leaf_ok].
    + pose proof (zlen_nonneg l). replace (1 <? 1 + zlen (y :: l)) with true by (rewrite zlen_cons; lia). replace (8 * q + 8) with (8 * (q + 1)) by lia. replace (1 + zlen (y :: l) - 1) with (zlen (y :: l)) by lia.
      rewrite (rb_occ read data Hs _ _ O2) by discriminate. cbn [bind ok_or]. split; [constructor|apply t_leaf; leaf_ok].
  - intros l b T H p stop fuel O St Fu. start T p stop fuel O St Fu q E Q2 Oc. destruct (is_nil l) eqn:N.
    + split; [|apply t_leaf; leaf_ok]. replace CNone with (or_none (is_nil l) (CBytes l)) by (rewrite N; reflexivity). constructor.
    + cbn [read_content]. replace (8 * (p + zlen b) <? 8 * q + zlen l * 8) with false by lia. rewrite (rb_occ read data Hs _ _ Oc) by (apply list_nonempty, N). cbn [bind ok_or].
      split; [|apply t_leaf; leaf_ok]. replace (CBytes l) with (or_none (is_nil l) (CBytes l)) by (rewrite N; reflexivity). constructor.
  - intros b T H p stop fuel O St Fu. start T p stop fuel O St Fu q E Q2 Oc. cbn [is_nil]. split; [constructor|apply t_leaf; leaf_ok].
  - intros x y l c b X Y XY XY2 A T H p stop fuel O St Fu. start T p stop fuel O St Fu q E Q2 Oc. cbn [is_nil read_content]. rewrite zlen_cons in *. pose proof (zlen_nonneg c).
    replace (8 * (p + zlen b) <? 8 * q + 8) with false by lia. apply occurs_cons in Oc as [O1 O2].
    rewrite (read_byte read data Hs Hb _ q BIG_ENDIAN O1) by discriminate. cbn [bind]. replace (8 * q + 8) with (8 * (q + 1)) by lia. replace (8 * (p + zlen b)) with (8 * (q + 1 + zlen c)) by lia.
    rewrite (arcs_ok l c A (q + 1) (S fuel) O2) by (unfold zlen in *; lia). cbn [fst snd ok_or]. split; [|apply t_leaf; leaf_ok]. constructor.
    inversion H; subst. unfold oid_text, dotted. replace ((40 * x + y) / 40) with x by lia. replace ((40 * x + y) mod 40) with y by lia. cbn [map join_dots List.concat]. rewrite <- !app_assoc. reflexivity.
  - intros y l n c b N Y80 Y48 A T H. inversion H; subst. lia.
  - intros tag l b TT T H p stop fuel O St Fu.
    assert (Ch : choose 0 0 tag = Ok (HText (charset_of tag))).
    { destruct TT as [->|TT]; [reflexivity|]. assert (exists k, (k < 13)%nat /\ tag = 18 + Z.of_nat k) as (k & K & ->) by (exists (Z.to_nat (tag - 18)); lia).
      do 13 (destruct k as [|k]; [reflexivity|]). lia. }
    pose proof (tlv_len _ _ _ _ _ T) as L. destruct fuel as [|fuel]; [pose proof (zlen_nonneg l); lia|].
    destruct (object_tlv _ _ _ _ _ p _ fuel stop T O ltac:(lia) ltac:(lia) ltac:(unfold text_tag in TT; lia) Ch St) as (q & Q1 & Q2 & Oc & E). rewrite E.
    eexists. split; [reflexivity|]. split; [reflexivity|]. split; [reflexivity|]. destruct (is_nil l) eqn:N.
    + split; [|apply t_leaf; leaf_ok]. replace CNone with (or_none (is_nil l) (CText (charset_of tag) l)) by (rewrite N; reflexivity). constructor.
    + cbn [read_content]. replace (8 * (p + zlen b) <? 8 * q + zlen l * 8) with false by lia. rewrite (rb_occ read data Hs _ _ Oc) by (apply list_nonempty, N). cbn [bind ok_or].
      split; [|apply t_leaf; leaf_ok]. replace (CText (charset_of tag) l) with (or_none (is_nil l) (CText (charset_of tag) l)) by (rewrite N; reflexivity). constructor.
  - intros l c b Ei IH T H p stop fuel O St Fu. start T p stop fuel O St Fu q E Q2 Oc. inversion H as [| | | | | | | |? Hl | | |]; subst.
    rewrite <- (items_nil l c Ei). cbn [read_content]. destruct (IH Hl q fuel (S fuel) Oc) as (ns & R & Sh & Ck); [lia|lia|]. replace (8 * (p + zlen b)) with (8 * (q + zlen c)) by lia. rewrite R. cbn [fst snd].
    destruct (is_nil l) eqn:N.
    + split; [|apply t_leaf; leaf_ok]. replace CNone with (or_none (is_nil l) (CItems ns None)) by (rewrite N; reflexivity). constructor. exact Sh.
    + split; [replace (CItems ns None) with (or_none (is_nil l) (CItems ns None)) by (rewrite N; reflexivity); constructor; exact Sh|]. apply (t_items True _ _ _ _ _ _ _ (8 * q) (8 * (q + zlen c))); [lia|exact Ck|pose proof (zlen_nonneg c); lia|discriminate|intros _; pose proof (zlen_nonneg c); lia].
  - intros l c b Ei IH T H p stop fuel O St Fu. start T p stop fuel O St Fu q E Q2 Oc. inversion H as [| | | | | | | | |? H1 Hl | |]; subst.
    rewrite <- (items_nil l c Ei). cbn [read_content]. destruct (IH Hl q fuel (S fuel) Oc) as (ns & R & Sh & Ck); [lia|lia|]. replace (8 * (p + zlen b)) with (8 * (q + zlen c)) by lia.
    destruct (is_nil l) eqn:N.
    + split; [|apply t_leaf; leaf_ok]. replace CNone with (or_none (is_nil l) (CItems ns None)) by (rewrite N; reflexivity). constructor. exact Sh.
    + destruct l as [|v l]; [discriminate|]. destruct l; [|cbn in H1; lia]. inversion Sh as [|? n ? ns' Sn Sh']; subst. inversion Sh'; subst.
      cbn [items] in R. destruct (8 * (q + zlen c) <=? 8 * q) eqn:W; [discriminate|]. destruct (Object read fuel (8 * (q + zlen c)) (8 * q)) as [t|e] eqn:Ob; [|discriminate].
      assert (t = n) as -> by congruence. split; [apply (s_set [v] [n]); exact Sh|]. apply (t_items True _ _ _ _ _ _ _ (8 * q) (8 * (q + zlen c))); [lia|exact Ck|pose proof (zlen_nonneg c); lia|discriminate|intros _; pose proof (zlen_nonneg c); lia].
  - intros cls tag l c b C Tg Ei IH T H p stop fuel O St Fu.
    assert (Ch : choose cls 1 tag = Ok HSeq) by (unfold choose; replace (cls =? 0) with false by lia; reflexivity).
    pose proof (tlv_len _ _ _ _ _ T) as L. destruct fuel as [|fuel]; [pose proof (zlen_nonneg c); lia|].
    destruct (object_tlv _ _ _ _ _ p _ fuel stop T O ltac:(lia) ltac:(lia) ltac:(lia) Ch St) as (q & Q1 & Q2 & Oc & E). rewrite E.
    eexists. split; [reflexivity|]. split; [reflexivity|]. split; [reflexivity|]. inversion H as [| | | | | | | | | |? ? ? Hl |]; subst.
    rewrite <- (items_nil l c Ei). cbn [read_content]. destruct (IH Hl q fuel (S fuel) Oc) as (ns & R & Sh & Ck); [lia|lia|]. replace (8 * (p + zlen b)) with (8 * (q + zlen c)) by lia. rewrite R. cbn [fst snd].
    destruct (is_nil l) eqn:N.
    + split; [|apply t_leaf; leaf_ok]. replace CNone with (or_none (is_nil l) (CItems ns None)) by (rewrite N; reflexivity). constructor. exact Sh.
    + split; [replace (CItems ns None) with (or_none (is_nil l) (CItems ns None)) by (rewrite N; reflexivity); constructor; exact Sh|]. apply (t_items True _ _ _ _ _ _ _ (8 * q) (8 * (q + zlen c))); [lia|exact Ck|pose proof (zlen_nonneg c); lia|discriminate|intros _; pose proof (zlen_nonneg c); lia].
  - intros cls tag l b C Tg T H p stop fuel O St Fu.
    assert (Ch : choose cls 0 tag = Ok (HText (lit "ASCII"))) by (unfold choose; replace (cls =? 0) with false by lia; reflexivity).
    pose proof (tlv_len _ _ _ _ _ T) as L. destruct fuel as [|fuel]; [pose proof (zlen_nonneg l); lia|].
    destruct (object_tlv _ _ _ _ _ p _ fuel stop T O ltac:(lia) ltac:(lia) ltac:(lia) Ch St) as (q & Q1 & Q2 & Oc & E). rewrite E.
    eexists. split; [reflexivity|]. split; [reflexivity|]. split; [reflexivity|]. destruct (is_nil l) eqn:N.
    + split; [|apply t_leaf; leaf_ok]. replace CNone with (or_none (is_nil l) (CText (lit "ASCII") l)) by (rewrite N; reflexivity). constructor.
    + cbn [read_content]. replace (8 * (p + zlen b) <? 8 * q + zlen l * 8) with false by lia. rewrite (rb_occ read data Hs _ _ Oc) by (apply list_nonempty, N). cbn [bind ok_or].
      split; [|apply t_leaf; leaf_ok]. replace (CText (lit "ASCII") l) with (or_none (is_nil l) (CText (lit "ASCII") l)) by (rewrite N; reflexivity). constructor.
  - intros _ p fuel m O Fu M. exists []. destruct m as [|m]; [change (zlen (@nil Z)) with 0 in M; lia|]. cbn [items]. change (zlen (@nil Z)) with 0. replace (p + 0) with p by lia.
    replace (8 * p <=? 8 * p) with true by lia. split; [reflexivity|]. split; constructor.
  - intros v l b c E IHv Es IHl H p fuel m O Fu M. inversion H as [|? ? Hv Hl]; subst. apply occ_app in O as [O1 O2]. rewrite zlen_app in *. pose proof (enc_len v b E). pose proof (zlen_nonneg c).
    destruct m as [|m]; [lia|]. cbn [items]. replace (8 * (p + (zlen b + zlen c)) <=? 8 * p) with false by lia.
    destruct (IHv Hv p (8 * (p + (zlen b + zlen c))) fuel O1) as (n & R & A & Sz & Sh & Ti); [lia|lia|]. rewrite R, Sz.
    destruct (IHl Hl (p + zlen b) fuel m O2) as (ns & R' & Sh' & Ck'); [lia|lia|].
    replace (8 * p + 8 * zlen b) with (8 * (p + zlen b)) by lia. replace (8 * (p + (zlen b + zlen c))) with (8 * (p + zlen b + zlen c)) by lia. rewrite R'. cbn [fst snd].
    exists (n :: ns). split; [reflexivity|]. split; [constructor; assumption|]. constructor; [exact A|lia|exact Ti|]. rewrite Sz. replace (8 * p + 8 * zlen b) with (8 * (p + zlen b)) by lia. exact Ck'.
Qed.

(** ** Every file *)
Context (He : ends read data).
Definition io (e : exn) : Prop := e = ReadStreamError \/ e = ParserError \/ e = MissingField.
Lemma asn_int_any p : 0 <= p -> (exists v k, asn_int read (8 * p) = Ok (v, 8 * k) /\ 0 <= v /\ 1 <= k /\ p + k <= zlen data) \/ (exists e, asn_int read (8 * p) = Err e /\ io e).
Proof using All.
  intros P. unfold asn_int. destruct (bits_any read data Hs He (8 * p) 8 BIG_ENDIAN Hb ltac:(discriminate) ltac:(lia) ltac:(lia)) as [(E & L & B)|E]; rewrite E; cbn [bind]; [|right; unfold io; eauto].
  set (b := bits_at data (8 * p) 8 BIG_ENDIAN) in *. destruct (128 <=? b) eqn:C.
  - change 127 with (Z.ones 7). rewrite Z.land_ones by lia. set (m := b mod 2 ^ 7). assert (0 <= m) by (apply Z.mod_pos_bound; lia). destruct (m * 8 =? 0) eqn:M; [right; unfold io; eauto|]. destruct (64 <? m * 8) eqn:M2; [right; unfold io; eauto|].
    destruct (bits_any read data Hs He (8 * p + 8) (m * 8) BIG_ENDIAN Hb ltac:(discriminate) ltac:(lia) ltac:(lia)) as [(E2 & L2 & B2)|E2]; rewrite E2; cbn [bind]; [|right; unfold io; eauto].
    left. eexists _, (1 + m). split; [do 2 f_equal; lia|lia].
  - left. exists b, 1. repeat split; lia.
Qed.
Lemma oid_loop_any : forall n p size v c, 0 <= p -> size <= 64 -> 72 <= size + 8 * Z.of_nat n ->
  (exists w k, oid_loop read n (8 * p) size v c = Ok (w, size + 8 * k) /\ 0 <= k) \/ (exists e, oid_loop read n (8 * p) size v c = Err e /\ io e).
Proof using All.
  induction n as [|n IH]; intros p size v c P C S; cbn [oid_loop]; [lia|].
  destruct (128 <=? c); [|left; exists v, 0; split; [do 2 f_equal; lia|lia]]. destruct (64 <? size + 8) eqn:Z0; [right; unfold io; eauto|].
  destruct (bits_any read data Hs He (8 * p + 8) 8 BIG_ENDIAN Hb ltac:(discriminate) ltac:(lia) ltac:(lia)) as [(E & L & B)|E]; rewrite E; cbn [bind]; [|right; unfold io; eauto].
  replace (8 * p + 8) with (8 * (p + 1)) by lia.
  destruct (IH (p + 1) (size + 8) (Z.shiftl v 7 + Z.land (bits_at data (8 * (p + 1)) 8 BIG_ENDIAN) 127) (bits_at data (8 * (p + 1)) 8 BIG_ENDIAN) ltac:(lia) ltac:(lia) ltac:(lia)) as [(w & k & R & K)|(e & R & K)]; rewrite R; [left|right; eauto].
  exists w, (1 + k). split; [do 2 f_equal; lia|lia].
Qed.
Lemma oid_int_any p : 0 <= p -> (exists w k, oid_int read (8 * p) = Ok (w, 8 * k) /\ 1 <= k) \/ (exists e, oid_int read (8 * p) = Err e /\ io e).
Proof using All.
  intros P. unfold oid_int. destruct (bits_any read data Hs He (8 * p) 8 BIG_ENDIAN Hb ltac:(discriminate) ltac:(lia) ltac:(lia)) as [(E & L & B)|E]; rewrite E; cbn [bind]; [|right; unfold io; eauto].
  destruct (oid_loop_any 9 p 8 (Z.land (bits_at data (8 * p) 8 BIG_ENDIAN) 127) (bits_at data (8 * p) 8 BIG_ENDIAN) P ltac:(lia) ltac:(lia)) as [(w & k & R & K)|(e & R & K)]; rewrite R; [left|right; eauto].
  exists w, (1 + k). split; [do 2 f_equal; lia|lia].
Qed.
Lemma oid_items_any stop : forall n p, 0 <= p -> stop - 8 * p < 8 * Z.of_nat n -> 1 <= Z.of_nat n -> snd (oid_items read n stop (8 * p)) <> Some OutOfFuel.
Proof using All.
  induction n as [|n IH]; intros p P N N1; cbn [oid_items]; [lia|]. destruct (stop <=? 8 * p) eqn:S; [discriminate|].
  destruct (oid_int_any p P) as [(w & k & R & K)|(e & R & K)]; rewrite R; [|destruct K as [-> | [-> | ->]]; discriminate].
  destruct (stop <? 8 * p + 8 * k) eqn:S2; [discriminate|]. cbn [snd]. replace (8 * p + 8 * k) with (8 * (p + k)) by lia. apply IH; lia.
Qed.
Definition any_node (p stop : Z) (r : res node) : Prop :=
  (exists n k, r = Ok n /\ n_addr n = 8 * p /\ n_size n = 8 * k /\ 1 <= k /\ 8 * (p + k) <= stop /\ tiles False n) \/ (exists e, r = Err e /\ io e).
Lemma items_any obj stop p0 : (forall p, p0 <= p -> 8 * p < stop -> any_node p stop (obj stop (8 * p))) ->
  forall n p, p0 <= p -> 8 * p <= stop -> stop - 8 * p < 8 * Z.of_nat n -> 
  exists q, chain False (8 * p) (fst (items obj n stop (8 * p))) q /\ q <= stop /\ snd (items obj n stop (8 * p)) <> Some OutOfFuel /\ (snd (items obj n stop (8 * p)) = None -> q = stop).
Proof using All.
  intros Ho. induction n as [|n IH]; intros p P L N; cbn [items]; [lia|]. destruct (stop <=? 8 * p) eqn:S.
  - exists (8 * p). cbn [fst snd]. split; [constructor|]. split; [lia|]. split; [discriminate|]. intros _. lia.
  - destruct (Ho p P ltac:(lia)) as [(t & k & R & A & Z0 & K & B & T)|(e & R & K)]; rewrite R.
    + cbn [fst snd]. rewrite Z0. replace (8 * p + 8 * k) with (8 * (p + k)) by lia. destruct (IH (p + k) ltac:(lia) B ltac:(lia)) as (q & C & Q & F & D). exists q. split; [|auto].
      constructor; [exact A|lia|exact T|]. rewrite Z0. replace (8 * p + 8 * k) with (8 * (p + k)) by lia. exact C.
    + exists (8 * p). cbn [fst snd]. split; [constructor|]. split; [lia|]. split; [destruct K as [-> | [-> | ->]]; discriminate|discriminate].
Qed.
Lemma rb_leaf a n f : (forall v, leaf (f v)) -> 0 <= a -> 1 <= n -> leaf (ok_or (do v <- readBytes read (8 * a) n; Ok (f v))).
Proof using All. intros F A N. rewrite (rb read data Hs He) by lia. destruct (_ <=? _); cbn [bind ok_or leaf]; [apply F|discriminate]. Qed.
Lemma content_any fuel h q v m key cls : (forall p, q <= p -> p < m -> any_node p (8 * m) (Object read fuel (8 * m) (8 * p))) -> 0 <= q -> q < m -> m <= zlen data -> 1 <= v -> m - q <= Z.of_nat fuel ->
  (h = HSet -> key = 17 /\ cls = 0) ->
  match read_content read (Object read fuel) (S fuel) h (8 * q) v (8 * m) with
  | CItems ns e => exists z, chain False (8 * q) ns z /\ z <= 8 * m /\ e <> Some OutOfFuel /\ (e = None /\ ~ (key = 17 /\ cls = 0) -> z = 8 * m)
  | c => leaf c
  end.
Proof using All.
  intros IH Q M Md V Fu Hset. destruct h; cbn [read_content].
  - destruct (_ <? _); [exact I|]. rewrite (rb read data Hs He) by lia. destruct (_ <=? _); cbn [bind ok_or leaf]; [exact I|discriminate].
  - destruct (negb _); [discriminate|]. destruct (_ <? _); [exact I|].
    destruct (bits_any read data Hs He (8 * q) 8 BIG_ENDIAN Hb ltac:(discriminate) ltac:(lia) ltac:(lia)) as [(E & _ & B)|E]; rewrite E; cbn [bind ok_or leaf]; [exact I|discriminate].
  - destruct (_ || _); [discriminate|]. destruct (_ <? _); [exact I|]. unfold readInteger.
    destruct (bits_any read data Hs He (8 * q) (v * 8) BIG_ENDIAN Hb ltac:(discriminate) ltac:(lia) ltac:(lia)) as [(E & _ & B)|E]; rewrite E; cbn [bind ok_or leaf]; [|discriminate].
    rewrite !py_shl1_ok by lia. cbn [bind]. destruct (_ <=? _); cbn [bind ok_or leaf]; exact I.
  - destruct (_ <? _); [exact I|].
    destruct (bits_any read data Hs He (8 * q) 8 BIG_ENDIAN Hb ltac:(discriminate) ltac:(lia) ltac:(lia)) as [(E & _ & B)|E]; rewrite E; cbn [bind ok_or leaf]; [|discriminate].
    destruct (1 <? v) eqn:V1; [|exact I]. replace (8 * q + 8) with (8 * (q + 1)) by lia. rewrite (rb read data Hs He) by lia. destruct (_ <=? _); cbn [bind ok_or leaf]; [exact I|discriminate].
  - destruct (_ <? _); [exact I|]. rewrite (rb read data Hs He) by lia. destruct (_ <=? _); cbn [bind ok_or leaf]; [exact I|discriminate].
  - destruct (_ <? _) eqn:W; [exact I|].
    destruct (bits_any read data Hs He (8 * q) 8 BIG_ENDIAN Hb ltac:(discriminate) ltac:(lia) ltac:(lia)) as [(E & _ & B)|E]; rewrite E; cbn [bind ok_or leaf]; [|discriminate].
    replace (8 * q + 8) with (8 * (q + 1)) by lia. apply oid_items_any; lia.
  - destruct (_ <? _); [exact I|]. rewrite (rb read data Hs He) by lia. destruct (_ <=? _); cbn [bind ok_or leaf]; [exact I|discriminate].
  - destruct (items_any (Object read fuel) (8 * m) q ltac:(intros; apply IH; lia) (S fuel) q ltac:(lia) ltac:(lia) ltac:(lia)) as (z & C & Z1 & F & D).
    exists z. split; [exact C|]. split; [exact Z1|]. split; [exact F|]. intros [N _]. apply D, N.
  - destruct (IH q ltac:(lia) ltac:(lia)) as [(t & k & R & A & Z0 & K & B & T)|(e & R & K)]; rewrite R.
    + exists (8 * (q + k)). split; [|split; [lia|split; [discriminate|intros [_ N]; destruct N; auto]]]. constructor; [exact A|lia|exact T|]. rewrite Z0. replace (8 * q + 8 * k) with (8 * (q + k)) by lia. constructor.
    + exists (8 * q). split; [constructor|]. split; [lia|]. split; [destruct K as [-> | [-> | ->]]; discriminate|]. intros [N _]. discriminate.
Qed.
Lemma choose_set cls form key : choose cls form key = Ok HSet -> key = 17 /\ cls = 0.
Proof using.
  unfold choose, type_info. destruct (cls =? 0) eqn:C; [|destruct (negb _); discriminate]. intros H. split; [|lia].
  repeat match type of H with context [if ?b then _ else _] => destruct b eqn:?; try discriminate end. lia.
Qed.
Lemma object_any : forall fuel p m, 0 <= p -> p < m -> m <= zlen data -> m - p < Z.of_nat fuel -> any_node p (8 * m) (Object read fuel (8 * m) (8 * p)).
Proof using All.
  induction fuel as [|fuel IH]; intros p m P L St Fu; cbn [Object]; [lia|]. unfold any_node.
  destruct (bits_any read data Hs He (8 * p) 2 BIG_ENDIAN Hb ltac:(discriminate) ltac:(lia) ltac:(lia)) as [(E & _ & B)|E]; rewrite E; cbn [bind]; [|right; unfold io; eauto]. clear E.
  destruct (bits_any read data Hs He (8 * p + 2) 1 BIG_ENDIAN Hb ltac:(discriminate) ltac:(lia) ltac:(lia)) as [(E & _ & B2)|E]; rewrite E; cbn [bind]; [|right; unfold io; eauto]. clear E.
  destruct (bits_any read data Hs He (8 * p + 3) 5 BIG_ENDIAN Hb ltac:(discriminate) ltac:(lia) ltac:(lia)) as [(E & _ & B3)|E]; rewrite E; cbn [bind]; [|right; unfold io; eauto]. clear E.
  set (cls := bits_at data (8 * p) 2 BIG_ENDIAN) in *. set (form := bits_at data (8 * p + 2) 1 BIG_ENDIAN) in *. set (key := bits_at data (8 * p + 3) 5 BIG_ENDIAN) in *. clearbody cls form key.
  destruct (choose cls form key) as [h|e] eqn:Ch; cbn [bind].
  2:{ right. exists e. split; [reflexivity|]. unfold choose in Ch. destruct (cls =? 0); [|destruct (negb _); discriminate]. destruct (type_info key); [discriminate|]. destruct (key =? 31); [|discriminate]. injection Ch as <-. right. left. reflexivity. }
  replace (8 * p + 8) with (8 * (p + 1)) by lia. destruct (asn_int_any (p + 1) ltac:(lia)) as [(v & k & R & V & K & Kd)|(e & R & K)]; rewrite R; cbn [bind fst snd]; [|right; eauto].
  replace (8 * (p + 1) + 8 * k) with (8 * (p + 1 + k)) by lia. destruct (8 * m <? 8 * (p + 1 + k)) eqn:Hd; [right; unfold io; eauto|].
  left. replace (8 * (p + 1) + 8 * k) with (8 * (p + 1 + k)) by lia. replace (Z.min (8 + 8 * k + v * 8) (8 * m - 8 * p)) with (8 * (Z.min (1 + k + v) (m - p))) by lia.
  set (sz := Z.min (1 + k + v) (m - p)). eexists _, sz. split; [reflexivity|]. cbn [n_addr n_size]. split; [reflexivity|]. split; [reflexivity|]. split; [lia|]. split; [lia|].
  destruct (v =? 0) eqn:V0; [apply t_leaf; exact I|]. destruct (8 * p + 8 * sz <=? 8 * (p + 1 + k)) eqn:Cut; [apply t_leaf; exact I|].
  replace (8 * p + 8 * sz) with (8 * (p + sz)) by lia.
  pose proof (content_any fuel h (p + 1 + k) v (p + sz) key cls ltac:(intros; apply IH; lia) ltac:(lia) ltac:(lia) ltac:(lia) ltac:(lia) ltac:(lia) ltac:(intros ->; exact (choose_set _ _ _ Ch))) as H.
  destruct (read_content _ _ _ _ _ _ _); try (apply t_leaf; exact H). destruct H as (z & C & Z1 & F & D).
  apply (t_items False _ _ _ _ _ _ _ (8 * (p + 1 + k)) z); [lia|exact C|lia|exact F|]. intros [[]|N]. rewrite (D N). lia.
Qed.
End Read.

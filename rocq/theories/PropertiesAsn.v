(** C69: what the ASN.1 parser shows. *)
From Coq Require Import String.
From Verif Require Import Base BaseProofs BitsModel ChunkBase DictModel FieldModel VarintModel VarintSpec VarintProofs AsnModel AsnSpec AsnProofs Lit.
Open Scope Z_scope.
Ltac Zify.zify_post_hook ::= Z.div_mod_to_equations.

(** Wherever the encoding of a value is, in a parent that ends at the address [stop] or later,
    the object there is that value, its fields have no hole, and it ends with the encoding. *)
Theorem C69_values : forall read pre b post v stop fuel, let data := pre ++ b ++ post in
  serves read data -> is_bytes data -> enc v b -> handled v ->
  8 * (zlen pre + zlen b) <= stop -> zlen b <= Z.of_nat fuel ->
  exists n, Object read fuel stop (8 * zlen pre) = Ok n /\ n_addr n = 8 * zlen pre /\ n_size n = 8 * zlen b /\ shows v n /\ tiles True n.
Proof.
  intros read pre b post v stop fuel data Hs Hb E H St F. apply (proj1 (complete read data Hs Hb) v b E H); auto. apply occ_pre.
Qed.
Print Assumptions C69_values.

(** A sequence of an integer, an object identifier, an empty sequence and a tagged string *)
Definition sample : value := VSeq [VInt (-129); VOid [1; 2; 840; 113549]; VSeq []; VTagged 2 0 [VText 12 [104; 105]]].
Definition sample_bytes : list Z := [48; 20; 2; 2; 255; 127; 6; 6; 42; 134; 72; 134; 247; 13; 48; 0; 160; 4; 12; 2; 104; 105].
Ltac len_ok := first [apply (el_short 0); lia | apply (el_short 1); lia | apply (el_short 2); lia | apply (el_short 4); lia | apply (el_short 6); lia | apply (el_short 20); lia].
Example C69_values_ex : enc sample sample_bytes /\ handled sample /\ is_bytes sample_bytes /\ zlen sample_bytes = 22.
Proof.
  split; [|split; [|split; [|reflexivity]]].
  - apply (e_seq _ [2; 2; 255; 127; 6; 6; 42; 134; 72; 134; 247; 13; 48; 0; 160; 4; 12; 2; 104; 105]).
    + apply (e_cons _ _ [2; 2; 255; 127]); [|apply (e_cons _ _ [6; 6; 42; 134; 72; 134; 247; 13]); [|apply (e_cons _ _ [48; 0]); [|apply (e_cons _ _ [160; 4; 12; 2; 104; 105] []); [|constructor]]]].
      * apply (e_int _ [255; 127]); [cbn; lia|reflexivity|]. exists [2]. split; [len_ok|reflexivity].
      * apply (e_oid 1 2 [840; 113549] ([134; 72] ++ [134; 247; 13])); [lia|lia|lia|lia| |exists [6]; split; [len_ok|reflexivity]].
        apply (ea_cons 840 1 [113549] [134; 247; 13]); [lia|cbn; lia|]. apply (ea_cons 113549 2 [] []); [lia|cbn; lia|constructor].
      * apply (e_seq [] []); [constructor|]. exists [0]. split; [len_ok|reflexivity].
      * apply (e_tagged 2 0 _ [12; 2; 104; 105]); [lia|lia| |exists [4]; split; [len_ok|reflexivity]].
        apply (e_cons _ [] [12; 2; 104; 105] []); [|constructor]. apply e_text; [left; reflexivity|]. exists [2]. split; [len_ok|reflexivity].
    + exists [20]. split; [len_ok|reflexivity].
  - assert (- 2 ^ 16383 <= -129 < 2 ^ 16383).
    { pose proof (Z.pow_le_mono_r 2 8 16383 ltac:(lia) ltac:(lia)) as P. change (2 ^ 8) with 256 in P. set (x := 2 ^ 16383) in *. clearbody x. lia. }
    repeat constructor; lia.
  - repeat constructor; lia.
Qed.

(** A file that is one value is accepted and shown as that value; with anything behind it is
    refused. *)
Theorem C69_valid : forall read b v, serves read b -> is_bytes b -> enc v b -> handled v ->
  asn_validate read (8 * zlen b) = true /\
  exists n, asn_root read (8 * zlen b) = Ok n /\ n_addr n = 0 /\ n_size n = 8 * zlen b /\ shows v n /\ tiles True n.
Proof.
  intros read b v Hs Hb E H. pose proof (enc_len v b E) as L.
  assert (O : occurs_at b b 0) by (pose proof (occ_pre [] b []) as O; cbn [app] in O; rewrite app_nil_r in O; exact O).
  assert (R : exists n, asn_root read (8 * zlen b) = Ok n /\ n_addr n = 0 /\ n_size n = 8 * zlen b /\ shows v n /\ tiles True n).
  { destruct (proj1 (complete read b Hs Hb) v b E H 0 (8 * zlen b) (S (Z.to_nat (8 * zlen b / 8))) O ltac:(lia) ltac:(lia)) as (n & R & A & Sz & Sh & Ti).
    exists n. split; [|auto]. unfold asn_root. change (8 * 0) with 0 in R. rewrite R. cbn [bind].
    assert (X : exists c len : list Z, asn_int read 8 = Ok (zlen c, 8 * zlen len) /\ zlen b = 1 + zlen len + zlen c).
    { inversion E; subst; match goal with T : tlv _ _ _ ?c _ |- _ => destruct T as (len & Le & ->); exists c, len; split;
        [apply occ_app in O as [_ O]; apply occ_app in O as [O _]; exact (asn_length read _ Hs Hb _ len 1 Le O)|rewrite !zlen_app; change (zlen [_]) with 1; lia] end. }
    destruct X as (c & len & X & Y). rewrite X. cbn [bind fst snd]. replace (8 * zlen b <? 8 + 8 * zlen len + zlen c * 8) with false by lia. reflexivity. }
  split; [|exact R]. destruct R as (n & R & _ & Sz & _). unfold asn_validate. rewrite R. lia.
Qed.
Print Assumptions C69_valid.
Theorem C69_trailing : forall read b x v, let data := b ++ x in serves read data -> is_bytes data -> enc v b -> handled v -> x <> [] ->
  asn_validate read (8 * zlen data) = false.
Proof.
  intros read b x v data Hs Hb E H X. assert (O : occurs_at b data 0) by (pose proof (occ_pre [] b x) as O; exact O).
  assert (1 <= zlen x) by (destruct x; [congruence|rewrite zlen_cons; pose proof (zlen_nonneg x); lia]). assert (Ld : zlen data = zlen b + zlen x) by apply zlen_app. pose proof (zlen_nonneg b). clearbody data.
  destruct (proj1 (complete read data Hs Hb) v b E H 0 (8 * zlen data) (S (Z.to_nat (8 * zlen data / 8))) O ltac:(lia) ltac:(lia)) as (n & R & A & Sz & Sh & Ti).
  unfold asn_validate, asn_root. change (8 * 0) with 0 in R. rewrite R. cbn [bind]. destruct (asn_int read 8) as [sz|]; cbn [bind]; [|reflexivity]. destruct (_ <? _); [reflexivity|]. lia.
Qed.
Print Assumptions C69_trailing.
Example C69_valid_ex : asn_validate (string_read sample_bytes) (8 * 22) = true /\ asn_validate (string_read (sample_bytes ++ [0])) (8 * 23) = false.
Proof. split; vm_compute; reflexivity. Qed.

(** In any file, whatever its bytes: the parser ends, with the root or with an error of reading
    or parsing; no object is outside its parent, objects do not overlap and leave no hole
    between them. *)
Theorem C69_any : forall read data, serves read data -> ends read data -> is_bytes data -> data <> [] ->
  match asn_root read (8 * zlen data) with
  | Ok n => n_addr n = 0 /\ 0 < n_size n <= 8 * zlen data /\ tiles False n
  | Err e => e = ReadStreamError \/ e = ParserError \/ e = MissingField
  end.
Proof.
  intros read data Hs He Hb N. assert (1 <= zlen data) by (destruct data; [congruence|rewrite zlen_cons; pose proof (zlen_nonneg data); lia]).
  unfold asn_root. destruct (object_any read data Hs Hb He (S (Z.to_nat (8 * zlen data / 8))) 0 (zlen data) ltac:(lia) ltac:(lia) ltac:(lia) ltac:(lia)) as [(n & k & R & A & Sz & K & B & T)|(e & R & K)]; change (8 * 0) with 0 in R; rewrite R; cbn [bind]; [|exact K].
  destruct (asn_int_any read data Hs Hb He 1 ltac:(lia)) as [(v & j & R2 & _)|(e & R2 & K2)]; change (8 * 1) with 8 in R2; rewrite R2; cbn [bind]; [|exact K2].
  destruct (_ <? _); [right; left; reflexivity|]. rewrite A, Sz. split; [reflexivity|]. split; [lia|exact T].
Qed.
Print Assumptions C69_any.
Example C69_any_ex : asn_root (string_read [48; 5; 49; 9; 255; 1; 2]) 56 = Ok (Node 0 56 0 1 16 (CItems [Node 16 40 0 1 17 (CItems [Node 32 24 3 1 31 (CItems [] (Some ReadStreamError))] None)] None)).
Proof. vm_compute. reflexivity. Qed.

(** Only the first element of a set is shown, whatever follows it: readSet yields one
    object (asn1.py:108-109). *)
Theorem C69_set_refuted : forall read pre b post v w l c stop fuel, let data := pre ++ b ++ post in
  serves read data -> is_bytes data -> enc_items (v :: w :: l) c -> tlv 0 1 17 c b -> enc (VSet (v :: w :: l)) b /\
  (handled v -> 8 * (zlen pre + zlen b) <= stop -> zlen b <= Z.of_nat fuel ->
   exists n, Object read fuel stop (8 * zlen pre) = Ok (Node (8 * zlen pre) (8 * zlen b) 0 1 17 (CItems [n] None)) /\ shows v n).
Proof.
  intros read pre b post v w l c stop fuel data Hs Hb E T. split; [exact (e_set _ c b E T)|]. intros H St F.
  assert (O : occurs_at b data (zlen pre)) by apply occ_pre. clearbody data. pose proof (tlv_len _ _ _ _ _ T) as L. pose proof (zlen_nonneg c).
  destruct fuel as [|fuel]; [lia|]. destruct (object_tlv read data Hs Hb 0 1 17 c b (zlen pre) HSet fuel stop T O ltac:(lia) ltac:(lia) ltac:(lia) eq_refl St) as (q & Q1 & Q2 & Oc & R). rewrite R.
  inversion E as [|? ? bv c' Ev Ec]; subst. pose proof (enc_len _ _ Ev). rewrite zlen_app in *. pose proof (zlen_nonneg c'). apply occ_app in Oc as [O1 O2].
  destruct (proj1 (complete read data Hs Hb) v bv Ev H q (8 * (zlen pre + zlen b)) fuel O1 ltac:(lia) ltac:(lia)) as (n & R' & _ & _ & Sh & _).
  exists n. split; [|exact Sh]. replace (is_nil (bv ++ c')) with false by (destruct bv; [change (zlen (@nil Z)) with 0 in *; lia|reflexivity]).
  cbn [read_content]. rewrite R'. reflexivity.
Qed.
Print Assumptions C69_set_refuted.
Example C69_set_ex : asn_root (string_read [49; 6; 2; 1; 5; 2; 1; 7]) 64 = Ok (Node 0 64 0 1 17 (CItems [Node 16 24 0 0 2 (CInt 5)] None)).
Proof. vm_compute. reflexivity. Qed.

(** The first two arcs of 2.40 to 2.47 share one byte, 120 and more, which is shown as 3.0 to
    3.7: formatFirstObjectID divides it by 40 (asn1.py:173-176).  For 2.48 and more, they take
    several bytes and the first one alone is taken for both arcs. *)
Theorem C69_oid_refuted : forall read pre b post y l c stop fuel, let data := pre ++ b ++ post in
  serves read data -> is_bytes data -> 40 <= y < 48 -> enc_arcs l c -> tlv 0 0 6 ((80 + y) :: c) b ->
  8 * (zlen pre + zlen b) <= stop -> zlen b <= Z.of_nat fuel ->
  enc (VOid (2 :: y :: l)) b /\
  exists first items, Object read fuel stop (8 * zlen pre) = Ok (Node (8 * zlen pre) (8 * zlen b) 0 0 6 (COid first items None)) /\
    oid_text first items = dotted (3 :: (y - 40) :: l) /\ oid_text first items <> dotted (2 :: y :: l).
Proof.
  intros read pre b post y l c stop fuel data Hs Hb Y A T St F. assert (Ee : enc (VOid (2 :: y :: l)) b).
  { apply (e_oid 2 y l c b); auto; try lia. }
  split; [exact Ee|].
  assert (O : occurs_at b data (zlen pre)) by apply occ_pre. clearbody data. pose proof (tlv_len _ _ _ _ _ T) as L. rewrite zlen_cons in L. pose proof (zlen_nonneg c).
  destruct fuel as [|fuel]; [lia|]. destruct (object_tlv read data Hs Hb 0 0 6 _ b (zlen pre) HOid fuel stop T O ltac:(lia) ltac:(lia) ltac:(lia) eq_refl St) as (q & Q1 & Q2 & Oc & R). rewrite R.
  rewrite zlen_cons in Q2. apply occurs_cons in Oc as [O1 O2]. cbn [is_nil read_content]. replace (8 * (zlen pre + zlen b) <? 8 * q + 8) with false by lia.
  rewrite (read_byte read data Hs Hb _ q BIG_ENDIAN O1) by discriminate. cbn [bind]. replace (8 * q + 8) with (8 * (q + 1)) by lia. replace (8 * (zlen pre + zlen b)) with (8 * (q + 1 + zlen c)) by lia.
  rewrite (arcs_ok read data Hs Hb l c A (q + 1) (S fuel) O2) by (unfold zlen in *; lia). cbn [fst snd ok_or]. eexists _, _. split; [reflexivity|].
  assert (X : oid_text (80 + y) l = dotted (3 :: (y - 40) :: l)).
  { unfold oid_text, dotted. replace ((80 + y) / 40) with 3 by lia. replace ((80 + y) mod 40) with (y - 40) by lia. cbn [map join_dots List.concat]. rewrite <- !app_assoc. reflexivity. }
  rewrite X. split; [reflexivity|]. unfold dotted. cbn [map join_dots]. change (dec 3) with [51]. change (dec 2) with [50]. discriminate.
Qed.
Print Assumptions C69_oid_refuted.
Example C69_oid_ex :
  asn_root (string_read [6; 1; 120]) 24 = Ok (Node 0 24 0 0 6 (COid 120 [] None)) /\ oid_text 120 [] = lit "3.0" /\
  enc (VOid [2; 999]) [6; 2; 136; 55] /\ asn_root (string_read [6; 2; 136; 55]) 32 = Ok (Node 0 32 0 0 6 (COid 136 [55] None)) /\ oid_text 136 [55] = lit "3.16.55".
Proof.
  split; [vm_compute; reflexivity|]. split; [vm_compute; reflexivity|]. split; [|split; vm_compute; reflexivity].
  apply (e_oid2 999 [] 1 []); [lia|cbn; lia|lia|constructor|]. exists [2]. split; [apply (el_short 2); lia|reflexivity].
Qed.

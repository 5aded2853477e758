(** Proofs about Matroska files. *)
From Coq Require Import String.
From Verif Require Import Base BaseProofs BitsModel DictModel DictProofs FieldModel NumSpec NumRead VarintModel VarintSpec VarintProofs VarintProofs2 TlvModel TlvSpec TlvProofs MkvModel MkvSpec Lit.
Open Scope Z_scope.
Ltac Zify.zify_post_hook ::= Z.div_mod_to_equations.

Definition no_gap (c : Z) : Z := 0.
Lemma zlen_ebml n v : zlen (ebml n v) = Z.of_nat n.
Proof. apply be_bytes_len. Qed.
Lemma zlen_header n v m size : zlen (header n v m size) = Z.of_nat n + Z.of_nat m.
Proof. unfold header. rewrite zlen_app, !zlen_ebml. reflexivity. Qed.

Section Read.
Context (read : read_fun) (data : list Z) (Hs : serves read data) (Hb : is_bytes data).

Lemma leaf_len c i b : leaf c i b -> 0 < zlen b /\ 16 <= 8 * zlen b.
Proof using. intros [n v m x name k y (N & _ & M & _) _ _]. rewrite zlen_app, zlen_header. pose proof (zlen_nonneg x). lia. Qed.
Lemma master_len c i c' h b t : master c i c' h b t -> 0 < zlen h /\ 16 <= 8 * zlen (h ++ b ++ t).
Proof using. intros [n v m name c'' x (N & _ & M & _) _]. rewrite !zlen_app, zlen_header. change (zlen (@nil Z)) with 0. pose proof (zlen_nonneg x). lia. Qed.

Lemma signed_num n v : (1 <= n)%nat -> - 2 ^ (8 * Z.of_nat n - 1) <= v < 2 ^ (8 * Z.of_nat n - 1) ->
  let w := v mod 2 ^ (8 * Z.of_nat n) in 0 <= w < 2 ^ (8 * Z.of_nat n) /\ (if 2 ^ (8 * Z.of_nat n - 1) <=? w then w - 2 ^ (8 * Z.of_nat n) else w) = v.
Proof using.
  intros N V w. assert (P : 2 ^ (8 * Z.of_nat n) = 2 * 2 ^ (8 * Z.of_nat n - 1)) by (rewrite <- Z.pow_succ_r by lia; f_equal; lia).
  pose proof (Z.pow_pos_nonneg 2 (8 * Z.of_nat n - 1) ltac:(lia) ltac:(lia)). set (h := 2 ^ (8 * Z.of_nat n - 1)) in *. unfold w. rewrite P. clear w P.
  pose proof (Z.mod_pos_bound v (2 * h) ltac:(lia)). split; [lia|]. destruct (Z.lt_ge_cases v 0).
  - rewrite <- (Zmod_unique v (2 * h) (-1) (v + 2 * h)) by lia. replace (h <=? v + 2 * h) with true by lia. lia.
  - rewrite Z.mod_small by lia. replace (h <=? v) with false by lia. reflexivity.
Qed.
Lemma leaf_read k b x p stop : shows k b x -> occurs_at b data p -> 8 * (p + zlen b) <= stop -> leaf_value read k (zlen b) stop (8 * p) = Ok x.
Proof using All.
  intros [k0|n v N1 N2 V|n v N1 N2 V|b0 L|b0 L|b0 L|b0 L] O St; unfold leaf_value.
  - reflexivity.
  - rewrite zlen_uint in *. replace ((Z.of_nat n <? 1) || (stop <? 8 * p + Z.of_nat n * 8)) with false by lia. replace (16384 <? Z.of_nat n * 8) with false by lia.
    unfold readInteger. rewrite (read_num read data Hs Hb BIG_ENDIAN n (Z.of_nat n * 8) v p) by (try discriminate; auto; try lia; rewrite Z.mul_comm; exact V). reflexivity.
  - rewrite zlen_uint in *. replace ((Z.of_nat n <? 1) || (stop <? 8 * p + Z.of_nat n * 8)) with false by lia. replace (16384 <? Z.of_nat n * 8) with false by lia.
    destruct (signed_num n v N1 V) as [W E]. unfold readInteger. rewrite (read_num read data Hs Hb BIG_ENDIAN n (Z.of_nat n * 8) _ p) by (try discriminate; auto; try lia; rewrite (Z.mul_comm _ 8); exact W). cbn [bind].
    unfold py_shl1. rewrite (Z.mul_comm (Z.of_nat n) 8). replace (8 * Z.of_nat n - 1 <? 0) with false by lia. replace (8 * Z.of_nat n <? 0) with false by lia. cbn [bind]. rewrite !Z.shiftl_1_l.
    destruct (_ <=? _); cbn [bind]; rewrite E; reflexivity.
  - replace ((zlen b0 <? 1) || (stop <? 8 * p + zlen b0 * 8)) with false by lia. replace (65535 <? zlen b0) with false by lia. rewrite (rb_occ read data Hs p b0 O) by (intros ->; discriminate L || (destruct L; cbn in *; lia)). reflexivity.
  - replace ((zlen b0 <? 1) || (stop <? 8 * p + zlen b0 * 8)) with false by lia. rewrite (rb_occ read data Hs p b0 O) by (intros ->; cbn in *; lia). reflexivity.
  - replace ((zlen b0 <? 1) || (stop <? 8 * p + zlen b0 * 8)) with false by lia. rewrite (rb_occ read data Hs p b0 O) by (intros ->; cbn in *; lia). cbn [bind]. replace ((zlen b0 =? 4) || (zlen b0 =? 8)) with true by lia. reflexivity.
  - replace ((zlen b0 <? 1) || (stop <? 8 * p + zlen b0 * 8)) with false by lia. rewrite (rb_occ read data Hs p b0 O) by (intros ->; cbn in *; lia). reflexivity.
Qed.
(** The header of an element *)
Lemma header_read c n v m s p stop : (1 <= n <= 8)%nat -> 0 <= v < 2 ^ (7 * Z.of_nat n) -> (1 <= m <= 8)%nat -> 0 <= s < 2 ^ (7 * Z.of_nat m) -> occurs_at (header n v m s) data p -> 8 * (p + zlen (header n v m s)) <= stop ->
  let size := if s =? unknown m then None else Some s in
  ebml_head read c stop (8 * p) =
    do total <- match size with Some n' => Ok (8 * zlen (header n v m s) + n' * 8) | None => if (c =? ROOT_HEADER) || (c =? ROOT_SEGMENT) then Ok (stop - 8 * p) else Err ParserError end;
    match snd (entry c (marked n v)) with
    | Sub c' => Ok (Head (El (marked n v) (fst (entry c (marked n v))) size NoVal) total (BKids c' (8 * zlen (header n v m s)) 0))
    | Leaf k => do x <- match size with Some n' => leaf_value read k n' stop (8 * (p + zlen (header n v m s))) | None => Ok NoVal end;
                Ok (Head (El (marked n v) (fst (entry c (marked n v))) size x) total BRaw)
    end.
Proof using All.
  intros N V M S O St size. rewrite zlen_header in *. unfold header in O. apply occ_app in O as [O1 O2]. rewrite zlen_ebml in O2.
  destruct (rawint_ok read data Hs Hb n v p N V O1) as [A1 A2]. destruct (rawint_ok read data Hs Hb m s _ M S O2) as [B1 _]. pose proof (ebml_unsigned_ok read data Hs Hb m s _ M S O2) as B2.
  unfold ebml_head. rewrite A1. cbn [bind]. replace (stop <? 8 * p + 8 * Z.of_nat n) with false by lia. rewrite A2. cbn [bind]. replace (8 * p + 8 * Z.of_nat n) with (8 * (p + Z.of_nat n)) by lia. rewrite B1. cbn [bind].
  replace (stop <? 8 * (p + Z.of_nat n) + 8 * Z.of_nat m) with false by lia. rewrite B2. cbn [bind]. fold (marked n v). fold (unknown m). fold size.
  replace (8 * Z.of_nat n + 8 * Z.of_nat m) with (8 * (Z.of_nat n + Z.of_nat m)) by lia. destruct (entry c (marked n v)) as [name ct]. cbn [fst snd].
  replace (8 * p + 8 * (Z.of_nat n + Z.of_nat m)) with (8 * (p + (Z.of_nat n + Z.of_nat m))) by lia. reflexivity.
Qed.
Lemma leaf_hd c i b p stop : leaf c i b -> occurs_at b data p -> 8 * (p + zlen b) <= stop -> ebml_head read c stop (8 * p) = Ok (Head i (8 * zlen b) BRaw).
Proof using All.
  intros [n v m x name k y (N & V & M & S) E Sh] O St. pose proof (zlen_nonneg x). apply occ_app in O as [O1 O2]. rewrite zlen_app in *.
  rewrite (header_read c n v m (zlen x) p stop) by (auto; lia). rewrite E. cbn [fst snd]. unfold unknown. replace (zlen x =? 2 ^ (7 * Z.of_nat m) - 1) with false by lia. cbv iota. cbn [bind].
  rewrite (leaf_read k x y _ stop Sh O2) by lia. cbn [bind]. do 2 f_equal. lia.
Qed.
Lemma master_hd c i c' h b t p stop : master c i c' h b t -> occurs_at (h ++ b ++ t) data p -> 8 * (p + zlen (h ++ b ++ t)) <= stop ->
  exists slack, ebml_head read c stop (8 * p) = Ok (Head i (8 * zlen (h ++ b ++ t)) (BKids c' (8 * zlen h) slack)) /\ 8 * zlen t <= slack <= 8 * zlen t + no_gap c'.
Proof using All.
  intros [n v m name c'' x (N & V & M & S) E] O St. exists 0. split; [|change (zlen (@nil Z)) with 0; unfold no_gap; lia]. pose proof (zlen_nonneg x). apply occ_app in O as [O1 O2]. rewrite !zlen_app in *. change (zlen (@nil Z)) with 0 in *.
  rewrite (header_read c n v m (zlen x) p stop) by (auto; lia). rewrite E. cbn [fst snd]. unfold unknown. replace (zlen x =? 2 ^ (7 * Z.of_nat m) - 1) with false by lia. cbv iota. cbn [bind].
  do 2 f_equal. lia.
Qed.
Lemma last_el c b : any_last c b -> 0 < zlen b -> 16 <= 8 * zlen b -> no_gap c < 8 * zlen b.
Proof using. unfold no_gap. lia. Qed.
Lemma no_gap_2 c : no_gap c < 2 * 16.
Proof using. unfold no_gap. lia. Qed.
Lemma elements_read c p l b ts fuel m tail slack : elements_at c p l b ts -> occurs_at b data p -> tail <= slack <= tail + 0 -> 0 <= tail -> zlen b <= Z.of_nat fuel -> zlen b < Z.of_nat m ->
  walk (parse (ebml_head read) fuel c) m slack (8 * (p + zlen b) + tail) (8 * p) = (ts, None).
Proof using All.
  intros H. exact (proj2 (complete leaf master any_last data (ebml_head read) no_gap 16 leaf_len master_len last_el no_gap_2 leaf_hd master_hd) c p l b ts H fuel m tail slack).
Qed.
Lemma element_read c p d b t stop fuel : element_at c p d b t -> occurs_at b data p -> 8 * (p + zlen b) <= stop -> zlen b <= Z.of_nat fuel -> parse (ebml_head read) fuel c stop (8 * p) = Ok t.
Proof using All.
  intros H. exact (proj1 (complete leaf master any_last data (ebml_head read) no_gap 16 leaf_len master_len last_el no_gap_2 leaf_hd master_hd) c p d b t H stop fuel).
Qed.
Lemma elements_walk c p l b ts fuel n stop : elements_at c p l b ts -> occurs_at b data p -> 8 * (p + zlen b) < stop -> zlen b <= Z.of_nat fuel -> zlen b <= Z.of_nat n ->
  walk (parse (ebml_head read) fuel c) n 0 stop (8 * p) = (let r := walk (parse (ebml_head read) fuel c) (n - List.length ts) 0 stop (8 * (p + zlen b)) in (ts ++ fst r, snd r)) /\ Z.of_nat (List.length ts) <= zlen b.
Proof using All.
  intros H O St Fu N. pose proof (laids_length leaf master any_last data (ebml_head read) no_gap 16 leaf_len master_len last_el no_gap_2 leaf_hd master_hd c p l b ts H) as Le. split; [|exact Le].
  replace n with (List.length ts + (n - List.length ts))%nat at 1 by lia.
  exact (walk_laids leaf master any_last data (ebml_head read) no_gap 16 leaf_len master_len last_el no_gap_2 leaf_hd master_hd c p l b ts H fuel (n - List.length ts)%nat 0 stop O ltac:(lia) ltac:(lia) Fu).
Qed.

(** ** Every file *)
Context (He : ends read data).
Lemma rawint_any a : 0 <= a -> (exists k, rawint_size read a = Ok (8 * k) /\ 1 <= k <= 8 /\ 2 ^ (8 - k) <= bits_at data a 8 BIG_ENDIAN) \/ exists e, rawint_size read a = Err e /\ e <> OutOfFuel.
Proof using All.
  intros A. unfold rawint_size, readInteger. destruct (bits_any read data Hs He a 8 BIG_ENDIAN Hb ltac:(discriminate) ltac:(lia) ltac:(lia)) as [(E & L & B)|E]; rewrite E; cbn [bind]; [|right; eexists; split; [reflexivity|discriminate]].
  set (i := bits_at data a 8 BIG_ENDIAN) in *. clearbody i. change (2 ^ 8) with 256 in B. destruct (i =? 0) eqn:Z0; [right; eexists; split; [reflexivity|discriminate]|]. left.
  assert (X : exists k, 0 <= k <= 7 /\ 2 ^ (7 - k) <= i < 2 ^ (8 - k)).
  { destruct (Z.lt_ge_cases i 2); [exists 7; cbn; lia|]. destruct (Z.lt_ge_cases i 4); [exists 6; cbn; lia|]. destruct (Z.lt_ge_cases i 8); [exists 5; cbn; lia|]. destruct (Z.lt_ge_cases i 16); [exists 4; cbn; lia|].
    destruct (Z.lt_ge_cases i 32); [exists 3; cbn; lia|]. destruct (Z.lt_ge_cases i 64); [exists 2; cbn; lia|]. destruct (Z.lt_ge_cases i 128); [exists 1; cbn; lia|]. exists 0; cbn; lia. }
  destruct X as (k & K & X). rewrite (rawint_loop_ok (Z.to_nat k) 8 i 8) by (rewrite ?Z2Nat.id by lia; lia). exists (1 + k). rewrite Z2Nat.id by lia. split; [f_equal; lia|]. split; [lia|]. replace (8 - (1 + k)) with (7 - k) by lia. exact (proj1 X).
Qed.
Lemma leaf_any k size stop p : 0 <= p -> exists r, leaf_value read k size stop (8 * p) = r /\ match r with Ok _ => True | Err e => e = ReadStreamError end.
Proof using All.
  intros P. eexists. split; [reflexivity|]. unfold leaf_value. destruct ((size <? 1) || _) eqn:E; [exact I|].
  assert (Rb : forall f : list Z -> val, match (do b <- readBytes read (8 * p) size; Ok (f b)) with Ok _ => True | Err e => e = ReadStreamError end).
  { intros f. rewrite (rb read data Hs He) by lia. destruct (_ <=? _); cbn [bind]; [exact I|reflexivity]. }
  destruct k.
  - destruct (16384 <? size * 8); [exact I|]. unfold readInteger. destruct (bits_any read data Hs He (8 * p) (size * 8) BIG_ENDIAN Hb ltac:(discriminate) ltac:(lia) ltac:(lia)) as [(R & _ & B)|R]; rewrite R; cbn [bind]; [exact I|reflexivity].
  - destruct (16384 <? size * 8); [exact I|]. unfold readInteger. destruct (bits_any read data Hs He (8 * p) (size * 8) BIG_ENDIAN Hb ltac:(discriminate) ltac:(lia) ltac:(lia)) as [(R & _ & B)|R]; rewrite R; cbn [bind]; [|reflexivity].
    unfold py_shl1. replace (size * 8 - 1 <? 0) with false by lia. replace (size * 8 <? 0) with false by lia. cbn [bind]. destruct (_ <=? _); exact I.
  - destruct (65535 <? size); [exact I|]. apply (Rb VText).
  - apply (Rb VBytes).
  - apply (Rb (fun b => if (size =? 4) || (size =? 8) then VFloat b else VBytes b)).
  - apply (Rb VBlock).
Qed.
Lemma el_any c p m : 0 <= p -> p < m -> m <= zlen data ->
  match ebml_head read c (8 * m) (8 * p) with
  | Ok h => (exists k, h_size h = 8 * k /\ 1 <= k) /\ match h_body h with BRaw => True | BKids _ off slack => 0 <= slack <= 0 /\ exists j, off = 8 * j /\ 1 <= j end
  | Err e => e <> OutOfFuel
  end.
Proof using All.
  intros P L M. unfold ebml_head. destruct (rawint_any (8 * p) ltac:(lia)) as [(k1 & E1 & K1 & _)|(e & E1 & N)]; rewrite E1; cbn [bind]; [|exact N].
  destruct (8 * m <? 8 * p + 8 * k1) eqn:S1; [discriminate|]. unfold readInteger.
  destruct (bits_any read data Hs He (8 * p) (8 * k1) BIG_ENDIAN Hb ltac:(discriminate) ltac:(lia) ltac:(lia)) as [(R & _ & _)|R]; rewrite R; cbn [bind]; [|discriminate]. set (id := bits_at data (8 * p) (8 * k1) BIG_ENDIAN). clearbody id.
  replace (8 * p + 8 * k1) with (8 * (p + k1)) by lia. destruct (rawint_any (8 * (p + k1)) ltac:(lia)) as [(k2 & E2 & K2 & Lo)|(e & E2 & N)]; rewrite E2; cbn [bind]; [|exact N].
  destruct (8 * m <? 8 * (p + k1) + 8 * k2) eqn:S2; [discriminate|]. unfold ebml_unsigned, readInteger. rewrite E2. cbn [bind].
  destruct (bits_any read data Hs He (8 * (p + k1)) (8 * k2) BIG_ENDIAN Hb ltac:(discriminate) ltac:(lia) ltac:(lia)) as [(R2 & _ & B2)|R2]; rewrite R2; cbn [bind]; [|discriminate].
  assert (Lo2 : 2 ^ (7 * k2) <= bits_at data (8 * (p + k1)) (8 * k2) BIG_ENDIAN).
  { replace (8 * k2) with (8 + (8 * k2 - 8)) by lia. rewrite bits_at_split_be by lia. pose proof (bits_at_bound data (8 * (p + k1) + 8) (8 * k2 - 8) BIG_ENDIAN ltac:(lia) ltac:(lia) ltac:(unfold bits_available; lia)).
    replace (7 * k2) with ((8 - k2) + (8 * k2 - 8)) by lia. rewrite Z.pow_add_r by lia. nia. }
  set (raw := bits_at data (8 * (p + k1)) (8 * k2) BIG_ENDIAN) in *. clearbody raw. replace (8 * k2 / 8 * 7) with (7 * k2) by lia. rewrite Z.shiftl_1_l.
  set (v := raw - 2 ^ (7 * k2)). assert (V : 0 <= v) by (unfold v; lia). clearbody v.
  set (size := if v + 1 =? _ then None else Some v).
  assert (T : exists r, match size with Some n => Ok (8 * k1 + 8 * k2 + n * 8) | None => if (c =? ROOT_HEADER) || (c =? ROOT_SEGMENT) then Ok (8 * m - 8 * p) else Err ParserError end = r /\ match r with Ok t => exists k, t = 8 * k /\ 1 <= k | Err e => e <> OutOfFuel end).
  { eexists. split; [reflexivity|]. unfold size. destruct (v + 1 =? _).
    - destruct (_ || _); [|discriminate]. exists (m - p). lia.
    - exists (k1 + k2 + v). lia. }
  destruct T as (r & T & R'). rewrite T. destruct r as [total|e]; cbn [bind]; [|exact R']. destruct (entry c id) as [name [k|c']].
  - assert (X : exists r, match size with Some n => leaf_value read k n (8 * m) (8 * p + (8 * k1 + 8 * k2)) | None => Ok NoVal end = r /\ match r with Ok _ => True | Err e => e = ReadStreamError end).
    { destruct size; [|eexists; split; [reflexivity|exact I]]. replace (8 * p + (8 * k1 + 8 * k2)) with (8 * (p + k1 + k2)) by lia. apply leaf_any. lia. }
    destruct X as (x & X & X'). rewrite X. destruct x; cbn [bind]; [|rewrite X'; discriminate]. cbn [h_size h_body]. auto.
  - cbn [h_size h_body]. split; [exact R'|]. split; [lia|]. exists (k1 + k2). lia.
Qed.
End Read.

(** Proofs about the blocks of Matroska files. *)
From Verif Require Import Base BaseProofs BitsModel BitsSpec BitsProofs StreamModel StreamProofs ChunkBase NumSpec NumRead VarintModel VarintSpec VarintProofs VarintProofs2 MkvProofs BlockModel BlockSpec.
Ltac Zify.zify_post_hook ::= Z.div_mod_to_equations.

Lemma zlen_ebml' n v : zlen (ebml n v) = Z.of_nat n.
Proof. apply be_bytes_len. Qed.
Lemma frames_put start stop : forall fs p last, Forall not_empty fs -> 8 * (p + zlen (concat fs)) <= stop -> (last <> [] -> stop = 8 * (p + zlen (concat fs) + zlen last)) ->
  frames start stop (8 * p) (map (fun f => Some (zlen f)) fs) (match last with [] => false | _ => true end) = (frames_at p (fs ++ match last with [] => [] | _ => [last] end), None).
Proof.
  induction fs as [|f fs IH]; intros p last F St La; cbn [map frames concat] in *.
  - change (zlen (@nil Z)) with 0 in *. destruct last as [|x last]; [reflexivity|]. cbn [app frames_at]. specialize (La ltac:(discriminate)). set (l := x :: last) in *. assert (1 <= zlen l) by (unfold l; rewrite zlen_cons; pose proof (zlen_nonneg last); lia).
    unfold frame, fits. replace ((stop - 8 * p) / 8) with (zlen l) by lia. replace (zlen l <? 1) with false by lia. replace (stop <? 8 * p + zlen l * 8) with false by lia. cbn [bind]. do 3 f_equal. lia.
  - inversion F as [|? ? N F']; subst. unfold not_empty in N. rewrite zlen_app in *. pose proof (zlen_nonneg (concat fs)). unfold frame, fits. replace (zlen f <? 1) with false by lia. replace (stop <? 8 * p + zlen f * 8) with false by lia. cbn [bind].
    replace (8 * p + zlen f * 8) with (8 * (p + zlen f)) by lia. rewrite (IH (p + zlen f) last F') by (try lia; intros Nl; specialize (La Nl); lia). cbn [fst snd app frames_at]. do 2 f_equal. f_equal. lia.
Qed.

Lemma xiph_len v : 0 <= v -> zlen (xiph v) = v / 255 + 1.
Proof. intros V. unfold xiph. rewrite zlen_app. change (zlen [v mod 255]) with 1. f_equal. unfold zlen. rewrite repeat_length. lia. Qed.
Lemma flag_key_bits b : is_byte b -> val_be (sub (bits_be [b]) 0 1) = b / 128.
Proof. apply (byte_eq (fun b => val_be (sub (bits_be [b]) 0 1)) (fun b => b / 128)). vm_compute. reflexivity. Qed.
Lemma flag_inv_bits b : is_byte b -> val_be (sub (bits_be [b]) 4 1) = b / 8 mod 2.
Proof. apply (byte_eq (fun b => val_be (sub (bits_be [b]) 4 1)) (fun b => b / 8 mod 2)). vm_compute. reflexivity. Qed.
Lemma flag_lace_bits b : is_byte b -> val_be (sub (bits_be [b]) 5 2) = b / 2 mod 4.
Proof. apply (byte_eq (fun b => val_be (sub (bits_be [b]) 5 2)) (fun b => b / 2 mod 4)). vm_compute. reflexivity. Qed.
Lemma flag_disc_bits b : is_byte b -> val_be (sub (bits_be [b]) 7 1) = b mod 2.
Proof. apply (byte_eq (fun b => val_be (sub (bits_be [b]) 7 1)) (fun b => b mod 2)). vm_compute. reflexivity. Qed.

Section Read.
Context (read : read_fun) (fuel : nat) (data : list Z) (Hs : serves read data) (Hb : is_bytes data) (Hf : zlen data < Z.of_nat fuel).
Lemma numbers_xiph start stop : forall fs p, occurs_at (xiph_lace fs) data p -> 8 * (p + zlen (xiph_lace fs)) <= stop ->
  numbers (xiph_num read fuel) (List.length fs) start stop (8 * p) = Ok (map (fun f => Some (zlen f)) fs, 8 * (p + zlen (xiph_lace fs))).
Proof using All.
  induction fs as [|f fs IH]; intros p O St; unfold xiph_lace in *; cbn [map concat List.length numbers] in *; [change (zlen (@nil Z)) with 0; rewrite Z.add_0_r; reflexivity|].
  apply occ_app in O as [O1 O2]. rewrite zlen_app in *. pose proof (zlen_nonneg f). pose proof (xiph_len (zlen f) ltac:(lia)) as Lx. pose proof (occ_in _ _ _ O1).
  unfold xiph_num. pose proof (xiph_ok read data Hs Hb None (zlen f) fuel p ltac:(lia) O1 ltac:(lia) I) as X. rewrite X. cbn [bind fst snd]. unfold fits. pose proof (zlen_nonneg (concat (map (fun f => xiph (zlen f)) fs))).
  replace (stop <? 8 * p + 8 * (zlen f / 255 + 1)) with false by lia. cbn [bind]. replace (8 * p + 8 * (zlen f / 255 + 1)) with (8 * (p + zlen (xiph (zlen f)))) by lia.
  fold (xiph_num read fuel). change (numbers (fun a => do v <- xiph_int read fuel None a; Ok (Some (fst v), snd v))) with (numbers (xiph_num read fuel)). rewrite IH by (auto; lia). cbn [bind fst snd]. do 2 f_equal. lia.
Qed.
Lemma lace_xiph p fs last : let b := xiph_lace fs ++ concat fs ++ last in occurs_at b data p -> Forall not_empty fs -> not_empty last ->
  Lace read fuel 0 (Z.of_nat (List.length fs)) (8 * p) (8 * (p + zlen b)) = (frames_at (p + zlen (xiph_lace fs)) (fs ++ [last]), None).
Proof using All.
  intros b O F N. unfold Lace. change (0 =? 0) with true. cbv iota. rewrite Nat2Z.id. unfold b in *. apply occ_app in O as [O _]. rewrite !zlen_app. pose proof (zlen_nonneg (concat fs)). pose proof (zlen_nonneg last).
  rewrite numbers_xiph by (auto; lia). pose proof (frames_put (8 * p) (8 * (p + (zlen (xiph_lace fs) + (zlen (concat fs) + zlen last)))) fs (p + zlen (xiph_lace fs)) last F ltac:(lia) ltac:(intros _; lia)) as P.
  destruct last; [unfold not_empty in N; cbn in N; lia|]. exact P.
Qed.
Lemma lace_fixed p f fs : let b := f ++ concat fs in not_empty f -> Forall (fun g => zlen g = zlen f) fs ->
  Lace read fuel 1 (Z.of_nat (List.length fs)) (8 * p) (8 * (p + zlen b)) = (frames_at p (f :: fs), None).
Proof using All.
  intros b N F. unfold Lace. change (1 =? 0) with false. change (1 =? 1) with true. cbv iota. rewrite Nat2Z.id. pose proof (zlen_nonneg f).
  assert (L : zlen b = zlen f * (Z.of_nat (List.length fs) + 1)).
  { unfold b. clear b. rewrite zlen_app. induction F as [|g fs G F IH]; cbn [concat List.length]; [change (zlen (@nil Z)) with 0; lia|]. rewrite zlen_app. lia. }
  replace ((8 * (p + zlen b) - 8 * p) / 8 / (Z.of_nat (List.length fs) + 1)) with (zlen f) by (replace ((8 * (p + zlen b) - 8 * p) / 8) with (zlen b) by lia; rewrite L, Z.div_mul by lia; reflexivity).
  assert (E : List.repeat (Some (zlen f)) (S (List.length fs)) = map (fun f => Some (zlen f)) (f :: fs)).
  { cbn [List.repeat map]. f_equal. clear - F. induction F as [|g fs G F IH]; [reflexivity|]. cbn [List.length List.repeat map]. rewrite IH, G. reflexivity. }
  rewrite E. assert (Fn : Forall not_empty (f :: fs)).
  { constructor; [exact N|]. clear - F N. induction F as [|g fs G F IH]; constructor; [unfold not_empty in *; lia|exact IH]. }
  pose proof (frames_put (8 * p) (8 * (p + zlen b)) (f :: fs) p [] Fn ltac:(cbn [concat]; fold b; lia) ltac:(congruence)) as P. cbv iota in P. rewrite app_nil_r in P. exact P.
Qed.
Lemma numbers_ebml start stop s fs b : deltas s fs b -> forall p, occurs_at b data p -> 8 * (p + zlen b) <= stop ->
  exists ds, numbers (ebml_signed read) (List.length fs) start stop (8 * p) = Ok (ds, 8 * (p + zlen b)) /\ ebml_sizes (Some s) ds = Some s :: map (fun f => Some (zlen f)) fs.
Proof using All.
  induction 1 as [s|s n f fs b d N D _ IH]; intros p O St; cbn [List.length numbers map].
  - exists []. change (zlen (@nil Z)) with 0. rewrite Z.add_0_r. split; reflexivity.
  - apply occ_app in O as [O1 O2]. rewrite zlen_app, zlen_ebml' in *. pose proof (zlen_nonneg b). rewrite (ebml_signed_ok read data Hs Hb n d p N ltac:(lia) O1). replace (d =? 2 ^ (7 * Z.of_nat n - 1)) with false by lia. cbn [bind fst snd]. unfold fits.
    replace (stop <? 8 * p + 8 * Z.of_nat n) with false by lia. cbn [bind]. replace (8 * p + 8 * Z.of_nat n) with (8 * (p + Z.of_nat n)) by lia. destruct (IH (p + Z.of_nat n) O2 ltac:(lia)) as (ds & E & Z0). rewrite E. cbn [bind fst snd].
    exists (Some d :: ds). split; [do 2 f_equal; lia|]. cbn [ebml_sizes]. f_equal. replace (s + d) with (zlen f) by (unfold d; lia). exact Z0.
Qed.
Lemma lace_ebml p fs h last : let b := h ++ concat fs ++ last in occurs_at b data p -> ebml_lace fs h -> Forall not_empty fs -> not_empty last ->
  Lace read fuel 2 (Z.of_nat (List.length fs)) (8 * p) (8 * (p + zlen b)) = (frames_at (p + zlen h) (fs ++ [last]), None).
Proof using All.
  intros b O E F N. unfold Lace. change (2 =? 0) with false. change (2 =? 1) with false. cbv iota. rewrite Nat2Z.id. inversion E as [n f fs' b' Hn L D]; subst. unfold b in *. clear b E. rewrite <- app_assoc in O. apply occ_app in O as [O1 O2]. apply occ_app in O2 as [O2 _].
  set (g := f :: fs') in *. rewrite !zlen_app, zlen_ebml' in *. pose proof (zlen_nonneg f). pose proof (zlen_nonneg b'). pose proof (zlen_nonneg (concat g)). pose proof (zlen_nonneg last). cbn [numbers].
  rewrite (ebml_unsigned_ok read data Hs Hb n (zlen f) p Hn ltac:(lia) O1). replace (zlen f =? 2 ^ (7 * Z.of_nat n) - 1) with false by lia. cbn [bind fst snd]. unfold fits.
  set (stop := 8 * (p + (Z.of_nat n + zlen b' + (zlen (concat g) + zlen last)))). replace (stop <? 8 * p + 8 * Z.of_nat n) with false by (unfold stop; lia). cbn [bind fst snd hd].
  replace (8 * p + 8 * Z.of_nat n) with (8 * (p + Z.of_nat n)) by lia. replace (List.length g - 1)%nat with (List.length fs') by (unfold g; cbn; lia).
  destruct (numbers_ebml (8 * p) stop (zlen f) fs' b' D (p + Z.of_nat n) O2 ltac:(unfold stop; lia)) as (ds & Ed & Zs). rewrite Ed, Zs. change (Some (zlen f) :: map (fun f => Some (zlen f)) fs') with (map (fun f : list Z => Some (zlen f)) g).
  pose proof (frames_put (8 * p) stop g (p + Z.of_nat n + zlen b') last F ltac:(unfold stop; lia) ltac:(intros _; unfold stop; lia)) as P.
  destruct last; [unfold not_empty in N; cbn in N; lia|]. rewrite Z.add_assoc. exact P.
Qed.

(** The fields before the frames *)
Lemma flag_bits c flags : 0 <= flags < 256 -> occurs_at [flags] data c ->
  readBits read (8 * c) 1 BIG_ENDIAN = Ok (flags / 128) /\ readBits read (8 * c + 4) 1 BIG_ENDIAN = Ok (flags / 8 mod 2) /\
  readBits read (8 * c + 5) 2 BIG_ENDIAN = Ok (flags / 2 mod 4) /\ readBits read (8 * c + 7) 1 BIG_ENDIAN = Ok (flags mod 2).
Proof using All.
  intros F O. assert (B : is_byte flags) by exact F. rewrite <- (Z.add_0_r (8 * c)) at 1. rewrite !(read_bits read data Hs Hb flags c) by (auto; lia). rewrite flag_key_bits, flag_inv_bits, flag_lace_bits, flag_disc_bits by exact B. auto.
Qed.
Lemma block_read h p n track time flags fs rest off : h <> InOther -> let b := block_head n track time flags ++ rest in occurs_at b data p -> head_ok n track time flags ->
  laced (flags / 2 mod 4) fs rest off -> Forall not_empty fs ->
  Block read fuel h (8 * p) (8 * (p + zlen b)) =
    Ok (Blk (Some track) time (flag_key h flags) (flags / 8 mod 2) (flags / 2 mod 4) (flag_disc h flags) (frames_at (p + Z.of_nat n + 3 + off) fs) None).
Proof using All.
  intros H b O (Hn & T & Ti & Fl) L F. unfold b in *. clear b. unfold block_head in O. rewrite <- !app_assoc in O. apply occ_app in O as [O1 O]. apply occ_app in O as [O2 O]. apply occ_app in O as [O3 O4].
  assert (E : zlen (block_head n track time flags ++ rest) = Z.of_nat n + 3 + zlen rest).
  { unfold block_head. rewrite !zlen_app, zlen_ebml', zlen_uint. change (zlen [flags]) with 1. lia. }
  rewrite E. rewrite zlen_ebml' in *. rewrite zlen_uint in *. change (zlen [flags]) with 1 in *. pose proof (zlen_nonneg rest). unfold Block.
  rewrite (ebml_unsigned_ok read data Hs Hb n track p Hn ltac:(lia) O1). replace (track =? 2 ^ (7 * Z.of_nat n) - 1) with false by lia. cbn [bind fst snd]. unfold fits at 1 2.
  set (stop := 8 * (p + (Z.of_nat n + 3 + zlen rest))). replace (stop <? 8 * p + 8 * Z.of_nat n) with false by (unfold stop; lia). cbn [bind].
  replace (stop <? 8 * p + 8 * Z.of_nat n + 16) with false by (unfold stop; lia). cbn [bind]. unfold readInteger at 1. replace (8 * p + 8 * Z.of_nat n) with (8 * (p + Z.of_nat n)) by lia.
  rewrite (read_num read data Hs Hb BIG_ENDIAN 2 16 (time mod 65536) (p + Z.of_nat n)) by (try discriminate; auto; try lia; change (2 ^ 16) with 65536; lia). cbn [bind]. change (py_shl1 (16 - 1)) with (Ok 32768). change (py_shl1 16) with (Ok 65536). cbn [bind].
  assert (Et : (if 32768 <=? time mod 65536 then Ok (time mod 65536 - 65536) else Ok (time mod 65536)) = Ok time) by (destruct (32768 <=? time mod 65536) eqn:?; f_equal; lia). rewrite Et. cbn [bind].
  replace (8 * (p + Z.of_nat n) + 16) with (8 * (p + Z.of_nat n + 2)) by lia. unfold fits at 1. replace (stop <? 8 * (p + Z.of_nat n + 2) + 8) with false by (unfold stop; lia). cbn [bind].
  destruct (flag_bits (p + Z.of_nat n + Z.of_nat 2) flags Fl O3) as (B1 & B2 & B3 & B4). change (Z.of_nat 2) with 2 in *. rewrite B1, B2, B3, B4. cbn [bind].
  set (f := p + Z.of_nat n + 3). replace (8 * (p + Z.of_nat n + 2) + 8) with (8 * f) by (unfold f; lia). replace (p + Z.of_nat n + 2 + 1) with f in O4 by (unfold f; lia).
  replace ((stop - 8 * f) / 8) with (zlen rest) by (unfold stop, f; lia).
  assert (R : (if negb (flags / 2 mod 4 =? 0) then do _ <- fits (8 * p) stop (8 * f) 8; do n0 <- readInteger read (8 * f) false 8 BIG_ENDIAN; (if zlen rest - 1 <=? 0 then Err StopIteration else Ok (Lace read fuel (flags / 2 mod 4 - 1) n0 (8 * f + 8) (8 * f + 8 + (zlen rest - 1) * 8)))
     else Ok (frames (8 * p) stop (8 * f) [Some (zlen rest)] false)) = Ok (frames_at (f + off) fs, None)).
  { assert (Len : forall k c, rest = [Z.of_nat k] ++ c -> (k <= 255)%nat -> 1 <= zlen c -> fits (8 * p) stop (8 * f) 8 = Ok tt /\ readInteger read (8 * f) false 8 BIG_ENDIAN = Ok (Z.of_nat k) /\ (zlen rest - 1 <=? 0) = false /\
              8 * f + 8 + (zlen rest - 1) * 8 = 8 * (f + 1 + zlen c) /\ occurs_at c data (f + 1)).
    { intros k c Er K C. assert (Lr : zlen rest = 1 + zlen c) by (rewrite Er; cbn [app]; apply zlen_cons). pose proof O4 as O5. rewrite Er in O5. apply occ_app in O5 as [P1 P2]. change (zlen [Z.of_nat k]) with 1 in P2. split; [unfold fits; replace (stop <? 8 * f + 8) with false by (unfold stop, f; lia); reflexivity|].
      split; [unfold readInteger; rewrite (read_num read data Hs Hb BIG_ENDIAN 1 8 (Z.of_nat k) f) by first [discriminate|lia|change (2 ^ 8) with 256; lia|cbn [uint be_bytes app]; rewrite Z.mod_small by lia; exact P1]; reflexivity|]. split; [lia|]. split; [lia|exact P2]. }
    set (lc := flags / 2 mod 4) in *. clearbody lc. inversion L as [g|gs last K|g gs K G|gs last hd K G]; subst; cbn [Z.eqb negb].
    - inversion F as [|? ? N _]; subst. unfold not_empty in N. pose proof (frames_put (8 * p) stop [rest] f [] ltac:(auto) ltac:(cbn [concat]; rewrite app_nil_r; unfold stop, f; lia) ltac:(congruence)) as P. cbn [map app] in P. rewrite P, Z.add_0_r. reflexivity.
    - apply Forall_app in F as [F Fl']. inversion Fl' as [|? ? N _]; subst. unfold not_empty in N. pose proof (zlen_nonneg (xiph_lace gs)). pose proof (zlen_nonneg (concat gs)).
      destruct (Len (List.length gs) (xiph_lace gs ++ concat gs ++ last) eq_refl K ltac:(rewrite !zlen_app; lia)) as (X1 & X2 & X3 & X4 & X5). rewrite X1. cbn [bind]. rewrite X2. cbn [bind]. rewrite X3, X4. replace (8 * f + 8) with (8 * (f + 1)) by lia.
      change (1 - 1) with 0. rewrite (lace_xiph (f + 1) gs last X5 F N). do 3 f_equal. lia.
    - inversion F as [|? ? N _]; subst. pose proof N as N'. unfold not_empty in N'. pose proof (zlen_nonneg (concat gs)).
      destruct (Len (List.length gs) (g ++ concat gs) eq_refl K ltac:(rewrite !zlen_app; lia)) as (X1 & X2 & X3 & X4 & X5). rewrite X1. cbn [bind]. rewrite X2. cbn [bind]. rewrite X3, X4. replace (8 * f + 8) with (8 * (f + 1)) by lia.
      change (2 - 1) with 1. rewrite (lace_fixed (f + 1) g gs N G). reflexivity.
    - apply Forall_app in F as [F Fl']. inversion Fl' as [|? ? N _]; subst. pose proof N as N'. unfold not_empty in N'. pose proof (zlen_nonneg hd). pose proof (zlen_nonneg (concat gs)).
      destruct (Len (List.length gs) (hd ++ concat gs ++ last) eq_refl K ltac:(rewrite !zlen_app; lia)) as (X1 & X2 & X3 & X4 & X5). rewrite X1. cbn [bind]. rewrite X2. cbn [bind]. rewrite X3, X4. replace (8 * f + 8) with (8 * (f + 1)) by lia.
      change (3 - 1) with 2. rewrite (lace_ebml (f + 1) gs hd last X5 G F N). do 3 f_equal. lia. }
  rewrite R. destruct h; [| |congruence]; reflexivity.
Qed.
End Read.

(** ** Every content *)
Lemma frames_in start stop l : forall a last, inside a stop (fst (frames start stop a l last)) /\ snd (frames start stop a l last) <> Some OutOfFuel.
Proof.
  assert (P : forall a s, match frame start stop a s with Ok n => 8 <= n /\ a + n <= stop | Err e => e <> OutOfFuel end).
  { intros a s. unfold frame, fits. destruct s as [n|]; [|discriminate]. destruct (n <? 1) eqn:N; [discriminate|]. destruct (stop <? a + n * 8) eqn:S; cbn [bind]; [destruct (a =? start); discriminate|lia]. }
  induction l as [|s l IH]; intros a last; cbn [frames].
  - destruct last; [|split; [exact I|discriminate]]. specialize (P a (Some ((stop - a) / 8))). destruct (frame start stop a _) as [n|e]; cbn [fst snd inside]; [|split; [exact I|congruence]]. split; [lia|discriminate].
  - specialize (P a s). destruct (frame start stop a s) as [n|e]; cbn [fst snd inside]; [|split; [exact I|congruence]]. destruct (IH (a + n) last) as [I1 I2]. split; [|exact I2]. repeat split; try lia. exact I1.
Qed.
Lemma numbers_stop num : (forall a, 0 <= a -> match num a with Ok v => 0 <= snd v | Err e => e <> OutOfFuel end) ->
  forall n start stop a, 0 <= a -> match numbers num n start stop a with Ok r => a <= snd r | Err e => e <> OutOfFuel end.
Proof.
  intros N. induction n as [|n IH]; intros start stop a A; cbn [numbers]; [cbn [snd]; lia|]. specialize (N a A). destruct (num a) as [v|e]; cbn [bind]; [|exact N].
  unfold fits. destruct (stop <? a + snd v); cbn [bind]; [destruct (a =? start); discriminate|]. specialize (IH start stop (a + snd v) ltac:(lia)). destruct (numbers num n start stop (a + snd v)) as [r|e]; cbn [bind]; [|exact IH]. cbn [snd]. lia.
Qed.
Lemma inside_wider l : forall a a' b b', a <= a' -> b <= b' -> inside a' b l -> inside a b' l.
Proof. induction l as [|[x m] l IH]; cbn [inside]; [auto|]. intros a a' b b' L1 L2 (P1 & P2 & P3 & P4). repeat split; try lia. eapply IH; [| |exact P4]; lia. Qed.
Section Any.
Context (read : read_fun) (fuel : nat) (data : list Z) (Hs : serves read data) (He : ends read data) (Hb : is_bytes data) (Hf : zlen data < Z.of_nat fuel).
Lemma unsigned_stop a : 0 <= a -> match ebml_unsigned read a with Ok v => 0 <= snd v | Err e => e <> OutOfFuel end.
Proof using All.
  intros A. unfold ebml_unsigned, readInteger. destruct (rawint_any read data Hs Hb He a A) as [(k & E & K & _)|(e & E & N)]; rewrite E; cbn [bind]; [|exact N].
  destruct (bits_any read data Hs He a (8 * k) BIG_ENDIAN Hb ltac:(discriminate) ltac:(lia) ltac:(lia)) as [(R & _ & _)|R]; rewrite R; cbn [bind]; [cbn [snd]; lia|discriminate].
Qed.
Lemma signed_stop a : 0 <= a -> match ebml_signed read a with Ok v => 0 <= snd v | Err e => e <> OutOfFuel end.
Proof using All.
  intros A. unfold ebml_signed, readInteger. destruct (rawint_any read data Hs Hb He a A) as [(k & E & K & _)|(e & E & N)]; rewrite E; cbn [bind]; [|exact N].
  destruct (bits_any read data Hs He a (8 * k) BIG_ENDIAN Hb ltac:(discriminate) ltac:(lia) ltac:(lia)) as [(R & _ & _)|R]; rewrite R; cbn [bind]; [cbn [snd]; lia|discriminate].
Qed.
Lemma xiph_stop a : 0 <= a -> match xiph_num read fuel a with Ok v => 0 <= snd v | Err e => e <> OutOfFuel end.
Proof using All.
  intros A. unfold xiph_num, xiph_int.
  assert (X : forall fl a v s, 0 <= a -> 0 <= s -> 8 * zlen data < a + 8 * Z.of_nat fl -> (0 < fl)%nat -> match xiph_loop read fl None a v s with Ok r => 0 <= snd r | Err e => e <> OutOfFuel end).
  { clear a A. intros fl. induction fl as [|fl IH]; intros a v s A S F P; [lia|]. cbn [xiph_loop].
    destruct (bits_any read data Hs He a 8 LITTLE_ENDIAN Hb ltac:(discriminate) ltac:(lia) ltac:(lia)) as [(R & L & _)|R]; rewrite R; cbn [bind]; [|discriminate].
    destruct (negb _); [cbn [snd]; lia|]. apply IH; lia. }
  specialize (X fuel a 0 0 A ltac:(lia)). pose proof (zlen_nonneg data). specialize (X ltac:(lia) ltac:(lia)). destruct (xiph_loop read fuel None a 0 0) as [r|e]; cbn [bind]; [exact X|exact X].
Qed.
Lemma lace_any lacing n a stop : 0 <= a -> inside a stop (fst (Lace read fuel lacing n a stop)) /\ snd (Lace read fuel lacing n a stop) <> Some OutOfFuel.
Proof using All.
  intros A. assert (W : forall l a' b, a <= a' -> inside a' b l -> inside a b l) by (intros l; destruct l as [|[x m] l]; cbn [inside]; intros; intuition lia).
  unfold Lace. destruct (lacing =? 0); [|destruct (lacing =? 1)].
  - pose proof (numbers_stop _ xiph_stop (Z.to_nat n) a stop a A) as N. destruct (numbers _ _ a stop a) as [[l a']|e]; [|split; [exact I|cbn [snd]; congruence]]. cbn [snd] in N. destruct (frames_in a stop l a' true) as [I1 I2]. split; [eapply W; eassumption|exact I2].
  - apply frames_in.
  - pose proof (numbers_stop _ unsigned_stop 1%nat a stop a A) as N. destruct (numbers (ebml_unsigned read) 1 a stop a) as [[l a']|e]; [|split; [exact I|cbn [snd]; congruence]]. cbn [snd] in N.
    pose proof (numbers_stop _ signed_stop (Z.to_nat n - 1)%nat a stop a' ltac:(lia)) as N2. destruct (numbers (ebml_signed read) _ a stop a') as [[l2 a2]|e]; [|split; [exact I|cbn [snd]; congruence]]. cbn [snd] in N2.
    destruct (frames_in a stop (ebml_sizes (hd None l) l2) a2 true) as [I1 I2]. split; [eapply W; [|eassumption]; lia|exact I2].
Qed.
Lemma block_any h a stop : 0 <= a -> match Block read fuel h a stop with Ok b => inside a stop (k_frames b) /\ k_err b <> Some OutOfFuel | Err e => e <> OutOfFuel end.
Proof using All.
  intros A. assert (W : forall l a' b b', a <= a' -> b <= b' -> inside a' b l -> inside a b' l) by (intros; eapply inside_wider; eassumption).
  unfold Block. pose proof (unsigned_stop a A) as U. destruct (ebml_unsigned read a) as [t|e]; cbn [bind]; [|exact U].
  assert (Ft : forall x y, match fits a stop x y with Ok _ => x + y <= stop | Err e => e <> OutOfFuel end) by (intros x y; unfold fits; destruct (stop <? x + y) eqn:?; [destruct (x =? a); discriminate|lia]).
  pose proof (Ft a (snd t)) as F1. destruct (fits a stop a (snd t)) as [[]|e]; cbn [bind]; [|exact F1].
  pose proof (Ft (a + snd t) 16) as F2. destruct (fits a stop (a + snd t) 16) as [[]|e]; cbn [bind]; [|exact F2].
  unfold readInteger at 1. destruct (bits_any read data Hs He (a + snd t) 16 BIG_ENDIAN Hb ltac:(discriminate) ltac:(lia) ltac:(lia)) as [(R & _ & _)|R]; rewrite R; cbn [bind]; [|discriminate]. change (py_shl1 (16 - 1)) with (Ok 32768). change (py_shl1 16) with (Ok 65536). cbn [bind].
  set (v := bits_at data (a + snd t) 16 BIG_ENDIAN). assert (Ev : exists time, (if 32768 <=? v then Ok (v - 65536) else Ok v) = Ok time) by (destruct (32768 <=? v); eauto). destruct Ev as [time Ev]. rewrite Ev. cbn [bind].
  set (c := a + snd t + 16). pose proof (Ft c 8) as F3. destruct (fits a stop c 8) as [[]|e]; cbn [bind]; [|exact F3].
  assert (Q : match (do key <- readBits read c 1 BIG_ENDIAN; do inv <- readBits read (c + 4) 1 BIG_ENDIAN; do lacing <- readBits read (c + 5) 2 BIG_ENDIAN; do disc <- readBits read (c + 7) 1 BIG_ENDIAN;
      do r <- (if negb (lacing =? 0) then do _ <- fits a stop (c + 8) 8; do n <- readInteger read (c + 8) false 8 BIG_ENDIAN; if (stop - (c + 8)) / 8 - 1 <=? 0 then Err StopIteration else Ok (Lace read fuel (lacing - 1) n (c + 8 + 8) (c + 8 + 8 + ((stop - (c + 8)) / 8 - 1) * 8))
       else Ok (frames a stop (c + 8) [Some ((stop - (c + 8)) / 8)] false)); Ok (key, inv, lacing, disc, r)) with Ok (_, _, _, _, r) => inside a stop (fst r) /\ snd r <> Some OutOfFuel | Err e => e <> OutOfFuel end).
  { assert (Rd : forall x n, 0 <= x -> 1 <= n -> match readBits read x n BIG_ENDIAN with Ok _ => True | Err e => e <> OutOfFuel end).
    { intros x n X N. destruct (bits_any read data Hs He x n BIG_ENDIAN Hb ltac:(discriminate) ltac:(lia) ltac:(lia)) as [(R' & _ & _)|R']; rewrite R'; [exact I|discriminate]. }
    pose proof (Rd c 1 ltac:(unfold c; lia) ltac:(lia)) as Q1. destruct (readBits read c 1 BIG_ENDIAN) as [key|e]; cbn [bind]; [|exact Q1].
    pose proof (Rd (c + 4) 1 ltac:(unfold c; lia) ltac:(lia)) as Q2. destruct (readBits read (c + 4) 1 BIG_ENDIAN) as [inv|e]; cbn [bind]; [|exact Q2].
    pose proof (Rd (c + 5) 2 ltac:(unfold c; lia) ltac:(lia)) as Q3. destruct (readBits read (c + 5) 2 BIG_ENDIAN) as [lc|e]; cbn [bind]; [|exact Q3].
    pose proof (Rd (c + 7) 1 ltac:(unfold c; lia) ltac:(lia)) as Q4. destruct (readBits read (c + 7) 1 BIG_ENDIAN) as [dc|e]; cbn [bind]; [|exact Q4].
    destruct (negb (lc =? 0)).
    - pose proof (Ft (c + 8) 8) as F4. destruct (fits a stop (c + 8) 8) as [[]|e]; cbn [bind]; [|exact F4]. unfold readInteger.
      pose proof (Rd (c + 8) 8 ltac:(unfold c; lia) ltac:(lia)) as Q5. destruct (readBits read (c + 8) 8 BIG_ENDIAN) as [n|e]; cbn [bind]; [|exact Q5].
      destruct (_ <=? 0); cbn [bind]; [discriminate|]. destruct (lace_any (lc - 1) n (c + 8 + 8) (c + 8 + 8 + ((stop - (c + 8)) / 8 - 1) * 8) ltac:(unfold c; lia)) as [I1 I2]. split; [|exact I2]. eapply W; [| |exact I1]; unfold c; lia.
    - cbn [bind]. destruct (frames_in a stop [Some ((stop - (c + 8)) / 8)] (c + 8) false) as [I1 I2]. split; [|exact I2]. eapply W; [| |exact I1]; unfold c; lia. }
  destruct h.
  - destruct (readBits read c 1 BIG_ENDIAN) as [key|e]; cbn [bind] in *; [|exact Q]. destruct (readBits read (c + 4) 1 BIG_ENDIAN) as [inv|e]; cbn [bind] in *; [|exact Q]. destruct (readBits read (c + 5) 2 BIG_ENDIAN) as [lc|e]; cbn [bind] in *; [|exact Q]. destruct (readBits read (c + 7) 1 BIG_ENDIAN) as [dc|e]; cbn [bind] in *; [|exact Q].
    destruct (if negb (lc =? 0) then _ else _) as [r|e]; cbn [bind k_frames k_err] in *; exact Q.
  - destruct (readBits read c 1 BIG_ENDIAN) as [key|e]; cbn [bind] in *; [|exact Q]. destruct (readBits read (c + 4) 1 BIG_ENDIAN) as [inv|e]; cbn [bind] in *; [|exact Q]. destruct (readBits read (c + 5) 2 BIG_ENDIAN) as [lc|e]; cbn [bind] in *; [|exact Q]. destruct (readBits read (c + 7) 1 BIG_ENDIAN) as [dc|e]; cbn [bind] in *; [|exact Q].
    destruct (if negb (lc =? 0) then _ else _) as [r|e]; cbn [bind k_frames k_err] in *; exact Q.
  - cbn [k_frames k_err inside]. split; [exact I|discriminate].
Qed.
End Any.

(** C72: the frames of Matroska blocks. *)
From Coq Require Import String.
From Verif Require Import Base BaseProofs BitsModel StreamModel StreamProofs ChunkBase NumSpec NumRead VarintModel VarintSpec VarintProofs VarintProofs2 MkvProofs BlockModel BlockSpec BlockProofs Lit.
Open Scope Z_scope.
Ltac Zify.zify_post_hook ::= Z.div_mod_to_equations.

(** ** C72: a block, with its track, time and flags, shows all its frames, without lacing or with one of the three *)
Theorem C72_blocks : forall read fuel data h p n track time flags fs rest off, serves read data -> is_bytes data -> zlen data < Z.of_nat fuel ->
  h <> InOther -> head_ok n track time flags -> laced (flags / 2 mod 4) fs rest off -> Forall not_empty fs ->
  let b := block_head n track time flags ++ rest in occurs_at b data p ->
  Block read fuel h (8 * p) (8 * (p + zlen b)) =
    Ok (Blk (Some track) time (flag_key h flags) (flags / 8 mod 2) (flags / 2 mod 4) (flag_disc h flags) (frames_at (p + Z.of_nat n + 3 + off) fs) None).
Proof. intros read fuel data h p n track time flags fs rest off Hs Hb Hf H Hd L F b O. exact (block_read read fuel data Hs Hb Hf h p n track time flags fs rest off H O Hd L F). Qed.
Print Assumptions C72_blocks.
(** Where these frames are, the stream has them. *)
Theorem C72_content : forall data p n track time flags fs rest off, laced (flags / 2 mod 4) fs rest off ->
  occurs_at (block_head n track time flags ++ rest) data p -> head_ok n track time flags ->
  Forall2 (fun x f => fst x = 8 * (fst x / 8) /\ snd x = 8 * zlen f /\ occurs_at f data (fst x / 8)) (frames_at (p + Z.of_nat n + 3 + off) fs) fs.
Proof.
  intros data p n track time flags fs rest off L O Hd.
  assert (G : forall fs q, occurs_at (List.concat fs) data q -> Forall2 (fun x f => fst x = 8 * (fst x / 8) /\ snd x = 8 * zlen f /\ occurs_at f data (fst x / 8)) (frames_at q fs) fs).
  { clear. induction fs as [|f fs IH]; intros q O; cbn [frames_at]; [constructor|]. cbn [List.concat] in O. apply occ_app in O as [O1 O2]. constructor; [|exact (IH _ O2)]. cbn [fst snd]. replace (8 * q / 8) with q by lia. auto. }
  apply occ_app in O as [_ O]. assert (E : zlen (block_head n track time flags) = Z.of_nat n + 3) by (unfold block_head; rewrite !zlen_app, zlen_ebml', zlen_uint; change (zlen [flags]) with 1; lia). rewrite E in O. replace (p + (Z.of_nat n + 3)) with (p + Z.of_nat n + 3) in O by lia.
  set (q := p + Z.of_nat n + 3) in *. clearbody q. apply G. inversion L; subst.
  - cbn [List.concat]. rewrite app_nil_r, Z.add_0_r. exact O.
  - apply occ_app in O as [_ O]. apply occ_app in O as [_ O]. change (zlen [_]) with 1 in O. rewrite concat_app. cbn [List.concat]. rewrite app_nil_r, Z.add_assoc. exact O.
  - apply occ_app in O as [_ O]. exact O.
  - apply occ_app in O as [_ O]. apply occ_app in O as [_ O]. change (zlen [_]) with 1 in O. rewrite concat_app. cbn [List.concat]. rewrite app_nil_r, Z.add_assoc. exact O.
Qed.
Print Assumptions C72_content.
Definition frame_a : list Z := List.repeat 1 300.
Definition frame_b : list Z := [2; 2].
Definition frame_c : list Z := [3; 3; 3].
Definition rest_ebml : list Z := [2] ++ (ebml 2 300 ++ ebml 2 (-298 + 8191)) ++ List.concat [frame_a; frame_b] ++ frame_c.
Definition block_ebml : list Z := block_head 1 1 (-5) 134 ++ rest_ebml.
Example C72_blocks_ex :
  head_ok 1 1 (-5) 134 /\ laced (134 / 2 mod 4) ([frame_a; frame_b] ++ [frame_c]) rest_ebml (1 + 4) /\ Forall not_empty ([frame_a; frame_b] ++ [frame_c]) /\ occurs_at block_ebml block_ebml 0 /\
  Block (string_read block_ebml) 400 InSimpleBlock 0 (8 * zlen block_ebml) = Ok (Blk (Some 1) (-5) (Some 1) 0 3 (Some 0) [(72, 2400); (2472, 16); (2488, 24)] None).
Proof.
  split; [unfold head_ok; cbn; lia|]. split.
  { change (134 / 2 mod 4) with 3. apply (l_ebml [frame_a; frame_b] frame_c (ebml 2 300 ++ ebml 2 (-298 + 8191))); [cbn; lia|].
    apply (el_intro 2 frame_a [frame_b] (ebml 2 (-298 + 8191))); [lia|cbn; lia|]. apply (d_cons (zlen frame_a) 2 frame_b [] []); [lia|cbn; lia|constructor]. }
  split; [repeat constructor; unfold not_empty; cbn; lia|]. split; [|vm_compute; reflexivity].
  unfold occurs_at, sub. rewrite Z.add_0_l. split; [lia|]. split; [lia|]. cbn [Z.to_nat skipn]. unfold zlen. rewrite Nat2Z.id, firstn_all. reflexivity.
Qed.
(** Three frames with the Xiph lacing and with the fixed one *)
Example C72_lacings_ex :
  (let b := block_head 1 1 7 2 ++ [2] ++ xiph_lace [frame_a; frame_b] ++ List.concat [frame_a; frame_b] ++ frame_c in
   Block (string_read b) 400 InBlock 0 (8 * zlen b) = Ok (Blk (Some 1) 7 None 0 1 None (frames_at 8 [frame_a; frame_b; frame_c]) None)) /\
  (let b := block_head 1 1 7 4 ++ [2] ++ frame_c ++ List.concat [frame_c; frame_c] in
   Block (string_read b) 400 InBlock 0 (8 * zlen b) = Ok (Blk (Some 1) 7 None 0 2 None [(40, 24); (64, 24); (88, 24)] None)).
Proof. split; vm_compute; reflexivity. Qed.

(** ** C72, every content: a block stops, and its frames follow one another inside it *)
Theorem C72_any : forall read fuel data h a stop, serves read data -> ends read data -> is_bytes data -> zlen data < Z.of_nat fuel -> 0 <= a ->
  match Block read fuel h a stop with Ok b => inside a stop (k_frames b) /\ k_err b <> Some OutOfFuel | Err e => e <> OutOfFuel end.
Proof. intros read fuel data h a stop Hs He Hb Hf A. exact (block_any read fuel data Hs He Hb Hf h a stop A). Qed.
Print Assumptions C72_any.
Example C72_any_ex : let b := [129; 0; 0; 6; 9; 255; 255; 255; 1; 1; 1] in
  Block (string_read b) 12 InBlock 0 88 = Ok (Blk (Some 1) 0 None 0 3 None [] (Some ReadStreamError)) /\
  (let b := block_head 1 1 7 2 ++ [2; 1; 9; 8; 8; 8] in Block (string_read b) 12 InBlock 0 (8 * zlen b) = Ok (Blk (Some 1) 7 None 0 1 None [(56, 8)] (Some StopIteration))).
Proof. split; vm_compute; reflexivity. Qed.

(** Matroska allows the EBML lacing of one frame, which has no sizes at all; the parser reads a size nevertheless, so that it never shows
    this frame. *)
Theorem C72_single_refuted : forall read fuel data p f, serves read data -> ends read data -> is_bytes data -> zlen data < Z.of_nat fuel -> 0 <= p ->
  not_empty f -> occurs_at f data p ->
  fst (Lace read fuel 2 0 (8 * p) (8 * (p + zlen f))) <> frames_at p [f].
Proof.
  intros read fuel data p f Hs He Hb Hf P N O. unfold Lace. change (2 =? 0) with false. change (2 =? 1) with false. cbv iota. cbn [numbers].
  unfold ebml_unsigned, readInteger. destruct (rawint_any read data Hs Hb He (8 * p) ltac:(lia)) as [(k & E & K & _)|(e & E & _)]; rewrite E; cbn [bind]; [|discriminate].
  destruct (bits_any read data Hs He (8 * p) (8 * k) BIG_ENDIAN Hb ltac:(discriminate) ltac:(lia) ltac:(lia)) as [(R & _ & _)|R]; rewrite R; cbn [bind]; [|discriminate].
  cbn [fst snd]. unfold fits at 1. destruct (8 * (p + zlen f) <? 8 * p + 8 * k); cbn [bind]; [destruct (8 * p =? 8 * p); discriminate|].
  cbn [fst snd Z.to_nat Nat.sub numbers hd ebml_sizes frames]. destruct (frame _ _ _ _) as [m|e]; cbn [fst]; [|discriminate]. intros X. apply (f_equal (fun l => fst (hd (0, 0) l))) in X. cbn [hd fst frames_at] in X. lia.
Qed.
Print Assumptions C72_single_refuted.
(** An empty frame is allowed by lacing; the parser shows no frame from it on. *)
Theorem C72_empty_refuted : forall read fuel data p fs last, serves read data -> is_bytes data -> zlen data < Z.of_nat fuel ->
  let b := xiph_lace ([] :: fs) ++ List.concat fs ++ last in occurs_at b data p ->
  Lace read fuel 0 (Z.of_nat (List.length ([] :: fs))) (8 * p) (8 * (p + zlen b)) = ([], Some OtherError).
Proof.
  intros read fuel data p fs last Hs Hb Hf b O. unfold Lace. change (0 =? 0) with true. cbv iota. rewrite Nat2Z.id. unfold b in *. pose proof O as O'. apply occ_app in O as [O _].
  pose proof (zlen_nonneg (List.concat fs ++ last)). rewrite (numbers_xiph read fuel data Hs Hb Hf) by (auto; rewrite zlen_app; lia). cbn [map frames frame]. reflexivity.
Qed.
Print Assumptions C72_empty_refuted.
Example C72_refuted_ex :
  (let f := [129; 5; 5] in Lace (string_read f) 5 2 0 0 24 = ([(8, 8); (16, 8)], None)) /\ not_empty [129; 5; 5] /\
  (let b := xiph_lace [[]; [7]] ++ [7] ++ [8; 8] in Lace (string_read b) 7 0 2 0 (8 * zlen b) = ([], Some OtherError)).
Proof. split; [vm_compute; reflexivity|]. split; [unfold not_empty; cbn; lia|vm_compute; reflexivity]. Qed.

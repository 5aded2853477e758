(** C58, C59: block chains of OLE2 files, cluster chains of FAT file systems. *)
From Verif Require Import Base BaseProofs StreamModel StreamSpec StreamProofs OleModel OleSpec OleProofs.
Ltac Zify.zify_post_hook ::= Z.div_mod_to_equations.

(** A file allocation table: full sectors of 32-bit words. *)
Definition fat_ok (items : Z) (fat : list (list Z)) : Prop :=
  0 < items /\ Forall (fun s => zlen s = items) fat /\ Forall (Forall (fun b => 0 <= b < 2 ^ 32)) fat.

(** ** C58 *)
(** Whatever the table contains, even loops, following a chain ends; the blocks are
    distinct block numbers linked by the table; it ends well at the end mark or at a block
    outside of the table; the only error is for a special value or a block met twice. *)
Theorem C58_any : forall items fat start l e, fat_ok items fat -> 0 <= start < 2 ^ 32 -> getChain items fat start = (l, e) ->
  Forall names_block l /\ NoDup l /\
  ((e = Ok tt /\ (links (table fat) start l END_OF_CHAIN \/ exists l' c, l = l' ++ [c] /\ links (table fat) start l' c /\ table fat c = None)) \/
   (e = Err ParserError /\ exists c, links (table fat) start l c /\ (~ names_block c /\ c <> END_OF_CHAIN \/ In c l))).
Proof.
  intros items fat start l e (H1 & H2 & H3) Hs E. destruct (getChain_sound items fat H1 H2 H3 start l e Hs E) as (P1 & P2 & P3).
  split; [apply Forall_forall; assumption|]. split; [assumption|]. destruct e as [[]|x]; [left; auto|].
  destruct x; try contradiction. right. auto.
Qed.
Print Assumptions C58_any.
(** A loop, a chain outside of the table, and an unused block in a chain. *)
Example C58_any_ex :
  getChain 4 [[1; 2; 0; 9]; [END_OF_CHAIN; UNUSED; 3; 5]] 0 = ([0; 1; 2], Err ParserError) /\
  getChain 4 [[1; 2; 0; 9]; [END_OF_CHAIN; UNUSED; 3; 5]] 6 = ([6; 3; 9], Ok tt) /\
  getChain 4 [[1; 2; 0; 9]; [END_OF_CHAIN; UNUSED; 3; 5]] 7 = ([7; 5], Err ParserError) /\
  fat_ok 4 [[1; 2; 0; 9]; [END_OF_CHAIN; UNUSED; 3; 5]].
Proof. repeat split; repeat constructor; discriminate. Qed.
(** A chain that leads to the end mark is followed to its end. *)
Theorem C58_chain : forall items fat start l, fat_ok items fat -> 0 <= start < 2 ^ 32 ->
  Forall names_block l -> links (table fat) start l END_OF_CHAIN -> getChain items fat start = (l, Ok tt).
Proof.
  intros items fat start l (H1 & H2 & H3) Hs Hn H. apply getChain_complete; auto. apply Forall_forall. assumption.
Qed.
Print Assumptions C58_chain.
Lemma C58_ex_links : links (table [[4; END_OF_CHAIN; 1; UNUSED]; [5; 2; UNUSED; UNUSED]]) 0 [0; 4; 5; 2; 1] END_OF_CHAIN.
Proof. repeat (econstructor; [reflexivity|]). constructor. Qed.
Example C58_chain_ex : getChain 4 [[4; END_OF_CHAIN; 1; UNUSED]; [5; 2; UNUSED; UNUSED]] 0 = ([0; 4; 5; 2; 1], Ok tt).
Proof. apply C58_chain; [repeat split; repeat constructor; discriminate|lia|repeat constructor; discriminate|exact C58_ex_links]. Qed.

(** The fragments of a property made of such a chain: whole numbers of blocks, at the
    place of their first block, whose blocks are those of the chain in order; two
    fragments that could be one are one. *)
Theorem C58_fragments : forall items fat start l w, fat_ok items fat -> 0 <= start < 2 ^ 32 -> 0 < w ->
  Forall names_block l -> links (table fat) start l END_OF_CHAIN ->
  exists runs : list (Z * nat),
    parseProperty (8 * w) items fat start = (map (fun r => (8 * (512 + fst r * w), Z.of_nat (snd r) * (8 * w))) runs, Ok tt) /\
    concat (map (fun r => run (fst r) (snd r)) runs) = l /\ Forall (fun r => 1 <= snd r)%nat runs /\
    (forall i r s, nth_error runs i = Some r -> nth_error runs (S i) = Some s -> fst s <> fst r + Z.of_nat (snd r)).
Proof.
  intros items fat start l w F Hs Hw Hn H. unfold parseProperty. rewrite (C58_chain _ _ _ _ F Hs Hn H).
  destruct (fragments_ok (8 * w) ltac:(lia) l None I) as (fs & F1 & F2 & F3 & _ & F5). rewrite F1. cbn [fst snd].
  exists (map (fun f => (fst f, Z.to_nat (snd f / (8 * w)))) fs). rewrite !map_map. cbn [fst snd]. split; [|split; [|split]].
  - f_equal. apply map_ext_in. intros f Hf. rewrite Forall_forall in F2. destruct (F2 f Hf) as (n & ->). rewrite Z.div_mul by lia.
    unfold block_address. change HEADER_SIZE with 4096. f_equal; nia.
  - exact F3.
  - apply Forall_map. eapply Forall_impl; [|exact F2]. cbn [snd]. intros f (n & ->). rewrite Z.div_mul by lia. lia.
  - intros i r s H1 H2. rewrite nth_error_map in H1, H2.
    destruct (nth_error fs i) as [f|] eqn:E1; [|discriminate]. destruct (nth_error fs (S i)) as [g|] eqn:E2; [|discriminate].
    injection H1 as <-. injection H2 as <-. cbn [fst snd]. specialize (F5 i f g E1 E2).
    rewrite Forall_forall in F2. destruct (F2 f (nth_error_In _ _ E1)) as (n & E). 
    assert (W8 : 8 * w <> 0) by (clear - Hw; lia). rewrite E, Z.div_mul in F5 by exact W8. rewrite E, Z.div_mul by exact W8. clear - F5. lia.
Qed.
Print Assumptions C58_fragments.
Example C58_fragments_ex : parseProperty 4096 4 [[4; END_OF_CHAIN; 1; UNUSED]; [5; 2; UNUSED; UNUSED]] 0 =
  ([(4096, 4096); (4096 + 4 * 4096, 8192); (4096 + 2 * 4096, 4096); (4096 + 1 * 4096, 4096)], Ok tt).
Proof. vm_compute. reflexivity. Qed.

(** The stream of the property, whatever the fragmentation: the bytes of the blocks
    of the chain one after the other. The blocks are where the format puts
    them if they are of 512 bytes, as the header. *)
Theorem C58_content : forall items fat start l w read data, fat_ok items fat -> 0 <= start < 2 ^ 32 -> 0 < w ->
  Forall names_block l -> links (table fat) start l END_OF_CHAIN -> serves read data ->
  Forall (fun b => 512 + (b + 1) * w <= zlen data) l ->
  exists fs, parseProperty (8 * w) items fat start = (fs, Ok tt) /\
    group_data read fs = Ok (concat (map (fun b => sub data (512 + b * w) w) l)).
Proof.
  intros items fat start l w read data F Hs Hw Hn H R B. unfold parseProperty. rewrite (C58_chain _ _ _ _ F Hs Hn H).
  destruct (fragments_ok (8 * w) ltac:(lia) l None I) as (fs & F1 & F2 & F3 & _ & F5). rewrite F1. cbn [fst snd].
  eexists. split; [reflexivity|]. cbn [app] in F3. rewrite <- F3 at 1. apply group_ok; auto.
  rewrite F3. intros b Hb. rewrite Forall_forall in B, Hn. specialize (B b Hb). specialize (Hn b Hb). unfold names_block in Hn. split; [lia|exact B].
Qed.
Print Assumptions C58_content.
Corollary C58_content_512 : forall fat start l read data, fat_ok 128 fat -> 0 <= start < 2 ^ 32 ->
  Forall names_block l -> links (table fat) start l END_OF_CHAIN -> serves read data ->
  Forall (fun b => (b + 2) * 512 <= zlen data) l ->
  exists fs, parseProperty 4096 128 fat start = (fs, Ok tt) /\ group_data read fs = Ok (concat (map (fun b => sub data ((b + 1) * 512) 512) l)).
Proof.
  intros fat start l read data F Hs Hn H R B.
  destruct (C58_content 128 fat start l 512 read data F Hs ltac:(lia) Hn H R) as (fs & E1 & E2).
  { eapply Forall_impl; [|exact B]. cbn beta. lia. }
  exists fs. split; [exact E1|]. rewrite E2. do 2 f_equal. apply map_ext. intros b. f_equal. lia.
Qed.
Print Assumptions C58_content_512.
(** A damaged chain: the property ends with the same error. *)
Theorem C58_error : forall sector items fat start x, snd (getChain items fat start) = Err x -> snd (parseProperty sector items fat start) = Err x.
Proof.
  intros sector items fat start x H. unfold parseProperty. destruct (getChain items fat start) as [l e]. cbn [snd] in *. subst e. apply fragments_err.
Qed.
Print Assumptions C58_error.
Example C58_error_ex : parseProperty 4096 4 [[1; 3; 0; 2]] 0 = ([(4096, 8192); (4096 + 3 * 4096, 4096)], Err ParserError).
Proof. vm_compute. reflexivity. Qed.

(** The blocks of a file of version 4 are of 4096 bytes and block b is at (b+1)*4096,
    since the header takes a whole sector (MS-CFB 2.2). The parser looks 3584 bytes before. *)
Theorem C58_sectors_refuted : forall b, block_address (8 * 4096) b <> 8 * ((b + 1) * 4096) /\ block_address (8 * 4096) b = 8 * ((b + 1) * 4096 - 3584).
Proof. intros b. unfold block_address. change HEADER_SIZE with 4096. lia. Qed.
Print Assumptions C58_sectors_refuted.
(** The content size covers the blocks that another block leads to... *)
Theorem C58_content_size : forall sector fat b c, 0 <= sector -> table fat b = Some c -> names_block c -> block_address sector c + sector <= content_size sector fat.
Proof.
  intros sector fat b c Hs H Hn. apply content_covers; [assumption| |apply names_not_special; assumption].
  unfold table in H. destruct (b <? 0); [discriminate|]. apply nth_error_In in H. assumption.
Qed.
Print Assumptions C58_content_size.
(** ... but not a chain of one block after them: a file of two one-block streams is cut
    after the first one. *)
Theorem C58_content_size_refuted : exists fat b, fat_ok 128 fat /\ getChain 128 fat b = ([b], Ok tt) /\ content_size 4096 fat = block_address 4096 b.
Proof.
  exists [[END_OF_CHAIN; END_OF_CHAIN] ++ List.repeat UNUSED 126], 1. split; [|split; vm_compute; reflexivity].
  repeat split. - repeat constructor. - constructor; [|constructor]. apply Forall_forall. intros x Hx. cbn [app] in Hx.
  destruct Hx as [<-|[<-|Hx]]; [split; [discriminate|reflexivity]..|]. apply List.repeat_spec in Hx. subst. split; [discriminate|reflexivity].
Qed.
Print Assumptions C58_content_size_refuted.

(** ** C59 *)
(** The text of an entry of a FAT: as in the specification of FAT. The top four
    bits of a 32-bit entry are reserved. *)
Definition fat_meaning (version v : Z) : fat_text :=
  let mask := if version =? 32 then 28 else version in
  let low := v mod 2 ^ mask in
  if low =? 0 then Free_cluster
  else if low =? 1 then Reserved_cluster
  else if low <? 2 ^ mask - 16 then Number v
  else if low <? 2 ^ mask - 9 then Reserved_value
  else if low =? 2 ^ mask - 9 then Bad_cluster
  else End_of_chain.
Theorem C59_entry : forall version v, In version [12; 16; 32] -> 0 <= v < 2 ^ version -> FatEntry version v = fat_meaning version v.
Proof.
  intros version v H Hv. unfold FatEntry, fat_meaning.
  assert (G : forall p, 32 <= p -> let j := (1 - v) mod p in let low := v mod p in
    (if j =? 0 then Reserved_cluster else if j =? 1 then Free_cluster else if j <? 10 then End_of_chain else if j =? 10 then Bad_cluster else if j <? 18 then Reserved_value else Number v) =
    (if low =? 0 then Free_cluster else if low =? 1 then Reserved_cluster else if low <? p - 16 then Number v else if low <? p - 9 then Reserved_value else if low =? p - 9 then Bad_cluster else End_of_chain)).
  { intros p Hp j low.
    assert (L : 0 <= low < p) by (apply Z.mod_pos_bound; lia).
    assert (J : j = if low <=? 1 then 1 - low else p + 1 - low).
    { unfold j. replace (1 - v) with ((1 - low) + (- (v / p)) * p) by (unfold low; pose proof (Z.div_mod v p ltac:(lia)); lia). rewrite Z.mod_add by lia.
      destruct (low <=? 1) eqn:E; [apply Z.mod_small; lia|]. replace (1 - low) with ((p + 1 - low) + (-1) * p) by lia. rewrite Z.mod_add by lia. apply Z.mod_small. lia. }
    clearbody j low. rewrite J. destruct (low <=? 1) eqn:E0.
    - destruct (low =? 0) eqn:E1; [replace (1 - low =? 0) with false by lia; replace (1 - low =? 1) with true by lia; reflexivity|].
      replace (low =? 1) with true by lia. replace (1 - low =? 0) with true by lia. reflexivity.
    - replace (low =? 0) with false by lia. replace (low =? 1) with false by lia. replace (p + 1 - low =? 0) with false by lia. replace (p + 1 - low =? 1) with false by lia.
      destruct (low <? p - 16) eqn:E3.
      { replace (p + 1 - low <? 10) with false by lia. replace (p + 1 - low =? 10) with false by lia. replace (p + 1 - low <? 18) with false by lia. reflexivity. }
      destruct (low <? p - 9) eqn:E4.
      { replace (p + 1 - low <? 10) with false by lia. replace (p + 1 - low =? 10) with false by lia. replace (p + 1 - low <? 18) with true by lia. reflexivity. }
      destruct (low =? p - 9) eqn:E5.
      { replace (p + 1 - low <? 10) with false by lia. replace (p + 1 - low =? 10) with true by lia. reflexivity. }
      replace (p + 1 - low <? 10) with true by lia. reflexivity. }
  destruct H as [<-|[<-|[<-|[]]]]; apply G; vm_compute; discriminate.
Qed.
Print Assumptions C59_entry.
Example C59_ex : FatEntry 12 0xFFF = End_of_chain /\ FatEntry 16 0xFFF7 = Bad_cluster /\ FatEntry 32 0xF0000000 = Free_cluster /\ FatEntry 32 1234 = Number 1234.
Proof. repeat split. Qed.
(** The data of a file cannot be found: the first entry is looked up with a float,
    so a file that has a first cluster ends with a TypeError. *)
Theorem C59_clusters_refuted : forall version cluster, 2 <= cluster < 2 ^ Z.min 28 version - 16 -> first_clusters version cluster = Err TypeError.
Proof.
  intros version cluster H. unfold first_clusters. cbv zeta. replace (1 <? cluster) with true by lia.
  replace (cluster <? 2 ^ Z.min 28 version - 16) with true by lia. reflexivity.
Qed.
Print Assumptions C59_clusters_refuted.
Example C59_clusters_ex : 2 <= 3 < 2 ^ Z.min 28 12 - 16.
Proof. vm_compute. split; congruence. Qed.

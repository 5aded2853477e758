(** Proofs about OggModel.v. *)
From Coq Require Import String.
From Verif Require Import Base BaseProofs BitsModel BitsSpec BitsProofs StreamModel StreamSpec StreamProofs StreamProofs2 DictModel DictProofs NumSpec NumRead ChunkBase VarintModel VarintProofs2 GenModel GenSpec GenProofs ItemSpec ItemProofs ItemProofs2 ZipSpec ZipProofs OggModel OggSpec Lit.
Open Scope Z_scope.
Ltac Zify.zify_post_hook ::= Z.div_mod_to_equations.

(** ** Lacing values *)
Lemma groups_nil l : groups l = [] -> l = [].
Proof. destruct l as [|v l]; [reflexivity|]. cbn [groups]. destruct (v =? 255); [destruct (groups l); discriminate|discriminate]. Qed.
Lemma groups_cons : forall l g gs, groups l = g :: gs -> exists l', l = g ++ l' /\ groups l' = gs /\ g <> [].
Proof.
  induction l as [|v l IH]; intros g gs E; [discriminate|]. cbn [groups] in E. destruct (v =? 255) eqn:V.
  - destruct (groups l) as [|g' gs'] eqn:G.
    + apply groups_nil in G. subst l. assert (g = [255] /\ gs = []) as [-> ->] by (split; congruence). exists []. split; [cbn [app]; f_equal; lia|]. split; [reflexivity|discriminate].
    + assert (g = 255 :: g' /\ gs = gs') as [-> ->] by (split; congruence). destruct (IH g' gs' eq_refl) as (l' & -> & L & _). exists l'. split; [cbn [app]; f_equal; lia|]. split; [exact L|discriminate].
  - assert (g = [v] /\ gs = groups l) as [-> ->] by (split; congruence). exists l. split; [reflexivity|]. split; [reflexivity|discriminate].
Qed.
Definition lace_item (g : list Z) : item := I (lit "size[]") (SCode g (total g)).
Lemma lace_bytes : forall l, bytes_of_all (map lace_item (groups l)) = l.
Proof.
  intros l. remember (groups l) as gs eqn:G. revert l G. induction gs as [|g gs IH]; intros l G; symmetry in G.
  - apply groups_nil in G. subst. reflexivity.
  - apply groups_cons in G as (l' & -> & L & _). cbn [map]. rewrite bytes_of_all_cons. cbn [lace_item bytes_of plain_bytes]. f_equal. apply IH. symmetry. exact L.
Qed.
(** ** Parts of packets *)
Lemma bytes_part x : is_bytes x -> part_bytes (Bytes x) = x.
Proof.
  intros B. unfold part_bytes, part_fields. destruct (zlen x <? 7) eqn:L.
  - destruct x; [reflexivity|]. cbn [some_bytes_item]. unfold bytes_of_all. cbn [flat_map bytes_of plain_bytes]. apply app_nil_r.
  - destruct x as [|t x]; [discriminate L|]. inversion B as [|? ? T B']; subst. cbn [hd tl]. rewrite bytes_of_all_app. unfold start, le. cbn [bytes_of_all flat_map bytes_of plain_bytes app uint VarintSpec.le_bytes]. unfold is_byte in T. rewrite Z.mod_small by lia. rewrite app_nil_r. cbn [app]. f_equal.
    change (skipn 7 (t :: x)) with (skipn 6 x). rewrite <- (firstn_skipn 6 x) at 3. f_equal. destruct (skipn 6 x); [reflexivity|]. cbn [some_bytes_item flat_map bytes_of plain_bytes]. apply app_nil_r.
Qed.
Definition parser_of (p : part) : option prog :=
  match p with
  | Bytes _ => None
  | VorbisHeader _ _ _ _ _ _ _ _ _ => Some parseVorbisHeader
  | TheoraHeader _ _ _ _ _ _ _ _ _ _ _ _ _ _ _ _ _ _ _ => Some parseTheoraHeader
  | VideoHeader _ _ _ _ _ _ _ _ _ _ _ _ => Some parseVideoHeader
  | Comments _ _ _ _ => Some parseVorbisComment
  end.
Lemma zlen6 (c : list Z) : zlen c = 6 -> c <> [].
Proof. intros L ->. discriminate L. Qed.
Lemma info_of p : part_ok p -> 7 <= zlen (part_bytes p) ->
  exists t c y, part_bytes p = (t :: c) ++ y /\ zlen c = 6 /\ chunk_info c t = match parser_of p with Some pr => Some (lit (part_name p), pr) | None => None end.
Proof.
  intros K L. destruct p as [x|version channels rate maximum nominal minimum size0 size1 framing|major minor revision width height frame_width frame_height x y fps_num fps_den aspect_num aspect_den space bitrate quality shift format spare|pad fourcc size unit samples default buffer bits pad2 width height pad3|theora vendor comments framing].
  - destruct K as (B & H & _). rewrite bytes_part in * by exact B. destruct x as [|t x]; [cbn in L; lia|]. rewrite zlen_cons in L. exists t, (firstn 6 x), (skipn 6 x). cbn [app]. rewrite firstn_skipn. split; [reflexivity|].
    assert (L6 : zlen (firstn 6 x) = 6) by (unfold zlen in *; rewrite firstn_length; lia). split; [exact L6|]. cbn [parser_of]. unfold chunk_info. pose proof (firstn_skipn 6 x) as Ex.
    destruct (str_eqb (firstn 6 x) (lit "vorbis")) eqn:E1; [|destruct (str_eqb (firstn 6 x) (lit "theora")) eqn:E2; [|destruct (str_eqb (firstn 6 x) (lit "video" ++ [0])) eqn:E3; [|reflexivity]]];
      match goal with E : str_eqb _ _ = true |- _ => apply str_eqb_eq in E; rewrite E in Ex end.
    + destruct (t =? 3) eqn:T; [exfalso; apply H; exists (skipn 6 x); right; left; rewrite <- Ex; f_equal; lia|]. destruct (t =? 1) eqn:T1; [exfalso; apply H; exists (skipn 6 x); left; rewrite <- Ex; f_equal; lia|]. reflexivity.
    + destruct (t =? 128) eqn:T; [exfalso; apply H; exists (skipn 6 x); right; right; left; rewrite <- Ex; f_equal; lia|]. destruct (t =? 129) eqn:T1; [exfalso; apply H; exists (skipn 6 x); right; right; right; left; rewrite <- Ex; f_equal; lia|]. reflexivity.
    + destruct (t =? 1) eqn:T1; [exfalso; apply H; exists (skipn 6 x); right; right; right; right; rewrite <- Ex; f_equal; lia|]. reflexivity.
  - exists 1, vorbis. eexists. split; [reflexivity|]. split; reflexivity.
  - exists 128, theora_. eexists. split; [reflexivity|]. split; reflexivity.
  - exists 1, video. eexists. split; [reflexivity|]. split; reflexivity.
  - exists (if theora then 129 else 3), (if theora then theora_ else vorbis). eexists. split; [unfold part_bytes; cbn [part_fields]; destruct theora; reflexivity|]. split; destruct theora; reflexivity.
Qed.
Section Read.
Context (read : read_fun) (data : list Z) (Hs : serves read data) (Hb : is_bytes data).
Notation obeys := (obeys read data).
Lemma xiph_group : forall l p fuel acc size g gs, occurs_at l data p -> Forall (u 8) l -> (List.length l < fuel)%nat -> groups l = g :: gs ->
  xiph_loop read fuel (Some (size + 8 * zlen l)) (8 * p) acc size = Ok (acc + total g, size + 8 * zlen g).
Proof using Hs Hb.
  induction l as [|v l IH]; intros p fuel acc size g gs O U F G; [discriminate|]. destruct fuel as [|fuel]; [cbn [List.length] in F; lia|]. inversion U as [|? ? V U']; subst. cbn [xiph_loop]. rewrite zlen_cons. pose proof (zlen_nonneg l). replace (size <? size + 8 * (1 + zlen l)) with true by lia.
  change (v :: l) with ([v] ++ l) in O. apply occ_app in O as [O1 O2]. change (zlen [v]) with 1 in O2. unfold u in V. change (2 ^ 8) with 256 in V. rewrite (read_num read data Hs Hb LITTLE_ENDIAN 1 8 v p) by (auto; try discriminate; try lia; cbn [uint VarintSpec.le_bytes]; rewrite Z.mod_small by lia; exact O1).
  cbn [bind groups] in *. destruct (v =? 255) eqn:V5; cbn [negb].
  - destruct (groups l) as [|g' gs'] eqn:G'.
    + apply groups_nil in G'. subst l. assert (g = [255]) as -> by congruence. destruct fuel as [|fuel]; [cbn in F; lia|]. cbn [xiph_loop]. change (zlen (@nil Z)) with 0. replace (size + 8 <? size + 8 * (1 + 0)) with false by lia. cbn [total fold_right]. change (zlen [255]) with 1. f_equal. f_equal; lia.
    + assert (g = 255 :: g') as -> by congruence. replace (8 * p + 8) with (8 * (p + 1)) by lia. replace (size + 8 * (1 + zlen l)) with (size + 8 + 8 * zlen l) by lia. cbn [List.length] in F. rewrite (IH (p + 1) fuel (acc + v) (size + 8) g' gs' O2 U' ltac:(lia) eq_refl).
      rewrite zlen_cons. unfold total. cbn [fold_right]. f_equal. f_equal; lia.
  - assert (g = [v]) as -> by congruence. change (zlen [v]) with 1. unfold total. cbn [fold_right]. f_equal. f_equal; lia.
Qed.
Lemma lacing_obeys : forall n l p stop, (List.length l < n)%nat -> Forall (u 8) l -> stop = 8 * (p + zlen l) ->
  obeys stop p (loop (fun k => PAsk (fun stop a => emit (lit "size[]") (XiphInt (stop - a)); k)) n) (map lace_item (groups l)) PRet.
Proof using Hs Hb.
  induction n as [|n IH]; intros l p stop N U St; [lia|]. cbn [loop]. apply ob_ask. destruct (groups l) as [|g gs] eqn:G.
  - apply groups_nil in G. subst l. change (zlen (@nil Z)) with 0 in St. replace (stop <=? 8 * p) with true by lia. apply ob_nil.
  - pose proof G as G0. apply groups_cons in G as (l' & -> & L & Ne). rewrite zlen_app in St. pose proof (zlen_pos g Ne). pose proof (zlen_nonneg l'). replace (stop <=? 8 * p) with false by lia. apply ob_ask. cbn [map]. unfold XiphInt. rewrite List.app_length in N. assert (1 <= List.length g)%nat by (unfold zlen in *; lia).
    apply Forall_app in U as U2. destruct U2 as [_ U2]. apply ob_code.
    + intros [O _]. change (I (lit "size[]") (SCode g (total g)) :: map lace_item gs) with (map lace_item (g :: gs)) in O. rewrite <- G0 in O. rewrite lace_bytes in O. unfold xiph_int. replace (stop - 8 * p) with (0 + 8 * zlen (g ++ l')) by (rewrite zlen_app; lia).
      rewrite (xiph_group (g ++ l') p _ 0 0 g gs O U); [reflexivity| |exact G0]. rewrite zlen_app. unfold zlen. rewrite List.app_length. lia.
    + rewrite <- L. apply IH; [lia|exact U2|lia].
Qed.
Lemma start_obeys stop p t c k l q : u 8 t -> zlen c = 6 -> obeys stop (p + 7) k l q -> obeys stop p (emit (lit "type") (KNum 8 LE); emit (lit "codec") (KText 6); k) (start t c ++ l) q.
Proof using Hs Hb.
  intros T C H. unfold start, le. cbn [app]. ob. apply ob_plain; [split; [apply zlen6, C|lia]|cbn [kind_of]; rewrite C; reflexivity|]. match goal with |- ItemProofs2.obeys _ _ _ ?x _ _ _ => replace x with (p + 7) end; [exact H|].
  unfold len. cbn [bytes_of plain_bytes]. rewrite zlen_uint, C. lia.
Qed.
Lemma raw_obeys stop p x : zlen x <= 2 ^ 64 -> stop = 8 * (p + zlen x) -> obeys stop p (PAsk (fun stop a => let size := (stop - a) / 8 in when (negb (size =? 0)) (fun k => emit (lit "raw") (KBytes size); k) PRet)) (some_bytes_item "raw" x) PRet.
Proof using Hs Hb.
  intros L St. apply ob_ask. cbv zeta. replace ((stop - 8 * p) / 8) with (zlen x) by lia. destruct x as [|y x]; [apply ob_nil|]. set (z := y :: x) in *. pose proof (zlen_pos z ltac:(discriminate)). replace (zlen z =? 0) with false by lia. cbn [negb when].
  apply ob_plain; [split; [discriminate|exact L]|reflexivity|apply ob_nil].
Qed.
Lemma comment_obeys stop p vendor comments framing : zlen vendor < 2 ^ 32 -> zlen comments < 2 ^ 32 -> Forall (fun c => zlen c < 2 ^ 32) comments -> some_u8 framing ->
  let l := [I (lit "vendor") (SPascal 4 true vendor); le 4 "count" (zlen comments)] ++ map (fun c => I (lit "metadata[]") (SPascal 4 true c)) comments ++ match framing with Some f => [le 1 "framing_flag" f] | None => [] end in
  stop = 8 * (p + zlen (bytes_of_all l)) -> obeys stop p parseVorbisComment l PRet.
Proof using Hs Hb.
  intros V N C Fr l St. unfold parseVorbisComment, l. cbn [app]. apply ob_plain; [split; [lia|exact V]|reflexivity|]. pose proof (zlen_nonneg comments). unfold le at 1. ob. cbn [plain_val num]. set (it := fun c => I (lit "metadata[]") (SPascal 4 true c)).
  set (q := p + _ + _). assert (Q : stop = 8 * (q + zlen (bytes_of_all (map it comments ++ match framing with Some f => [le 1 "framing_flag" f] | None => [] end)))).
  { rewrite St. unfold q, l, le at 1. cbn [app]. rewrite !bytes_of_all_cons, !zlen_app. unfold len. fold it. rewrite bytes_of_all_app, zlen_app. lia. }
  rewrite bytes_of_all_app, zlen_app in Q. rewrite <- (flat_map_single it) in *. apply ob_app with (q := PAsk (fun stop a => when (negb (a =? stop)) (fun k => emit (lit "framing_flag") (KNum 8 LE); k) PRet)).
  - replace (Z.to_nat (zlen comments)) with (List.length comments) by (unfold zlen; lia). apply ob_times. intros d p' k D. rewrite Forall_forall in C. apply ob_plain; [split; [lia|apply C, D]|reflexivity|apply ob_nil].
  - apply ob_ask. destruct framing as [f|].
    + unfold le in *. change (zlen (bytes_of_all [I (lit "framing_flag") (SNum 1 LITTLE_ENDIAN f)])) with 1 in Q. match goal with |- context [?a =? stop] => replace (a =? stop) with false by lia end. cbn [negb when some_u8] in *. repeat ob.
    + change (zlen (bytes_of_all [])) with 0 in Q. match goal with |- context [?a =? stop] => replace (a =? stop) with true by lia end. apply ob_nil.
Qed.
Lemma body_obeys stop p x : part_ok x -> stop = 8 * (p + zlen (part_bytes x)) -> let large := 7 * 8 <=? zlen (part_bytes x) * 8 in
  obeys stop p (when large (fun k => emit (lit "type") (KNum 8 LE); emit (lit "codec") (KText 6); k)
    match parser_of x with
    | Some parser => parser
    | None => PAsk (fun stop a => let size := (stop - a) / 8 in when (negb (size =? 0)) (fun k => emit (lit "raw") (KBytes size); k) PRet)
    end) (part_fields x) PRet.
Proof using Hs Hb.
  intros K St large. unfold large. destruct x as [x|version channels rate maximum nominal minimum size0 size1 framing|major minor revision width height frame_width frame_height x y fps_num fps_den aspect_num aspect_den space bitrate quality shift format spare|pad fourcc size unit samples default buffer bits pad2 width height pad3|theora vendor comments framing].
  - destruct K as (B & _ & L). rewrite bytes_part in * by exact B. cbn [parser_of part_fields]. destruct (zlen x <? 7) eqn:L7.
    + replace (7 * 8 <=? zlen x * 8) with false by lia. cbn [when]. apply raw_obeys; assumption.
    + replace (7 * 8 <=? zlen x * 8) with true by lia. cbn [when]. destruct x as [|t x]; [discriminate L7|]. rewrite zlen_cons in *. inversion B as [|? ? T _]; subst. cbn [hd tl]. apply start_obeys; [exact T|unfold zlen in *; rewrite firstn_length; lia|].
      change (skipn 7 (t :: x)) with (skipn 6 x). assert (S6 : zlen (skipn 6 x) = zlen x - 6) by (unfold zlen in *; rewrite skipn_length; lia). apply raw_obeys; [lia|lia].
  - destruct K as (K1 & K2 & K3 & K4 & K5 & K6 & K7 & K8 & K9). change (7 * 8 <=? zlen (part_bytes (VorbisHeader version channels rate maximum nominal minimum size0 size1 framing)) * 8) with true. cbn [when parser_of part_fields]. apply start_obeys; [unfold u; lia|reflexivity|]. unfold parseVorbisHeader, le. do 6 ob.
    eapply ob_bits; [discriminate|lia|reflexivity| |]. { unfold bits. repeat (apply ta_cons; [lia|reflexivity|]). apply ta_nil. } repeat ob.
  - destruct K as (K1 & K2 & K3 & K4 & K5 & K6 & K7 & K8 & K9 & K10 & K11 & K12 & K13 & K14 & K15 & K16 & K17 & K18 & K19). change (7 * 8 <=? zlen (part_bytes (TheoraHeader major minor revision width height frame_width frame_height x y fps_num fps_den aspect_num aspect_den space bitrate quality shift format spare)) * 8) with true.
    cbn [when parser_of part_fields]. apply start_obeys; [unfold u; lia|reflexivity|]. unfold parseTheoraHeader, be. do 15 ob. eapply ob_bits; [discriminate|lia|reflexivity| |apply ob_nil]. unfold high. repeat (apply ta_cons; [lia|reflexivity|]). apply ta_nil.
  - destruct K as (K1 & K2 & K3 & K4 & K5 & K6 & K7 & K8 & K9 & K10 & K11 & K12). assert (N : forall n (z : list Z), zlen z = n -> 0 < n -> z <> []) by (intros n z <- ? ->; change (zlen (@nil Z)) with 0 in *; lia).
    match goal with |- context [7 * 8 <=? ?z * 8] => replace (7 * 8 <=? z * 8) with true end.
    2:{ unfold part_bytes. cbn [part_fields]. rewrite bytes_of_all_app, zlen_app. change (zlen (bytes_of_all (start 1 video))) with 7. match goal with |- context [7 + ?z] => match z with zlen _ => idtac end; assert (0 <= z) by apply zlen_nonneg end. lia. }
    cbn [when parser_of part_fields]. apply start_obeys; [unfold u; lia|reflexivity|]. unfold parseVideoHeader, le.
    apply ob_plain; [split; [apply (N 2); lia|lia]|cbn [kind_of]; rewrite K1; reflexivity|]. apply ob_plain; [split; [apply (N 4); lia|lia]|cbn [kind_of]; rewrite K2; reflexivity|]. do 6 ob.
    apply ob_plain; [split; [apply (N 2); lia|lia]|cbn [kind_of]; rewrite K9; reflexivity|]. do 2 ob. apply ob_plain; [split; [apply (N 4); lia|lia]|cbn [kind_of]; rewrite K12; reflexivity|apply ob_nil].
  - destruct K as (K1 & K2 & K3 & K4). unfold part_bytes in *. cbn [part_fields] in *. rewrite bytes_of_all_app, zlen_app in *. replace (zlen (bytes_of_all (if theora then start 129 theora_ else start 3 vorbis))) with 7 in * by (destruct theora; reflexivity).
    match goal with |- context [7 * 8 <=? (7 + ?z) * 8] => pose proof (zlen_nonneg (bytes_of_all ([I (lit "vendor") (SPascal 4 true vendor); le 4 "count" (zlen comments)] ++ map (fun c => I (lit "metadata[]") (SPascal 4 true c)) comments ++ match framing with Some f => [le 1 "framing_flag" f] | None => [] end))); replace (7 * 8 <=? (7 + z) * 8) with true by lia end.
    cbn [when parser_of]. destruct theora; (apply start_obeys; [unfold u; lia|reflexivity|]); apply comment_obeys; auto; lia.
Qed.
Lemma chunk_obeys stop p x k : part_ok x -> part_bytes x <> [] -> obeys stop p (Chunk (zlen (part_bytes x)) k) (part_item x) k.
Proof using Hs Hb.
  intros K Ne. pose proof (zlen_pos _ Ne) as Lp. unfold Chunk, part_item. cbv zeta. destruct (part_bytes x) as [|b0 bs] eqn:Eb; [contradiction|]. rewrite <- Eb in *. clear Eb b0 bs.
  assert (Go : forall info, info = match parser_of x with Some pr => Some (lit (part_name x), pr) | None => None end ->
    obeys stop p (PSet (match info with Some (name, _) => name | None => lit "chunk[]" end) (Some (zlen (part_bytes x) * 8))
      (when (7 * 8 <=? zlen (part_bytes x) * 8) (fun k => emit (lit "type") (KNum 8 LE); emit (lit "codec") (KText 6); k)
       match info with
       | Some (_, parser) => parser
       | None => PAsk (fun stop a => let size := (stop - a) / 8 in when (negb (size =? 0)) (fun k => emit (lit "raw") (KBytes size); k) PRet)
       end) (fun _ => k)) [ISet (lit (part_name x)) (part_fields x)] k).
  { intros info ->. pose proof (body_obeys (8 * p + zlen (part_bytes x) * 8) p x K ltac:(lia)) as B. assert (N : parser_of x = None -> part_name x = "chunk[]"%string) by (destruct x; [reflexivity| | | |]; discriminate). cbv zeta in B.
    destruct (parser_of x); [|rewrite N by reflexivity]; (apply ob_set; [unfold part_bytes; lia|lia|exact B|apply ob_nil]). }
  destruct (7 * 8 <=? zlen (part_bytes x) * 8) eqn:L7.
  - destruct (info_of x K ltac:(lia)) as (t & c & y & E & C & Inf). apply (ob_do _ _ _ _ _ _ (VBytes (t :: c))).
    + intros [O _]. assert (O1 : occurs_at (t :: c) data p). { unfold bytes_of_all in O. cbn [flat_map bytes_of] in O. rewrite app_nil_r in O. change (occurs_at (part_bytes x) data p) in O. rewrite E in O. apply occ_app in O as [O _]. exact O. }
      replace 7 with (zlen (t :: c)) by (rewrite zlen_cons; lia). rewrite (rb_occ read data Hs p _ O1) by discriminate. reflexivity.
    + cbn [bytes]. apply Go, Inf.
  - apply (ob_do _ _ _ _ _ _ (VBytes [])); [reflexivity|]. cbn [bytes]. apply (Go None). destruct x; cbn [parser_of]; try reflexivity; exfalso; revert L7; unfold part_bytes; cbn [part_fields]; rewrite bytes_of_all_app, zlen_app.
    + change (zlen (bytes_of_all (start 1 vorbis))) with 7. match goal with |- context [7 + ?z] => assert (0 <= z) by apply zlen_nonneg end. lia.
    + change (zlen (bytes_of_all (start 128 theora_))) with 7. match goal with |- context [7 + ?z] => assert (0 <= z) by apply zlen_nonneg end. lia.
    + change (zlen (bytes_of_all (start 1 video))) with 7. match goal with |- context [7 + ?z] => assert (0 <= z) by apply zlen_nonneg end. lia.
    + replace (zlen (bytes_of_all (if theora then start 129 theora_ else start 3 vorbis))) with 7 by (destruct theora; reflexivity). match goal with |- context [7 + ?z] => assert (0 <= z) by apply zlen_nonneg end. lia.
Qed.
(** ** Pages *)
Lemma part_item_bytes x : bytes_of_all (part_item x) = part_bytes x.
Proof using Type. unfold part_item. destruct (part_bytes x) eqn:E; [reflexivity|]. rewrite <- E. unfold bytes_of_all. cbn [flat_map bytes_of]. rewrite app_nil_r. reflexivity. Qed.
Lemma items_bytes xs : bytes_of_all (flat_map part_item xs) = flat_map part_bytes xs.
Proof using Type. induction xs as [|x xs IH]; [reflexivity|]. cbn [flat_map]. rewrite bytes_of_all_app, part_item_bytes, IH. reflexivity. Qed.
Lemma sum_parts xs : sum (map (fun x => zlen (part_bytes x)) xs) = zlen (flat_map part_bytes xs).
Proof using Type. induction xs as [|x xs IH]; [reflexivity|]. cbn [map flat_map]. unfold sum in *. cbn [fold_right]. rewrite zlen_app, IH. reflexivity. Qed.
Lemma chunks_obey stop : forall xs p, Forall part_ok xs -> obeys stop p (fold_right (fun n k => if n =? 0 then k else Chunk n k) PRet (map (fun x => zlen (part_bytes x)) xs)) (flat_map part_item xs) PRet.
Proof using Hs Hb.
  induction xs as [|x xs IH]; intros p K; [apply ob_nil|]. inversion K as [|? ? K1 K2]; subst. cbn [map fold_right flat_map]. destruct (zlen (part_bytes x) =? 0) eqn:Z0.
  - assert (E : part_bytes x = []) by (destruct (part_bytes x); [reflexivity|rewrite zlen_cons in Z0; match type of Z0 with context [zlen ?l] => pose proof (zlen_nonneg l) end; lia]). unfold part_item. rewrite E. cbn [app]. apply IH, K2.
  - eapply ob_app; [apply chunk_obeys; [exact K1|intros E; rewrite E in Z0; discriminate Z0]|]. apply IH, K2.
Qed.
Lemma link_obeys stop p name k l q : obeys stop p k l q -> obeys stop p (link name k) (link_item name :: l) q.
Proof using Type. intros H. unfold link, link_item. apply ob_code; [reflexivity|]. change (zlen (@nil Z)) with 0. rewrite Z.add_0_r. exact H. Qed.
Lemma segments_obey stop p (known : bool) pg : Forall part_ok (p_parts pg) ->
  obeys stop p (Segments_fields known (p_last pg =? 1) (map (fun x => zlen (part_bytes x)) (p_parts pg)))
    ((if known then [link_item "first"] else []) ++ (if p_last pg =? 1 then [] else [link_item "next"]) ++ flat_map part_item (p_parts pg)) PRet.
Proof using Hs Hb.
  intros K. unfold Segments_fields. assert (N : obeys stop p (when (negb (p_last pg =? 1)) (link "next") (fold_right (fun n k => if n =? 0 then k else Chunk n k) PRet (map (fun x => zlen (part_bytes x)) (p_parts pg)))) ((if p_last pg =? 1 then [] else [link_item "next"]) ++ flat_map part_item (p_parts pg)) PRet).
  { destruct (p_last pg =? 1); cbn [negb when app]; [apply chunks_obey, K|apply link_obeys, chunks_obey, K]. }
  destruct known; cbn [when app]; [apply link_obeys, N|exact N].
Qed.
Lemma head_obeys stop p pg k l q : page_ok pg -> obeys stop (p + 27) (k (p_last pg) (p_serial pg) (zlen (p_lacing pg))) l q -> obeys stop p (page_head k) (head_items pg ++ l) q.
Proof using Hs Hb.
  intros (K1 & K2 & K3 & K4 & K5 & K6 & K7 & K8 & K9 & K10 & _) H. unfold page_head, head_items, le. cbn [app]. apply ob_plain; [split; [discriminate|vm_compute; discriminate]|reflexivity|]. ob. pose proof (zlen_nonneg (p_lacing pg)).
  eapply ob_bits; [discriminate|lia|reflexivity| |]. { unfold bits. repeat (apply ta_cons; [lia|reflexivity|]). apply ta_nil. }
  do 5 ob. cbn [plain_val num]. rewrite val_of_low by exact K4. match goal with |- ItemProofs2.obeys _ _ _ ?x _ _ _ => replace x with (p + 27) end; [exact H|]. unfold len. cbn [bytes_of plain_bytes]. rewrite !zlen_uint. change (zlen (lit "OggS")) with 4. lia.
Qed.
Lemma lacing_set stop p pg k l q : page_ok pg -> p_lacing pg <> [] -> obeys stop (p + zlen (p_lacing pg)) k l q -> obeys stop p (page_lacing (zlen (p_lacing pg)) k) (lacing_item pg :: l) q.
Proof using Hs Hb.
  intros (_ & _ & _ & _ & _ & _ & _ & _ & _ & K10 & K11 & _) Ne H. pose proof (zlen_pos _ Ne). unfold page_lacing, lacing_item. fold lace_item. change (map (fun g => I (lit "size[]") (SCode g (total g))) (groups (p_lacing pg))) with (map lace_item (groups (p_lacing pg))).
  assert (Lb : zlen (bytes_of_all (map lace_item (groups (p_lacing pg)))) = zlen (p_lacing pg)) by (rewrite lace_bytes; reflexivity). apply ob_set; [rewrite Lb; lia|lia| |rewrite Lb; exact H].
  unfold Lacing_fields. apply lacing_obeys; [unfold zlen; lia|exact K11|lia].
Qed.
Lemma run_obeys stop p pr l : obeys stop p pr l PRet -> fits data stop p l -> run read (8 * zlen data) pr true stop (8 * p) = (shows l p, None, 8 * (p + zlen (bytes_of_all l))).
Proof using Hs Hb. intros H [O St]. rewrite (follow read data Hs Hb _ _ _ _ _ (H (conj O St)) true O St). unfold puts. cbn [run fst snd]. rewrite app_nil_r. reflexivity. Qed.
Lemma gets_lacing : forall gs q, gets (lit "size[]") (shows (map lace_item gs) q) = map (fun g => VNum (total g)) gs.
Proof using Type. induction gs as [|g gs IH]; intros q; [reflexivity|]. cbn [map shows]. unfold gets in *. rewrite flat_map_app, IH. reflexivity. Qed.
Definition lacing_items (pg : ogg_page) : list item := match p_lacing pg with [] => [] | _ => [lacing_item pg] end.
Definition page_values (pg : ogg_page) : list Z := zlen (p_lacing pg) :: map total (groups (p_lacing pg)).
Lemma sizes_read stop p pg : page_ok pg -> fits data stop p (head_items pg ++ lacing_items pg) -> page_sizes read (8 * zlen data) stop (8 * p) = Ok (VBytes (page_values pg)).
Proof using Hs Hb.
  intros K F. unfold page_sizes. rewrite (run_obeys stop p _ (head_items pg ++ lacing_items pg)); [| |exact F].
  - change (get (lit "lacing_size") (shows (head_items pg ++ lacing_items pg) p)) with (Some (VNum (zlen (p_lacing pg)))). cbn iota. cbn [num]. unfold lacing_items, page_values. destruct (p_lacing pg) as [|v l] eqn:E; [reflexivity|]. rewrite <- E in *. clear E v l F.
    destruct (zlen (p_lacing pg) =? 0) eqn:Z0; [destruct (p_lacing pg); [reflexivity|rewrite zlen_cons in Z0; match type of Z0 with context [zlen ?l] => pose proof (zlen_nonneg l) end; lia]|].
    assert (X : exists q, kids (lit "lacing") (shows (head_items pg ++ [lacing_item pg]) p) = Some (shows (map lace_item (groups (p_lacing pg))) q)) by (eexists; reflexivity). destruct X as [q ->]. rewrite gets_lacing, map_map. reflexivity.
  - apply head_obeys; [exact K|]. unfold lacing_items. destruct (p_lacing pg) as [|v l] eqn:E; [apply ob_nil|]. rewrite <- E in *. assert (Ne : p_lacing pg <> []) by (rewrite E; discriminate). pose proof (zlen_pos _ Ne). replace (zlen (p_lacing pg) =? 0) with false by lia. cbn [negb when]. apply lacing_set; [exact K|exact Ne|apply ob_nil].
Qed.
Lemma head_bytes pg : zlen (bytes_of_all (head_items pg)) = 27.
Proof using Type. reflexivity. Qed.
Lemma segments_bytes known pg : bytes_of (segments_item known pg) = page_data pg.
Proof using Type. unfold segments_item. change (bytes_of (ISet (lit "segments") ?l)) with (bytes_of_all l). rewrite !bytes_of_all_app, items_bytes. destruct known, (p_last pg =? 1); reflexivity. Qed.
Lemma page_bytes known pg : bytes_of_all (page_fields known pg) = bytes_of_all (head_items pg) ++ match p_lacing pg with [] => [] | l => l ++ page_data pg end.
Proof using Type.
  unfold page_fields. rewrite bytes_of_all_app. f_equal. destruct (p_lacing pg) as [|v l] eqn:E; [reflexivity|]. rewrite <- E. rewrite bytes_of_all_cons, bytes_of_all_cons, segments_bytes, app_nil_r. f_equal. unfold lacing_item. apply (lace_bytes (p_lacing pg)).
Qed.
Definition page_len (pg : ogg_page) : Z := 27 + zlen (p_lacing pg) + zlen (page_data pg).
Lemma page_zlen known pg : page_ok pg -> zlen (bytes_of_all (page_fields known pg)) = page_len pg.
Proof using Type.
  intros (_ & _ & _ & _ & _ & _ & _ & _ & _ & _ & _ & _ & M). rewrite page_bytes, zlen_app, head_bytes. unfold page_len. destruct (p_lacing pg) as [|v l] eqn:E; [|rewrite zlen_app; lia]. cbn [groups map] in M. unfold page_data. destruct (p_parts pg); [reflexivity|discriminate].
Qed.
Lemma sizes_sum pg : page_ok pg -> sum (map total (groups (p_lacing pg))) = zlen (page_data pg).
Proof using Type. intros (_ & _ & _ & _ & _ & _ & _ & _ & _ & _ & _ & _ & ->). apply sum_parts. Qed.
Definition next_seen (seen : list Z) (pg : ogg_page) : list Z := match p_lacing pg with [] => seen | _ => p_serial pg :: seen end.
Lemma fits_more stop p l l' x : bytes_of_all l = bytes_of_all l' ++ x -> fits data stop p l -> fits data stop p l'.
Proof using Type. intros E [O St]. rewrite E, zlen_app in *. apply occ_app in O as [O _]. pose proof (zlen_nonneg x). split; [exact O|lia]. Qed.
Lemma page_obeys stop p seen pg k : page_ok pg -> filled pg -> obeys stop p (OggPage seen k) [page_item (existsb (Z.eqb (p_serial pg)) seen) pg] (k (next_seen seen pg)).
Proof using Hs Hb.
  intros K Fi. set (known := existsb (Z.eqb (p_serial pg)) seen). unfold OggPage. apply (ob_do _ _ _ _ _ _ (VBytes (page_values pg))).
  { intros F. apply sizes_read; [exact K|]. eapply (fits_more _ _ _ _ (match p_lacing pg with [] => [] | _ => page_data pg end)); [|exact F]. unfold page_item, bytes_of_all at 1. cbn [flat_map bytes_of]. rewrite app_nil_r. change (flat_map bytes_of (page_fields known pg)) with (bytes_of_all (page_fields known pg)). rewrite page_bytes.
    rewrite bytes_of_all_app. unfold lacing_items. destruct (p_lacing pg) as [|v l] eqn:E; [rewrite !app_nil_r; reflexivity|]. rewrite <- E. rewrite <- app_assoc. f_equal. f_equal. rewrite bytes_of_all_cons, app_nil_r. symmetry. apply (lace_bytes (p_lacing pg)). }
  cbn [bytes page_values hd tl]. rewrite sizes_sum by exact K. pose proof (page_zlen known pg K) as Lz. unfold page_len in Lz. pose proof (zlen_nonneg (p_lacing pg)) as L0. pose proof (zlen_nonneg (page_data pg)) as D0. apply ob_set; [lia|lia| |].
  - unfold page_fields. apply head_obeys; [exact K|]. destruct (p_lacing pg) as [|v l] eqn:E; [apply ob_nil|]. rewrite <- E in *. assert (Ne : p_lacing pg <> []) by (rewrite E; discriminate). pose proof (zlen_pos _ Ne). replace (zlen (p_lacing pg) =? 0) with false by lia. cbn [negb when].
    apply lacing_set; [exact K|exact Ne|]. apply ob_ask. pose proof (zlen_pos _ (Fi Ne)). unfold segments_item. apply ob_set; [|lia| |apply ob_nil].
    + match goal with |- _ = 8 * zlen (bytes_of_all ?l) => change (bytes_of_all l) with (bytes_of (segments_item known pg)) end. rewrite segments_bytes. lia.
    + destruct K as (_ & _ & _ & _ & _ & _ & _ & _ & _ & _ & _ & Kp & M). rewrite M. apply segments_obey, Kp.
  - replace (k _) with (k (next_seen seen pg)); [apply ob_nil|]. f_equal. unfold next_seen. change (get (lit "serial") (shows (page_fields known pg) p)) with (Some (VNum (p_serial pg))). cbn [num]. destruct (p_lacing pg) as [|v l] eqn:E; [reflexivity|].
    rewrite zlen_cons in *. pose proof (zlen_nonneg l). replace (1 + zlen l =? 0) with false by lia. reflexivity.
Qed.
Definition seen_after (seen : list Z) (ps : list ogg_page) : list Z := fold_left next_seen ps seen.
Lemma pages_obey : forall ps seen n p stop, Forall page_ok ps -> Forall filled ps -> (List.length ps < n)%nat -> 8 * (p + zlen (bytes_of_all (ogg seen ps))) <= stop ->
  obeys stop p (loop_from OggPage n seen) (ogg seen ps) (loop_from OggPage (n - List.length ps) (seen_after seen ps)).
Proof using Hs Hb.
  induction ps as [|pg ps IH]; intros seen n p stop K Fi N St; [replace (n - List.length (@nil ogg_page))%nat with n by (cbn; lia); apply ob_nil|]. destruct n as [|n]; [cbn [List.length] in N; lia|]. inversion K as [|? ? K1 K2]; subst. inversion Fi as [|? ? F1 F2]; subst.
  cbn [List.length] in *. change (S n - S (List.length ps))%nat with (n - List.length ps)%nat. cbn [ogg] in *. change (match p_lacing pg with [] => seen | _ => p_serial pg :: seen end) with (next_seen seen pg) in *. set (known := existsb (Z.eqb (p_serial pg)) seen) in *.
  assert (Lz : zlen (bytes_of (page_item known pg)) = page_len pg) by apply (page_zlen known pg K1). rewrite bytes_of_all_cons, zlen_app, Lz in St. pose proof (zlen_nonneg (p_lacing pg)). pose proof (zlen_nonneg (page_data pg)). pose proof (zlen_nonneg (bytes_of_all (ogg (next_seen seen pg) ps))). unfold page_len in *.
  cbn [loop_from]. apply ob_ask. replace (stop <=? 8 * p) with false by lia. change (page_item known pg :: ogg (next_seen seen pg) ps) with ([page_item known pg] ++ ogg (next_seen seen pg) ps). eapply ob_app; [apply page_obeys; assumption|].
  unfold seen_after. cbn [fold_left]. apply IH; auto; [lia|]. rewrite bytes_of_all_cons, zlen_app, Lz. change (zlen (bytes_of_all [])) with 0. lia.
Qed.
End Read.

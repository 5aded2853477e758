(** Proofs about AiffModel.v. *)
From Coq Require Import String.
From Verif Require Import Base BaseProofs BitsModel BitsSpec BitsProofs StreamModel StreamSpec StreamProofs DictModel DictProofs FieldModel ToolsModel NumSpec NumRead ChunkBase GenModel GenSpec GenProofs ItemSpec ItemProofs ItemProofs2 AiffModel AiffSpec Lit.
From Verif Require Id3Model Id3Spec Id3Proofs AiffId3.
Open Scope Z_scope.
Ltac Zify.zify_post_hook ::= Z.div_mod_to_equations.

Lemma other_tag tag t : ~ In tag known -> In t known -> str_eqb tag t = false.
Proof. intros N T. destruct (str_eqb tag t) eqn:E; [|reflexivity]. apply str_eqb_eq in E. subst. contradiction. Qed.
Definition parser_of (c : chunk) (size : Z) : option (prog -> prog) :=
  match c with Common _ _ _ _ _ => Some parseCommon | Comments _ => Some parseComment | Text _ _ => Some (parseText size) | Version _ => Some parseVersion | Sound _ _ _ => Some parseSound | Tag _ => Some (parseID3 size) | Other _ _ => None end.
Lemma info_of c size : chunk_ok c -> match TAG_INFO (tag_of c) size with Some (name, parse) => (name, Some parse) | None => (lit "chunk[]", None) end = (name_of c, parser_of c size).
Proof.
  intros [_ K]. destruct c as [| |[|]| | | |tag x]; try reflexivity. destruct K as [_ N]. unfold TAG_INFO. cbn [tag_of name_of parser_of]. rewrite !(other_tag tag) by (try exact N; cbn; tauto). reflexivity.
Qed.
Lemma tag_len c : chunk_ok c -> zlen (tag_of c) = 4.
Proof. intros [_ K]. destruct c as [| |[|]| | | |tag x]; try reflexivity. apply K. Qed.
Lemma pad_len c : zlen (pad c) = zlen (content c) mod 2.
Proof. unfold pad. destruct (zlen (content c) mod 2 =? 0) eqn:E; [change (zlen (@nil Z)) with 0|change (zlen [0]) with 1]; lia. Qed.
Lemma chunk_len c : chunk_ok c -> zlen (chunk_bytes c) = 8 + alignValue (zlen (content c)) 2.
Proof.
  intros K. unfold chunk_bytes. rewrite !zlen_app, zlen_uint, tag_len, pad_len by exact K. unfold alignValue. destruct (zlen (content c) mod 2 =? 0) eqn:E; cbn [negb]; lia.
Qed.
Lemma comments_bytes l : bytes_of_all (flat_map comment_items l) = flat_map (fun c => uint BE 4 (fst c) ++ uint BE 4 (zlen (snd c)) ++ snd c) l.
Proof. induction l as [|c l IH]; [reflexivity|]. cbn [flat_map]. rewrite bytes_of_all_app, IH. f_equal. unfold comment_items, bytes_of_all. cbn [flat_map bytes_of be plain_bytes app]. rewrite !app_nil_r. reflexivity. Qed.
Lemma uint_high v : 0 <= v < 2 ^ 16 -> uint BE 2 0 ++ uint BE 2 v = uint BE 4 v.
Proof. intros H. change (2 ^ 16) with 65536 in H. unfold uint. cbn [be_bytes app]. change (2 ^ (8 * Z.of_nat 3)) with 16777216. change (2 ^ (8 * Z.of_nat 2)) with 65536. change (2 ^ (8 * Z.of_nat 1)) with 256. change (2 ^ (8 * Z.of_nat 0)) with 1. repeat (f_equal; try lia). Qed.
Lemma content_bytes c : chunk_ok c -> exists rest, content c ++ pad c = bytes_of_all (content_items c) ++ rest.
Proof.
  intros [_ K]. destruct c as [ch sa bi r codec|l|au x|t|o b x|tg|tag x].
  - destruct codec as [[cd nm]|]; cbn [content content_items]; [exists (nm ++ pad (Common ch sa bi r (Some (cd, nm))))|exists (pad (Common ch sa bi r None))].
    + rewrite bytes_of_all_app. unfold bytes_of_all at 3. cbn [flat_map bytes_of plain_bytes]. rewrite !app_nil_r, <- !app_assoc. reflexivity.
    + rewrite !app_nil_r. reflexivity.
  - exists (pad (Comments l)). cbn [content content_items]. rewrite bytes_of_all_cons, comments_bytes. cbn [bytes_of plain_bytes be]. rewrite <- (app_assoc _ _ (pad _)), <- app_assoc. f_equal. f_equal. destruct K as [_ K]. clear - K. induction K as [|c l [_ [K _]] _ IH]; [reflexivity|]. cbn [flat_map]. rewrite IH. f_equal. f_equal. rewrite app_assoc, uint_high; [reflexivity|]. pose proof (zlen_nonneg (snd c)). lia.
  - exists []. cbn [content content_items]. rewrite app_nil_r, bytes_of_all_app. f_equal; [destruct x; [reflexivity|cbn; rewrite app_nil_r; reflexivity]|]. destruct (pad (Text au x)); [reflexivity|cbn; rewrite app_nil_r; reflexivity].
  - exists (pad (Version t)). cbn [content content_items]. unfold bytes_of_all. cbn [flat_map bytes_of plain_bytes be]. rewrite app_nil_r. reflexivity.
  - exists []. cbn [content content_items]. rewrite app_nil_r, bytes_of_all_app, <- !app_assoc. unfold bytes_of_all at 1. cbn [flat_map bytes_of plain_bytes be]. rewrite app_nil_r, <- app_assoc. do 2 f_equal. destruct (x ++ pad (Sound o b x)); [reflexivity|cbn; rewrite app_nil_r; reflexivity].
  - exists []. cbn [content content_items]. rewrite app_nil_r, bytes_of_all_cons. f_equal. destruct (pad (Tag tg)); [reflexivity|cbn; rewrite app_nil_r; reflexivity].
  - exists (pad (Other tag x)). cbn [content content_items]. f_equal. destruct x; [reflexivity|cbn; rewrite app_nil_r; reflexivity].
Qed.
Lemma rate_len r : zlen (bytes_of_all (rate_items r)) = 10.
Proof. unfold rate_items, bytes_of_all. cbn [flat_map bytes_of]. rewrite app_nil_r, zlen_uint. reflexivity. Qed.
Lemma common_len a b c r : zlen (bytes_of_all (common_items a b c r)) = 18.
Proof. unfold common_items. rewrite !bytes_of_all_cons, !zlen_app. cbn [bytes_of be plain_bytes]. fold (bytes_of_all (rate_items r)). rewrite !zlen_uint, rate_len. reflexivity. Qed.
Section Read.
Context (read : read_fun) (data : list Z) (Hs : serves read data) (Hb : is_bytes data).
Notation obeys := (obeys read data).
Notation run := (run read (8 * zlen data)).
Ltac obn := apply (ob_plain read data); [split; [discriminate|split; [lia|unfold fits_in in *; first [assumption|lia]]]|reflexivity|]; cbn [plain_val num].
Lemma rate_obeys r stop p : rate_ok r -> obeys stop p Float80_fields (rate_items r) PRet.
Proof using Type.
  intros [E M]. unfold Float80_fields, rate_items. apply (ob_bits _ _ _ _ _ _ _ _ _ PRet); [discriminate|lia| | |apply ob_nil].
  - unfold all_bits. cbn [flat_map snd]. rewrite !zlen_app, E, M. reflexivity.
  - do 4 (apply ta_cons; [lia|first [reflexivity|lia]|]). apply ta_nil.
Qed.
Lemma common_obeys a b c r stop p k l q : fits_in 2 a -> fits_in 4 b -> fits_in 2 c -> rate_ok r -> obeys stop (p + 18) (emit (lit "codec") (KText 4); k) l q -> obeys stop p (parseCommon k) (common_items a b c r ++ l) q.
Proof using Type.
  intros A B C R H. unfold parseCommon, common_items, be. cbn [app]. do 3 obn. unfold len. cbn [bytes_of plain_bytes]. rewrite !zlen_uint. apply ob_set; [rewrite rate_len; lia|lia|apply rate_obeys, R|]. rewrite rate_len. replace (p + Z.of_nat 2 + Z.of_nat 4 + Z.of_nat 2 + 10) with (p + 18) by lia. exact H.
Qed.
Lemma comments_obeys l k stop p : Forall (fun c => fits_in 4 (fst c) /\ zlen (snd c) < 2 ^ 16 /\ zlen (snd c) mod 2 = 0) l -> obeys stop p (times (fun k => PSet (lit "comment[]") None Comment_fields (fun _ => k)) (length l) k) (flat_map comment_items l) k.
Proof using Type.
  intros K. apply ob_times. intros d p' k' D. apply (proj1 (Forall_forall _ _) K) in D as (T & L & _). unfold comment_items. apply ob_open; [|unfold Comment_fields, be; obn; apply (ob_plain read data); [split; [lia|change (2 ^ (8 * Z.of_nat 4)) with 4294967296; change (2 ^ 16) with 65536 in L; lia]|reflexivity|apply ob_nil]|apply ob_nil].
  unfold be. rewrite bytes_of_all_cons, zlen_app. cbn [bytes_of plain_bytes]. rewrite zlen_uint. pose proof (zlen_nonneg (bytes_of_all [I (lit "text") (SPascal 4 false (snd d))])). lia.
Qed.
Definition rest_of (c : chunk) (k : prog) : prog := match c with Common _ _ _ _ None => emit (lit "codec") (KText 4); k | Sound _ _ _ => k | _ => PRet end.
Definition padding (c : chunk) : prog := when (negb (zlen (content c) mod 2 =? 0)) (fun k => emit (lit "padding") (KBytes 1); k) PRet.
Lemma even_padding c : zlen (content c) mod 2 = 0 -> padding c = PRet.
Proof using Type. intros E. unfold padding. rewrite E. reflexivity. Qed.
Lemma zlen0 {A} (x : list A) : zlen x = 0 -> x = [].
Proof using Type. destruct x as [|y x]; [reflexivity|]. rewrite zlen_cons. pose proof (zlen_nonneg x). lia. Qed.
Lemma comments_even l : Forall (fun c => fits_in 4 (fst c) /\ zlen (snd c) < 2 ^ 16 /\ zlen (snd c) mod 2 = 0) l -> zlen (content (Comments l)) mod 2 = 0.
Proof using Type.
  intros K. cbn [content]. rewrite zlen_app, zlen_uint. induction K as [|c l (_ & _ & K) _ IH]; [reflexivity|]. cbn [flat_map]. rewrite !zlen_app, !zlen_uint. lia.
Qed.
Lemma content_obeys c stop p : chunk_ok c -> stop = 8 * (p + zlen (chunk_bytes c)) ->
  obeys stop p (Chunk_fields (zlen (content c)) (parser_of c (zlen (content c)))) (chunk_items c) (rest_of c (padding c)).
Proof using Hs Hb.
  intros K St. pose proof K as [L K']. pose proof (chunk_len c K) as CL. pose proof (tag_len c K) as TL. pose proof (zlen_nonneg (content c)) as L0. pose proof (pad_len c) as PL. unfold Chunk_fields, chunk_items. cbn [app].
  apply (ob_plain read data); [split; [intros X; rewrite X in TL; discriminate|lia]|unfold kind_of; rewrite TL; reflexivity|]. change (2 ^ 32) with 4294967296 in L. unfold be at 1. apply (ob_plain read data); [split; [discriminate|split; [lia|change (2 ^ (8 * Z.of_nat 4)) with 4294967296; lia]]|reflexivity|].
  cbn [plain_val num]. unfold len. cbn [bytes_of plain_bytes]. rewrite zlen_uint, TL. replace (p + 4 + Z.of_nat 4) with (p + 8) by lia. change (when (negb (zlen (content c) mod 2 =? 0)) (fun k => emit (lit "padding") (KBytes 1); k) PRet) with (padding c).
  destruct (zlen (content c) =? 0) eqn:Z0.
  - apply Z.eqb_eq in Z0. destruct c as [a b d r codec|l|au x|t|o b x|tg|tag x]; cbn [content] in Z0.
    + rewrite zlen_app, common_len in Z0. pose proof (zlen_nonneg (match codec with Some (c, name) => c ++ name | None => [] end)). lia.
    + rewrite zlen_app, zlen_uint in Z0. pose proof (zlen_nonneg (flat_map (fun c => uint BE 4 (fst c) ++ uint BE 2 0 ++ uint BE 2 (zlen (snd c)) ++ snd c) l)). lia.
    + apply zlen0 in Z0. subst x. cbn. apply ob_nil.
    + rewrite zlen_uint in Z0. lia.
    + rewrite !zlen_app, !zlen_uint in Z0. pose proof (zlen_nonneg x). lia.
    + rewrite Id3Proofs.tag2_len in Z0. pose proof (zlen_nonneg (bytes_of_all (Id3Spec.tag2_body tg))). unfold Id3Spec.tag2_size in Z0. lia.
    + apply zlen0 in Z0. subst x. cbn. apply ob_nil.
  - apply Z.eqb_neq in Z0. destruct c as [a b d r codec|l|au x|t|o b x|tg|tag x]; cbn [parser_of content_items rest_of].
    + destruct K' as (A & B & C & R & K'). apply common_obeys; auto. destruct codec as [[cd nm]|]; [|apply ob_nil]. destruct K' as [K1 K2]. rewrite even_padding by (cbn [content]; rewrite !zlen_app, common_len; lia). apply (ob_plain read data); [split; [intros X; rewrite X in K1; discriminate|lia]|unfold kind_of; rewrite K1; reflexivity|]. apply ob_nil.
    + destruct K' as [K1 K2]. rewrite even_padding by (apply comments_even; exact K2). unfold parseComment, be. pose proof (zlen_nonneg l). obn. unfold zlen. rewrite Nat2Z.id. apply comments_obeys, K2.
    + cbn [content] in Z0. unfold parseText. destruct x as [|y x]; [exfalso; apply Z0; reflexivity|]. cbn [some_text app]. apply (ob_plain read data); [split; [discriminate|exact K']|reflexivity|]. unfold padding, pad. cbn [content]. destruct (zlen (y :: x) mod 2 =? 0); cbn [negb when]; [apply ob_nil|]. apply (ob_plain read data); [split; [discriminate|vm_compute; discriminate]|reflexivity|apply ob_nil].
    + rewrite even_padding by (cbn [content]; rewrite zlen_uint; reflexivity). unfold parseVersion, be. obn. apply ob_nil.
    + destruct K' as [K1 K2]. unfold parseSound, be. cbn [app]. do 2 obn. apply ob_ask. unfold len. cbn [bytes_of plain_bytes]. rewrite !zlen_uint. cbv zeta.
      assert (Y : (stop - 8 * (p + 8 + Z.of_nat 4 + Z.of_nat 4)) / 8 = zlen (x ++ pad (Sound o b x))).
      { rewrite zlen_app, PL, St, CL. unfold alignValue. cbn [content]. rewrite !zlen_app, !zlen_uint. destruct (negb _) eqn:Ev; lia. }
      rewrite Y. assert (Y2 : zlen (x ++ pad (Sound o b x)) <= 2 ^ 64). { rewrite zlen_app, PL. cbn [content] in *. rewrite !zlen_app, !zlen_uint in L. change (2 ^ 64) with 18446744073709551616. lia. }
      destruct (x ++ pad (Sound o b x)) as [|y z]; [apply ob_nil|]. replace (zlen (y :: z) =? 0) with false by (rewrite zlen_cons; pose proof (zlen_nonneg z); lia). cbn [negb when some_data]. apply (ob_plain read data); [split; [discriminate|exact Y2]|reflexivity|apply ob_nil].
    + unfold parseID3. cbn [content] in *. apply ob_set; [lia|lia|apply (AiffId3.tag2_fields_obey read data Hs Hb); [exact K'|lia]|]. unfold padding, pad. cbn [content]. destruct (zlen (bytes_of_all (Id3Spec.tag2_items tg)) mod 2 =? 0); cbn [negb when]; [apply ob_nil|]. apply (ob_plain read data); [split; [discriminate|vm_compute; discriminate]|reflexivity|apply ob_nil].
    + cbn [content] in *. destruct x as [|y x]; [exfalso; apply Z0; reflexivity|]. cbn [some_data]. apply (ob_plain read data); [split; [discriminate|change (2 ^ 64) with 18446744073709551616; lia]|reflexivity|apply ob_nil].
Qed.
Lemma rest_ends c stop p : chunk_ok c -> stop = 8 * (p + zlen (chunk_bytes c)) -> exists b, run (rest_of c (padding c)) false stop (8 * (p + zlen (bytes_of_all (chunk_items c)))) = ([], chunk_error c, b).
Proof using Type.
  intros K St. pose proof K as [L K']. pose proof (chunk_len c K) as CL. pose proof (tag_len c K) as TL. pose proof (pad_len c) as PL. unfold chunk_items, be. rewrite bytes_of_all_app, zlen_app, !bytes_of_all_cons, !zlen_app. cbn [bytes_of plain_bytes]. rewrite zlen_uint, TL. change (zlen (bytes_of_all [])) with 0.
  destruct c as [a b d r codec|l|au x|t|o b x|tg|tag x]; cbn [rest_of chunk_error]; try (eexists; reflexivity).
  - destruct codec as [[cd nm]|]; [eexists; reflexivity|]. cbn [content_items]. rewrite app_nil_r, common_len. cbn [GenModel.run fsize bind]. rewrite St, CL. cbn [content]. rewrite app_nil_r, common_len. change (alignValue 18 2) with 18. change (if (1 <=? 4) && (4 <=? 65535) then Ok (4 * 8) else Err ParserError) with (@Ok Z 32). cbn iota. replace (_ <? _) with true by lia. eexists. reflexivity.
  - unfold padding. pose proof (pad_len (Sound o b x)) as PL'. destruct (zlen (content (Sound o b x)) mod 2 =? 0) eqn:E; cbn [negb when].
    + unfold pad. rewrite E. eexists. reflexivity.
    + assert (Pd : pad (Sound o b x) = [0]) by (unfold pad; rewrite E; reflexivity). rewrite Pd. cbn [content_items]. rewrite Pd, bytes_of_all_app, zlen_app. unfold be. rewrite !bytes_of_all_cons, !zlen_app. cbn [bytes_of plain_bytes]. rewrite !zlen_uint. change (zlen (bytes_of_all [])) with 0.
      replace (bytes_of_all (some_data (x ++ [0]))) with (x ++ [0]) by (destruct x; cbn; rewrite ?app_nil_r; reflexivity). rewrite zlen_app. change (zlen [0]) with 1. cbn [GenModel.run fsize bind]. rewrite St, CL. unfold alignValue. rewrite E. cbn [negb]. cbn [content] in *. rewrite !zlen_app, !zlen_uint in *. change (if (0 <? 1) && (1 <=? 2 ^ 64) then Ok (1 * 8) else Err ParserError) with (@Ok Z 8). cbn iota. replace (_ <? _) with true by lia. eexists. reflexivity.
Qed.
Lemma chunk_run c k f stop p : chunk_ok c -> occurs_at (chunk_bytes c) data p -> 8 * (p + zlen (chunk_bytes c)) <= stop ->
  run (Chunk k) f stop (8 * p) = put (G (name_of c) (8 * p) (8 * zlen (chunk_bytes c)) (shows (chunk_items c) p) (chunk_error c)) (run k false stop (8 * (p + zlen (chunk_bytes c)))).
Proof using All.
  intros K O St. pose proof K as [L K']. pose proof (chunk_len c K) as CL. pose proof (tag_len c K) as TL. pose proof (zlen_nonneg (content c)) as L0. pose proof (pad_len c) as PL. change (2 ^ 32) with 4294967296 in L.
  assert (A0 : 0 <= alignValue (zlen (content c)) 2) by (unfold alignValue; destruct (negb _); lia).
  pose proof O as O'. unfold chunk_bytes in O'. apply occ_app in O' as [O1 O']. apply occ_app in O' as [O2 _]. rewrite TL in O2.
  unfold Chunk.
  assert (P1 : follows read data stop p (peek 0 (KText 4) true (fun tag => look size := 32 (KNum 32 BE) false; let '(name, parse) := match TAG_INFO (bytes tag) (num size) with Some (name, parse) => (name, Some parse) | None => (lit "chunk[]", None) end in PSet name (Some ((8 + alignValue (num size) 2) * 8)) (Chunk_fields (num size) parse) (fun _ => k))) []
     (PSet (name_of c) (Some ((8 + alignValue (zlen (content c)) 2) * 8)) (Chunk_fields (zlen (content c)) (parser_of c (zlen (content c)))) (fun _ => k))).
  { apply (peek_ok read data Hs Hb 0 (SText (tag_of c))); [split; [intros X; rewrite X in TL; discriminate|lia]|rewrite Z.add_0_r; exact O1|intros _; cbn [plain_bytes]; lia|unfold kind_of; rewrite TL; reflexivity|reflexivity|].
    apply (peek_ok read data Hs Hb 4 (SNum 4 BE (zlen (content c)))); [split; [discriminate|split; [lia|change (2 ^ (8 * Z.of_nat 4)) with 4294967296; lia]]|exact O2|discriminate|reflexivity|reflexivity|].
    cbn [plain_val bytes num]. rewrite info_of by exact K. apply fo_nil. }
  rewrite (follow read data Hs Hb _ _ _ _ _ P1 f); [|apply occ_nil; apply occ_in in O; pose proof (zlen_nonneg (chunk_bytes c)); lia|change (zlen (bytes_of_all [])) with 0; lia]. change (zlen (bytes_of_all [])) with 0. rewrite Z.add_0_r. cbn [shows after_items]. rewrite puts_nil. cbn [GenModel.run].
  replace ((8 + alignValue (zlen (content c)) 2) * 8) with (8 * zlen (chunk_bytes c)) by lia. replace (8 * zlen (chunk_bytes c) <=? 0) with false by lia. replace (stop <=? 8 * p) with false by lia. replace (stop <? 8 * p + 8 * zlen (chunk_bytes c)) with false by lia. rewrite andb_false_r. cbn [orb].
  rewrite Z.min_l by lia. replace (8 * p + 8 * zlen (chunk_bytes c)) with (8 * (p + zlen (chunk_bytes c))) by lia.
  destruct (content_bytes c K) as [rest E]. assert (Eb : chunk_bytes c = bytes_of_all (chunk_items c) ++ rest) by (unfold chunk_bytes, chunk_items, be; cbn [app]; rewrite !bytes_of_all_cons, <- !app_assoc, <- E; reflexivity).
  pose proof O as Oi. rewrite Eb in Oi. apply occ_app in Oi as [Oi _]. assert (Li : zlen (bytes_of_all (chunk_items c)) <= zlen (chunk_bytes c)) by (rewrite Eb, zlen_app; pose proof (zlen_nonneg rest); lia).
  pose proof (content_obeys c (8 * (p + zlen (chunk_bytes c))) p K eq_refl ltac:(split; [exact Oi|lia])) as Fo. rewrite (follow read data Hs Hb _ _ _ _ _ Fo true Oi ltac:(lia)).
  destruct (rest_ends c (8 * (p + zlen (chunk_bytes c))) p K eq_refl) as [b B]. change (after_items (chunk_items c) true) with false. rewrite B. unfold puts. cbn [fst snd]. rewrite app_nil_r. reflexivity.
Qed.
Lemma chunks_run l : forall n f stop p, Forall chunk_ok l -> (length l < n)%nat -> occurs_at (chunks_bytes l) data p -> stop = 8 * (p + zlen (chunks_bytes l)) -> run (loop Chunk n) f stop (8 * p) = (show_chunks l p, None, stop).
Proof using All.
  induction l as [|c l IH]; intros n f stop p K N O St; (destruct n as [|n]; [cbn [length] in N; lia|]); cbn [loop GenModel.run].
  - change (zlen (chunks_bytes [])) with 0 in St. replace (stop <=? 8 * p) with true by lia. cbn [show_chunks]. cbn [GenModel.run]. f_equal. lia.
  - inversion K as [|? ? K1 K2]; subst. unfold chunks_bytes in *. cbn [flat_map show_chunks] in *. rewrite zlen_app in *. apply occ_app in O as [O1 O2]. pose proof (zlen_nonneg (flat_map chunk_bytes l)). pose proof (chunk_len c K1) as CL. assert (0 <= alignValue (zlen (content c)) 2) by (pose proof (zlen_nonneg (content c)); unfold alignValue; destruct (negb _); lia).
    replace (_ <=? 8 * p) with false by lia. rewrite (chunk_run c _ f (8 * (p + (zlen (chunk_bytes c) + zlen (flat_map chunk_bytes l)))) p K1 O1 ltac:(lia)). rewrite IH; [reflexivity|exact K2|cbn [length] in N; lia|exact O2|lia].
Qed.
End Read.

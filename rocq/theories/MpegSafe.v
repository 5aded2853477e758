(** The parser of MPEG audio files and ID3 tags on any file: its loops end. *)
From Coq Require Import String.
From Verif Require Import Base BaseProofs BitsModel BitsSpec BitsProofs StreamModel StreamSpec StreamProofs StreamProofs2 DictModel DictProofs FieldModel ToolsModel NumSpec NumRead ChunkBase GenModel GenSpec GenProofs ItemSpec ItemProofs ItemProofs2 ZipSpec ZipProofs Id3Model MpegModel Lit.
From Verif Require TextModel.
Open Scope Z_scope.
Ltac Zify.zify_post_hook ::= Z.div_mod_to_equations.
Section Ends.
Context (read : read_fun) (data : list Z) (Hs : serves read data) (Hb : is_bytes data) (He : ends read data) (Hd : data <> []).
Notation safe := (safe read data).
Lemma safe_bytes m name n c : (forall v, safe (m - 1) (c v)) -> safe m (PFld name (KBytes n) c).
Proof using All.
  intros H. destruct (n <=? 0) eqn:N; [|apply safe_fld; try assumption; [exact Logic.I|]; intros v; apply (safe_more read data) with (1 := H v); cbn [least]; lia]. intros f stop a A M. cbn [GenModel.run fsize].
  replace (0 <? n) with false by lia. cbn [andb]. apply settled_none. discriminate.
Qed.
Lemma safe_text m name n c : (forall v, safe (m - 1) (c v)) -> safe m (PFld name (KText n) c).
Proof using All.
  intros H. destruct (n <=? 0) eqn:N; [|apply safe_fld; try assumption; [exact Logic.I|]; intros v; apply (safe_more read data) with (1 := H v); cbn [least]; lia]. intros f stop a A M. cbn [GenModel.run fsize].
  replace (1 <=? n) with false by lia. cbn [andb]. apply settled_none. discriminate.
Qed.
Lemma find_any needle a e : needle <> [] -> 0 <= a -> match searchBytesLength read (8 * zlen data) needle false a e with Ok (Some n) => 0 <= n | Ok None => True | Err x => x <> OutOfFuel end.
Proof using Hs Hd.
  intros N A. destruct (a mod 8 =? 0) eqn:A8.
  - replace a with (8 * (a / 8)) by lia. destruct (searchBytesLength_correct read data needle false (a / 8) e Hs Hd N ltac:(lia)) as [(i & -> & I & _)|[-> _]]; [lia|exact Logic.I].
  - unfold searchBytesLength, searchBytes. rewrite A8. discriminate.
Qed.
Lemma layout_any f cs n a : (f = TextModel.FormatC /\ n = None \/ f = TextModel.FormatFixed /\ n <> None) -> In cs [TextModel.Latin1; TextModel.UTF16; TextModel.UTF16BE; TextModel.UTF8] -> 0 <= a -> match TextModel.string_layout read (8 * zlen data) BE a f (Some cs) n with Ok _ => True | Err x => x <> OutOfFuel end.
Proof using All.
  intros F C A. assert (Ne1 : [0] <> []) by discriminate. assert (Ne2 : [0; 0] <> []) by discriminate. pose proof (find_any [0] a None Ne1 A) as S1. pose proof (find_any [0; 0] a None Ne2 A) as S2. pose proof (bytes_any read data Hs He a 2 A ltac:(lia)) as B. unfold TextModel.string_layout. change (16 / 8) with 2.
  cbn [In] in C. destruct F as [[-> ->]|[-> N]].
  - destruct C as [<-|[<-|[<-|[<-|[]]]]]; unfold TextModel.suffix_str, TextModel.suffix_format, TextModel.utf_charset; cbn [bind]; change (16 =? 8) with false; change (16 =? 16) with true; change (8 =? 8) with true; cbn iota.
    all: try (destruct (searchBytesLength read (8 * zlen data) [0] false a None) as [[k|]|x]; cbn [bind]; [exact Logic.I|discriminate|exact S1]).
    all: destruct (searchBytesLength read (8 * zlen data) [0; 0] false a None) as [[k|]|x]; cbn [bind]; [|discriminate|exact S2]; first [exact Logic.I|change (16 / 8) with 2; destruct (readBytes read a 2) as [b|x]; cbn [bind]; [destruct (TextModel.utf_bom 16 b); [exact Logic.I|discriminate]|exact B]].
  - destruct n as [n|]; [|contradiction]. destruct C as [<-|[<-|[<-|[<-|[]]]]]; unfold TextModel.utf_charset; cbn [assert_ bind]; destruct (negb _); cbn [bind]; try discriminate; try exact Logic.I. change (16 / 8) with 2. destruct (readBytes read a 2) as [b|x]; cbn [bind]; [destruct (TextModel.utf_bom 16 b); [exact Logic.I|discriminate]|exact B].
Qed.
Definition calm (p : prog) : Prop := forall m, safe m p.
Definition charsets : list TextModel.charset := [TextModel.Latin1; TextModel.UTF16; TextModel.UTF16BE; TextModel.UTF8].
Lemma text_calm name f cs n k : (f = TextModel.FormatC /\ n = None \/ f = TextModel.FormatFixed /\ n <> None) -> In cs charsets -> calm k -> calm (text_field name f cs n k).
Proof using All.
  intros F C K m. unfold text_field. apply safe_do. intros stop a A. pose proof (layout_any f cs n a F C (proj1 A)) as L. destruct (TextModel.string_layout _ _ _ _ _ _ _) as [l|x]; cbn [bind]; [|exact L]. apply safe_bytes. intros _. apply K.
Qed.
Lemma cstring_calm name cs k : In cs charsets -> calm k -> calm (CString name cs k).
Proof using All. intros C K. apply text_calm; auto. Qed.
Lemma rest_calm c : (forall n, calm (c n)) -> calm (rest_of c).
Proof using All. intros C m. unfold rest_of. apply safe_ask. intros stop a A M. cbv zeta. destruct (_ =? 0); [apply safe_ret|apply C]. Qed.
Lemma words_calm cs : In cs charsets -> calm (Text cs).
Proof using All. intros C. apply rest_calm. intros n. apply text_calm; [right; split; [reflexivity|discriminate]|exact C|exact (safe_ret read data)]. Qed.
Lemma charset_calm v c : (forall cs, In cs charsets -> calm (c cs)) -> calm (getCharset v c).
Proof using All.
  intros C m. unfold getCharset. destruct v as [|p|p]; [apply C; cbn; auto| |apply safe_err; discriminate]. destruct p as [p|p|]; [destruct p|destruct p|]; try (apply safe_err; discriminate); apply C; cbn; auto.
Qed.
Lemma num_calm name n c : 1 <= n -> (forall v, calm (c v)) -> calm (PFld name (KNum n BE) c).
Proof using All. intros N C m. apply safe_fld; try assumption; [split; [lia|discriminate]|]. intros v. apply C. Qed.
Lemma with_charset_calm c : (forall cs, In cs charsets -> calm (c cs)) -> calm (with_charset c).
Proof using All. intros C. unfold with_charset. apply num_calm; [lia|]. intros v. apply charset_calm, C. Qed.
Lemma data_calm : calm img_data.
Proof using All. apply rest_calm. intros n m. apply safe_bytes. intros _. apply safe_ret. Qed.
Lemma handler_calm tag p : content_parser tag = Ok (Some p) -> calm p.
Proof using All.
  assert (SC : calm ID3_StringCharset). { unfold ID3_StringCharset. apply num_calm; [lia|]. intros v. apply rest_calm. intros n. apply charset_calm. intros cs C. apply text_calm; [right; split; [reflexivity|discriminate]|exact C|exact (safe_ret read data)]. }
  unfold content_parser. destruct (find _ handler) as [h|] eqn:F.
  - intros E. injection E as <-. apply find_some in F as [I _]. unfold handler in I. cbn [In] in I.
    assert (Cm : calm ID3_Comment). { unfold ID3_Comment. apply num_calm; [lia|]. intros v m. apply safe_text. intros _. apply charset_calm. intros cs C. apply cstring_calm; [exact C|]. apply words_calm, C. }
    assert (Ti : calm ID3_StringTitle). { unfold ID3_StringTitle. apply num_calm; [lia|]. intros v m. apply safe_ask. intros stop a A M. destruct (a =? stop); [apply safe_ret|]. apply charset_calm. intros cs C. apply cstring_calm; [exact C|]. apply words_calm, C. }
    repeat (destruct I as [<-|I]; [cbn [snd]|]); try exact Cm; try exact Ti; [..|destruct I].
    + apply with_charset_calm. intros cs C. do 3 (apply cstring_calm; [exact C|]). apply words_calm, C.
    + apply with_charset_calm. intros cs C m. apply safe_text. intros _. apply num_calm; [lia|]. intros _. apply cstring_calm; [exact C|exact data_calm].
    + apply with_charset_calm. intros cs C. apply cstring_calm; [exact C|]. apply num_calm; [lia|]. intros _. apply cstring_calm; [exact C|exact data_calm].
    + intros m. unfold ID3_Private. apply safe_ask. intros stop a A M. apply safe_do. intros stop' a' A'. pose proof (bytes_any read data Hs He a' 9 (proj1 A') ltac:(lia)) as B. destruct (readBytes read a' 9); cbn [bind]; [|exact B]. cbv zeta. destruct (str_eqb _ _); repeat (apply safe_text; intros _); apply safe_ret.
    + intros m. unfold ID3_String. apply safe_ask. intros stop a A M. apply safe_text. intros _. apply safe_ret.
  - destruct tag as [|c t]; [discriminate|]. intros E. destruct (c =? 84); [|discriminate E]. injection E as <-. exact SC.
Qed.
Lemma ahead_calm m first o k c : match k with KCode _ => False | _ => fine k end -> 0 <= o -> (forall v, safe m (c v)) -> safe m (ahead first o k c).
Proof using All.
  intros Fi O H. unfold ahead. apply safe_do. intros stop a A. destruct (stop <? a + first); [discriminate|]. pose proof (kind_any read data Hs Hb He Hd k (a + o) ltac:(destruct k; try exact Fi; destruct Fi) ltac:(lia)) as K. destruct (fsize read (8 * zlen data) k (a + o)) as [z|e]; cbn [bind]; [|exact K]. destruct K as (_ & _ & K).
  destruct (stop <? a + o + z); [discriminate|]. destruct (fval read k (a + o) z); [apply H|exact K].
Qed.
Lemma size_any a : 0 <= a -> match (do b <- readBytes read a 4; Ok (fold_left (fun x y => x * 128 + y) (tl b) (hd 0 b), 32)) with Ok r => 1 <= snd r | Err e => e <> OutOfFuel end.
Proof using All. intros A. pose proof (bytes_any read data Hs He a 4 A ltac:(lia)) as B. destruct (readBytes read a 4); cbn [bind snd]; [lia|exact B]. Qed.
Lemma ahead_size_calm m first o c : 0 <= o -> (forall v, safe m (c v)) -> safe m (ahead first o ID3_Size c).
Proof using All.
  intros O H. unfold ahead. apply safe_do. intros stop a A. destruct (stop <? a + first); [discriminate|]. unfold fsize, fval, ID3_Size. pose proof (size_any (a + o) ltac:(lia)) as K. destruct (do b <- readBytes read (a + o) 4; _) as [r|e]; cbn [bind]; [|exact K]. destruct (0 <=? snd r); cbn [bind]; [|discriminate]. destruct (stop <? _); [discriminate|]. apply H.
Qed.
Lemma content_calm tag size z : calm (chunk_content tag size z).
Proof using All.
  intros m. unfold chunk_content. destruct (size =? 0); [apply safe_ret|]. destruct z; [apply safe_bytes; intros _; apply safe_ret|]. destruct (content_parser (tag_value tag)) as [[p|]|e] eqn:E.
  - apply safe_set; [apply (handler_calm _ _ E)|intros _; apply safe_ret].
  - apply safe_bytes. intros _. apply safe_ret.
  - apply safe_err. unfold content_parser in E. destruct (find _ _); [discriminate|]. destruct (tag_value tag); [injection E as <-; discriminate|discriminate].
Qed.
Lemma chunk_calm ver k m : safe (m - 1) k -> safe m (Chunk ver seek_end k).
Proof using All.
  intros K. assert (S : forall v, safe m (PSet (lit "field[]") (Some ((num v + if 3 <=? ver then 10 else 6) * 8)) (Chunk_fields ver) (fun l => match GenModel.get (lit "size") l with Some v => if num v =? 0 then seek_end else k | None => PErr MissingField end))).
  { intros v. apply safe_set.
    - generalize (Z.min m ((num v + (if 3 <=? ver then 10 else 6)) * 8)). intros m'. unfold Chunk_fields. destruct (3 <=? ver).
      + apply safe_text. intros tag. assert (R : forall w, calm (bit "tag_alter" (bit "file_alter" (bit "rd_only" (emit (lit "padding[]") (KNum 5 BE); have compressed := (lit "compressed") (KNum 1 BE); bit "encrypted" (bit "group" (emit (lit "padding[]") (KNum 5 BE); chunk_content (bytes tag) (num w) (negb (num compressed =? 0))))))))) by (intros w; unfold bit; do 8 (apply num_calm; [lia|]; intros ?); apply content_calm).
        unfold chunk_size_kind. destruct (4 <=? ver); [|apply num_calm; [lia|exact R]]. apply safe_code; [exact size_any|]. intros w. apply R.
      + apply safe_text. intros tag. apply num_calm; [lia|]. intros w. apply content_calm.
    - intros l. destruct (GenModel.get (lit "size") l) as [w|]; [|apply safe_err; discriminate]. destruct (num w =? 0); [|exact K]. unfold seek_end. apply safe_ask. intros stop a A M. destruct (stop <? a); [apply safe_err; discriminate|]. destruct (a <? stop); cbn [when]; [apply safe_bytes; intros _|]; apply safe_ret. }
  unfold Chunk, chunk_size_kind. destruct (3 <=? ver); [destruct (4 <=? ver)|].
  - apply ahead_size_calm; [lia|exact S].
  - apply ahead_calm; [split; [lia|discriminate]|lia|exact S].
  - apply ahead_calm; [split; [lia|discriminate]|lia|exact S].
Qed.
Lemma id3v2_calm k : calm k -> calm (ID3v2 k).
Proof using All.
  intros K m. unfold ID3v2. apply ahead_calm; [exact Logic.I|lia|]. intros h. apply ahead_calm; [split; [lia|discriminate]|lia|]. intros major. apply ahead_calm; [split; [lia|discriminate]|lia|]. intros minor. destruct (_ || _); [apply safe_err; discriminate|]. apply ahead_size_calm; [lia|]. intros size. apply safe_set; [|intros _; apply K].
  unfold ID3v2_fields. apply safe_text. intros h'. apply num_calm; [lia|]. intros major'. apply num_calm; [lia|]. intros minor'. destruct (negb _); [intros m'; apply safe_err; discriminate|]. destruct (negb _); [intros m'; apply safe_err; discriminate|]. unfold bit. do 4 (apply num_calm; [lia|]; intros ?). intros m'. apply safe_code; [exact size_any|]. intros _. apply safe_ask. intros stop a A M. apply safe_loop; [|lia]. intros m'' k' K'. apply chunk_calm, K'.
Qed.
Lemma id3v1_calm k : calm k -> calm (ID3v1 k).
Proof using All.
  intros K m. unfold ID3v1. apply safe_set; [|intros _; apply K]. unfold ID3v1_fields. apply safe_ask. intros stop a A M. apply safe_text. intros s. destruct (negb _); [apply safe_err; discriminate|]. do 4 (apply safe_text; intros _). apply safe_do. intros stop' a' A'. pose proof (bytes_any read data Hs He (a + 126 * 8) 2 ltac:(lia) ltac:(lia)) as B. destruct (readBytes read (a + 126 * 8) 2); cbn [bind]; [|exact B].
  unfold u8. destruct (getVersion _); apply safe_text; intros _; [apply safe_ret|apply num_calm; [lia|]; intros _ ?; apply safe_ret|]. do 2 (apply num_calm; [lia|]; intros ?). intros ?. apply safe_ret.
Qed.
(** Frames *)
Lemma read_any a n : 0 <= a -> 1 <= n -> match readBits read a n BE with Ok _ => True | Err e => e <> OutOfFuel end.
Proof using All. intros A N. destruct (bits_any read data Hs He a n BIG_ENDIAN Hb ltac:(discriminate) A N) as [(R & _ & _)|R]; rewrite R; [exact Logic.I|discriminate]. Qed.
Lemma frame_size_any stop a : 0 <= a -> match frame_size read stop a with Ok _ => True | Err e => e <> OutOfFuel end.
Proof using All.
  intros A. unfold frame_size. destruct (stop <? a + 11); [discriminate|]. destruct (stop <? a + 20); [discriminate|].
  pose proof (read_any (a + 11) 2 ltac:(lia) ltac:(lia)) as R1. destruct (readBits read (a + 11) 2 BE); cbn [bind]; [|exact R1].
  pose proof (read_any (a + 13) 2 ltac:(lia) ltac:(lia)) as R2. destruct (readBits read (a + 13) 2 BE); cbn [bind]; [|exact R2].
  pose proof (read_any (a + 16) 4 ltac:(lia) ltac:(lia)) as R3. destruct (readBits read (a + 16) 4 BE); cbn [bind]; [|exact R3].
  pose proof (read_any (a + 20) 2 ltac:(lia) ltac:(lia)) as R4. destruct (readBits read (a + 20) 2 BE); cbn [bind]; [|exact R4].
  pose proof (read_any (a + 22) 1 ltac:(lia) ltac:(lia)) as R5. destruct (readBits read (a + 22) 1 BE); cbn [bind]; [|exact R5].
  destruct (getFrameSize _ _ _ _ _) as [n|]; [|discriminate]. destruct (n =? 0); [discriminate|exact Logic.I].
Qed.
Lemma frame_fields_calm : calm Frame_fields.
Proof using All. unfold Frame_fields, bits. do 13 (apply num_calm; [lia|]; intros ?). apply rest_calm. intros n m. apply safe_bytes. intros _. apply safe_ret. Qed.
Lemma sync_any stop : forall fuel start end_ size, 0 <= start -> end_ - start < Z.of_nat fuel -> (0 < fuel)%nat -> match sync_loop read (8 * zlen data) stop fuel start end_ size with Ok (Some n) => size <= n | Ok None => True | Err e => e <> OutOfFuel end.
Proof using All.
  induction fuel as [|fuel IH]; intros start end_ size S0 F P; [lia|]. cbn [sync_loop]. destruct (start <? end_) eqn:L; [|exact Logic.I]. pose proof (find_any [255] start (Some end_) ltac:(discriminate) S0) as A. destruct (searchBytesLength read (8 * zlen data) [255] false start (Some end_)) as [[n|]|e]; cbn [bind]; [|exact Logic.I|exact A]. cbv zeta. destruct (orphan_valid _ _ _ _); [lia|].
  specialize (IH (start + n * 8 + 8) end_ (size + n + 1) ltac:(lia) ltac:(lia) ltac:(lia)). destruct (sync_loop _ _ _ _ _ _ _) as [[k|]|e]; auto. lia.
Qed.
Lemma frame_calm k m : safe (m - 1) k -> safe m (Frame k).
Proof using All.
  intros K. unfold Frame. apply safe_do. intros stop a A. pose proof (frame_size_any stop a (proj1 A)) as S. destruct (frame_size read stop a) as [n|e]; cbn [bind]; [|exact S]. apply safe_ask. intros stop' a' A' M. apply safe_set; [apply frame_fields_calm|]. intros _. apply (safe_more read data) with (1 := K). lia.
Qed.
Lemma frames_calm : calm Frames_fields.
Proof using All.
  intros m. unfold Frames_fields. apply safe_do. intros stop a A. cbv zeta. unfold findSynchronizeBits. assert (0 <= Z.min (a + MAX_PADDING * 8) stop) by (unfold MAX_PADDING; lia). pose proof (sync_any stop (S (Z.to_nat (Z.min (a + MAX_PADDING * 8) stop))) a (a + Z.min (a + MAX_PADDING * 8) stop) 0 ltac:(lia) ltac:(lia) ltac:(lia)) as Y. destruct (sync_loop _ _ _ _ _ _ _) as [[n|]|e]; cbn [bind]; [|discriminate|exact Y].
  assert (R : calm (PAsk (fun stop a => loop Frame (S (Z.to_nat (stop - a)))))) by (intros m'; apply safe_ask; intros stop' a' A' M; apply safe_loop; [|lia]; intros m'' k K; apply frame_calm, K).
  destruct (negb _); cbn [when]; [apply safe_bytes; intros _; apply R|apply R].
Qed.
Lemma mpeg_calm : calm mpeg_fields.
Proof using All.
  assert (T : calm frames_and_id3v1).
  { intros m. unfold frames_and_id3v1. apply safe_ask. intros stop a A M. cbv zeta. apply safe_do. intros stop' a' A'. assert (R : forall v, safe (stop - a) (let has_id3 := num v =? 1 in let frames_size := stop - a - if has_id3 then 128 * 8 else 0 in when (negb (frames_size =? 0)) (fun k => PSet (lit "frames") (Some frames_size) Frames_fields (fun _ => k)) (when has_id3 ID3v1 PRet))).
    { intros v. cbv zeta. assert (I1 : calm (when (num v =? 1) ID3v1 PRet)) by (destruct (num v =? 1); cbn [when]; [apply id3v1_calm|]; exact (safe_ret read data)). destruct (negb _); cbn [when]; [|apply I1]. apply safe_set; [apply frames_calm|]. intros _. apply I1. }
    destruct (0 <=? stop - 128 * 8) eqn:L; [|apply R]. pose proof (bytes_any read data Hs He (stop - 128 * 8) 3 ltac:(lia) ltac:(lia)) as B. destruct (readBytes read (stop - 128 * 8) 3); cbn [bind]; [apply R|exact B]. }
  intros m. unfold mpeg_fields. apply safe_do. intros stop a A. pose proof (bytes_any read data Hs He 0 3 ltac:(lia) ltac:(lia)) as B. destruct (readBytes read 0 3); cbn [bind]; [|exact B]. destruct (str_eqb _ _); cbn [when]; [apply id3v2_calm, T|apply T].
Qed.
End Ends.

(** C70: what the RIFF parser shows. *)
From Coq Require Import String.
From Verif Require Import Base BaseProofs BitsModel DictModel FieldModel NumSpec NumRead TlvModel TlvSpec TlvProofs RiffModel RiffSpec RiffProofs Lit.
Open Scope Z_scope.
Ltac Zify.zify_post_hook ::= Z.div_mod_to_equations.

Lemma laids_total type p l b ts : chunks_at type p l b ts -> total_size ts = 8 * zlen b.
Proof.
  unfold chunks_at. intros H. induction H as [|c p d l b bs t ts Ld _ _ IH]; [reflexivity|]. cbn [total_size fold_right]. fold (total_size ts). rewrite IH, zlen_app.
  inversion Ld; subst; cbn [t_size]; lia.
Qed.
(** All the chunks of a file, in lists at any depth, are shown at their addresses with their tags,
    sizes and contents; what is after them is padding, and the content size is that of the header. *)
Theorem C70_chunks : forall read type body post docs, let data := riff_bytes type body post in
  serves read data -> is_bytes data -> zlen type = 4 -> 4 + zlen body < 2 ^ 32 -> chunks type docs body ->
  exists ts, chunks_at type 12 docs body ts /\
    RiffFile read (8 * zlen data) = Ok (Riff (4 + zlen body) type ts None (if zlen post =? 0 then None else Some (8 * zlen post))) /\
    riff_content_size read (8 * zlen data) = Ok (8 * (12 + zlen body)).
Proof.
  intros read type body post docs data Hs Hb T L Ch. destruct (proj2 (enc_laid chunk list_chunk last_chunk) _ _ _ Ch 12) as [ts Ts]. exists ts. split; [exact Ts|].
  pose proof (zlen_nonneg body). pose proof (zlen_nonneg post).
  assert (O : occurs_at data data 0) by (pose proof (occ_pre [] data []) as O; cbn [app] in O; rewrite app_nil_r in O; exact O).
  assert (Ld : zlen data = 12 + zlen body + zlen post) by (unfold data, riff_bytes; rewrite !zlen_app, zlen_uint, T; change (zlen (lit "RIFF")) with 4; lia).
  change (occurs_at (lit "RIFF" ++ uint LITTLE_ENDIAN 4 (4 + zlen body) ++ type ++ body ++ post) data 0) in O. apply occ_app in O as [_ O]. apply occ_app in O as [O2 O]. apply occ_app in O as [O3 O]. apply occ_app in O as [O4 _].
  rewrite zlen_uint in *. rewrite T in *. change (zlen (lit "RIFF")) with 4 in *. change (0 + 4 + Z.of_nat 4 + 4) with 12 in O4. change (0 + 4 + Z.of_nat 4) with 8 in O3. change (0 + 4) with 4 in O2.
  clearbody data. assert (R : readBits read 32 32 LITTLE_ENDIAN = Ok (4 + zlen body)) by (apply (read_num read data Hs Hb LITTLE_ENDIAN 4 32 _ 4); auto; try discriminate; lia).
  split.
  - unfold RiffFile. rewrite R. cbn [bind]. pose proof (rb_occ read data Hs 8 type O3) as R3. change (8 * 8) with 64 in R3. rewrite T in R3. rewrite R3 by (intros ->; discriminate). cbn [bind].
    pose proof (chunks_read read data Hs Hb 12 docs body ts type (S (Z.to_nat (8 * zlen data / 8))) (S (Z.to_nat (8 * zlen data / 8))) (8 * zlen post) (8 * zlen data - ((4 + zlen body) * 8 + 8)) Ts O4 ltac:(lia) ltac:(lia) ltac:(lia) ltac:(lia)) as W.
    replace (8 * (12 + zlen body) + 8 * zlen post) with (8 * zlen data) in W by lia. change (8 * 12) with 96 in W. set (w := walk _ _ _ _ _). change (w = (ts, None)) in W. rewrite W. cbn [fst snd]. do 2 f_equal.
    rewrite (laids_total _ _ _ _ _ Ts). destruct (zlen post =? 0) eqn:P.
    + replace (96 + 8 * zlen body <? 8 * zlen data) with false by lia. reflexivity.
    + replace (96 + 8 * zlen body <? 8 * zlen data) with true by lia. f_equal. lia.
  - unfold riff_content_size. rewrite R. cbn [bind]. f_equal. lia.
Qed.
Print Assumptions C70_chunks.
(** Such a file is accepted when its type is one of the four that are known. *)
Theorem C70_valid : forall read type body post, let data := riff_bytes type body post in
  serves read data -> zlen type = 4 ->
  riff_validate read = Ok true <-> In type [lit "WAVE"; lit "CDDA"; lit "AVI "; lit "ACON"].
Proof.
  intros read type body post data Hs T.
  assert (O : occurs_at data data 0) by (pose proof (occ_pre [] data []) as O; cbn [app] in O; rewrite app_nil_r in O; exact O).
  change (occurs_at (lit "RIFF" ++ uint LITTLE_ENDIAN 4 (4 + zlen body) ++ type ++ body ++ post) data 0) in O. apply occ_app in O as [O1 O]. apply occ_app in O as [_ O]. apply occ_app in O as [O3 _].
  rewrite zlen_uint in *. change (zlen (lit "RIFF")) with 4 in *. change (0 + 4 + Z.of_nat 4) with 8 in O3. clearbody data.
  unfold riff_validate. pose proof (rb_occ read data Hs 0 _ O1) as R. change (8 * 0) with 0 in R. change (zlen (lit "RIFF")) with 4 in R. rewrite R by discriminate. cbn [bind].
  change (negb (str_eqb (lit "RIFF") (lit "RIFF"))) with false. cbv iota. pose proof (rb_occ read data Hs 8 _ O3) as R3. change (8 * 8) with 64 in R3. rewrite T in R3. rewrite R3 by (intros ->; discriminate). cbn [bind].
  split.
  - intros H. apply ok_inj in H. apply existsb_exists in H as (x & I & E). apply DictProofs.str_eqb_eq in E as ->. exact I.
  - intros I. f_equal. apply existsb_exists. exists type. split; [exact I|]. apply DictProofs.str_eqb_eq. reflexivity.
Qed.
Print Assumptions C70_valid.

(** A sound with a list of texts, one of odd length, and three bytes after the chunks *)
Definition wave_info : list Z := lit "INAM" ++ [3; 0; 0; 0] ++ [97; 98; 99] ++ [0].
Definition wave_body : list Z := (lit "fact" ++ [4; 0; 0; 0] ++ [9; 0; 0; 0]) ++ ((lit "LIST" ++ [24; 0; 0; 0] ++ lit "INFO") ++ ((lit "IART" ++ [0; 0; 0; 0] ++ []) ++ wave_info ++ []) ++ []) ++ [].
Definition wave_docs : list (doc ck) :=
  [Raw (Ck (lit "nb_sample") (lit "fact") 4 [] (Some [9; 0; 0; 0]));
   Grp (Ck (lit "info") (lit "LIST") 24 (lit "INFO") None) [Raw (Ck (lit "artist") (lit "IART") 0 [] (Some [])); Raw (Ck (lit "title") (lit "INAM") 3 [] (Some [97; 98; 99]))]].
Example C70_chunks_ex : chunks (lit "WAVE") wave_docs wave_body /\ is_bytes (riff_bytes (lit "WAVE") wave_body [1; 2; 3]) /\
  RiffFile (string_read (riff_bytes (lit "WAVE") wave_body [1; 2; 3])) (8 * 59) = Ok (Riff 48 (lit "WAVE")
    [Tree 96 96 (Ck (lit "nb_sample") (lit "fact") 4 [] (Some [9; 0; 0; 0])) KNone;
     Tree 192 256 (Ck (lit "info") (lit "LIST") 24 (lit "INFO") None)
       (KSome [Tree 288 64 (Ck (lit "artist") (lit "IART") 0 [] (Some [])) KNone; Tree 352 96 (Ck (lit "title") (lit "INAM") 3 [] (Some [97; 98; 99])) KNone] None)] None (Some 24)).
Proof.
  split; [|split; [|vm_compute; reflexivity]].
  - apply e_cons; [|discriminate|apply e_cons; [|discriminate|apply e_nil]].
    + apply e_raw. apply (chunk_even (lit "WAVE", false) (lit "fact") [9; 0; 0; 0]); [reflexivity|discriminate|reflexivity|reflexivity].
    + apply (e_grp _ _ _ (lit "WAVE", false) _ (lit "WAVE", true) _ (lit "LIST" ++ [24; 0; 0; 0] ++ lit "INFO") _ []).
      * apply e_cons; [|discriminate|apply e_cons; [| |apply e_nil]].
        -- apply e_raw. apply (chunk_even (lit "WAVE", true) (lit "IART") []); [reflexivity|discriminate|reflexivity|reflexivity].
        -- apply e_raw. apply (chunk_odd (lit "WAVE", true) (lit "INAM") [97; 98; 99] 0); [reflexivity|discriminate|reflexivity|reflexivity].
        -- intros _ _. vm_compute. reflexivity.
      * apply (list_intro (lit "WAVE", false) (lit "INFO") ((lit "IART" ++ [0; 0; 0; 0] ++ []) ++ wave_info ++ [])); [reflexivity|vm_compute; reflexivity|reflexivity].
  - unfold is_bytes. apply Forall_forall. intros x H. assert (F : forallb (fun b => (0 <=? b) && (b <? 256)) (riff_bytes (lit "WAVE") wave_body [1; 2; 3]) = true) by (vm_compute; reflexivity).
    rewrite forallb_forall in F. specialize (F x H). unfold is_byte. lia.
Qed.
Example C70_valid_ex : riff_validate (string_read (riff_bytes (lit "WAVE") wave_body [])) = Ok true.
Proof. vm_compute. reflexivity. Qed.

(** Whatever the bytes of a file, the parser ends; chunks and lists follow one another inside their
    parent; at most eight bytes are left at the end of a list unless an error stopped it. *)
Theorem C70_any : forall read data, serves read data -> ends read data -> is_bytes data ->
  match RiffFile read (8 * zlen data) with
  | Ok r => exists q, chain 64 96 (r_chunks r) q /\ q <= 8 * zlen data /\ r_err r <> Some OutOfFuel /\ (r_err r = None -> q + (match r_padding r with Some n => n | None => 0 end) = 8 * zlen data)
  | Err e => e = ReadStreamError
  end.
Proof.
  intros read data Hs He Hb. unfold RiffFile.
  destruct (bits_any read data Hs He 32 32 LITTLE_ENDIAN Hb ltac:(discriminate) ltac:(lia) ltac:(lia)) as [(E & L0 & B)|E]; rewrite E; cbn [bind]; [|reflexivity].
  set (fs := bits_at data 32 32 LITTLE_ENDIAN) in *. pose proof (rb read data Hs He 8 4 ltac:(lia) ltac:(lia)) as R. change (8 * 8) with 64 in R. rewrite R. destruct (8 + 4 <=? zlen data) eqn:L; cbn [bind]; [|reflexivity].
  set (fuel := S (Z.to_nat (8 * zlen data / 8))). set (type := sub data 8 4).
  destruct (walk_any data (chunk_head read) 64 (chunk_any' read data Hs Hb He) (parse (chunk_head read) fuel (type, false)) (zlen data) 12 (8 * zlen data - (fs * 8 + 8))
    ltac:(intros p P _; apply (parse_chunk_any read data Hs Hb He); lia) fuel 12 ltac:(lia) ltac:(lia) ltac:(lia)) as (q & C & Q & F & D). change (8 * 12) with 96 in *.
  cbn [r_chunks r_err r_padding]. exists q. split; [exact C|]. split; [lia|]. split; [exact F|]. intros N. rewrite N.
  assert (X : forall p l q, chain 64 p l q -> p + total_size l = q).
  { clear. intros p l q H. induction H as [|p n l q A B _ H IH]; [cbn; lia|]. cbn [total_size fold_right]. fold (total_size l). lia. }
  apply X in C. rewrite C. assert (M : q mod 8 = 0 -> (8 * zlen data - q) / 8 * 8 = 8 * zlen data - q) by lia.
  destruct (q <? 8 * zlen data) eqn:W; [|lia]. rewrite M; [lia|].
  (* every size is a whole number of bytes *)
  clear - C Hs He Hb. assert (Y : forall n m slack p, 0 <= p -> m <= zlen data -> m - p < Z.of_nat n -> 1 <= Z.of_nat n -> n = n -> m = zlen data -> (Z.of_nat n <= Z.of_nat fuel) -> total_size (fst (walk (parse (chunk_head read) fuel (type, false)) n slack (8 * m) (8 * p))) mod 8 = 0).
  { induction n as [|n IH]; intros m slack p P Md N N1 _ Hm Nf; [lia|]. cbn [walk]. destruct (8 * m - 8 * p <=? slack); [reflexivity|].
    pose proof (parse_chunk_any read data Hs Hb He fuel (type, false) p m P Md ltac:(lia) ltac:(lia)) as H.
    destruct (parse (chunk_head read) fuel (type, false) (8 * m) (8 * p)) as [t|]; cbn [any_tree] in H; [|reflexivity]. destruct H as (_ & (k & K & K1 & K2) & _).
    cbn [fst total_size fold_right]. rewrite K. replace (8 * p + 8 * k) with (8 * (p + k)) by lia.
    destruct n as [|n']; [cbn [walk fst fold_right]; lia|]. specialize (IH m slack (p + k) ltac:(lia) Md ltac:(lia) ltac:(lia) eq_refl Hm ltac:(lia)). unfold total_size in IH. lia. }
  specialize (Y fuel (zlen data) (8 * zlen data - (fs * 8 + 8)) 12 ltac:(lia) ltac:(lia) ltac:(unfold fuel; lia) ltac:(unfold fuel; lia) eq_refl eq_refl ltac:(lia)). change (8 * 12) with 96 in Y. lia.
Qed.
Print Assumptions C70_any.
Example C70_any_ex : RiffFile (string_read (lit "RIFF" ++ [200; 0; 0; 0] ++ lit "WAVEdata" ++ [9; 0; 0; 0; 7])) 168 =
  Ok (Riff 200 (lit "WAVE") [Tree 96 72 (Ck (lit "audio_data") (lit "data") 9 [] None) KNone] (Some ParserError) None).
Proof. vm_compute. reflexivity. Qed.

(** A list whose last chunk is empty does not show it: the loop stops when eight bytes remain
    (riff.py:285). *)
Theorem C70_last_refuted : forall read type sub body l tag pre post fuel stop,
  let all := body ++ tag ++ [0; 0; 0; 0] in let b := lit "LIST" ++ uint LITTLE_ENDIAN 4 (4 + zlen all) ++ sub ++ all in let data := pre ++ b ++ post in
  serves read data -> is_bytes data -> zlen sub = 4 -> zlen tag = 4 -> tag <> lit "LIST" -> 4 + zlen all < 2 ^ 32 -> Z.even (zlen body) = true ->
  encs chunk list_chunk last_chunk (type, true) l body -> 8 * (zlen pre + zlen b) <= stop -> zlen b <= Z.of_nat fuel ->
  chunk (type, true) (Ck (chunk_name type tag []) tag 0 [] (Some [])) (tag ++ [0; 0; 0; 0]) /\
  exists ts, parse (chunk_head read) fuel (type, true) stop (8 * zlen pre) =
    Ok (Tree (8 * zlen pre) (8 * zlen b) (Ck (chunk_name type (lit "LIST") sub) (lit "LIST") (4 + zlen all) sub None) (KSome ts None)) /\
    List.length ts = List.length l /\ laids chunk list_chunk last_chunk (type, true) (zlen pre + 12) l body ts.
Proof.
  intros read type sub body l tag pre post fuel stop all b data Hs Hb Zs Zt Nt La Ev En St Fu. split.
  { pose proof (chunk_even (type, true) tag [] Zt Nt ltac:(vm_compute; reflexivity) eq_refl) as H. cbn [fst] in H. change (zlen (@nil Z)) with 0 in H. change (uint LITTLE_ENDIAN 4 0) with [0; 0; 0; 0] in H. rewrite app_nil_r in H. exact H. }
  destruct (proj2 (enc_laid chunk list_chunk last_chunk) _ _ _ En (zlen pre + 12)) as [ts Ts]. exists ts.
  assert (O : occurs_at b data (zlen pre)) by apply occ_pre.
  assert (Zall : zlen all = zlen body + 8) by (unfold all; rewrite !zlen_app, Zt; change (zlen [0; 0; 0; 0]) with 4; lia). pose proof (zlen_nonneg body).
  assert (Zb : zlen b = 12 + zlen all) by (unfold b; rewrite !zlen_app, zlen_uint, Zs; change (zlen (lit "LIST")) with 4; lia).
  assert (G : list_chunk (type, true) (Ck (chunk_name type (lit "LIST") sub) (lit "LIST") (4 + zlen all) sub None) (type, true) (lit "LIST" ++ uint LITTLE_ENDIAN 4 (4 + zlen all) ++ sub) all []).
  { apply (list_intro (type, true)); auto. rewrite Zall, Z.even_add, Ev. reflexivity. }
  assert (Eb : b = (lit "LIST" ++ uint LITTLE_ENDIAN 4 (4 + zlen all) ++ sub) ++ all ++ []) by (unfold b; rewrite app_nil_r, <- !app_assoc; reflexivity).
  split.
  - destruct fuel as [|fuel]; [lia|]. cbn [parse]. rewrite Eb in O, St.
    destruct (list_hd read data Hs Hb _ _ _ _ _ _ (zlen pre) stop G O St) as (slack & R & Sl). rewrite R. cbn [bind h_size h_info h_body]. rewrite <- Eb in *. change (zlen (@nil Z)) with 0 in Sl. cbn [ck_gap snd] in Sl.
    assert (Es : slack = 64). { unfold chunk_head in R. destruct (stop <? 8 * zlen pre + 32); [discriminate|]. destruct (stop <? 8 * zlen pre + 64); [discriminate|]. destruct (readBits _ _ _ _); [|discriminate]. cbn [bind] in R. destruct (readBytes _ _ 4); [|discriminate]. cbn [bind] in R.
      destruct (str_eqb _ _). - destruct (_ || _); [discriminate|]. destruct (readBytes _ _ _); [|discriminate]. cbn [bind] in R. congruence.
      - destruct (if _ =? 0 then _ else _); [|discriminate]. cbn [bind] in R. discriminate. }
    subst slack. replace (Z.min (8 * zlen b) (stop - 8 * zlen pre)) with (8 * zlen b) by lia.
    rewrite Eb in O. apply occ_app in O as [O1 O2]. rewrite app_nil_r in O2.
    assert (Zh : zlen (lit "LIST" ++ uint LITTLE_ENDIAN 4 (4 + zlen all) ++ sub) = 12) by (rewrite !zlen_app, zlen_uint, Zs; reflexivity). rewrite Zh in *. unfold all in O2. apply occ_app in O2 as [O2 _].
    pose proof (list_read read data Hs Hb (zlen pre + 12) l body ts type fuel (S fuel) 64 64 Ts O2 ltac:(lia) ltac:(lia) ltac:(lia) ltac:(lia)) as W.
    replace (8 * (zlen pre + 12 + zlen body) + 64) with (8 * zlen pre + 8 * zlen b) in W by lia. replace (8 * (zlen pre + 12)) with (8 * zlen pre + 8 * 12) in W by lia. rewrite W. reflexivity.
  - split; [|exact Ts]. clear - Ts. induction Ts as [|c p d l b bs t ts _ _ _ IH]; [reflexivity|cbn; rewrite IH; reflexivity].
Qed.
Print Assumptions C70_last_refuted.
Example C70_last_ex : RiffFile (string_read (lit "RIFF" ++ [24; 0; 0; 0] ++ lit "AVI LIST" ++ [12; 0; 0; 0] ++ lit "movi00dc" ++ [0; 0; 0; 0])) 256 =
  Ok (Riff 24 (lit "AVI ") [Tree 96 160 (Ck (lit "movie") (lit "LIST") 12 (lit "movi") None) (KSome [] None)] None None).
Proof. vm_compute. reflexivity. Qed.

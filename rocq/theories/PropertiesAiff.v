(** C88: what the parser of AIFF and AIFC sounds shows. *)
From Coq Require Import String.
From Verif Require Import Base BaseProofs BitsModel BitsSpec BitsProofs StreamModel StreamSpec StreamProofs DictModel DictProofs FieldModel ToolsModel NumSpec NumRead ChunkBase GenModel GenSpec GenProofs ItemSpec ItemProofs ItemProofs2 AiffModel AiffSpec AiffProofs Lit.
From Verif Require RasterModel Id3Model Id3Spec MpegSafe.
Open Scope Z_scope.
Ltac Zify.zify_post_hook ::= Z.div_mod_to_equations.

Lemma head_len z l : zlen (bytes_of_all (head_items z l)) = 12.
Proof. unfold head_items, be. rewrite !bytes_of_all_cons, !zlen_app. cbn [bytes_of plain_bytes]. rewrite zlen_uint. destruct z; reflexivity. Qed.
Lemma chunks_many l : Forall chunk_ok l -> Z.of_nat (length l) <= zlen (chunks_bytes l).
Proof.
  induction 1 as [|c l K _ IH]; [vm_compute; discriminate|]. unfold chunks_bytes in *. cbn [length flat_map]. rewrite zlen_app, chunk_len by exact K. pose proof (zlen_nonneg (content c)). assert (0 <= alignValue (zlen (content c)) 2) by (unfold alignValue; destruct (negb _); lia). lia.
Qed.
(** Every file shows its chunks, each one from its first byte to its last one with the byte that makes its size even, and in them the numbers, texts and bytes they are made of. *)
Theorem C88_file : forall read z l, let data := aiff z l in serves read data -> is_bytes data -> Forall chunk_ok l -> 4 + zlen (chunks_bytes l) < 2 ^ 32 ->
  AiffFile read (8 * zlen data) = (shows (head_items z l) 0 ++ show_chunks l 12, None, 8 * zlen data).
Proof.
  intros read z l data Hs Hb K L. assert (Ld : zlen data = 12 + zlen (chunks_bytes l)) by (unfold data, aiff; rewrite zlen_app, head_len; reflexivity). pose proof (zlen_nonneg (chunks_bytes l)) as L0.
  assert (O : occurs_at (bytes_of_all (head_items z l) ++ chunks_bytes l) data 0) by apply occ_self. apply occ_app in O as [O1 O2]. rewrite head_len in O2.
  assert (Fo : obeys read data (8 * zlen data) 0 (aiff_fields (8 * zlen data)) (head_items z l) (loop Chunk (S (Z.to_nat (8 * zlen data))))).
  { unfold aiff_fields, head_items, be. apply (ob_plain read data); [split; vm_compute; discriminate|reflexivity|]. apply (ob_plain read data); [split; [discriminate|split; [lia|change (2 ^ (8 * Z.of_nat 4)) with (2 ^ 32); lia]]|reflexivity|]. apply (ob_plain read data); [destruct z; split; vm_compute; discriminate|destruct z; reflexivity|apply ob_nil]. }
  unfold AiffFile. pose proof (follow read data Hs Hb _ _ _ _ _ (Fo ltac:(split; [exact O1|rewrite head_len; lia])) true O1 ltac:(rewrite head_len; lia)) as R. change (8 * 0) with 0 in R. rewrite R. rewrite head_len. change (0 + 12) with 12.
  rewrite (chunks_run read data Hs Hb l); [reflexivity|exact K| |exact O2|lia]. pose proof (chunks_many l K). lia.
Qed.
Print Assumptions C88_file.

Section Ends.
Context (read : read_fun) (data : list Z) (Hs : serves read data) (Hb : is_bytes data) (He : ends read data) (Hd : data <> []).
Notation safe := (safe read data).
Lemma id3_calm m : safe m Id3Model.ID3v2_fields.
Proof using All.
  revert m. change (MpegSafe.calm read data Id3Model.ID3v2_fields). intros m. unfold Id3Model.ID3v2_fields. apply MpegSafe.safe_text; auto. intros h'. apply MpegSafe.num_calm; auto; [lia|]. intros major'. apply MpegSafe.num_calm; auto; [lia|]. intros minor'. destruct (negb _); [intros m'; apply safe_err; discriminate|]. destruct (negb _); [intros m'; apply safe_err; discriminate|]. unfold Id3Model.bit. do 4 (apply MpegSafe.num_calm; auto; [lia|]; intros ?). intros m'. apply safe_code; auto; [intros a A; apply (MpegSafe.size_any read data Hs Hb He Hd a A)|]. intros _. apply safe_ask. intros stop a A M. apply safe_loop; auto; [|lia]. intros m'' k' K'. apply MpegSafe.chunk_calm; auto.
Qed.
Lemma chunk_safe m k : safe (m - 1) k -> safe m (Chunk k).
Proof using All.
  intros K. unfold Chunk. apply safe_peek; auto; [exact Logic.I|lia|]. intros tag. apply safe_peek; auto; [split; [lia|discriminate]|lia|]. intros size.
  assert (P : forall m, safe m (when (negb (num size mod 2 =? 0)) (fun k => emit (lit "padding") (KBytes 1); k) PRet)) by (intros m'; destruct (negb _); cbn [when]; repeat calm_step).
  unfold TAG_INFO. repeat (match goal with |- context [if str_eqb ?a ?b then _ else _] => destruct (str_eqb a b) end); (apply safe_set; [|intros _; exact K]); unfold Chunk_fields; do 2 calm_step; (destruct (num size =? 0); [apply safe_ret|]).
  - unfold parseCommon. do 3 calm_step. apply safe_set; [unfold Float80_fields; repeat calm_step|]. intros _. calm_step. apply P.
  - unfold parseComment. calm_step. apply safe_times; [|apply P]. intros m' k' K'. apply safe_open; auto; [unfold Comment_fields; repeat calm_step|]. intros _. eapply safe_more; [exact K'|lia].
  - unfold parseText. calm_step. apply P.
  - unfold parseText. calm_step. apply P.
  - unfold parseVersion. calm_step. apply P.
  - unfold parseSound. do 2 calm_step. apply safe_ask. intros stop a A M. cbv zeta. destruct (negb (_ =? 0)) in |- * at 1; cbn [when]; [calm_step|]; apply P.
  - unfold parseID3. apply safe_set; [apply id3_calm|]. intros _. apply P.
  - repeat calm_step.
Qed.
End Ends.
(** Any file, valid or not, is shown from its start without hole or overlap, never past its end, and the parser ends. *)
Theorem C88_any : forall read data, serves read data -> ends read data -> is_bytes data -> data <> [] ->
  let '(l, e, b) := AiffFile read (8 * zlen data) in tiled 0 l b /\ b <= 8 * zlen data /\ settled_file (l, e, b).
Proof.
  intros read data Hs He Hb Hd. apply (any_file read data Hs Hb He Hd). pose proof (zlen_nonneg data). unfold aiff_fields. do 3 calm_step. cbn [least]. apply safe_loop; auto; [|lia]. intros m k K. apply chunk_safe; auto.
Qed.
Print Assumptions C88_any.
(** Files with the two marks of the format are accepted, and no others. *)
Theorem C88_valid : forall read data, serves read data -> is_bytes data -> 12 <= zlen data ->
  exists b, aiff_validate read = Ok b /\ (b = true <-> sub data 0 4 = lit "FORM" /\ (sub data 8 4 = lit "AIFF" \/ sub data 8 4 = lit "AIFC")).
Proof.
  intros read data Hs Hb L. assert (R : forall p, 0 <= p <= 8 -> readBytes read (8 * p) 4 = Ok (sub data p 4)).
  { intros p P. pose proof (occ_sub data p 4 ltac:(lia) ltac:(lia) ltac:(lia)) as O. assert (Z4 : zlen (sub data p 4) = 4) by (rewrite zlen_sub_exact; lia). pose proof (rb_occ read data Hs p _ O) as R. rewrite Z4 in R. apply R. intros X. rewrite X in Z4. discriminate. }
  assert (Q : forall a b, str_eqb a b = true <-> a = b) by (intros a b; apply str_eqb_eq).
  unfold aiff_validate. pose proof (R 0 ltac:(lia)) as R0. change (8 * 0) with 0 in R0. rewrite R0, (R 8) by lia. cbn [bind]. destruct (str_eqb (sub data 0 4) (lit "FORM")) eqn:E; cbn [negb].
  - eexists. split; [reflexivity|]. rewrite orb_true_iff, !Q. apply Q in E. tauto.
  - eexists. split; [reflexivity|]. split; [discriminate|]. intros [F _]. apply Q in F. congruence.
Qed.
Print Assumptions C88_valid.
(** FINDING: the size of the content is told without the first eight bytes of the file ("FORM" and the size itself, which the size in the file does not count): it is eight bytes short for
    every file, so a tool that carves files by their content size cuts the last eight bytes of the sound. *)
Theorem C88_size_refuted : forall read z l, let data := aiff z l in serves read data -> is_bytes data -> Forall chunk_ok l -> 4 + zlen (chunks_bytes l) < 2 ^ 32 ->
  aiff_content_size (fst (fst (AiffFile read (8 * zlen data)))) = Ok (8 * (zlen data - 8)).
Proof.
  intros read z l data Hs Hb K L. unfold data. rewrite C88_file by assumption. cbn [fst]. unfold aiff_content_size, RasterModel.value. unfold head_items, be. cbn [shows ItemSpec.show app GenModel.get]. change (str_eqb (lit "signature") (lit "filesize")) with false. change (str_eqb (lit "filesize") (lit "filesize")) with true. cbn [bind plain_val num].
  f_equal. unfold aiff. rewrite zlen_app, head_len. lia.
Qed.
Print Assumptions C88_size_refuted.
(** FINDING: the byte that follows a sound of an odd number of bytes is shown as a part of the sound, and the fields of the chunk end with an error as the parser looks for this byte after it. *)
Theorem C88_padding_refuted : forall read z o b x, let data := aiff z [Sound o b x] in serves read data -> is_bytes data -> chunk_ok (Sound o b x) -> zlen x mod 2 = 1 -> 4 + zlen (chunks_bytes [Sound o b x]) < 2 ^ 32 ->
  exists l n f, AiffFile read (8 * zlen data) = (l ++ [G (lit "sound") 96 n f (Some StopIteration)], None, 8 * zlen data) /\ GenModel.get (lit "data") f = Some (VBytes (x ++ [0])).
Proof.
  intros read z o b x data Hs Hb K Odd L. assert (Pd : pad (Sound o b x) = [0]). { unfold pad. cbn [content]. rewrite !zlen_app, !zlen_uint. replace (_ =? 0) with false by lia. reflexivity. }
  unfold data. rewrite C88_file by first [assumption|constructor; [assumption|constructor]]. cbn [show_chunks name_of chunk_error]. rewrite Pd. change (8 * 12) with 96. do 3 eexists. split; [reflexivity|].
  unfold chunk_items, be. cbn [content_items app]. rewrite Pd. destruct (x ++ [0]) as [|y t] eqn:E; [destruct x; discriminate E|]. unfold be. cbn [app some_data shows ItemSpec.show GenModel.get].
  change (str_eqb (lit "type") (lit "data")) with false. change (str_eqb (lit "size") (lit "data")) with false. change (str_eqb (lit "offset") (lit "data")) with false. change (str_eqb (lit "block_size") (lit "data")) with false. change (str_eqb (lit "data") (lit "data")) with true. reflexivity.
Qed.
Print Assumptions C88_padding_refuted.
(** A comment of the marker 1 *)
Definition marked : list Z := lit "FORM" ++ uint BE 4 24 ++ lit "AIFF" ++ lit "COMT" ++ uint BE 4 12 ++ uint BE 2 1 ++ uint BE 4 7 ++ uint BE 2 1 ++ uint BE 2 2 ++ lit "Hi".
(** The texts shown, at any depth *)
Fixpoint texts_in (f : fld) : list (list Z) := match f with F _ _ _ (VBytes x) => [x] | F _ _ _ _ => [] | G _ _ _ l _ => flat_map texts_in l end.
(** FINDING: the number of the marker of a comment is read as the high half of the length of its text.  The comment "Hi" of the marker 1 is not shown: the text of 65538 bytes does not fit. *)
Theorem C88_marker_refuted : flat_map texts_in (fst (fst (AiffFile (string_read marked) (8 * zlen marked)))) = [lit "FORM"; lit "AIFF"; lit "COMT"].
Proof. vm_compute. reflexivity. Qed.
Print Assumptions C88_marker_refuted.
(** ** Concrete files *)
(** 44100 = 1.34582519531250 * 2 ^ 15 samples per second *)
Definition bits_of (n : nat) (v : Z) : list bool := map (fun i => Z.testbit v (Z.of_nat n - 1 - Z.of_nat i)) (seq 0 n).
Definition cd_rate : rate := Rate false (bits_of 15 (16383 + 15)) true (bits_of 63 (44100 * 2 ^ 48 - 2 ^ 63)).
Definition cd : list chunk := [Common 2 3 16 cd_rate None; Comments [(7, lit "Hi"); (8, [])]; Text false (lit "Sea"); Text true []; Other (lit "APPL") [1; 2; 3]; Sound 0 0 [1; 2; 3; 4; 5; 6; 7; 8; 9; 10; 11; 12]].
Definition a_tag : Id3Spec.tag2 := {| Id3Spec.g_ver := 3; Id3Spec.g_exp := false; Id3Spec.g_frames := []; Id3Spec.g_padding := Some 3%nat |}.
Definition packed : list chunk := [Tag a_tag; Version 2726318400; Common 1 3 8 cd_rate (Some (lit "sowt", [4; 78; 111; 110; 101; 0])); Sound 0 0 [1; 2; 3]].
Example C88_sounds : Forall chunk_ok cd /\ Forall chunk_ok packed /\ zlen (aiff false cd) = 126 /\ bytes_of_all (rate_items cd_rate) = [64; 14; 172; 68; 0; 0; 0; 0; 0; 0] /\
  AiffFile (string_read (aiff false cd)) (8 * zlen (aiff false cd)) = (shows (head_items false cd) 0 ++ show_chunks cd 12, None, 1008) /\
  AiffFile (string_read (aiff true packed)) (8 * zlen (aiff true packed)) = (shows (head_items true packed) 0 ++ show_chunks packed 12, None, 896).
Proof.
  assert (R : rate_ok cd_rate) by (split; vm_compute; reflexivity).
  assert (Bd : forall n v, (0 <=? v) && (v <? 2 ^ (8 * Z.of_nat n)) = true -> fits_in n v) by (intros n v B; unfold fits_in; lia).
  assert (Lt : forall a b, (a <? b) = true -> a < b) by (intros a b; lia). assert (Le : forall a b, (a <=? b) = true -> a <= b) by (intros a b; lia).
  split; [|split; [|split; [vm_compute; reflexivity|split; [vm_compute; reflexivity|split; vm_compute; reflexivity]]]].
  - unfold cd. apply Forall_cons; [|apply Forall_cons; [|apply Forall_cons; [|apply Forall_cons; [|apply Forall_cons; [|apply Forall_cons; [|apply Forall_nil]]]]]]; (split; [apply Lt; vm_compute; reflexivity|]).
    + do 3 (split; [apply Bd; vm_compute; reflexivity|]). split; [exact R|exact Logic.I].
    + split; [apply Lt; vm_compute; reflexivity|]. do 2 (apply Forall_cons; [split; [apply Bd; vm_compute; reflexivity|split; [apply Lt; vm_compute; reflexivity|vm_compute; reflexivity]]|]). apply Forall_nil.
    + apply Le. vm_compute. reflexivity.
    + apply Le. vm_compute. reflexivity.
    + split; [vm_compute; reflexivity|]. intros X. cbn in X. repeat (destruct X as [X|X]; [discriminate X|]). destruct X.
    + split; apply Bd; vm_compute; reflexivity.
  - unfold packed. apply Forall_cons; [|apply Forall_cons; [|apply Forall_cons; [|apply Forall_cons; [|apply Forall_nil]]]]; (split; [apply Lt; vm_compute; reflexivity|]).
    + split; [cbn; lia|]. split; [apply Forall_nil|apply Lt; vm_compute; reflexivity].
    + apply Bd; vm_compute; reflexivity.
    + do 3 (split; [apply Bd; vm_compute; reflexivity|]). split; [exact R|split; vm_compute; reflexivity].
    + split; apply Bd; vm_compute; reflexivity.
Qed.
Example C88_marks : sub (aiff false cd) 0 4 = lit "FORM" /\ sub (aiff false cd) 8 4 = lit "AIFF" /\ aiff_validate (string_read (aiff false cd)) = Ok true /\ aiff_validate (string_read (lit "FORM1234ILBM")) = Ok false.
Proof. repeat split; vm_compute; reflexivity. Qed.

(** C89: what the parser of RealAudio sounds (.ra) shows. *)
From Coq Require Import String.
From Verif Require Import Base BaseProofs BitsModel BitsSpec BitsProofs StreamModel StreamSpec StreamProofs DictModel DictProofs FieldModel ToolsModel NumSpec NumRead ChunkBase GenModel GenSpec GenProofs ItemSpec ItemProofs ItemProofs2 RealModel RealSpec Lit.
From Verif Require RasterModel.
Open Scope Z_scope.
Ltac Zify.zify_post_hook ::= Z.div_mod_to_equations.

Section Read.
Context (read : read_fun) (data : list Z) (Hs : serves read data) (Hb : is_bytes data).
Notation obeys := (obeys read data).
Ltac obn := apply (ob_plain read data); [split; [discriminate|split; [lia|unfold fits_in in *; first [assumption|lia]]]|reflexivity|]; cbn [plain_val num].
Ltac obp := apply (ob_plain read data); [split; [lia|unfold word_ok in *; assumption]|reflexivity|].
Ltac obb L := apply (ob_plain read data); [split; [intros X; rewrite X in L; discriminate L|rewrite L; vm_compute; discriminate]|unfold kind_of; rewrite L; reflexivity|].
Lemma texts_obey t stop p c l q : texts_ok t -> (forall x, obeys stop (p + zlen (bytes_of (texts_item t))) (c x) l q) -> obeys stop p (PSet (lit "metadata") None Metadata_fields c) (texts_item t :: l) q.
Proof using Type.
  intros (K1 & K2 & K3 & K4) H. unfold texts_item. apply ob_open; [|unfold Metadata_fields, pascal, word; do 4 obp; apply ob_nil|apply H].
  unfold word. rewrite bytes_of_all_cons, zlen_app. cbn [bytes_of plain_bytes]. rewrite zlen_app, zlen_uint. pose proof (zlen_nonneg (t_title t)). match goal with |- 0 < _ + zlen ?x => pose proof (zlen_nonneg x) end. lia.
Qed.
Lemma sound_obeys x stop p : zlen x < 2 ^ 31 -> obeys stop p (audio_data (zlen x)) (some_sound x) PRet.
Proof using Type.
  intros L. unfold audio_data. destruct x as [|y x]; [apply ob_nil|]. replace (0 <? zlen (y :: x)) with true by (rewrite zlen_cons; pose proof (zlen_nonneg x); lia). cbn [when some_sound]. apply (ob_plain read data); [split; [discriminate|change (2 ^ 31) with 2147483648 in L; change (2 ^ 64) with 18446744073709551616; lia]|reflexivity|apply ob_nil].
Qed.
Lemma real_obeys r stop : real_ok r -> obeys stop 0 real_fields (real_items r) PRet.
Proof using Type.
  intros [L K]. pose proof (zlen_nonneg (sound_of r)) as L0. change (2 ^ 31) with 2147483648 in L. destruct r as [header unknown t byte codec sound|reserved mark version n coded unknown interleaving codec unknown2 t sound]; cbn [sound_of] in *.
  - destruct K as (K1 & K2 & K3 & K4 & K5). unfold real_fields, real_items, head3, u16, pascal, be, word. cbn [app sound_of]. apply (ob_plain read data); [split; vm_compute; discriminate|reflexivity|]. obn. change (3 =? 3) with true. cbn iota. obn. obb K2. apply (ob_plain read data); [split; [discriminate|split; [lia|change (2 ^ (8 * Z.of_nat 4)) with 4294967296; lia]]|reflexivity|]. cbn [plain_val num]. apply texts_obey; [exact K3|]. intros _. obn. obp. apply sound_obeys. change (2 ^ 31) with 2147483648. exact L.
  - destruct K as (K1 & K2 & K3 & (N1 & N2 & N3 & N4 & N5 & N6 & N7 & N8 & N9) & K5 & K6 & K7 & K8 & K9 & K10). set (hl := head_len (Real4 reserved mark version n coded unknown interleaving codec unknown2 t sound)).
    assert (H : 56 <= hl < 2000). { unfold hl, head_len, texts_len. destruct K10 as (W1 & W2 & W3 & W4). unfold word_ok in *. change (2 ^ 8) with 256 in *. pose proof (zlen_nonneg interleaving). pose proof (zlen_nonneg codec). pose proof (zlen_nonneg (t_title t)). pose proof (zlen_nonneg (t_author t)). pose proof (zlen_nonneg (t_copyright t)). pose proof (zlen_nonneg (t_comment t)). lia. }
    unfold real_items. fold hl. clearbody hl. unfold real_fields, head4, u16, pascal, be, word. cbn [app sound_of]. apply (ob_plain read data); [split; vm_compute; discriminate|reflexivity|]. obn. change (4 =? 3) with false. cbn iota. obn. obb K2. change (2 ^ (8 * Z.of_nat 4)) with 4294967296 in *.
    apply (ob_plain read data); [split; [discriminate|split; [lia|change (2 ^ (8 * Z.of_nat 4)) with 4294967296; lia]]|reflexivity|]. obn. apply (ob_plain read data); [split; [discriminate|split; [lia|change (2 ^ (8 * Z.of_nat 4)) with 4294967296; lia]]|reflexivity|]. obn. obn. obb K6. do 8 obn. do 2 obp. obb K9. apply texts_obey; [exact K10|]. intros _. cbn [plain_val num].
    replace (hl + zlen sound - 40 + 40 - (hl - 16 + 16)) with (zlen sound) by lia. apply sound_obeys. change (2 ^ 31) with 2147483648. exact L.
Qed.
End Read.
Lemma texts_bytes t : zlen (bytes_of (texts_item t)) = texts_len t.
Proof. unfold texts_item, texts_len, word. change (bytes_of (ISet (lit "metadata") ?x)) with (bytes_of_all x). rewrite !bytes_of_all_cons, !zlen_app. cbn [bytes_of plain_bytes]. rewrite !zlen_app, !zlen_uint. change (zlen (bytes_of_all [])) with 0. lia. Qed.
Lemma sound_bytes x : bytes_of_all (some_sound x) = x.
Proof. destruct x; [reflexivity|]. cbn. rewrite app_nil_r. reflexivity. Qed.
(** What precedes the sound has the size told, and the sound follows it. *)
Lemma real_len r : real_ok r -> zlen (bytes_of_all (real_items r)) = head_len r + zlen (sound_of r).
Proof.
  intros [_ K]. unfold real_items. rewrite bytes_of_all_app, zlen_app, sound_bytes. f_equal. destruct r as [header unknown t byte codec sound|reserved mark version n coded unknown interleaving codec unknown2 t sound]; unfold head3, head4, be, word; rewrite !bytes_of_all_cons, !zlen_app, texts_bytes; cbn [bytes_of plain_bytes]; rewrite !zlen_app, !zlen_uint; change (zlen (bytes_of_all [])) with 0; change (zlen (lit ".ra")) with 3; change (zlen [253]) with 1; unfold head_len.
  - destruct K as (_ & -> & _). lia.
  - destruct K as (_ & -> & _ & _ & _ & -> & _ & _ & -> & _). lia.
Qed.
(** Every sound of the versions 3 and 4, whatever follows it, shows its header, its texts and its sound. *)
Theorem C89_file : forall read r rest, let data := bytes_of_all (real_items r) ++ rest in serves read data -> is_bytes data -> real_ok r ->
  RealAudioFile read (8 * zlen data) = (shows (real_items r) 0, None, 8 * (head_len r + zlen (sound_of r))).
Proof.
  intros read r rest data Hs Hb K. assert (O : occurs_at (bytes_of_all (real_items r)) data 0) by exact (occ_pre [] _ rest). assert (L : 8 * (0 + zlen (bytes_of_all (real_items r))) <= 8 * zlen data) by (unfold data; rewrite zlen_app; pose proof (zlen_nonneg rest); lia).
  unfold RealAudioFile. pose proof (follow read data Hs Hb _ _ _ _ _ (real_obeys read data r (8 * zlen data) K (conj O L)) true O L) as R. change (8 * 0) with 0 in R. rewrite R. cbn [GenModel.run]. unfold puts. cbn [fst snd]. rewrite app_nil_r, real_len by exact K. reflexivity.
Qed.
Print Assumptions C89_file.
(** Any file is shown from its start without hole or overlap, never past its end, and the parser ends. *)
Theorem C89_any : forall read data, serves read data -> ends read data -> is_bytes data -> data <> [] ->
  let '(l, e, b) := RealAudioFile read (8 * zlen data) in tiled 0 l b /\ b <= 8 * zlen data /\ settled_file (l, e, b).
Proof.
  intros read data Hs He Hb Hd. apply (any_file read data Hs Hb He Hd). unfold real_fields, u16, pascal, audio_data. do 2 calm_step. destruct (_ =? 3).
  - do 3 calm_step. apply safe_open; auto; [unfold Metadata_fields, pascal; repeat calm_step|]. intros _. repeat calm_step.
  - do 19 calm_step. apply safe_open; auto; [unfold Metadata_fields, pascal; repeat calm_step|]. intros _. repeat calm_step.
Qed.
Print Assumptions C89_any.
(** The sounds of both versions are accepted; files with another first four bytes or another version are refused. *)
Theorem C89_valid : forall read r rest, let data := bytes_of_all (real_items r) ++ rest in serves read data -> is_bytes data -> real_ok r -> real_validate (fst (fst (RealAudioFile read (8 * zlen data)))) = Ok true.
Proof. intros read r rest data Hs Hb K. unfold data. rewrite C89_file by assumption. cbn [fst]. destruct r; reflexivity. Qed.
Print Assumptions C89_valid.
Theorem C89_refused : forall read data, serves read data -> is_bytes data -> 6 <= zlen data -> ~ (sub data 0 4 = lit ".ra" ++ [0xFD] /\ (sub data 4 2 = [0; 3] \/ sub data 4 2 = [0; 4])) -> real_validate (fst (fst (RealAudioFile read (8 * zlen data)))) = Ok false.
Proof.
  intros read data Hs Hb L N. pose proof (occ_sub data 0 4 ltac:(lia) ltac:(lia) ltac:(lia)) as O1. pose proof (occ_sub data 4 2 ltac:(lia) ltac:(lia) ltac:(lia)) as O2. set (s := sub data 0 4) in *. set (w := sub data 4 2) in *. assert (Ls : zlen s = 4) by (unfold s; rewrite zlen_sub_exact; lia). assert (Lw : zlen w = 2) by (unfold w; rewrite zlen_sub_exact; lia).
  assert (Bw : is_bytes w) by (unfold w; apply is_bytes_sub; exact Hb). clearbody s w.
  assert (Hw : exists a b, w = [a; b] /\ is_byte a /\ is_byte b).
  { destruct w as [|a [|b [|c t]]]; try discriminate Lw; [|exfalso; rewrite !zlen_cons in Lw; pose proof (zlen_nonneg t); lia]. exists a, b. inversion Bw as [|? ? B1 B2]; subst. inversion B2; subst. auto. }
  destruct Hw as (a & b & Ew & Ba & Bb). unfold is_byte in Ba, Bb. assert (U : w = uint BE 2 (256 * a + b)).
  { rewrite Ew. change (uint BE 2 (256 * a + b)) with [((256 * a + b) / 256) mod 256; (256 * a + b) mod 256]. replace ((256 * a + b) / 256) with a by lia. replace (a mod 256) with a by lia. replace ((256 * a + b) mod 256) with b by lia. reflexivity. }
  assert (S0 : s <> []) by (intros X; rewrite X in Ls; discriminate Ls). rewrite U in O2.
  unfold RealAudioFile, real_fields. rewrite (at_bytes read data Hs (8 * zlen data) (lit "signature") s 4 _ true 0 0 32) by (try exact O1; try exact S0; try (rewrite Ls; vm_compute; discriminate); lia).
  rewrite (at_num read data Hs Hb (8 * zlen data) (lit "version") BE 2 16 (256 * a + b) _ false 4 32 48) by (try exact O2; try discriminate; try (change (2 ^ 16) with 65536); lia).
  cbn [num]. match goal with |- context [GenModel.run ?x1 ?x2 ?x3 ?x4 ?x5 ?x6] => destruct (GenModel.run x1 x2 x3 x4 x5 x6) as [[l e] q] end. unfold put. cbn [fst snd]. unfold real_validate.
  match goal with |- context [GenModel.get (lit "signature") ?x] => change (GenModel.get (lit "signature") x) with (Some (VBytes s)) end. cbn [bytes].
  destruct (str_eqb s (lit ".ra" ++ [253])) eqn:E; [|reflexivity]. cbn [negb].
  match goal with |- context [RasterModel.value "version" ?x] => change (RasterModel.value "version" x) with (@Ok Z (256 * a + b)) end. cbn [bind]. f_equal.
  apply str_eqb_eq in E. apply Bool.orb_false_iff. split; apply Z.eqb_neq; intros V; apply N; (split; [exact E|]); rewrite Ew; [left|right]; (replace a with 0 by lia); f_equal; f_equal; lia.
Qed.
Print Assumptions C89_refused.

Definition tune3 : real := Real3 30 (repeat 0 10) (Texts (lit "A tune") (lit "Someone") [] (lit "x")) 0 (lit "lpcJ") [1; 2; 3].
Definition tune4 : real := Real4 0 (lit ".ra4") 4 (Numbers 2 16 38 38 0 8000 0 16 1) 228 (repeat 7 12) (lit "Int4") (lit "28_8") [1; 7; 0] (Texts (lit "Song") [] (lit "2001") []) [9; 8; 7; 6; 5].
Example C89_sounds :
  real_ok tune3 /\ real_ok tune4 /\
  bytes_of_all (real_items tune3) = lit ".ra" ++ [253; 0; 3; 0; 30; 0; 0; 0; 0; 0; 0; 0; 0; 0; 0; 0; 0; 0; 3; 6] ++ lit "A tune" ++ [7] ++ lit "Someone" ++ [0; 1] ++ lit "x" ++ [0; 4] ++ lit "lpcJ" ++ [1; 2; 3] /\
  head_len tune4 = 81 /\ sub (bytes_of_all (real_items tune4)) 12 4 = [0; 0; 0; 46] /\ sub (bytes_of_all (real_items tune4)) 18 4 = [0; 0; 0; 65].
Proof.
  split; [|split; [|repeat split; vm_compute; reflexivity]]; (split; [vm_compute; reflexivity|]); cbn [tune3 tune4]; unfold texts_ok, numbers_ok, word_ok, fits_in; repeat split; try (vm_compute; reflexivity); vm_compute; discriminate.
Qed.
(** A file of another version, which meets the hypotheses of C89_refused *)
Example C89_other : let data := lit ".ra" ++ [253; 0; 5; 0; 0] in is_bytes data /\ 6 <= zlen data /\ ~ (sub data 0 4 = lit ".ra" ++ [0xFD] /\ (sub data 4 2 = [0; 3] \/ sub data 4 2 = [0; 4])).
Proof. split; [repeat constructor; vm_compute; congruence|]. split; [vm_compute; discriminate|]. intros [_ [X|X]]; vm_compute in X; discriminate X. Qed.

(** C90: what the parser of Starfighter archives shows. *)
From Coq Require Import String.
From Verif Require Import Base BaseProofs BitsModel BitsSpec BitsProofs StreamModel StreamSpec StreamProofs DictModel DictProofs FieldModel ToolsModel NumSpec NumRead ChunkBase GenModel GenSpec GenProofs ItemSpec ItemProofs ItemProofs2 PrsPakModel PrsPakSpec Lit.
Open Scope Z_scope.
Ltac Zify.zify_post_hook ::= Z.div_mod_to_equations.

Lemma file_item_bytes f : bytes_of (file_item f) = file_bytes f.
Proof. unfold file_item, file_bytes, head_items. change (bytes_of (ISet (lit "file[]") ?x)) with (bytes_of_all x). cbn [app]. rewrite !bytes_of_all_cons. cbn [bytes_of plain_bytes]. change (bytes_of_all []) with (@nil Z). rewrite app_nil_r. reflexivity. Qed.
Lemma pak_bytes l : bytes_of_all (pak_items l) = pak l.
Proof. unfold pak_items, pak. rewrite bytes_of_all_cons. cbn [bytes_of plain_bytes]. f_equal. induction l as [|f l IH]; [reflexivity|]. cbn [map flat_map]. rewrite bytes_of_all_cons, file_item_bytes, IH. reflexivity. Qed.
Lemma file_len f : named f -> 60 <= zlen (file_bytes f).
Proof. intros [K _]. unfold file_bytes. rewrite !zlen_app, zlen_uint, K. pose proof (zlen_nonneg (f_data f)). lia. Qed.
Lemma single l : flat_map (fun f => [file_item f]) l = map file_item l.
Proof. induction l as [|f l IH]; [reflexivity|]. cbn [flat_map map app]. rewrite IH. reflexivity. Qed.

Section Read.
Context (read : read_fun) (data : list Z) (Hs : serves read data) (Hb : is_bytes data).
Notation obeys := (obeys read data).
(** The name and the size of a file, that may be empty *)
Lemma head_obeys f stop p : named f -> zlen (f_data f) < 2 ^ 32 -> obeys stop p entry_fields (head_items f) (emit (lit "data") (KBytes (zlen (f_data f))); PRet).
Proof using Type.
  intros [K _] L. pose proof (zlen_nonneg (f_data f)). unfold entry_fields, head_items. apply (ob_plain read data); [split; [intros X; rewrite X in K; discriminate K|rewrite K; discriminate]|unfold kind_of; rewrite K; reflexivity|].
  apply (ob_plain read data); [split; [discriminate|split; [lia|change (2 ^ (8 * Z.of_nat 4)) with (2 ^ 32); lia]]|reflexivity|]. cbn [plain_val num]. apply ob_nil.
Qed.
Lemma file_obeys f stop p k : file_ok f -> obeys stop p (FileEntry k) [file_item f] k.
Proof using Type.
  intros (K & D & L). unfold FileEntry, file_item. apply ob_open; [|eapply ob_app; [apply head_obeys; assumption|]|apply ob_nil].
  - pose proof (file_len f K) as Q. rewrite <- file_item_bytes in Q. change (bytes_of (file_item f)) with (bytes_of_all (head_items f ++ [I (lit "data") (SBytes (f_data f))])) in Q. lia.
  - apply (ob_plain read data); [split; [exact D|change (2 ^ 32) with 4294967296 in L; change (2 ^ 64) with 18446744073709551616; lia]|reflexivity|apply ob_nil].
Qed.
Lemma loop_pre n ds : forall stop p, Forall file_ok ds -> obeys stop p (loop FileEntry (length ds + n)) (map file_item ds) (loop FileEntry n).
Proof using Type.
  induction ds as [|d ds IH]; intros stop p K; [apply ob_nil|]. inversion K as [|? ? K1 K2]; subst. cbn [length Nat.add loop map]. intros F. assert (B : (stop <=? 8 * p) = false). { destruct F as [_ F]. rewrite bytes_of_all_cons, file_item_bytes, zlen_app in F. destruct K1 as [K1 _]. pose proof (file_len d K1). pose proof (zlen_nonneg (bytes_of_all (map file_item ds))). lia. }
  revert F. apply ob_ask. rewrite B. change (file_item d :: map file_item ds) with ([file_item d] ++ map file_item ds). eapply ob_app; [apply file_obeys; exact K1|]. apply IH. exact K2.
Qed.
Lemma pak_obeys n ds stop : Forall file_ok ds -> obeys stop 0 (emit (lit "magic") (KText 4); loop FileEntry (length ds + n)) (pak_items ds) (loop FileEntry n).
Proof using Type. intros K. unfold pak_items. apply (ob_plain read data); [split; [discriminate|vm_compute; discriminate]|reflexivity|]. apply loop_pre. exact K. Qed.
End Read.
Lemma pak_len l : Forall named l -> 4 + 60 * Z.of_nat (length l) <= zlen (pak l).
Proof. intros K. unfold pak. rewrite zlen_app. change (zlen (lit "PACK")) with 4. induction K as [|f l K1 K2 IH]; [reflexivity|]. cbn [flat_map length]. rewrite zlen_app. pose proof (file_len f K1). lia. Qed.
Lemma ok_named l : Forall file_ok l -> Forall named l.
Proof. apply Forall_impl. intros f [K _]. exact K. Qed.
(** An archive of any number of files that are not empty shows each of them, at its place, with its name, its size and its content. *)
Theorem C90_file : forall read l, let data := pak l in serves read data -> is_bytes data -> Forall file_ok l -> PRSPakFile read (8 * zlen data) = (shows (pak_items l) 0, None, 8 * zlen data).
Proof.
  intros read l data Hs Hb K. pose proof (pak_len l (ok_named l K)) as Ll. fold data in Ll. unfold PRSPakFile, pak_fields. replace (S (Z.to_nat (8 * zlen data))) with (length l + S (Z.to_nat (8 * zlen data) - length l))%nat by lia.
  assert (O : occurs_at (bytes_of_all (pak_items l)) data 0) by (rewrite pak_bytes; apply occ_self). assert (L : 8 * (0 + zlen (bytes_of_all (pak_items l))) <= 8 * zlen data) by (rewrite pak_bytes; fold data; lia).
  pose proof (follow read data Hs Hb _ _ _ _ _ (pak_obeys read data (S (Z.to_nat (8 * zlen data) - length l)) l (8 * zlen data) K (conj O L)) true O L) as R. change (8 * 0) with 0 in R. rewrite R. rewrite pak_bytes. fold data. cbn [loop GenModel.run]. replace (8 * zlen data <=? 8 * (0 + zlen data)) with true by lia. cbn [GenModel.run]. unfold puts. cbn [fst snd]. rewrite app_nil_r, Z.add_0_l. reflexivity.
Qed.
Print Assumptions C90_file.
(** The name of each file, without what fills its place, and its content *)
Definition files_shown (l : list fld) : list (list Z * list Z) :=
  flat_map (fun f => match f with G _ _ _ g _ => match GenModel.get (lit "filename") g, GenModel.get (lit "data") g with Some n, Some d => [(file_name (bytes n), bytes d)] | _, _ => [] end | F _ _ _ _ => [] end) l.
Lemma name_place f : named f -> file_name (place f) = f_name f.
Proof.
  intros (_ & N & E). unfold place. induction (f_name f) as [|b x IH]; cbn [app file_name].
  - destruct E as [->|[x ->]]; reflexivity.
  - replace (b =? 0) with false by (symmetry; apply Z.eqb_neq; intros ->; apply N; left; reflexivity). rewrite IH; [reflexivity|]. intros X. apply N. right. exact X.
Qed.
Lemma files_of l : Forall named l -> forall p, files_shown (shows (map file_item l) p) = map (fun f => (f_name f, f_data f)) l.
Proof.
  induction 1 as [|f l K _ IH]; intros p; [reflexivity|]. cbn [map]. rewrite <- (IH (p + zlen (bytes_of (file_item f)))). rewrite <- (name_place f K). reflexivity.
Qed.
Theorem C90_names : forall read l, let data := pak l in serves read data -> is_bytes data -> Forall file_ok l -> files_shown (fst (fst (PRSPakFile read (8 * zlen data)))) = map (fun f => (f_name f, f_data f)) l.
Proof. intros read l data Hs Hb K. unfold data. rewrite C90_file by assumption. cbn [fst]. exact (files_of l (ok_named l K) 4). Qed.
Print Assumptions C90_names.
(** Any file is shown from its start without hole or overlap, never past its end, and the parser ends. *)
Theorem C90_any : forall read data, serves read data -> ends read data -> is_bytes data -> data <> [] ->
  let '(l, e, b) := PRSPakFile read (8 * zlen data) in tiled 0 l b /\ b <= 8 * zlen data /\ settled_file (l, e, b).
Proof.
  intros read data Hs He Hb Hd. apply (any_file read data Hs Hb He Hd). pose proof (zlen_nonneg data). unfold pak_fields. calm_step. cbn [least]. apply safe_loop; auto; [|lia]. intros m k K. unfold FileEntry, entry_fields. apply safe_open; auto. repeat calm_step.
Qed.
Print Assumptions C90_any.
(** Archives with a file are accepted when the first one has a name; files with other first bytes are refused. *)
Theorem C90_valid : forall read f l, let data := pak (f :: l) in serves read data -> is_bytes data -> Forall file_ok (f :: l) -> pak_validate read (fst (fst (PRSPakFile read (8 * zlen data)))) = Ok (0 <? zlen (f_name f)).
Proof.
  intros read f l data Hs Hb K. unfold data. rewrite C90_file by assumption. cbn [fst]. unfold pak_validate. assert (O : occurs_at (lit "PACK") data 0) by exact (occ_pre [] (lit "PACK") _). pose proof (rb_occ read data Hs 0 _ O ltac:(discriminate)) as R. change (8 * 0) with 0 in R. change (zlen (lit "PACK")) with 4 in R. rewrite R. cbn [bind]. change (negb (str_eqb (lit "PACK") (lit "PACK"))) with false. cbn iota.
  pose proof (zlen_nonneg (f_data f)). inversion K as [|? ? (K1 & _) _]; subst. unfold pak_items, file_item, head_items. cbn. replace (0 <=? zlen (f_data f)) with true by lia. cbn. rewrite name_place by exact K1. reflexivity.
Qed.
Print Assumptions C90_valid.
Theorem C90_refused : forall read data l, serves read data -> 4 <= zlen data -> sub data 0 4 <> lit "PACK" -> pak_validate read l = Ok false.
Proof.
  intros read data l Hs L N. pose proof (occ_sub data 0 4 ltac:(lia) ltac:(lia) ltac:(lia)) as O. assert (Z4 : zlen (sub data 0 4) = 4) by (rewrite zlen_sub_exact; lia). pose proof (rb_occ read data Hs 0 _ O) as R. rewrite Z4 in R. change (8 * 0) with 0 in R. unfold pak_validate. rewrite R by (intros X; rewrite X in Z4; discriminate Z4). cbn [bind]. destruct (str_eqb _ _) eqn:E; [apply str_eqb_eq in E; contradiction|reflexivity].
Qed.
Print Assumptions C90_refused.
(** An archive in which an empty file comes before other files is shown up to that file only: neither it nor any file after it is shown. *)
Theorem C90_empty_refuted : forall read pre f post, let data := pak (pre ++ f :: post) in serves read data -> is_bytes data -> Forall file_ok pre -> named f -> f_data f = [] -> post <> [] -> Forall file_ok post ->
  PRSPakFile read (8 * zlen data) = (shows (pak_items pre) 0, Some ParserError, 8 * zlen (pak pre)).
Proof.
  intros read pre f post data Hs Hb K Kf E Np Kp. assert (Ed : data = pak pre ++ file_bytes f ++ flat_map file_bytes post) by (unfold data, pak; rewrite flat_map_app, <- app_assoc; reflexivity).
  pose proof (pak_len pre (ok_named pre K)) as Ll. assert (P0 : 0 < zlen (flat_map file_bytes post)) by (destruct post as [|g post]; [contradiction|]; inversion Kp as [|? ? (Kg & _) _]; subst; cbn [flat_map]; rewrite zlen_app; pose proof (file_len g Kg); pose proof (zlen_nonneg (flat_map file_bytes post)); lia). pose proof (file_len f Kf) as Lf.
  assert (Ld : zlen data = zlen (pak pre) + zlen (file_bytes f) + zlen (flat_map file_bytes post)) by (rewrite Ed, !zlen_app; lia).
  unfold PRSPakFile, pak_fields. replace (S (Z.to_nat (8 * zlen data))) with (length pre + S (Z.to_nat (8 * zlen data) - length pre))%nat by lia.
  assert (O : occurs_at (bytes_of_all (pak_items pre)) data 0) by (rewrite pak_bytes, Ed; exact (occ_pre [] (pak pre) _)). assert (L : 8 * (0 + zlen (bytes_of_all (pak_items pre))) <= 8 * zlen data) by (rewrite pak_bytes; lia).
  pose proof (follow read data Hs Hb _ _ _ _ _ (pak_obeys read data (S (Z.to_nat (8 * zlen data) - length pre)) pre (8 * zlen data) K (conj O L)) true O L) as R. change (8 * 0) with 0 in R. rewrite R. rewrite pak_bytes, Z.add_0_l. cbn [loop GenModel.run]. replace (8 * zlen data <=? 8 * zlen (pak pre)) with false by lia. unfold FileEntry at 1. cbn [GenModel.run].
  assert (Hh : bytes_of_all (head_items f) = file_bytes f) by (unfold head_items, file_bytes; rewrite !bytes_of_all_cons, E; cbn [bytes_of plain_bytes]; change (bytes_of_all []) with (@nil Z); reflexivity).
  assert (O2 : occurs_at (bytes_of_all (head_items f)) data (zlen (pak pre))) by (rewrite Hh, Ed; apply occ_pre). assert (L2 : 8 * (zlen (pak pre) + zlen (bytes_of_all (head_items f))) <= 8 * zlen data) by (rewrite Hh; lia).
  assert (Hl : zlen (f_data f) < 2 ^ 32) by (rewrite E; reflexivity). pose proof (follow read data Hs Hb _ _ _ _ _ (head_obeys read data f (8 * zlen data) (zlen (pak pre)) Kf Hl (conj O2 L2)) true O2 L2) as R2. rewrite R2, E. change (zlen (@nil Z)) with 0. cbn [GenModel.run fsize Z.ltb Z.compare andb]. unfold puts at 2. cbn [fst snd]. unfold head_items at 1. cbn [shows ItemSpec.show app].
  rewrite Hh. replace (8 * zlen data <=? 8 * (zlen (pak pre) + zlen (file_bytes f))) with false by lia. cbn [negb]. unfold puts. cbn [fst snd]. rewrite app_nil_r. reflexivity.
Qed.
Print Assumptions C90_empty_refuted.

Definition game : list file := [File (lit "gfx/ship.png") (repeat 0 44) [1; 2; 3]; File (lit "music.mod") (0 :: repeat 7 46) [0]].
Example C90_archive : Forall file_ok game /\ zlen (pak game) = 4 + 63 + 61 /\ sub (pak game) 60 8 = [3; 0; 0; 0; 1; 2; 3; 109].
Proof.
  assert (N : forall x, forallb (fun b => negb (b =? 0)) x = true -> ~ In 0 x) by (intros x A I; rewrite forallb_forall in A; specialize (A 0 I); discriminate A).
  split; [|split; vm_compute; reflexivity]. constructor; [|constructor; [|constructor]]; (split; [split; [vm_compute; reflexivity|split; [apply N; vm_compute; reflexivity|right; eexists; reflexivity]]|split; [discriminate|vm_compute; reflexivity]]).
Qed.
(** An archive with an empty file in the middle *)
Example C90_empty : let f := File (lit "empty") (repeat 0 51) [] in named f /\ Forall file_ok [nth 0 game f] /\ Forall file_ok [nth 1 game f].
Proof.
  cbv zeta. pose proof (proj1 C90_archive) as G. inversion G as [|? ? G1 G2]; subst. inversion G2 as [|? ? G3 _]; subst. split; [|split; constructor; auto]. split; [vm_compute; reflexivity|]. split; [cbn; intros X; repeat (destruct X as [X|X]; [discriminate X|]); exact X|right; eexists; reflexivity].
Qed.

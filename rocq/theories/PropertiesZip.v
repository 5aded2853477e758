(** C77: what the ZIP parser shows. *)
From Coq Require Import String.
From Verif Require Import Base BaseProofs BitsModel BitsSpec BitsProofs StreamModel StreamSpec StreamProofs StreamProofs2 DictModel DictProofs NumSpec NumRead ChunkBase GenModel GenSpec GenProofs ItemSpec ItemProofs ItemProofs2 ZipModel ZipSpec ZipProofs Lit.
Open Scope Z_scope.
Ltac Zify.zify_post_hook ::= Z.div_mod_to_equations.

(** For every archive: the fields are the records, each with its header and its fields, where they are, and the bytes between them. *)
Theorem C77_records : forall read rs, let data := bytes_of_all (zip rs) in serves read data -> is_bytes data -> Forall piece_ok rs ->
  ZipFile read (8 * zlen data) = (shows (zip rs) 0, None, 8 * zlen data).
Proof.
  intros read rs data Hs Hb K. unfold ZipFile, zip_fields. apply (obey_file read data Hs Hb); [reflexivity|]. pose proof (length_zip rs). fold data in H.
  apply (ob_loop read data piece_items); [lia|fold (zip rs); fold data; lia|]. intros d p k D. rewrite Forall_forall in K. pose proof (zlen_piece d). split; [lia|]. apply piece_obeys; auto.
Qed.
Print Assumptions C77_records.
Lemma loop_zip read data (Hs : serves read data) (Hb : is_bytes data) : forall xs n p stop, Forall piece_ok xs -> (length xs < n)%nat -> 8 * (p + zlen (bytes_of_all (zip xs))) < stop -> obeys read data stop p (loop zip_record n) (zip xs) (loop zip_record (n - length xs)).
Proof.
  induction xs as [|x xs IH]; intros n p stop K N St; [replace (n - List.length (@nil piece))%nat with n by (cbn; lia); apply ob_nil|]. destruct n as [|n]; [cbn [List.length] in N; lia|]. unfold zip in St |- *. cbn [flat_map] in *. rewrite bytes_of_all_app, zlen_app in St.
    pose proof (zlen_nonneg (bytes_of_all (flat_map piece_items xs))). pose proof (zlen_piece x). cbn [List.length] in *. change (S n - S (List.length xs))%nat with (n - List.length xs)%nat. inversion K as [|? ? K1 K2]; subst. cbn [loop]. apply ob_ask. replace (stop <=? 8 * p) with false by lia.
    eapply ob_app; [apply piece_obeys; auto|]. apply IH; auto; [lia|]. unfold zip. lia.
Qed.
Lemma scan_central read data (Hs : serves read data) (Hb : is_bytes data) p n : occurs_at (uint LITTLE_ENDIAN 4 0x02014B50) data p -> forall a skip ssize, 8 * p = a + skip -> zip_scan read ssize a skip (S n) = Ok [skip; 0x02014B50].
Proof.
  intros O a skip ssize E. cbn [zip_scan]. rewrite <- E. rewrite (read_num read data Hs Hb LITTLE_ENDIAN 4 32 0x02014B50 p) by (auto; try discriminate; lia). reflexivity.
Qed.
(** For every file that starts with the records of an archive, whatever follows: these records are shown first. *)
Theorem C77_prefix : forall read rs rest, let data := bytes_of_all (zip rs) ++ rest in serves read data -> is_bytes data -> Forall piece_ok rs -> rest <> [] ->
  exists r, ZipFile read (8 * zlen data) = puts (shows (zip rs) 0) r.
Proof.
  intros read rs rest data Hs Hb K R0. unfold ZipFile, zip_fields. pose proof (length_zip rs) as L. assert (Zd : zlen data = zlen (bytes_of_all (zip rs)) + zlen rest) by (unfold data; apply zlen_app). pose proof (zlen_pos rest R0).
  assert (O : occurs_at (bytes_of_all (zip rs)) data 0) by (apply (occ_pre [])).
  apply (obey_start read data Hs Hb _ (zip rs) (loop zip_record (S (Z.to_nat (8 * zlen data)) - length rs))); [|exact O]. clear O.
  apply loop_zip; auto; lia.
Qed.
Print Assumptions C77_prefix.
(** Every file: the fields follow each other from the start and end inside the file, and the loops end. *)
Section Ends.
Context (read : read_fun) (data : list Z) (Hs : serves read data) (Hb : is_bytes data) (He : ends read data) (Hd : data <> []).
Notation safe := (safe read data).
Ltac fl := first [ apply safe_fld; try assumption; [first [exact Logic.I|split; [lia|discriminate]]|intros ?] | apply safe_ret ].
Lemma scan_any a : 0 <= a -> forall n skip, 0 <= skip -> 8 * zlen data - (a + skip) < Z.of_nat n -> (1 <= n)%nat ->
  match zip_scan read (8 * zlen data) a skip n with Err e => e <> OutOfFuel | Ok (s :: _) => 0 <= s | Ok [] => True end.
Proof using All.
  intros A. induction n as [|n IH]; intros skip S M N; [lia|]. cbn [zip_scan]. assert (Ov : match (if a =? 0 then Err ParserError else Ok []) : res (list Z) with Err e => e <> OutOfFuel | Ok (s :: _) => 0 <= s | Ok [] => True end) by (destruct (a =? 0); [discriminate|exact Logic.I]).
  destruct (bits_any read data Hs He (a + skip) 32 LITTLE_ENDIAN Hb ltac:(discriminate) ltac:(lia) ltac:(lia)) as [(R & _ & B)|R]; rewrite R; [|exact Ov].
  destruct (CHUNK_TYPES _) as [x|]; [exact S|]. destruct ((a + skip + 8) mod 8 =? 0) eqn:A8; [|rewrite searchBytes_unaligned by lia; discriminate].
  replace (a + skip + 8) with (8 * ((a + skip + 8) / 8)) by lia. destruct (searchBytes_correct read data [0x50; 0x4B] ((a + skip + 8) / 8) None Hs Hd ltac:(discriminate) ltac:(lia)) as [(i & Si & I1 & I2 & I3 & I4)|[Si _]]; rewrite Si; [|exact Ov].
  pose proof (occ_in _ _ _ I3) as [_ I5]. change (zlen [80; 75]) with 2 in I5. apply IH; lia.
Qed.
Lemma extra_safe m k : safe (m - 1) k -> safe m (ExtraField k).
Proof using All. intros K. unfold ExtraField. apply safe_open; auto. repeat calm_step. Qed.
Lemma extras_safe n m : safe m PRet -> forall k, safe (m - 1) k -> safe m (ExtraFields n k).
Proof using All. intros _ k K. unfold ExtraFields. apply safe_set; [|intros _; exact K]. apply safe_loop; [exact extra_safe|]. lia. Qed.
Lemma set_safe nm s body m k : (forall m, safe m body) -> (forall l, safe (m - 1) (k l)) -> safe m (PSet nm (Some s) body k).
Proof using All. intros B K. apply safe_set; [apply B|exact K]. Qed.
Lemma version_safe nm m k : safe (m - 1) k -> safe m (ZipVersion nm k).
Proof using All. intros K. unfold ZipVersion. apply set_safe; [intros; repeat calm_step|intros _; exact K]. Qed.
Lemma common_safe m k : (forall a b c d e f m, safe m (k a b c d e f)) -> safe m (ZipStartCommonFields k).
Proof using All.
  intros K. unfold ZipStartCommonFields. apply version_safe. unfold ZipGeneralFlags. apply set_safe.
  { intros m'. apply safe_peek; auto; [split; [lia|discriminate]|lia|]. intros v. repeat calm_step. }
  intros fl. fl. unfold TimeDateMSDOS32. apply set_safe; [intros; repeat calm_step|]. intros _. do 5 fl. apply K.
Qed.
Lemma desc_safe m : safe m ZipDataDescriptor.
Proof using All. unfold ZipDataDescriptor. repeat fl. Qed.
Lemma flag_safe nm fl m k : (forall b, safe m (k b)) -> safe m (flag nm fl k).
Proof using Type. intros K. unfold flag. destruct (get _ _); [apply K|apply safe_err; discriminate]. Qed.
Lemma when_safe b f m k : (forall m k, safe (m - 1) k -> safe m (f k)) -> (forall m, safe m k) -> safe m (when b f k).
Proof using Type. intros F K. destruct b; cbn [when]; [apply F, K|apply K]. Qed.
Lemma text_safe nm n m k : (forall m, safe m k) -> safe m (PFld nm (KText n) (fun _ => k)).
Proof using All. intros K. fl. apply K. Qed.
Lemma bytes_safe nm n m k : (forall m, safe m k) -> safe m (PFld nm (KBytes n) (fun _ => k)).
Proof using All. intros K. fl. apply K. Qed.
Lemma more_safe m m' p : safe m p -> m' <= m -> safe m' p.
Proof using All. apply safe_more. Qed.
Lemma last_safe fl crc m : safe m (flag "has_descriptor" fl (fun d => when (d && (crc =? 0)) (fun k => PSet (lit "data_desc") (Some 96) ZipDataDescriptor (fun _ => k)) PRet)).
Proof using All. apply flag_safe. intros b. destruct (b && _); cbn [when]; [apply set_safe; [exact desc_safe|intros _; apply safe_ret]|apply safe_ret]. Qed.
Lemma resync_safe method crc m k : (forall m, safe m k) -> safe m (resync method crc k).
Proof using All.
  intros K. unfold resync. apply safe_do. intros stop a A. destruct (a mod 8 =? 0) eqn:A8.
  - replace a with (8 * (a / 8)) by lia. destruct (searchBytesLength_correct read data [0x50; 0x4B; 7; 8] false (a / 8) None Hs Hd ltac:(discriminate) ltac:(lia)) as [(i & -> & I & _)|[-> _]]; cbn [bind]; [|discriminate].
    cbn [num]. destruct (_ <=? 0); [apply safe_err; discriminate|]. do 2 fl. apply set_safe; [exact desc_safe|]. intros l. destruct (crc =? 0); [|apply K]. destruct (get _ _) as [v1|]; [|apply safe_err; discriminate]. destruct (num v1 =? _); [apply K|apply safe_err; discriminate].
  - unfold searchBytesLength, searchBytes. rewrite A8. discriminate.
Qed.
Lemma entry_safe m : safe m FileEntry.
Proof using All.
  unfold FileEntry. apply common_safe. intros fl method crc csize nm extra m'.
  assert (E1 : forall m, safe m (if 0 <? csize then PFld (data_name method) (KBytes csize) (fun _ => flag "has_descriptor" fl (fun d => when (d && (crc =? 0)) (fun k => PSet (lit "data_desc") (Some 96) ZipDataDescriptor (fun _ => k)) PRet))
      else flag "incomplete" fl (fun i => if i then resync method crc (flag "has_descriptor" fl (fun d => when (d && (crc =? 0)) (fun k => PSet (lit "data_desc") (Some 96) ZipDataDescriptor (fun _ => k)) PRet)) else flag "has_descriptor" fl (fun d => when (d && (crc =? 0)) (fun k => PSet (lit "data_desc") (Some 96) ZipDataDescriptor (fun _ => k)) PRet)))).
  { intros m0. destruct (0 <? csize); [apply bytes_safe; intros; apply last_safe|]. apply flag_safe. intros [|]; [|apply last_safe]. apply resync_safe. intros. apply last_safe. }
  assert (E2 : forall m, safe m (when (negb (extra =? 0)) (ExtraFields extra) (if 0 <? csize then PFld (data_name method) (KBytes csize) (fun _ => flag "has_descriptor" fl (fun d => when (d && (crc =? 0)) (fun k => PSet (lit "data_desc") (Some 96) ZipDataDescriptor (fun _ => k)) PRet))
      else flag "incomplete" fl (fun i => if i then resync method crc (flag "has_descriptor" fl (fun d => when (d && (crc =? 0)) (fun k => PSet (lit "data_desc") (Some 96) ZipDataDescriptor (fun _ => k)) PRet)) else flag "has_descriptor" fl (fun d => when (d && (crc =? 0)) (fun k => PSet (lit "data_desc") (Some 96) ZipDataDescriptor (fun _ => k)) PRet))))).
  { intros m0. apply when_safe; [|exact E1]. intros m1 k K. apply extras_safe; [apply safe_ret|exact K]. }
  destruct (negb (nm =? 0)); cbn [when]; [|apply E2]. apply flag_safe. intros _. apply text_safe. exact E2.
Qed.
Lemma fields_safe m h nm s fs : CHUNK_TYPES h = Some (nm, s, fs) -> safe m fs.
Proof using All.
  unfold CHUNK_TYPES. repeat match goal with |- context [if h =? ?v then _ else _] => destruct (h =? v) end; intros E; try discriminate E; apply (f_equal (fun o => match o with Some x => snd x | None => PRet end)) in E; cbn [snd] in E; subst fs; try apply entry_safe; try apply desc_safe.
  - unfold ZipCentralDirectory. apply version_safe. apply common_safe. intros fl method crc csize n extra m'. apply flag_safe. intros _. do 5 fl. apply text_safe. intros m1. apply when_safe.
    + intros m2 k K. apply extras_safe; [apply safe_ret|exact K].
    + intros m2. destruct (0 <? num _); cbn [when]; [apply text_safe; intros; apply safe_ret|apply safe_ret].
  - unfold ZipEndCentralDirectory. repeat fl.
  - unfold Zip64EndCentralDirectory. fl. do 2 apply version_safe. do 6 fl. destruct (0 <? num _); cbn [when]; [apply bytes_safe; intros; apply safe_ret|apply safe_ret].
  - unfold ZipSignature. repeat fl.
  - unfold Zip64EndCentralDirectoryLocator. repeat fl.
Qed.
Lemma record_safe m k : safe (m - 1) k -> safe m (zip_record k).
Proof using All.
  intros K. unfold zip_record. apply safe_do. intros stop a A. pose proof (zlen_nonneg data). pose proof (scan_any a (proj1 A) (S (Z.to_nat (8 * zlen data))) 0 ltac:(lia) ltac:(lia) ltac:(lia)) as Sc.
  destruct (zip_scan read (8 * zlen data) a 0 _) as [[|s [|h r]]|e]; cbn [bind bytes]; try exact Sc; try apply safe_ret.
  assert (Rec : safe m (PFld (lit "header[]") (KNum 32 LE) (fun _ => match CHUNK_TYPES h with Some (name, size, fields) => PSet name size fields (fun _ => k) | None => PErr KeyError end))).
  { fl. cbn [least]. destruct (CHUNK_TYPES h) as [[[nm [s'|]] fs]|] eqn:E; [| |apply safe_err; discriminate]; (first [apply safe_set|apply safe_open]); auto; try (eapply fields_safe; exact E); intros _; eapply more_safe; [exact K|lia|exact K|lia]. }
  destruct (negb _); cbn [when]; [|exact Rec]. fl. eapply more_safe; [exact Rec|]. cbn [least]. lia.
Qed.
End Ends.
Theorem C77_any : forall read data, serves read data -> ends read data -> is_bytes data -> data <> [] ->
  let '(l, e, b) := ZipFile read (8 * zlen data) in tiled 0 l b /\ b <= 8 * zlen data /\ settled_file (l, e, b).
Proof.
  intros read data Hs He Hb Hd. apply (any_file read data Hs Hb He Hd). pose proof (zlen_nonneg data). unfold zip_fields. apply safe_loop; [intros m k; apply record_safe; auto|lia].
Qed.
Print Assumptions C77_any.
(** Archives that start with the header of a file *)
Lemma first_local e x d rs : shows (zip (([], Local e x d) :: rs)) 0 =
  F (lit "header[]") 0 32 (VNum 0x04034B50) :: G (lit "file[]") 32 (8 * zlen (bytes_of_all (record_fields (Local e x d)))) (shows (record_fields (Local e x d)) 4) None :: shows (zip rs) (4 + zlen (bytes_of_all (record_fields (Local e x d)))).
Proof.
  unfold zip. cbn [flat_map piece_items fst snd some_bytes_item app]. unfold record_items. cbn [app]. cbn [shows]. rewrite show_set. cbn [ItemSpec.show le app record_name record_header]. reflexivity.
Qed.
Lemma get_app n l l' : get n (l ++ l') = match get n l with Some v => Some v | None => get n l' end.
Proof. induction l as [|[m a s v|m a s k e] l IH]; cbn [app get]; [reflexivity| |exact IH]. destruct (str_eqb m n); [reflexivity|exact IH]. Qed.
Lemma get_method e p r : get (lit "compression") (shows (entry_items e ++ r) p) = Some (VNum (method e)).
Proof. reflexivity. Qed.
Lemma get_entry n e p r : n = "filename"%string \/ n = "data"%string \/ n = "compressed_data"%string -> get (lit n) (shows (entry_items e ++ r) p) = get (lit n) (shows r (p + zlen (bytes_of_all (entry_items e)))).
Proof. intros N. rewrite shows_app, get_app. destruct N as [->|[->| ->]]; reflexivity. Qed.
Lemma get_name e p r : name e <> [] -> get (lit "filename") (shows (entry_items e ++ some_text_item "filename" (name e) ++ r) p) = Some (VBytes (name e)).
Proof. intros N. rewrite get_entry by auto. destruct (name e) as [|c n]; [contradiction|reflexivity]. Qed.
Lemma get_extras n xs p r : get n (shows (extras_items xs ++ r) p) = get n (shows r (p + zlen (bytes_of_all (extras_items xs)))).
Proof. rewrite shows_app, get_app. destruct xs; reflexivity. Qed.
Lemma get_data n e x d p : n = "data"%string \/ n = "compressed_data"%string ->
  get (lit n) (shows (record_fields (Local e x d)) p) = if str_eqb (lit (if method e =? 0 then "data" else "compressed_data")) (lit n) then match x with [] => None | _ => Some (VBytes x) end else None.
Proof.
  intros N. cbn [record_fields]. rewrite get_entry by tauto. rewrite shows_app, get_app. replace (get (lit n) (shows (some_text_item "filename" (name e)) _)) with (@None val) by (destruct N as [->| ->]; destruct (name e); reflexivity).
  rewrite get_extras, shows_app, get_app. replace (get (lit n) (shows match d with Some d => [ISet (lit "data_desc") (descriptor_items d)] | None => [] end _)) with (@None val) by (destruct d as [[[? ?] ?]|]; reflexivity).
  destruct N as [->| ->]; destruct (method e =? 0), x; reflexivity.
Qed.
(** An archive that starts with the header of a file is accepted exactly when its compression method is one of the old ones. *)
Theorem C77_valid : forall read e x d rs, let data := bytes_of_all (zip (([], Local e x d) :: rs)) in serves read data -> is_bytes data -> Forall piece_ok (([], Local e x d) :: rs) ->
  exists r, zip_validate read (8 * zlen data) = Ok r /\ (r = true <-> In (method e) old_methods).
Proof.
  intros read e x d rs data Hs Hb K. unfold zip_validate. assert (O : occurs_at [0x50; 0x4B; 3; 4] data 0) by (apply (occ_pre [])). change 0 with (8 * 0) at 1. change 4 with (zlen [0x50; 0x4B; 3; 4]) at 1. rewrite (rb_occ read data Hs 0 _ O) by discriminate. cbn [bind].
  change (str_eqb [80; 75; 3; 4] [80; 75; 3; 4]) with true. cbn [negb]. unfold data. rewrite C77_records by assumption. cbn [fst]. rewrite first_local. cbn [get]. change (str_eqb (lit "header[]") (lit "header[]")) with true. cbn iota. cbn [num]. change (67324752 =? 67324752) with true. cbn iota.
  unfold get_set. cbn [find f_name]. change (str_eqb (lit "header[]") (lit "file[]")) with false. cbn iota. change (str_eqb (lit "file[]") (lit "file[]")) with true. cbn iota. cbn [record_fields]. rewrite get_method. cbn [num]. exists (known_method (method e)). split; [reflexivity|].
  unfold known_method, old_methods. cbn [In]. lia.
Qed.
Print Assumptions C77_valid.
(** Archives whose first file is compressed with one of the newer methods are refused (zip.py:24-46, 320-323). *)
Theorem C77_method_refuted : forall read e x d rs, let data := bytes_of_all (zip (([], Local e x d) :: rs)) in serves read data -> is_bytes data -> Forall piece_ok (([], Local e x d) :: rs) ->
  In (method e) new_methods -> zip_validate read (8 * zlen data) = Ok false.
Proof.
  intros read e x d rs data Hs Hb K N. destruct (C77_valid read e x d rs Hs Hb K) as ([|] & R & V); [|exact R]. exfalso. destruct V as [V _]. specialize (V eq_refl). unfold new_methods, old_methods in *. cbn [In] in *. lia.
Qed.
Print Assumptions C77_method_refuted.
(** An archive cut after the first bytes of the header of a file in the central directory: the error is that of a first field that does not fit, and the header is shown. *)
Theorem C77_cut : forall read rs x, let done := bytes_of_all (zip rs) in let data := done ++ uint LITTLE_ENDIAN 4 0x02014B50 ++ x in serves read data -> is_bytes data -> Forall piece_ok rs -> zlen x < 2 ->
  ZipFile read (8 * zlen data) = (shows (zip rs) 0 ++ [F (lit "header[]") (8 * zlen done) 32 (VNum 0x02014B50)], Some ParserError, 8 * (zlen done + 4)).
Proof.
  intros read rs x done data Hs Hb K X. unfold ZipFile, zip_fields. pose proof (length_zip rs) as L. fold done in L. assert (Zd : zlen data = zlen done + (4 + zlen x)) by (unfold data; rewrite !zlen_app, zlen_uint; reflexivity). pose proof (zlen_nonneg x). pose proof (zlen_nonneg done).
  assert (O : occurs_at done data 0) by (apply (occ_pre [])). assert (O2 : occurs_at (uint LITTLE_ENDIAN 4 0x02014B50) data (0 + zlen done)) by (unfold data; apply (occ_pre done)).
  pose proof (loop_zip read data Hs Hb rs (S (Z.to_nat (8 * zlen data))) 0 (8 * zlen data) K ltac:(lia) ltac:(fold done; lia)) as Lp. assert (F : fits data (8 * zlen data) 0 (zip rs)) by (split; [exact O|fold done; lia]).
  pose proof (follow read data Hs Hb _ _ _ _ _ (Lp F) true O ltac:(destruct F; fold done; lia)) as R. change (8 * 0) with 0 in R. rewrite R. clear R Lp. fold done. rewrite Z.add_0_l in *.
  match goal with |- puts _ (run _ _ _ ?f _ _) = _ => generalize f end. intros f. destruct (S (Z.to_nat (8 * zlen data)) - List.length rs)%nat as [|n] eqn:En; [lia|]. cbn [loop run]. replace (8 * zlen data <=? 8 * zlen done) with false by lia.
  unfold zip_record. cbn [run]. rewrite (scan_central read data Hs Hb (zlen done) _ O2 (8 * zlen done) 0) by lia. cbn [bind bytes]. change (0 =? 0) with true. cbn [negb when run].
  change (fsize read (8 * zlen data) (KNum 32 LE) (8 * zlen done)) with (Ok 32). cbn iota. replace (8 * zlen data <? 8 * zlen done + 32) with false by lia. cbn [fval]. rewrite (read_num read data Hs Hb LITTLE_ENDIAN 4 32 0x02014B50 (zlen done)) by (auto; try discriminate; lia). cbn [bind].
  change (CHUNK_TYPES 0x02014B50) with (Some (lit "central_directory[]", @None Z, ZipCentralDirectory)). cbn [run]. unfold ZipCentralDirectory, ZipVersion. cbn [run]. change (16 <=? 0) with false. cbn iota.
  replace ((8 * zlen data <=? 8 * zlen done + 32) || true && (8 * zlen data <? 8 * zlen done + 32 + 16)) with true by lia. cbn iota. unfold put, puts. cbn [fst snd]. f_equal. lia.
Qed.
Print Assumptions C77_cut.
(** The MIME type of an archive is the contents of its first file when this file is named "mimetype" and is not compressed, as in OpenDocument files. *)
Theorem C77_mime : forall read e x d rs, let data := bytes_of_all (zip (([], Local e x d) :: rs)) in serves read data -> is_bytes data -> Forall piece_ok (([], Local e x d) :: rs) -> name e <> [] ->
  zip_mime read (8 * zlen data) = if str_eqb (name e) (lit "mimetype") then if (method e =? 0) && negb (zlen x =? 0) then Ok x else Err MissingField else Ok (lit "application/zip").
Proof.
  intros read e x d rs data Hs Hb K N. unfold zip_mime, data. rewrite C77_records by assumption. cbn [fst]. rewrite first_local. unfold get_set. cbn [find f_name]. change (str_eqb (lit "header[]") (lit "file[]")) with false. cbn iota. change (str_eqb (lit "file[]") (lit "file[]")) with true. cbn iota.
  rewrite (get_data "data") by auto. cbn [record_fields]. rewrite get_name by exact N. cbn [bytes]. destruct (str_eqb (name e) (lit "mimetype")); [|reflexivity]. destruct (method e =? 0); [|reflexivity]. change (str_eqb (lit "data") (lit "data")) with true. cbn iota.
  destruct x as [|c x]; [reflexivity|]. rewrite zlen_cons. pose proof (zlen_nonneg x). replace (1 + zlen x =? 0) with false by lia. reflexivity.
Qed.
Print Assumptions C77_mime.
(** For every such archive, asking for the suffix of file names raises MissingField: the field "compressed_data" is asked for, and the field of contents that are not
    compressed is named "data" (zip.py:470, 266-275). *)
Theorem C77_suffix_refuted : forall read e x d rs, let data := bytes_of_all (zip (([], Local e x d) :: rs)) in serves read data -> is_bytes data -> Forall piece_ok (([], Local e x d) :: rs) -> name e = lit "mimetype" -> method e = 0 ->
  zip_suffix_mime read (8 * zlen data) = Err MissingField.
Proof.
  intros read e x d rs data Hs Hb K N M. unfold zip_suffix_mime, data. rewrite C77_records by assumption. cbn [fst]. rewrite first_local. unfold get_set. cbn [find f_name]. change (str_eqb (lit "header[]") (lit "file[]")) with false. cbn iota. change (str_eqb (lit "file[]") (lit "file[]")) with true. cbn iota.
  rewrite (get_data "compressed_data") by auto. cbn [record_fields]. rewrite get_name by (rewrite N; discriminate). cbn [bytes]. rewrite N, M. reflexivity.
Qed.
Print Assumptions C77_suffix_refuted.
(** An archive written as a stream: the lengths and the checksum of a file are zero in its header and follow its contents, as the flags say (APPNOTE.TXT, 4.3.9).  The first twelve bytes of the
    contents are then shown as the lengths and the checksum, and no field has the contents (zip.py:308-314). *)
Theorem C77_streamed_refuted : forall read e c s v more, let contents := uint LITTLE_ENDIAN 4 c ++ uint LITTLE_ENDIAN 4 s ++ uint LITTLE_ENDIAN 4 v ++ more in
  let data := bytes_of_all (le 4 "header[]" 0x04034B50 :: entry_items e ++ some_text_item "filename" (name e) ++ extras_items (extras e)) ++ contents in
  serves read data -> is_bytes data -> entry_ok e -> csize e = 0 -> crc e = 0 -> descriptor (flag_bits e) = 1 -> incomplete (flag_bits e) = 0 -> u 32 c -> u 32 s -> u 32 v -> more <> [] ->
  exists l, get_set (lit "file[]") (fst (fst (ZipFile read (8 * zlen data)))) = Some l /\ get (lit "compressed_data") l = None /\ get (lit "data") l = None /\
  exists p, get_set (lit "data_desc") l = Some [F (lit "file_crc32") p 32 (VNum c); F (lit "file_compressed_size") (p + 32) 32 (VNum s); F (lit "file_uncompressed_size") (p + 64) 32 (VNum v)].
Proof.
  intros read e c s v more contents data Hs Hb E Cs Cr Ds Inc C S V M. assert (K : Forall piece_ok [([], Local e [] (Some (c, s, v)))]).
  { apply Forall_cons; [|apply Forall_nil]. split; [cbn; lia|]. split; [intros i (I0 & I1 & _); cbn [fst] in I1; change (zlen [80; 75]) with 2 in I1; change (zlen (@nil Z)) with 0 in I1; lia|]. cbn [snd record_ok]. split; [exact E|]. split; [exact Cs|]. split; [intros _; exact Inc|]. rewrite Ds, Cr. cbn [andb Z.eqb Pos.eqb]. repeat split; try apply C; try apply S; try apply V. }
  assert (D : data = bytes_of_all (zip [([], Local e [] (Some (c, s, v)))]) ++ more).
  { unfold data, contents, zip. cbn [flat_map piece_items fst snd some_bytes_item app]. unfold record_items. cbn [record_fields some_bytes_item app record_header record_name]. rewrite !bytes_of_all_cons. change (bytes_of (ISet (lit "file[]") ?l)) with (bytes_of_all l).
    rewrite !bytes_of_all_app. match goal with |- context [bytes_of_all [ISet (lit "data_desc") ?l]] => change (bytes_of_all [ISet (lit "data_desc") l]) with ((uint LITTLE_ENDIAN 4 c ++ uint LITTLE_ENDIAN 4 s ++ uint LITTLE_ENDIAN 4 v ++ []) ++ []) end.
    change (bytes_of_all []) with (@nil Z). rewrite !app_nil_r, <- !app_assoc. reflexivity. }
  destruct (C77_prefix read [([], Local e [] (Some (c, s, v)))] more) as [r R]; [rewrite <- D; exact Hs|rewrite <- D; exact Hb|exact K|exact M|]. rewrite <- D in R. rewrite R, first_local. unfold puts. cbn [fst].
  unfold get_set at 1. cbn [app find f_name]. change (str_eqb (lit "header[]") (lit "file[]")) with false. cbn iota. change (str_eqb (lit "file[]") (lit "file[]")) with true. cbn iota. eexists. split; [reflexivity|].
  rewrite (get_data "compressed_data"), (get_data "data") by auto. split; [destruct (str_eqb _ _); reflexivity|]. split; [destruct (str_eqb _ _); reflexivity|].
  cbn [record_fields some_bytes_item app]. exists (8 * (4 + zlen (bytes_of_all (entry_items e)) + zlen (bytes_of_all (some_text_item "filename" (name e))) + zlen (bytes_of_all (extras_items (extras e))))).
  rewrite !shows_app. rewrite !app_assoc. set (q := 4 + _ + _ + _). unfold get_set.
  match goal with |- match find ?f (?l ++ ?m) with _ => _ end = _ => assert (Nf : forall x, In x l -> f x = false) end.
  { intros y Y. apply in_app_or in Y as [Y|Y]; [apply in_app_or in Y as [Y|Y]|].
    - unfold entry_items, version_item, flags_item, date_item, le in Y. cbn [shows ItemSpec.show app In] in Y. repeat (destruct Y as [<-|Y]; [reflexivity|]). contradiction.
    - destruct (name e); [contradiction|]. cbn [some_text_item shows ItemSpec.show app In] in Y. destruct Y as [<-|[]]. reflexivity.
    - destruct (extras e); [contradiction|]. cbn [extras_items shows] in Y. rewrite show_set in Y. cbn [app In] in Y. destruct Y as [<-|[]]. reflexivity. }
  match goal with |- match find ?f (?l ++ ?m) with _ => _ end = _ => replace (find f (l ++ m)) with (find f m) end.
  2: { symmetry. clear - Nf. match type of Nf with forall x, In x ?l -> _ => generalize dependent l end. intros l N. induction l as [|y l IH]; [reflexivity|]. cbn [app find]. rewrite (N y) by (left; reflexivity). apply IH. intros z Z1. apply N. right. exact Z1. }
  cbn [shows]. rewrite show_set. cbn [app find f_name]. change (str_eqb (lit "data_desc") (lit "data_desc")) with true. cbn iota. f_equal. unfold descriptor_items, le. cbn [shows ItemSpec.show app plain_val plain_bytes]. unfold len. cbn [bytes_of plain_bytes]. rewrite !zlen_uint. change (8 * Z.of_nat 4) with 32. change (Z.of_nat 4) with 4. replace (8 * (q + 4)) with (8 * q + 32) by lia. replace (8 * (q + 4 + 4)) with (8 * q + 64) by lia. reflexivity.
Qed.
Print Assumptions C77_streamed_refuted.
(** The size of the contents is that of the archive without its comment, when the bytes PK\5\6 are not found before the last record. *)
Theorem C77_content_size : forall read rs n1 n2 n3 n4 s o comment, let last := ([], End n1 n2 n3 n4 s o comment) in let data := bytes_of_all (zip (rs ++ [last])) in
  serves read data -> is_bytes data -> zlen (bytes_of_all (zip rs)) + 4 <= 1000 * 1024 * 1024 -> (forall i, 0 <= i < zlen (bytes_of_all (zip rs)) -> ~ occurs_at [0x50; 0x4B; 5; 6] data i) ->
  zip_content_size read (8 * zlen data) = Ok (Some (8 * (zlen data - zlen comment))).
Proof.
  intros read rs n1 n2 n3 n4 s o comment last data Hs Hb L N.
  assert (E : data = bytes_of_all (zip rs) ++ bytes_of_all (piece_items last)) by (unfold data, zip; rewrite flat_map_app, bytes_of_all_app; cbn [flat_map]; rewrite app_nil_r; reflexivity).
  assert (Z1 : zlen (bytes_of_all (piece_items last)) = 22 + zlen comment).
  { unfold last, piece_items. cbn [fst snd some_bytes_item app]. unfold record_items. rewrite !bytes_of_all_cons. cbn [record_fields]. rewrite !zlen_app. match goal with |- context [bytes_of (ISet ?n ?l)] => change (bytes_of (ISet n l)) with (bytes_of_all l) end. rewrite !bytes_of_all_cons, !zlen_app. cbn [bytes_of le plain_bytes]. rewrite !zlen_app, !zlen_uint. change (zlen (bytes_of_all [])) with 0. lia. }
  assert (O : occurs_at [0x50; 0x4B; 5; 6] data (zlen (bytes_of_all (zip rs)))).
  { rewrite E. pose proof (occ_pre (bytes_of_all (zip rs)) (bytes_of_all (piece_items last)) []) as O. rewrite app_nil_r in O. change (bytes_of_all (piece_items last)) with ([0x50; 0x4B; 5; 6] ++ bytes_of_all [ISet (lit "end_central_directory") (record_fields (End n1 n2 n3 n4 s o comment))]) in O at 1. apply occ_app in O as [O _]. exact O. }
  assert (Zd : zlen data = zlen (bytes_of_all (zip rs)) + 22 + zlen comment) by (rewrite E, zlen_app; lia). pose proof (zlen_nonneg (bytes_of_all (zip rs))). pose proof (zlen_nonneg comment).
  unfold zip_content_size. change 0 with (8 * 0) at 1.
  destruct (searchBytes_correct read data [0x50; 0x4B; 5; 6] 0 (Some (1000 * 1024 * 1024 * 8)) Hs ltac:(intros D; rewrite D in Zd; change (zlen (@nil Z)) with 0 in Zd; lia) ltac:(discriminate) ltac:(lia)) as [(i & Si & I1 & I2 & I3 & I4)|[_ Nf]].
  - rewrite Si. cbn [bind]. do 2 f_equal. assert (i = zlen (bytes_of_all (zip rs))); [|lia]. destruct (Z.lt_trichotomy i (zlen (bytes_of_all (zip rs)))) as [Lt|[Eq|Gt]]; [exfalso; apply (N i); auto; lia|exact Eq|exfalso; apply (I4 (zlen (bytes_of_all (zip rs)))); [lia|exact O]].
  - exfalso. apply (Nf (zlen (bytes_of_all (zip rs)))). split; [lia|]. split; [change (zlen [80; 75; 5; 6]) with 4; unfold search_limit; lia|]. split; [exact O|intros j J; apply N; lia].
Qed.
Print Assumptions C77_content_size.
(** For every archive with a comment, the size of the contents is less than that of the archive: the comment is not counted (zip.py:475-481). *)
Theorem C77_comment_refuted : forall read rs n1 n2 n3 n4 s o comment, let last := ([], End n1 n2 n3 n4 s o comment) in let data := bytes_of_all (zip (rs ++ [last])) in
  serves read data -> is_bytes data -> zlen (bytes_of_all (zip rs)) + 4 <= 1000 * 1024 * 1024 -> (forall i, 0 <= i < zlen (bytes_of_all (zip rs)) -> ~ occurs_at [0x50; 0x4B; 5; 6] data i) -> comment <> [] ->
  exists n, zip_content_size read (8 * zlen data) = Ok (Some n) /\ n < 8 * zlen data.
Proof.
  intros read rs n1 n2 n3 n4 s o comment last data Hs Hb L N C. eexists. split; [apply C77_content_size; assumption|]. pose proof (zlen_pos comment C). fold last. fold data. lia.
Qed.
Print Assumptions C77_comment_refuted.

(** Concrete archives *)
Definition no_flags : flags := Flags 0 (0, 0) 0 0 0 0 0 0 0 0 0.
Definition a_date : date := Date 15 30 16 17 11 46.
Definition entry_of (m : Z) (nm : list Z) (x : list Z) (xs : list extra) : entry := Entry (20, 0) no_flags m a_date 0x12345678 (zlen x) 99 nm xs.
Definition a_zip : list piece :=
  [([], Local (entry_of 0 (lit "mimetype") (lit "image/x") []) (lit "image/x") None); ([1; 2; 0x50], Local (entry_of 8 (lit "b") [7; 8; 9] [(1, [5; 6]); (2, [])]) [7; 8; 9] None);
   ([], Local (Entry (20, 0) (Flags 1 (1, 0) 1 0 0 0 0 1 0 0 0) 6 a_date 0 1 1 (lit "c") []) [3] (Some (4, 5, 6)));
   ([], Central (20, 3) (entry_of 8 (lit "b") [7; 8; 9] []) 0 1 2 40 (lit "remark")); ([], Locator 1 2 3); ([], Signature [1]); ([], End 0 0 3 3 4 5 (lit "bye"))].
Definition shown_of (l : list Z) : shown := ZipFile (string_read l) (8 * zlen l).
Ltac pieces := repeat apply Forall_cons; try apply Forall_nil.
Lemma no_pk x : forallb (fun i => negb (str_eqb (sub x (Z.of_nat i) 2) [0x50; 0x4B])) (seq 0 (List.length x)) = true -> forall i, ~ occurs_at [0x50; 0x4B] x i.
Proof.
  intros C i (I0 & I1 & E). change (zlen [80; 75]) with 2 in *. rewrite forallb_forall in C. specialize (C (Z.to_nat i)). rewrite in_seq in C. unfold zlen in I1. specialize (C ltac:(lia)). rewrite Z2Nat.id in C by lia. rewrite E in C. discriminate.
Qed.
Lemma all_ok : Forall piece_ok a_zip.
Proof.
  pieces; (split; [cbn; lia|split; [apply no_pk; reflexivity|]]); cbn [snd record_ok];
    repeat split; try (vm_compute; intuition congruence); try (repeat constructor; vm_compute; intuition congruence).
Qed.
Example C77_archive : Forall piece_ok a_zip /\ zlen (bytes_of_all (zip a_zip)) = 241 /\ shown_of (bytes_of_all (zip a_zip)) = (shows (zip a_zip) 0, None, 8 * 241) /\
  zip_validate (string_read (bytes_of_all (zip a_zip))) (8 * 241) = Ok true /\ zip_mime (string_read (bytes_of_all (zip a_zip))) (8 * 241) = Ok (lit "image/x") /\
  zip_suffix_mime (string_read (bytes_of_all (zip a_zip))) (8 * 241) = Err MissingField /\ zip_content_size (string_read (bytes_of_all (zip a_zip))) (8 * 241) = Ok (Some (8 * 238)).
Proof. split; [apply all_ok|]. repeat split; vm_compute; reflexivity. Qed.
Example C77_no_earlier_end : forall i, 0 <= i < zlen (bytes_of_all (zip (removelast a_zip))) -> ~ occurs_at [0x50; 0x4B; 5; 6] (bytes_of_all (zip a_zip)) i.
Proof.
  intros i I (_ & _ & E). change (zlen (bytes_of_all (zip (removelast a_zip)))) with 216 in I. assert (C : forallb (fun i => negb (str_eqb (sub (bytes_of_all (zip a_zip)) (Z.of_nat i) 4) [0x50; 0x4B; 5; 6])) (seq 0 216) = true) by (vm_compute; reflexivity).
  rewrite forallb_forall in C. specialize (C (Z.to_nat i)). rewrite in_seq in C. specialize (C ltac:(lia)). rewrite Z2Nat.id in C by lia. change (zlen [80; 75; 5; 6]) with 4 in E. rewrite E in C. discriminate.
Qed.
(** A file compressed with XZ, and an archive cut after the header of its central directory *)
Definition x_entry : entry := Entry (63, 3) (Flags 0 (0, 0) 0 0 0 0 0 0 0 0 0) 95 a_date 7 4 9 (lit "x") [].
Definition x_zip : list piece := [([], Local x_entry [1; 2; 3; 4] None)].
Example C77_new_method : Forall piece_ok x_zip /\ In (method x_entry) new_methods /\ zip_validate (string_read (bytes_of_all (zip x_zip))) (8 * zlen (bytes_of_all (zip x_zip))) = Ok false /\
  shown_of (bytes_of_all (zip x_zip) ++ uint LITTLE_ENDIAN 4 0x02014B50 ++ [63]) = (shows (zip x_zip) 0 ++ [F (lit "header[]") (8 * 35) 32 (VNum 0x02014B50)], Some ParserError, 8 * 39).
Proof.
  split; [|split; [cbn; tauto|split; vm_compute; reflexivity]]. apply Forall_cons; [|apply Forall_nil]. split; [cbn; lia|]. split; [intros i (I0 & I1 & _); cbn [fst] in I1; change (zlen [80; 75]) with 2 in I1; change (zlen (@nil Z)) with 0 in I1; lia|].
  cbn [snd record_ok]. split; [repeat split; try (vm_compute; intuition congruence); apply Forall_nil|]. split; [reflexivity|]. split; [discriminate|reflexivity].
Qed.
(** A streamed archive: one compressed file of thirteen bytes, and its descriptor after them *)
Definition b_entry : entry := Entry (20, 0) (Flags 0 (0, 0) 1 0 0 0 0 0 0 0 0) 8 a_date 0 0 0 (lit "b") [].
Definition b_head : list Z := bytes_of_all (le 4 "header[]" 0x04034B50 :: entry_items b_entry ++ some_text_item "filename" (name b_entry) ++ extras_items (extras b_entry)).
Definition b_zip : list Z := b_head ++ [1; 0; 0; 0; 2; 0; 0; 0; 3; 0; 0; 0; 9] ++ bytes_of_all (zip [([], Spanning (0x12345678, 13, 20))]).
Example C77_streamed : entry_ok b_entry /\ b_zip = b_head ++ uint LITTLE_ENDIAN 4 1 ++ uint LITTLE_ENDIAN 4 2 ++ uint LITTLE_ENDIAN 4 3 ++ 9 :: bytes_of_all (zip [([], Spanning (0x12345678, 13, 20))]) /\
  map f_name (fst (fst (shown_of b_zip))) = [lit "header[]"; lit "file[]"; lit "unparsed[]"; lit "header[]"; lit "spanning[]"] /\ option_map (map f_name) (get_set (lit "file[]") (fst (fst (shown_of b_zip)))) =
  Some [lit "version_needed"; lit "flags"; lit "compression"; lit "last_mod"; lit "crc32"; lit "compressed_size"; lit "uncompressed_size"; lit "filename_length"; lit "extra_length"; lit "filename"; lit "data_desc"].
Proof. split; [repeat split; try (vm_compute; intuition congruence); apply Forall_nil|]. repeat split; vm_compute; reflexivity. Qed.
(** The end of the central directory of ZIP64 archives: its size is that of what follows the size, 44 bytes and the extensible data (APPNOTE.TXT, 4.3.14.1).  It is taken for the size of the extensible data alone
    (zip.py:228-230): in an archive without extensible data the records that follow are shown as part of this one, or not shown at all. *)
Definition end64 : list Z := bytes_of_all [le 4 "header[]" 0x06064B50; le 8 "zip64_end_size" 44; version_item "version_made_by" (45, 3); version_item "version_needed" (45, 0); le 4 "number_disk" 0; le 4 "number_disk2" 0; le 8 "number_entries" 1; le 8 "number_entries2" 1; le 8 "size" 5; le 8 "offset" 6].
Definition c_zip : list Z := bytes_of_all (zip [([], Local (entry_of 8 (lit "b") [7; 8; 9] []) [7; 8; 9] None)]) ++ end64 ++ bytes_of_all (zip [([], Locator 0 34 1); ([], End 0 0 1 1 5 6 [])]).
Theorem C77_zip64_refuted : zlen end64 = 12 + 44 /\ map f_name (fst (fst (shown_of c_zip))) = [lit "header[]"; lit "file[]"; lit "header[]"; lit "end64_central_directory"] /\
  match nth_error (fst (fst (shown_of c_zip))) 3 with Some (G _ a s l e) => a = 8 * (34 + 4) /\ a + s = 8 * zlen c_zip /\ e = Some StopIteration | _ => False end.
Proof. split; [vm_compute; reflexivity|]. split; [vm_compute; reflexivity|]. vm_compute. repeat split; reflexivity. Qed.
Print Assumptions C77_zip64_refuted.
(** A record of the central directory whose file has no name, as its header may have (4.4.17): the parser raises, and neither this record nor those after it are shown (zip.py:198). *)
Definition d_zip : list piece := [([], Local (entry_of 8 [] [7; 8; 9] []) [7; 8; 9] None); ([], Central (20, 3) (entry_of 8 [] [7; 8; 9] []) 0 0 0 0 []); ([], End 0 0 1 1 4 5 [])].
Theorem C77_noname_refuted : Forall piece_ok [hd ([], Signature []) d_zip] /\ map f_name (fst (fst (shown_of (bytes_of_all (zip d_zip))))) = [lit "header[]"; lit "file[]"; lit "header[]"] /\
  snd (fst (shown_of (bytes_of_all (zip d_zip)))) = Some ParserError.
Proof.
  split; [|split; vm_compute; reflexivity]. apply Forall_cons; [|apply Forall_nil]. split; [cbn; lia|split; [apply no_pk; reflexivity|]]. repeat split; try (vm_compute; intuition congruence). apply Forall_nil.
Qed.
Print Assumptions C77_noname_refuted.

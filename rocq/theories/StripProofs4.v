From Coq Require Import String.
From Verif Require Import Base BaseProofs BitsModel BitsSpec BitsProofs StreamModel StreamSpec StreamProofs DictModel DictProofs Lit OutputModel OutputProofs
  EditModel EditSpec EditProofs EditProofs2 EditProofs3 EditProofs4 EditProofs5 EditProofs6 ValueProofs StripModel StripSpec StripProofs StripProofs2 StripProofs3.
Open Scope Z_scope.
Ltac Zify.zify_post_hook ::= Z.div_mod_to_equations.

Section File.
Context (data : list Z) (Hd : is_bytes data) (input : read_fun) (Hs : serves input data).
Notation holds := (holds data input).
Notation set_ok := (set_ok data).
Notation elays := (elays data input).
Notation bytes := (flat_map chunk_bytes).

Lemma stored_orig a b : stored_at data a b -> orig_bytes data a (8 * zlen b) = b /\ bytes_range data a (8 * zlen b).
Proof using.
  clear. intros (H1 & H2 & H3 & H4). unfold orig_bytes, bytes_range. pose proof (zlen_nonneg b). replace (8 * zlen b / 8) with (zlen b) by lia. split; [assumption|]. repeat split; lia.
Qed.
(** A part of bytes that are in the file. *)
Lemma stored_part a x y z : stored_at data a (x ++ y ++ z) -> orig_bytes data (a + 8 * zlen x) (8 * zlen y) = y.
Proof using.
  clear. intros (H1 & H2 & H3 & H4). rewrite !zlen_app in *. pose proof (zlen_nonneg x). pose proof (zlen_nonneg y). pose proof (zlen_nonneg z).
  unfold orig_bytes. replace (8 * zlen y / 8) with (zlen y) by lia. replace ((a + 8 * zlen x) / 8) with (a / 8 + zlen x) by lia.
  rewrite <- (sub_sub data (a / 8) (zlen x + (zlen y + zlen z)) (zlen x) (zlen y)) by lia. rewrite H4.
  rewrite sub_app_r by lia. replace (zlen x - zlen x) with 0 by lia. rewrite sub_app_l by lia. apply sub_all.
Qed.
Lemma lays_range c ch : lays data c ch -> stored_at data (i_addr c) (chunk_bytes ch) /\ i_size c = 8 * zlen (chunk_bytes ch) /\ i_name c = ch_name ch.
Proof using. clear. destruct 1; cbn [i_addr i_size i_name ch_name]; auto. Qed.
Lemma lays_ranges l ls : Forall2 (lays data) l ls -> Forall (fun c => bytes_range data (i_addr c) (i_size c)) l.
Proof using.
  clear. induction 1 as [|c ch l ls Hc Hl IH]; constructor; [|assumption]. destruct (lays_range _ _ Hc) as (S1 & S2 & _). rewrite S2. apply stored_orig. assumption.
Qed.
Lemma zlen_le32 v : zlen (le32 v) = 4.
Proof using. reflexivity. Qed.

(** The field set of a list, or of the file. *)
Lemma header_set name a size n1 k1 n2 k2 n3 k3 fields ls x1 x2 x3 :
  let b := x1 ++ x2 ++ x3 ++ bytes ls in
  zlen x1 = 4 -> zlen x2 = 4 -> zlen x3 = 4 -> stored_at data a b -> size = 8 * zlen b ->
  let all := ILeaf n1 k1 a 32 :: ILeaf n2 k2 (a + 32) 32 :: ILeaf n3 k3 (a + 64) 32 :: fields in
  NoDup (map i_name all) -> tiles (a + 96) (8 * zlen (bytes ls)) fields -> Forall2 (lays data) fields ls ->
  set_ok (ISet name LITTLE_ENDIAN a size all) /\
  orig_bytes data a 32 = x1 /\ orig_bytes data (a + 32) 32 = x2 /\ orig_bytes data (a + 64) 32 = x3.
Proof using.
  clear. intros b Z1 Z2 Z3 St -> all ND T F. pose proof St as St'. destruct (stored_orig _ _ St') as [_ R].
  assert (L : zlen b = 12 + zlen (bytes ls)) by (unfold b; rewrite !zlen_app; lia). pose proof (zlen_nonneg (bytes ls)).
  pose proof R as (R1 & R2 & R3 & R4 & R5).
  split.
  - split; [do 5 eexists; reflexivity|]. split; [exact R|]. split; [exact ND|]. cbn [i_addr i_size i_children]. split.
    + unfold all. cbn [tiles i_addr i_size]. split; [reflexivity|]. split; [reflexivity|]. split; [lia|].
      replace (a + 32 + 32 + 32) with (a + 96) by lia. replace (8 * zlen b - 32 - 32 - 32) with (8 * zlen (bytes ls)) by lia. exact T.
    + unfold all. repeat (constructor; [cbn [i_addr i_size]; unfold bytes_range; repeat split; lia|]). apply (lays_ranges _ ls). assumption.
  - split; [|split].
    + pose proof (stored_part a [] x1 (x2 ++ x3 ++ bytes ls) St) as P. rewrite Z1 in P. change (zlen (@nil Z)) with 0 in P. rewrite Z.mul_0_r, Z.add_0_r in P. exact P.
    + pose proof (stored_part a x1 x2 (x3 ++ bytes ls) St) as P. rewrite Z1, Z2 in P. exact P.
    + pose proof (stored_part a (x1 ++ x2) x3 (bytes ls)) as P. rewrite <- app_assoc in P. specialize (P St). rewrite zlen_app, Z1, Z2, Z3 in P. exact P.
Qed.

Lemma lays_elays : forall c ch, lays data c ch -> forall p, set_ok p -> In c (i_children p) -> elays p c (fresh c) ch.
Proof using Hd Hs.
  induction c as [name k a s|name e a s l IH] using inode_ind'; intros ch L p SO Hin.
  - inversion L as [n0 k0 a0 s0 content St Es E1 E2| |]; subst n0 k0 a0 s0 ch. cbn [fresh]. apply el_raw.
    pose proof (fresh_holds data Hd input Hs p _ SO Hin) as H. cbn [i_addr i_size] in H. destruct (stored_orig _ _ St) as [E _].  rewrite Es, E in H. try rewrite <- Es in H. exact H.
  - inversion L as [|n0 e0 a0 s0 tag content pad fields Zt Nt b St Es E1 E2|n0 a0 s0 subtag fields ls Zs b St Es body Zb all ND T F E1 E2]; subst n0 a0 s0 ch; [subst e0|subst e]; subst l.
    + set (c := ISet name e a _ _) in *. apply (el_data data input p name e a s (ILeaf (lit "tag") (KString FFixed 0 []) a 32 :: fields) [] tag content pad a (KString FFixed 0 [])); try assumption; try reflexivity.
      * pose proof (fresh_holds data Hd input Hs p c SO Hin) as H. cbn [c i_addr i_size] in H. destruct (stored_orig _ _ St) as [E _].  rewrite Es, E in H. try rewrite <- Es in H. exact H.
      * pose proof (stored_part a [] tag (le32 (zlen content) ++ content ++ pad) St) as P. rewrite Zt in P. change (zlen (@nil Z)) with 0 in P. rewrite Z.mul_0_r, Z.add_0_r in P.
        unfold orig_bytes in P. change (8 * 4 / 8) with 4 in P. destruct St as (S1 & S2 & S3 & S4). unfold b in S3. cbn [chunk_bytes] in S3. rewrite !zlen_app, Zt, zlen_le32 in S3.
        pose proof (zlen_nonneg content). pose proof (zlen_nonneg pad).
        replace a with (8 * (a / 8)) at 1 by lia. rewrite (readBytes_serves input data) by (assumption || lia). f_equal. exact P.
    + destruct (header_set name a s (lit "tag") (KString FFixed 0 []) (lit "size") (KInt false) (lit "subtag") (KString FFixed 0 []) fields ls (lit "LIST") (le32 (4 + zlen body)) subtag) as (SOc & O1 & O2 & O3); try assumption; try reflexivity.
      apply el_list; try assumption; try reflexivity.
      fold all in SOc. unfold all in IH. do 3 apply Forall_inv_tail in IH.
      set (c := ISet name LITTLE_ENDIAN a s all) in *.
      assert (Hin2 : forall d, In d fields -> In d (i_children c)) by (intros d Hdd; cbn [c i_children all]; right; right; right; assumption).
      change (ISet name LITTLE_ENDIAN a s (list_children a fields)) with c. clearbody c. clear - F IH SOc Hin2.
      induction F as [|d ch fields ls Hdc F IHF]; constructor.
      * unfold the_item. cbn [assoc]. apply (Forall_inv IH); [assumption|assumption|apply Hin2; left; reflexivity].
      * apply IHF; [apply Forall_inv_tail in IH; assumption|intros x Hx; apply Hin2; right; assumption].
Qed.

Lemma not_stripped level k : In k [lit "tag"; lit "size"; lit "subtag"; lit "signature"; lit "filesize"; lit "type"] -> memb k (riff_names level) = false.
Proof using.
  clear. unfold riff_names. intros H. cbn [In] in H.
  destruct (has_level level STRIP_USELESS), (has_level level STRIP_METADATA), (has_level level STRIP_INDEX); repeat (destruct H as [<-|H]; [reflexivity|]); contradiction.
Qed.

Context (level : Z).
Notation strip := (strip_chunk (has_level level STRIP_USELESS) (riff_names level)).
(** Stripping the file, and correcting its size. *)
Lemma root_ok p name fields fs filesize type l :
  let all := ILeaf (lit "signature") (KString FFixed 0 []) 0 32 :: ILeaf (lit "filesize") (KInt false) 32 32 ::
             ILeaf (lit "type") (KString FFixed 0 []) 64 32 :: fields in
  let i := ISet name LITTLE_ENDIAN 0 (8 * zlen data) all in
  let removed := zlen (bytes l) - zlen (bytes (flat_map strip l)) in
  set_ok i -> assoc (lit "signature") fs = None -> assoc (lit "filesize") fs = None -> assoc (lit "type") fs = None ->
  orig_bytes data 0 32 = lit "RIFF" -> orig_bytes data 32 32 = le32 filesize -> orig_bytes data 64 32 = type ->
  0 <= filesize < 2 ^ 32 -> removed <= filesize ->
  Forall2 (fun c ch => elays i c (the_item i fs c) ch) fields l ->
  exists n1 n2, stripSub input level (riff_names level) i (ESet i fs [] []) = Ok (n1, 8 * removed) /\
    (if 8 * removed =? 0 then Ok n1 else decrease input n1 (lit "filesize") (8 * removed / 8)) = Ok n2 /\
    0 <= removed /\ holds p i n2 (riff_bytes (filesize - removed) type (flat_map strip l)).
Proof using Hd Hs.
  intros all i removed SO A1 A2 A3 O1 O2 O3 Hf Hr F2.
  assert (Rn : 0 <= removed) by (pose proof (strip_list_len (has_level level STRIP_USELESS) (riff_names level) l); unfold removed; lia).
  pose (items := Raw (lit "signature") (lit "RIFF") :: Raw (lit "filesize") (le32 filesize) :: Raw (lit "type") type :: l).
  assert (Hin : forall d, In d all -> In d (i_children i)) by (intros; assumption).
  assert (FR : forall nm k x b, In (ILeaf nm k x 32) all -> assoc nm fs = None -> orig_bytes data x 32 = b ->
     elays i (ILeaf nm k x 32) (the_item i fs (ILeaf nm k x 32)) (Raw nm b)).
  { intros nm k x b I A <-. unfold the_item. cbn [i_name]. rewrite A. apply el_raw. exact (fresh_holds data Hd input Hs i _ SO (Hin _ I)). }
  assert (F3 : Forall2 (fun d ch => elays i d (the_item i fs d) ch) (i_children i) items).
  { cbn [i i_children all]. repeat (constructor; [apply FR; try assumption; cbn [all In]; auto|]). assumption. }
  destruct (stripSub_ok data Hd input Hs level (riff_names level) ltac:(intros k Hk; apply not_stripped; cbn [In] in *; tauto) i fs items ltac:(do 5 eexists; reflexivity) SO F3) as (fs' & del & S1 & S2 & S3).
  assert (RK : forall nm b, In nm [lit "signature"; lit "filesize"; lit "type"] -> strip (Raw nm b) = [Raw nm b]).
  { intros nm b Hnm. cbn [strip_chunk]. rewrite not_stripped by (cbn [In] in *; tauto). reflexivity. }
  assert (St : flat_map strip items = Raw (lit "signature") (lit "RIFF") :: Raw (lit "filesize") (le32 filesize) :: Raw (lit "type") type :: flat_map strip l).
  { unfold items. cbn [flat_map]. rewrite !RK by (cbn [In]; auto). reflexivity. }
  assert (Sz : 8 * (zlen (bytes items) - zlen (bytes (flat_map strip items))) = 8 * removed).
  { rewrite St. unfold items, removed. cbn [flat_map chunk_bytes]. rewrite !zlen_app. lia. }
  rewrite Sz in S1.
  unfold items in S2. cbn [i i_children all] in S2. inversion S2 as [|d1 h1 t1 u1 R1 S21]; subst d1 h1 t1 u1. inversion S21 as [|d1 h1 t1 u1 R2 S22]; subst d1 h1 t1 u1. inversion S22 as [|d1 h1 t1 u1 R3 S23]; subst d1 h1 t1 u1.
  clear S2 S21 S22. fold all in R1, R2, R3, S23. fold i in R1, R2, R3, S23.
  rewrite RK in R1, R2, R3 by (cbn [In]; auto).
  destruct R1 as [[_ R1]|[M1 (ch1 & R1 & T1)]]; [discriminate|]. injection R1 as <-. cbn [chunk_bytes] in T1.
  destruct R2 as [[_ R2]|[M2 (ch2 & R2 & T2)]]; [discriminate|]. injection R2 as <-. cbn [chunk_bytes] in T2.
  destruct R3 as [[_ R3]|[M3 (ch3 & R3 & T3)]]; [discriminate|]. injection R3 as <-. cbn [chunk_bytes] in T3.
  cbn [i_name] in M1, M2, M3.
  pose proof SO as (IS & Ra & ND & Ti & Fr).
  assert (Nf : forall d, In d fields -> i_name d <> lit "filesize").
  { cbn [i i_children all map i_name] in ND. apply NoDup_cons_iff in ND as [_ ND]. apply NoDup_cons_iff in ND as [ND _]. intros d Hd0 X. apply ND. right. rewrite <- X. apply in_map. assumption. }
  exists (ESet i fs' del []). unfold riff_bytes.
  destruct (8 * removed =? 0) eqn:Z0.
  - exists (ESet i fs' del []). split; [exact S1|]. split; [reflexivity|]. split; [exact Rn|].
    destruct (left_list data input level (riff_names level) i fs' fs' del fields l (fun _ _ => eq_refl) S23) as (bs & B1 & B2).
    replace (lit "RIFF" ++ le32 (filesize - removed) ++ type ++ bytes (flat_map strip l)) with (List.concat (lit "RIFF" :: le32 filesize :: type :: bs)).
    2: { cbn [List.concat]. rewrite B2. replace (filesize - removed) with filesize by lia. reflexivity. }
    apply set_holds_del; [assumption|assumption|assumption|]. cbn [i i_children all]. repeat (constructor; [right; split; assumption|]). assumption.
  - destruct (decrease_ok data Hd input Hs i fs' del (lit "filesize") 32 filesize (8 * removed / 8) SO eq_refl) as (D1 & D2).
    + right; left; reflexivity.
    + exact M2.
    + apply (S3 (ILeaf (lit "filesize") (KInt false) 32 32)); [right; left; reflexivity|exact I|assumption|exact M2].
    + exact O2.
    + assumption.
    + rewrite (Z.mul_comm 8), Z.div_mul by lia. lia.
    + eexists. split; [exact S1|]. split; [exact D1|]. split; [exact Rn|].
      assert (Ev : filesize - 8 * removed / 8 = filesize - removed) by (rewrite (Z.mul_comm 8), Z.div_mul by lia; lia). rewrite Ev in *.
      set (f := EField _) in *.
      destruct (left_list data input level (riff_names level) i fs' (set_assoc (lit "filesize") f fs') del fields l) as (bs & B1 & B2); [|exact S23|].
      { intros d Hd0. apply assoc_set_other. apply Nf. assumption. }
      replace (lit "RIFF" ++ le32 (filesize - removed) ++ type ++ bytes (flat_map strip l)) with (List.concat (lit "RIFF" :: le32 (filesize - removed) :: type :: bs)).
      2: { cbn [List.concat]. rewrite B2. reflexivity. }
      apply set_holds_del; [assumption|assumption|assumption|]. cbn [i i_children all].
      constructor; [right; split; [assumption|]|constructor; [right; split; [assumption|]|constructor; [right; split; [assumption|]|assumption]]].
      * unfold the_item in *. cbn [i_name] in *. rewrite assoc_set_other by discriminate. assumption.
      * unfold the_item. cbn [i_name]. rewrite assoc_set_same. exact D2.
      * unfold the_item in *. cbn [i_name] in *. rewrite assoc_set_other by discriminate. assumption.
Qed.

(** Writing what the editor holds. *)
Lemma strip_file_ok strip i n size b : strip (createEditor i) = Ok (n, size) -> holds (ISet [] BIG_ENDIAN 0 0 []) i n b ->
  strip_file input strip i = Ok (if size =? 0 then None else Some b).
Proof using.
  clear. intros E (_ & _ & H). unfold strip_file. rewrite E. cbn [bind]. destruct (size =? 0); [reflexivity|].
  destruct (H ostream_init) as (st' & W & _ & O); [split; [constructor|split; reflexivity]|]. unfold writeInto. rewrite W. cbn [bind]. rewrite O. reflexivity.
Qed.
Lemma riff_header filesize type l i : riff_file data filesize type l i ->
  exists name fields, let all := ILeaf (lit "signature") (KString FFixed 0 []) 0 32 :: ILeaf (lit "filesize") (KInt false) 32 32 ::
             ILeaf (lit "type") (KString FFixed 0 []) 64 32 :: fields in
  i = ISet name LITTLE_ENDIAN 0 (8 * zlen data) all /\ set_ok i /\ Forall2 (lays data) fields l /\
  orig_bytes data 0 32 = lit "RIFF" /\ orig_bytes data 32 32 = le32 filesize /\ orig_bytes data 64 32 = type.
Proof using.
  clear. intros (E & Zt & Hf & name & fields & Ei & ND & T & F). exists name, fields. cbv zeta.
  destruct (header_set name 0 (8 * zlen data) (lit "signature") (KString FFixed 0 []) (lit "filesize") (KInt false) (lit "type") (KString FFixed 0 []) fields l (lit "RIFF") (le32 filesize) type) as (S1 & O1 & O2 & O3); try assumption; try reflexivity.
  - change (stored_at data 0 (riff_bytes filesize type l)). rewrite <- E. split; [lia|]. split; [reflexivity|]. split; [lia|]. apply sub_all.
  - rewrite E at 1. reflexivity.
  - rewrite Ei. split; [reflexivity|]. split; [exact S1|]. split; [exact F|]. auto.
Qed.

Lemma riff_plain filesize type l i : riff_file data filesize type l i ->
  (has_level level STRIP_INDEX = true -> field_at i [lit "headers"; lit "avi_hdr"; lit "has_index"] = None) ->
  let removed := zlen (bytes l) - zlen (bytes (flat_map strip l)) in
  removed <= filesize ->
  strip_file input (riff_strip input level) i = Ok (if removed =? 0 then None else Some (riff_bytes (filesize - removed) type (flat_map strip l))).
Proof using Hd Hs.
  intros R Hx removed Hr. pose proof R as (_ & _ & Hf & _). destruct (riff_header _ _ _ _ R) as (name & fields & Ei & SO & F & O1 & O2 & O3). cbv zeta in Ei.
  set (all := ILeaf (lit "signature") _ _ _ :: _) in *.
  assert (F' : Forall2 (fun c ch => elays i c (the_item i [] c) ch) fields l).
  { assert (Hin : forall c, In c fields -> In c (i_children i)) by (intros c Hc; rewrite Ei; cbn [i_children all]; right; right; right; assumption).
    clear - F Hin SO Hd Hs. induction F as [|c ch fields l Hc F IH]; constructor.
    - unfold the_item. cbn [assoc]. apply (lays_elays c ch Hc i SO). apply Hin. left. reflexivity.
    - apply IH. intros x Hxx. apply Hin. right. assumption. }
  rewrite Ei in SO, F'.
  destruct (root_ok (ISet [] BIG_ENDIAN 0 0 []) name fields [] filesize type l SO eq_refl eq_refl eq_refl O1 O2 O3 Hf Hr F') as (n1 & n2 & P1 & P2 & P3 & P4).
  fold removed in P1, P2, P3, P4. fold all in P1, P2, P4. rewrite <- Ei in *.
  rewrite (strip_file_ok (riff_strip input level) i n2 (8 * removed) (riff_bytes (filesize - removed) type (flat_map strip l))); [|unfold riff_strip|exact P4].
  - replace (8 * removed =? 0) with (removed =? 0) by lia. reflexivity.
  - assert (Eg : has_level level STRIP_INDEX = true -> exists e, get_path (createEditor i) [lit "headers"; lit "avi_hdr"; lit "has_index"] = Err e).
    { intros Hl. specialize (Hx Hl). destruct (get_path (createEditor i) _) as [m|e] eqn:G; [|eauto]. exfalso.
      revert G Hx. unfold createEditor. cbn [get_path field_at]. generalize dependent i. clear. intros i.
      assert (Q : forall j k x, get_item (ESet j [] [] []) k = Ok x -> child j k <> None /\ forall c, child j k = Some c -> x = fresh c).
      { intros j k x. cbn [get_item mem existsb assoc]. destruct (child j k); [|discriminate]. intros E. injection E as <-. split; [discriminate|]. intros c E. injection E as <-. reflexivity. }
      destruct (get_item (ESet i [] [] []) (lit "headers")) as [x|] eqn:E1; cbn [bind]; [|discriminate]. destruct (Q _ _ _ E1) as [Q1 Q2].
      destruct (child i (lit "headers")) as [c|]; [|congruence]. rewrite (Q2 c eq_refl).
      destruct (get_item (fresh c) (lit "avi_hdr")) as [y|] eqn:E2; cbn [bind]; [|discriminate]. destruct c as [|n e a s cl]; [discriminate|]. cbn [fresh] in E2.
      destruct (Q _ _ _ E2) as [Q3 Q4]. destruct (child _ (lit "avi_hdr")) as [c|]; [|congruence]. rewrite (Q4 c eq_refl).
      destruct (get_item (fresh c) (lit "has_index")) as [z|] eqn:E3; cbn [bind]; [|discriminate]. destruct c as [|nn2 e2 a2 s2 cl2]; [discriminate|]. cbn [fresh] in E3.
      destruct (Q _ _ _ E3) as [Q5 Q6]. destruct (child _ (lit "has_index")) as [c|]; [|congruence]. discriminate. }
    assert (En : (if has_level level STRIP_INDEX then match get_path (createEditor i) [lit "headers"; lit "avi_hdr"; lit "has_index"] with
             Ok _ => edit_at [lit "headers"; lit "avi_hdr"; lit "has_index"] (assign (VInt 0)) (createEditor i) | Err _ => Ok (createEditor i) end else Ok (createEditor i)) = Ok (createEditor i)).
    { destruct (has_level level STRIP_INDEX); [|reflexivity]. destruct (Eg eq_refl) as (e & ->). reflexivity. }
    rewrite En. cbn [bind]. unfold createEditor. rewrite P1. cbn [bind]. rewrite P2. reflexivity.
Qed.
End File.

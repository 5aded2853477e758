(** Proofs about ZipModel.v. *)
From Coq Require Import String.
From Verif Require Import Base BaseProofs BitsModel BitsSpec BitsProofs StreamModel StreamSpec StreamProofs StreamProofs2 DictModel DictProofs NumSpec NumRead ChunkBase GenModel GenSpec GenProofs ItemSpec ItemProofs ItemProofs2 ZipModel ZipSpec Lit.
Open Scope Z_scope.
Ltac Zify.zify_post_hook ::= Z.div_mod_to_equations.

Lemma val_low n v : u (Z.of_nat n) v -> val_le (low n v) = v.
Proof.
  unfold u, low. assert (G : forall n k w, 0 <= k -> val_le (map (fun i => Z.testbit w (Z.of_nat i)) (seq (Z.to_nat k) n)) = (w / 2 ^ k) mod 2 ^ Z.of_nat n).
  { clear. induction n as [|n IH]; intros k w K; [cbn; rewrite Z.mod_1_r; reflexivity|]. cbn [seq map]. rewrite val_le_cons. replace (S (Z.to_nat k)) with (Z.to_nat (k + 1)) by lia. rewrite IH by lia. rewrite Z2Nat.id by lia.
    rewrite Z.pow_add_r, <- Z.div_div by lia. change (2 ^ 1) with 2. set (x := w / 2 ^ k). assert (T : b2z (Z.testbit w k) = x mod 2). { unfold x. rewrite <- Z.shiftr_div_pow2 by lia. rewrite <- Z.bit0_mod, Z.shiftr_spec by lia. rewrite Z.add_0_l. destruct (Z.testbit w k); reflexivity. }
    rewrite T. rewrite Nat2Z.inj_succ, Z.pow_succ_r by lia. set (P := 2 ^ Z.of_nat n). assert (0 < P) by (apply Z.pow_pos_nonneg; lia). rewrite (Z.rem_mul_r x 2 P) by lia. lia. }
  intros V. specialize (G n 0 v ltac:(lia)). change (Z.to_nat 0) with 0%nat in G. rewrite G. rewrite Z.pow_0_r, Z.div_1_r. apply Z.mod_small, V.
Qed.
Section Read.
Context (read : read_fun) (data : list Z) (Hs : serves read data) (Hb : is_bytes data).
Notation obeys := (obeys read data).
Ltac num_ok := split; [discriminate|split; [lia|first [assumption|lia]]].
Lemma version_obeys stop p nm v k l q : version_ok v -> obeys stop (p + 2) k l q -> obeys stop p (ZipVersion (lit nm) k) (version_item nm v :: l) q.
Proof using Type.
  intros [V1 V2] H. unfold ZipVersion, version_item. apply ob_set; [reflexivity|lia|unfold le; repeat ob|exact H].
Qed.
(** The fields that the program asks for later *)
Definition flags_seen (fl : list fld) (f : flags) : Prop :=
  get (lit "uses_unicode") fl = Some (VNum (unicode f)) /\ get (lit "incomplete") fl = Some (VNum (incomplete f)) /\ get (lit "has_descriptor") fl = Some (VNum (descriptor f)).
Lemma val_of_low n v : u (Z.of_nat n) v -> val_of LITTLE_ENDIAN (low n v) = v.
Proof using Type. apply val_low. Qed.
Lemma flags_obeys stop p m f k l q : u 16 m -> flags_ok f -> (forall fl, flags_seen fl f -> obeys stop (p + 2) (k fl) (le 2 "compression" m :: l) q) -> obeys stop p (ZipGeneralFlags k) (flags_item m f :: le 2 "compression" m :: l) q.
Proof using Hs Hb.
  intros M (K1 & K2 & K3 & K4 & K5 & K6 & K7 & K8 & K9 & K10 & K11 & K12) H. unfold flags_item. set (parts := bits 1 "is_encrypted" _ :: _). intros F. pose proof F as F0. apply fits_cons in F as (O1 & _ & F). apply fits_cons in F as (O2 & _ & _).
  assert (L : len (ISet (lit "flags") [IBits LITTLE_ENDIAN 2 parts]) = 2) by (unfold len; cbn [bytes_of flat_map]; rewrite app_nil_r, zlen_uint; reflexivity). rewrite L in O2. cbn [bytes_of le plain_bytes] in O2.
  assert (L' : zlen (bytes_of_all [IBits LITTLE_ENDIAN 2 parts]) = 2) by exact L.
  refine (ob_set read data _ _ _ 16 _ _ _ _ _ _ _ _ _ F0); [rewrite L'; reflexivity|lia| |].
  - unfold peek. apply (ob_do _ _ _ _ _ _ (VNum m)).
    { intros _. cbn [fsize fval bind andb]. replace (8 * p + 16) with (8 * (p + 2)) by lia. change (0 <=? 16) with true. cbn iota. cbn [bind andb]. rewrite (read_num read data Hs Hb LITTLE_ENDIAN 2 16 m (p + 2)); auto; try discriminate; lia. }
    cbn [num]. unfold parts.
    destruct (m =? 6); [|destruct ((m =? 8) || (m =? 9)); [|destruct (m =? 14)]]; (eapply ob_bits; [discriminate|lia|reflexivity| |apply ob_nil]); cbn [app]; unfold bits; repeat (apply ta_cons; [lia|reflexivity|]); apply ta_nil.
  - rewrite L'. apply H. unfold flags_seen, parts. cbn [shows ItemSpec.show]. rewrite app_nil_r.
    destruct (m =? 6); [|destruct ((m =? 8) || (m =? 9)); [|destruct (m =? 14)]]; cbn [app bits_at_addr bits]; unfold get; cbn [find f_name]; repeat split; cbv [str_eqb lit String.list_ascii_of_string]; cbn -[low val_of]; rewrite val_of_low by assumption; reflexivity.
Qed.
Lemma entry_obeys stop p e k l q : entry_ok e -> (forall fl, flags_seen fl (flag_bits e) -> obeys stop (p + 26) (k fl (method e) (crc e) (csize e) (zlen (name e)) (zlen (bytes_of_all (map extra_item (extras e))))) l q) -> obeys stop p (ZipStartCommonFields k) (entry_items e ++ l) q.
Proof using Hs Hb.
  intros (K1 & K2 & K3 & (D1 & D2 & D3 & D4 & D5 & D6) & K5 & K6 & K7 & K8 & K9 & K10) H. unfold ZipStartCommonFields, entry_items. cbn [app]. apply version_obeys; [exact K1|]. apply flags_obeys; [exact K3|exact K2|]. intros fl S.
  unfold le at 1. ob. unfold TimeDateMSDOS32, date_item. apply ob_set; [reflexivity|lia| |].
  { eapply ob_bits; [discriminate|lia|reflexivity| |apply ob_nil]. unfold bits. repeat (apply ta_cons; [lia|reflexivity|]). apply ta_nil. }
  pose proof (zlen_nonneg (name e)). pose proof (zlen_nonneg (bytes_of_all (map extra_item (extras e)))). unfold le. do 5 ob. specialize (H fl S). cbn [plain_val num].
  match goal with |- ItemProofs2.obeys _ _ _ ?x _ _ _ => replace x with (p + 26) end; [exact H|]. unfold len. cbn [bytes_of plain_bytes]. match goal with |- context [bytes_of_all [IBits ?a ?b ?c]] => change (zlen (bytes_of_all [IBits a b c])) with 4 end. rewrite !zlen_uint. lia.
Qed.
Lemma zlen_extra x : zlen (bytes_of_all [extra_item x]) = 4 + zlen (snd x).
Proof using Type. unfold extra_item, le. sizes. destruct (snd x) as [|y z] eqn:E; cbn [some_bytes_item flat_map bytes_of plain_bytes app]; rewrite ?app_nil_r; [reflexivity|lia]. Qed.
Lemma extras_obeys stop p xs k l q : Forall extra_ok xs -> let n := zlen (bytes_of_all (map extra_item xs)) in obeys stop (p + n) k l q -> obeys stop p (when (negb (n =? 0)) (ExtraFields n) k) (extras_items xs ++ l) q.
Proof using Hs Hb.
  intros K n H. assert (N : Z.of_nat (length xs) <= n).
  { unfold n. clear. induction xs as [|x xs IH]; [cbn; lia|]. cbn [map length]. rewrite bytes_of_all_cons, zlen_app. fold (len (extra_item x)). pose proof (zlen_extra x) as E. rewrite bytes_of_all_cons, app_nil_r in E. unfold len. rewrite E. pose proof (zlen_nonneg (snd x)). lia. }
  destruct xs as [|x xs]; [cbn [extras_items app]; unfold n in *; cbn [map] in *; change (zlen (bytes_of_all [])) with 0 in *; rewrite Z.add_0_r in H; exact H|].
  assert (N0 : 0 < n) by (cbn [length] in N; lia). replace (n =? 0) with false by lia. cbn [negb when extras_items app]. unfold ExtraFields. set (ys := x :: xs) in *. apply ob_set; [unfold n; lia|lia| |exact H]. rewrite <- flat_map_single.
  apply ob_loop; [lia|rewrite flat_map_single; fold n; lia|]. intros d p' k' D. rewrite zlen_extra. pose proof (zlen_nonneg (snd d)). split; [lia|]. rewrite Forall_forall in K. destruct (K d D) as [K1 K2].
  unfold ExtraField, extra_item. set (it := [le 2 "field_id" (fst d); _] ++ _). assert (Li : zlen (bytes_of_all it) = 4 + zlen (snd d)) by (pose proof (zlen_extra d) as E; unfold extra_item in E; rewrite bytes_of_all_cons, app_nil_r in E; exact E).
  apply ob_open; [lia| |apply ob_nil]. unfold it. cbn [app]. unfold le. do 2 ob. cbn [plain_val num]. destruct (snd d) as [|y z] eqn:E; cbn [some_bytes_item]; [apply ob_nil|]. rewrite zlen_cons in *. pose proof (zlen_nonneg z). replace (0 <? 1 + zlen z) with true by lia. cbn [when].
  apply ob_plain; [split; [discriminate|rewrite zlen_cons; lia]|cbn [kind_of]; rewrite zlen_cons; reflexivity|apply ob_nil].
Qed.
Lemma desc_obeys stop p d : desc_ok d -> obeys stop p ZipDataDescriptor (descriptor_items d) PRet.
Proof using Type. destruct d as [[c s] v]. intros (D1 & D2 & D3). unfold ZipDataDescriptor, descriptor_items, le. repeat ob. Qed.
Lemma zlen_desc d : zlen (bytes_of_all (descriptor_items d)) = 12.
Proof using Type. destruct d as [[c s] v]. reflexivity. Qed.
Lemma text_obeys stop p nm x k l q b : zlen x < 2 ^ 16 -> b = negb (zlen x =? 0) -> obeys stop (p + zlen x) k l q -> obeys stop p (when b (fun k => PFld (lit nm) (KText (zlen x)) (fun _ => k)) k) (some_text_item nm x ++ l) q.
Proof using Type.
  intros L -> H. destruct x as [|y x]; cbn [some_text_item app].
  - change (zlen (@nil Z)) with 0 in *. rewrite Z.add_0_r in H. exact H.
  - set (z := y :: x) in *. pose proof (zlen_pos z ltac:(discriminate)). replace (zlen z =? 0) with false by lia. cbn [negb when]. apply ob_plain; [split; [discriminate|lia]|reflexivity|exact H].
Qed.
Definition fields_of (r : record) : prog :=
  match r with Local _ _ _ => FileEntry | Central _ _ _ _ _ _ _ => ZipCentralDirectory | End _ _ _ _ _ _ _ => ZipEndCentralDirectory | Locator _ _ _ => Zip64EndCentralDirectoryLocator | Signature _ => ZipSignature | Spanning _ | Temporary _ => ZipDataDescriptor end.
Definition size_of (r : record) : option Z := match r with Spanning _ | Temporary _ => Some 96 | _ => None end.
Lemma chunk_of r : CHUNK_TYPES (record_header r) = Some (lit (record_name r), size_of r, fields_of r).
Proof using Type. destruct r; reflexivity. Qed.
Lemma fields_obey stop p r : record_ok r -> obeys stop p (fields_of r) (record_fields r) PRet.
Proof using Hs Hb.
  destruct r as [e x d|m e disk internal external offset comment|n1 n2 n3 n4 s o c|n1 o n2|s|d|d]; cbn [record_ok fields_of record_fields].
  - intros (E & Sz & Inc & Ds). unfold FileEntry. apply entry_obeys; [exact E|]. intros fl (F1 & F2 & F3). destruct E as (_ & (B1 & B2 & B3 & B4 & _ & _ & _ & _ & B9 & B10 & _) & _ & _ & _ & V & _ & Ln & Xs & _).
    match goal with |- ItemProofs2.obeys _ _ _ _ (when ?b ?f ?kk) _ _ => replace (when b f kk) with (when b (fun k => PFld (lit "filename") (KText (zlen (name e))) (fun _ => k)) kk) by (destruct b; [cbn [when]; unfold flag; rewrite F1; reflexivity|reflexivity]) end.
    apply text_obeys; [exact Ln|reflexivity|]. apply extras_obeys; [exact Xs|].
    assert (Lst : forall p', obeys stop p' (flag "has_descriptor" fl (fun d => when (d && (crc e =? 0)) (fun k => PSet (lit "data_desc") (Some 96) ZipDataDescriptor (fun _ => k)) PRet)) match d with Some d => [ISet (lit "data_desc") (descriptor_items d)] | None => [] end PRet).
    { intros p'. unfold flag. rewrite F3. cbn [num]. destruct ((descriptor (flag_bits e) =? 1) && (crc e =? 0)).
      - destruct d as [d|]; [|contradiction]. cbn [when]. apply ob_set; [rewrite zlen_desc; reflexivity|lia|apply desc_obeys, Ds|apply ob_nil].
      - subst d. apply ob_nil. }
    rewrite Sz in *. destruct x as [|y x]; cbn [some_bytes_item app].
    + change (0 <? zlen []) with false. cbn iota. unfold flag at 1. rewrite F2, Inc by reflexivity. apply Lst.
    + set (z := y :: x) in *. pose proof (zlen_pos z ltac:(discriminate)). replace (0 <? zlen z) with true by lia. unfold data_name. destruct V as [_ V]. destruct (method e =? 0); (apply ob_plain; [split; [discriminate|lia]|reflexivity|apply Lst]).
  - intros (V & E & Nn & D1 & D2 & D3 & D4 & Lc). unfold ZipCentralDirectory. cbn [app]. apply version_obeys; [exact V|]. apply entry_obeys; [exact E|]. intros fl (F1 & _ & _). unfold flag. rewrite F1. destruct E as (_ & _ & _ & _ & _ & _ & _ & Ln & Xs & _).
    pose proof (zlen_nonneg comment). unfold le. do 5 ob. cbn [plain_val num]. apply ob_plain; [split; [exact Nn|lia]|reflexivity|].
    pose proof (zlen_nonneg (bytes_of_all (map extra_item (extras e)))) as Xn. set (xl := zlen (bytes_of_all (map extra_item (extras e)))) in *. replace (0 <? xl) with (negb (xl =? 0)) by lia. apply extras_obeys; [exact Xs|]. rewrite <- (app_nil_r (some_text_item "comment" comment)). apply text_obeys; [exact Lc|lia|apply ob_nil].
  - intros (D1 & D2 & D3 & D4 & D5 & D6 & Lc). unfold ZipEndCentralDirectory, le. do 6 ob. apply ob_plain; [split; [lia|exact Lc]|reflexivity|apply ob_nil].
  - intros (D1 & D2 & D3). unfold Zip64EndCentralDirectoryLocator, le. repeat ob.
  - intros L. unfold ZipSignature. apply ob_plain; [split; [lia|exact L]|reflexivity|apply ob_nil].
  - apply desc_obeys.
  - apply desc_obeys.
Qed.
Lemma zlen_fields r : 2 <= zlen (bytes_of_all (record_fields r)).
Proof using Type.
  destruct r as [e x d|m e disk internal external offset comment|n1 n2 n3 n4 s o c|n1 o n2|s|d|d]; cbn [record_fields]; try (rewrite zlen_desc; lia).
  - unfold entry_items. cbn [app]. rewrite bytes_of_all_cons, zlen_app. match goal with |- _ <= _ + zlen ?x => pose proof (zlen_nonneg x) end. change (zlen (bytes_of _)) with 2. lia.
  - cbn [app]. rewrite bytes_of_all_cons, zlen_app. match goal with |- _ <= _ + zlen ?x => pose proof (zlen_nonneg x) end. change (zlen (bytes_of _)) with 2. lia.
  - rewrite bytes_of_all_cons, zlen_app. match goal with |- _ <= _ + zlen ?x => pose proof (zlen_nonneg x) end. change (zlen (bytes_of _)) with 2. lia.
  - change (2 <= 16). lia.
  - sizes. pose proof (zlen_nonneg s). lia.
Qed.
Lemma header_range r : 0 <= record_header r < 2 ^ 32.
Proof using Type. destruct r; cbn; lia. Qed.
Lemma chunk_pk b0 b1 b2 b3 : is_bytes [b0; b1; b2; b3] -> (b0, b1) <> (0x50, 0x4B) -> CHUNK_TYPES (b0 + 256 * (b1 + 256 * (b2 + 256 * b3))) = None.
Proof using Type.
  intros B N. assert (R : forall i, 0 <= nth i [b0; b1; b2; b3] 0 < 256). { intros i. destruct (nth_in_or_default i [b0; b1; b2; b3] 0) as [I'| ->]; [|lia]. unfold is_bytes in B. rewrite Forall_forall in B. exact (B _ I'). }
  pose proof (R 0%nat). pose proof (R 1%nat). pose proof (R 2%nat). pose proof (R 3%nat). cbn [nth] in *. set (h := _ + _).
  assert (Hh0 : h mod 256 = b0) by (unfold h; lia). assert (Hh1 : (h / 256) mod 256 = b1) by (unfold h; lia).
  assert (X : forall v, v mod 256 = 0x50 -> (v / 256) mod 256 = 0x4B -> (h =? v) = false). { intros v V0 V1. destruct (h =? v) eqn:E; [|reflexivity]. exfalso. apply N. assert (E' : h = v) by lia. rewrite <- E' in V0, V1. congruence. }
  unfold CHUNK_TYPES. rewrite !X by reflexivity. reflexivity.
Qed.
Lemma header_bytes r : exists y, bytes_of_all (record_items r) = 0x50 :: 0x4B :: y.
Proof using Type. unfold record_items. rewrite bytes_of_all_cons. destruct r; eexists; reflexivity. Qed.
Lemma scan_at p r n : occurs_at (uint LITTLE_ENDIAN 4 (record_header r)) data p -> forall a skip ssize, 8 * p = a + skip -> zip_scan read ssize a skip (S n) = Ok [skip; record_header r].
Proof using Hs Hb.
  intros O a skip ssize E. cbn [zip_scan]. rewrite <- E. rewrite (read_num read data Hs Hb LITTLE_ENDIAN 4 32 (record_header r) p) by (auto; try discriminate; try lia; apply header_range). rewrite chunk_of. reflexivity.
Qed.
Lemma occ_inside b c p k : occurs_at b data p -> occurs_at c data (p + k) -> 0 <= k -> k + zlen c <= zlen b -> occurs_at c b k.
Proof using Type.
  intros (B0 & B1 & B2) (C0 & C1 & C2) K L. split; [exact K|]. split; [exact L|]. rewrite <- B2. pose proof (zlen_nonneg c). rewrite sub_sub by lia. exact C2.
Qed.
Lemma uint4 b0 b1 b2 b3 : is_bytes [b0; b1; b2; b3] -> uint LITTLE_ENDIAN 4 (b0 + 256 * (b1 + 256 * (b2 + 256 * b3))) = [b0; b1; b2; b3] /\ 0 <= b0 + 256 * (b1 + 256 * (b2 + 256 * b3)) < 2 ^ 32.
Proof using Type.
  intros B. assert (R : forall i, 0 <= nth i [b0; b1; b2; b3] 0 < 256). { intros i. destruct (nth_in_or_default i [b0; b1; b2; b3] 0) as [I'| ->]; [|lia]. unfold is_bytes in B. rewrite Forall_forall in B. exact (B _ I'). }
  pose proof (R 0%nat). pose proof (R 1%nat). pose proof (R 2%nat). pose proof (R 3%nat). cbn [nth] in *. split; [|lia]. cbn [uint VarintSpec.le_bytes]. repeat f_equal; lia.
Qed.
Lemma piece_obeys stop p x k : piece_ok x -> obeys stop p (zip_record k) (piece_items x) k.
Proof using All.
  destruct x as [junk r]. intros (J1 & J2 & K). cbn [fst snd] in *. unfold zip_record, piece_items. cbn [fst snd].
  assert (Rec : forall p, obeys stop p (emit (lit "header[]") (KNum 32 LE); match CHUNK_TYPES (record_header r) with Some (name, size, fields) => PSet name size fields (fun _ => k) | None => PErr KeyError end) (record_items r) k).
  { intros p'. unfold record_items, le. apply ob_plain; [split; [discriminate|split; [lia|apply header_range]]|reflexivity|]. rewrite chunk_of. pose proof (zlen_fields r).
    destruct (size_of r) as [s|] eqn:Sz.
    + assert (s = 8 * zlen (bytes_of_all (record_fields r))) by (destruct r; try discriminate Sz; injection Sz as <-; cbn [record_fields]; rewrite zlen_desc; reflexivity). apply ob_set; [assumption|lia|apply fields_obey, K|apply ob_nil].
    + apply ob_open; [lia|apply fields_obey, K|apply ob_nil]. }
  destruct junk as [|j junk].
  - cbn [some_bytes_item app]. apply (ob_do _ _ _ _ _ _ (VBytes [0; record_header r])).
    + intros F. apply fits_cons in F as (O & _ & _). rewrite (scan_at p r _ O) by lia. reflexivity.
    + cbn [bytes]. change (0 =? 0) with true. cbn [negb when]. apply Rec.
  - set (x := j :: junk) in *. pose proof (zlen_pos x ltac:(discriminate)). apply (ob_do _ _ _ _ _ _ (VBytes [8 * zlen x; record_header r])).
    + intros F. apply fits_app in F as (F1 & F2). destruct F1 as [O1 _]. destruct F2 as [O2 St]. destruct (header_bytes r) as [y Y].
      assert (Zx : bytes_of_all (some_bytes_item "unparsed[]" x) = x) by (unfold x, bytes_of_all; cbn [some_bytes_item flat_map bytes_of plain_bytes]; apply app_nil_r). rewrite Zx in *.
      assert (Oh : occurs_at (uint LITTLE_ENDIAN 4 (record_header r)) data (p + zlen x)) by (unfold record_items in O2; rewrite bytes_of_all_cons in O2; apply occ_app in O2 as [O2 _]; exact O2).
      assert (Ox : occurs_at (x ++ bytes_of_all (record_items r)) data p) by (apply occ_app; split; assumption).
      assert (Pk : occurs_at [0x50; 0x4B] data (p + zlen x)) by (rewrite Y in O2; change (80 :: 75 :: y) with ([80; 75] ++ y) in O2; apply occ_app in O2 as [O2 _]; exact O2).
      assert (No : forall i, p <= i < p + zlen x -> ~ occurs_at [0x50; 0x4B] data i).
      { intros i I' Oi. destruct (Z_le_gt_dec (i + 2) (p + zlen x)) as [L|G].
        - apply (J2 (i - p)). apply (occ_inside _ _ p); auto; [replace (p + (i - p)) with i by lia; exact Oi|lia|change (zlen [80; 75]) with 2; lia].
        - assert (i = p + zlen x - 1) by lia. subst i. change [80; 75] with ([80] ++ [75]) in Oi, Pk. apply occ_app in Oi as [_ Oi]. apply occ_app in Pk as [Pk _]. change (zlen [80]) with 1 in Oi. replace (p + zlen x - 1 + 1) with (p + zlen x) in Oi by lia. pose proof (occ_unique _ _ _ _ Oi Pk eq_refl). discriminate. }
      pose proof (occ_in _ _ _ Oh) as [P0 P1]. rewrite zlen_uint in P1. pose proof (occ_in _ _ _ Ox) as [P2 _].
      pose proof (occ_sub data p 4 P2 ltac:(lia) ltac:(lia)) as O4. set (w := sub data p 4) in *. assert (L4 : zlen w = 4) by (unfold w; rewrite zlen_sub_exact; lia).
      destruct w as [|b0 [|b1 [|b2 [|b3 [|b4 w']]]]]; try discriminate L4; [|exfalso; rewrite !zlen_cons in L4; pose proof (zlen_nonneg w'); lia].
      assert (B4 : is_bytes [b0; b1; b2; b3]) by (pose proof O4 as (_ & _ & E4); rewrite <- E4; apply is_bytes_sub, Hb).
      destruct (uint4 b0 b1 b2 b3 B4) as [U4 R4]. set (h := b0 + _) in *. rewrite <- U4 in O4.
      assert (Nh : CHUNK_TYPES h = None).
      { apply chunk_pk; [exact B4|]. intros E. injection E as -> ->. apply (No p ltac:(lia)). rewrite U4 in O4. change [80; 75; b2; b3] with ([80; 75] ++ [b2; b3]) in O4. apply occ_app in O4 as [O4 _]. exact O4. }
      destruct (Z.to_nat (8 * zlen data)) as [|n'] eqn:En; [lia|]. cbn [zip_scan]. rewrite Z.add_0_r. rewrite (read_num read data Hs Hb LITTLE_ENDIAN 4 32 h p) by (auto; try discriminate; lia). rewrite Nh.
      replace (8 * p + 8) with (8 * (p + 1)) by lia.
      destruct (searchBytes_correct read data [0x50; 0x4B] (p + 1) None Hs ltac:(intros D; rewrite D in P1; change (zlen (@nil Z)) with 0 in P1; lia) ltac:(discriminate) ltac:(lia)) as [(i & Si & I1 & I2 & I3 & I4)|[_ Nf]].
      * rewrite Si. assert (i = p + zlen x). { destruct (Z.lt_trichotomy i (p + zlen x)) as [Lt|[Eq|Gt]]; [exfalso; apply (No i); auto; lia|exact Eq|exfalso; apply (I4 (p + zlen x)); [lia|exact Pk]]. }
        subst i. pose proof (scan_at (p + zlen x) r n' Oh (8 * p) (8 * (p + zlen x) - 8 * p) (8 * zlen data) ltac:(lia)) as Sc. cbn [zip_scan] in Sc. rewrite Sc. cbn [bind]. do 3 f_equal. lia.
      * exfalso. apply (Nf (p + zlen x)). split; [lia|]. split; [change (zlen [80; 75]) with 2; unfold search_limit; lia|]. split; [exact Pk|intros j' Jj; apply No; lia].
    + cbn [bytes]. replace (8 * zlen x =? 0) with false by lia. cbn [negb when]. change (some_bytes_item "unparsed[]" x) with [I (lit "unparsed[]") (SBytes x)]. cbn [app]. apply ob_plain; [split; [discriminate|exact J1]|cbn [kind_of]; f_equal; lia|apply Rec].
Qed.
Lemma zlen_record r : 6 <= zlen (bytes_of_all (record_items r)).
Proof using Type. unfold record_items. rewrite !bytes_of_all_cons, app_nil_r, zlen_app. change (bytes_of (ISet (lit (record_name r)) (record_fields r))) with (bytes_of_all (record_fields r)). pose proof (zlen_fields r). change (zlen (bytes_of _)) with 4. lia. Qed.
Lemma zlen_piece x : 6 <= zlen (bytes_of_all (piece_items x)).
Proof using Type. unfold piece_items. rewrite bytes_of_all_app, zlen_app. pose proof (zlen_record (snd x)). pose proof (zlen_nonneg (bytes_of_all (some_bytes_item "unparsed[]" (fst x)))). lia. Qed.
Lemma length_zip rs : Z.of_nat (length rs) <= zlen (bytes_of_all (zip rs)).
Proof using Type. induction rs as [|r rs IH]; [cbn; lia|]. unfold zip in *. cbn [flat_map length]. rewrite bytes_of_all_app, zlen_app. pose proof (zlen_piece r). lia. Qed.
End Read.

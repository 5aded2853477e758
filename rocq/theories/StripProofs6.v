From Coq Require Import String.
From Verif Require Import Base BaseProofs BitsModel BitsSpec BitsProofs StreamModel StreamSpec StreamProofs DictModel DictProofs Lit OutputModel OutputProofs OutputProofs2
  EditModel EditSpec EditProofs EditProofs2 EditProofs3 EditProofs4 EditProofs5 EditProofs6 ValueProofs StripModel StripSpec StripProofs StripProofs2 StripProofs3 StripProofs4 StripProofs5.
Open Scope Z_scope.
Ltac Zify.zify_post_hook ::= Z.div_mod_to_equations.

Lemma clear_bits y : bits_le [Z.land y 0xef] = sub (bits_le [y]) 0 4 ++ spell LITTLE_ENDIAN 1 0 ++ sub (bits_le [y]) 5 3.
Proof.
  cbn [bits_le flat_map map app]. rewrite !Z.land_spec.
  change (Z.testbit 0xef 0) with true. change (Z.testbit 0xef 1) with true. change (Z.testbit 0xef 2) with true. change (Z.testbit 0xef 3) with true.
  change (Z.testbit 0xef 4) with false. change (Z.testbit 0xef 5) with true. change (Z.testbit 0xef 6) with true. change (Z.testbit 0xef 7) with true.
  rewrite !andb_true_r, andb_false_r. reflexivity.
Qed.
Lemma tiles_each l : forall a s, tiles a s l -> Forall (fun c => 0 <= i_size c /\ i_size c mod 8 = 0) l -> a mod 8 = 0 ->
  0 <= s /\ forall c, In c l -> a <= i_addr c /\ i_addr c mod 8 = 0 /\ i_size c mod 8 = 0 /\ 0 <= i_size c /\ i_addr c + i_size c <= a + s.
Proof.
  induction l as [|d l IH]; intros a s T F M.
  - cbn [tiles] in T. split; [lia|intros c []].
  - cbn [tiles] in T. destruct T as [E T]. pose proof (Forall_inv F) as [F1 F2]. apply Forall_inv_tail in F. destruct (IH _ _ T F ltac:(lia)) as [I1 I2]. split; [lia|].
    intros c [<-|Hc]; [lia|]. specialize (I2 c Hc). lia.
Qed.
Lemma zlen_clear content : 13 <= zlen content -> zlen (clear_flag content) = zlen content.
Proof. intros H. unfold clear_flag. rewrite !zlen_app, !zlen_sub_exact by lia. change (zlen [Z.land (nth 12 content 0) 239]) with 1. lia. Qed.
Lemma split13 (content : list Z) : 13 <= zlen content -> content = sub content 0 12 ++ [nth 12 content 0] ++ sub content 13 (zlen content - 13).
Proof.
  intros H. rewrite <- (sub_all content) at 1. replace (zlen content) with (12 + (1 + (zlen content - 13))) at 1 by lia.
  rewrite (sub_app_split content 0 12) by lia. f_equal. rewrite (sub_app_split content 12 1) by lia. f_equal.
  unfold sub. change (Z.to_nat 1) with 1%nat. change (Z.to_nat (0 + 12)) with 12%nat.
  clear - H. do 13 (destruct content as [|? content]; [exfalso; rewrite ?zlen_cons in H; change (zlen (@nil Z)) with 0 in H; lia|]). reflexivity.
Qed.

Section Avi.
Context (data : list Z) (Hd : is_bytes data) (input : read_fun) (Hs : serves input data).
Notation holds := (holds data input).
Notation set_ok := (set_ok data).
Notation elays := (elays data input).
Notation bytes := (flat_map chunk_bytes).
Notation LE := LITTLE_ENDIAN.

Lemma orig_stored a b n m : stored_at data a b -> 0 <= n -> 0 <= m -> n + m <= 8 * zlen b -> orig_bits LE data (a + n) m = sub (bits_le b) n m.
Proof using.
  clear. intros (H1 & H2 & H3 & H4) Hn Hm H. unfold orig_bits. cbn [ebits]. rewrite <- H4 at 1. rewrite bits_le_sub by (pose proof (zlen_nonneg b); lia).
  rewrite sub_sub by lia. f_equal. lia.
Qed.

Definition cleared : enode := EField {| ef_name := lit "has_index"; ef_kind := KBits; ef_size := 1; ef_value := Some (VInt 0); ef_altered := true |}.
Lemma avi_holds p c tag content pad : avi_header c -> i_name c = lit "avi_hdr" ->
  lays data c (Data (lit "avi_hdr") tag content pad) -> 13 <= zlen content ->
  holds p c (ESet c [(lit "has_index", cleared)] [] []) (chunk_bytes (Data (lit "avi_hdr") tag (clear_flag content) pad)).
Proof using Hd Hs.
  intros (a & s & rest & Ec & ND & T & F) _ L Hc.
  destruct (lays_range data _ _ L) as (St & Sz & _). rewrite Ec in St, Sz. cbn [i_addr i_size] in St, Sz.
  set (b := chunk_bytes (Data (lit "avi_hdr") tag content pad)) in *.
  assert (Zt : zlen tag = 4) by (inversion L; assumption).
  pose proof (stored_orig data a b St) as [_ R]. rewrite <- Sz in R. pose proof R as (R1 & R2 & R3 & R4 & R5).
  destruct (tiles_each rest _ _ T F ltac:(lia)) as [S0 S1].
  assert (Es : b = (tag ++ le32 (zlen content) ++ sub content 0 12) ++ [nth 12 content 0] ++ (sub content 13 (zlen content - 13) ++ pad)).
  { unfold b. cbn [chunk_bytes]. rewrite (split13 content Hc) at 2. rewrite <- !app_assoc. reflexivity. }
  assert (Es' : chunk_bytes (Data (lit "avi_hdr") tag (clear_flag content) pad) = (tag ++ le32 (zlen content) ++ sub content 0 12) ++ [Z.land (nth 12 content 0) 0xef] ++ (sub content 13 (zlen content - 13) ++ pad)).
  { cbn [chunk_bytes]. rewrite zlen_clear by assumption. unfold clear_flag. rewrite <- !app_assoc. reflexivity. }
  set (X := tag ++ le32 (zlen content) ++ sub content 0 12) in *. set (Y := nth 12 content 0) in *. set (Zz := sub content 13 (zlen content - 13) ++ pad) in *.
  assert (ZX : zlen X = 20) by (unfold X; rewrite !zlen_app, Zt, zlen_le32, zlen_sub_exact by lia; lia).
  assert (Zb : zlen b = 21 + zlen Zz) by (rewrite Es, !zlen_app, ZX; change (zlen [Y]) with 1; lia). pose proof (zlen_nonneg Zz).
  assert (Bb : is_bytes b). { destruct St as (_ & _ & _ & <-). apply is_bytes_sub. assumption. }
  rewrite Es in Bb. apply is_bytes_app in Bb. destruct Bb as [BX Bb]. apply is_bytes_app in Bb. destruct Bb as [BY BZ].
  rewrite Es'. rewrite Ec.
  pose (l1 := [ILeaf (lit "tag") (KString FFixed 0 []) a 32; ILeaf (lit "size") (KInt false) (a + 32) 32;
   ILeaf (lit "microsec_per_frame") (KInt false) (a + 64) 32; ILeaf (lit "max_byte_per_sec") (KInt false) (a + 96) 32;
   ILeaf (lit "reserved") KFake (a + 128) 32; ILeaf (lit "reserved[0]") KFake (a + 160) 4]).
  pose (l2 := [ILeaf (lit "must_use_index") KBits (a + 165) 1; ILeaf (lit "reserved[1]") KFake (a + 166) 2;
   ILeaf (lit "is_interleaved") KBits (a + 168) 1; ILeaf (lit "reserved[2]") KFake (a + 169) 2;
   ILeaf (lit "trust_cktype") KBits (a + 171) 1; ILeaf (lit "reserved[3]") KFake (a + 172) 4;
   ILeaf (lit "was_capture_file") KBits (a + 176) 1; ILeaf (lit "is_copyrighted") KBits (a + 177) 1;
   ILeaf (lit "reserved[4]") KFake (a + 178) 14] ++ rest).
  apply (bit_edit_holds data Hd input Hs p (ISet (lit "avi_hdr") LE a s (avi_fields a rest)) l1 l2 (lit "has_index") (a + 164) 1 0).
  - reflexivity.
  - do 5 eexists; reflexivity.
  - reflexivity.
  - exact ND.
  - exact R.
  - cbn [i_addr i_size i_children avi_fields app tiles]. repeat (split; [lia|]).
    replace (a + 32 + 32 + 32 + 32 + 32 + 4 + 1 + 1 + 2 + 1 + 2 + 1 + 4 + 1 + 1 + 14) with (a + 192) by lia.
    replace (s - 32 - 32 - 32 - 32 - 32 - 4 - 1 - 1 - 2 - 1 - 2 - 1 - 4 - 1 - 1 - 14) with (s - 192) by lia. exact T.
  - assert (EL : forall nm k x n, (x mod 8 = 0 /\ n mod 8 = 0 \/ x mod 8 <> 0 \/ n mod 8 <> 0) -> 1 <= n <= 256 -> a <= x -> x + n <= a + 192 -> easy data (ILeaf nm k x n)).
    { intros nm k x n H0 H1 H2 H3. split; [unfold bits_range; cbn [i_addr i_size]; lia|]. cbn [i_addr i_size is_leaf]. lia. }
    intros d [Hin|Hin].
    + unfold l1 in Hin. cbn [In] in Hin. repeat (destruct Hin as [<-|Hin]; [apply EL; lia|]). contradiction.
    + unfold l2 in Hin. apply in_app_or in Hin as [Hin|Hin].
      * cbn [In] in Hin. repeat (destruct Hin as [<-|Hin]; [apply EL; lia|]). contradiction.
      * specialize (S1 d Hin). split; [unfold bits_range; lia|left; lia].
  - lia.
  - cbn; lia.
  - apply is_bytes_app. split; [assumption|]. apply is_bytes_app. split; [|assumption]. constructor; [|constructor].
    pose proof (Forall_inv BY) as B. unfold is_byte in *. pose proof (Z.land_nonneg Y 0xef). 
    assert (E : Z.land Y 0xef = Z.land Y 0xef mod 2 ^ 8).
    { rewrite <- Z.land_ones by lia. rewrite <- Z.land_assoc. reflexivity. }
    change (2 ^ 8) with 256 in E. rewrite E. lia.
  - cbn [i_addr i_size ebits]. replace (a + 164 - a) with 164 by lia. replace (a + s - (a + 164 + 1)) with (s - 165) by lia. replace (a + 164 + 1) with (a + 165) by lia.
    replace (orig_bits LE data a 164) with (sub (bits_le b) 0 164) by (rewrite <- (orig_stored a b 0 164 St) by lia; f_equal; lia).
    rewrite (orig_stored a b 165 (s - 165) St) by lia. rewrite Es, !bits_le_app, clear_bits.
    assert (LX : zlen (bits_le X) = 160) by (rewrite zlen_bits_le; lia). assert (LY : zlen (bits_le [Y]) = 8) by reflexivity. assert (LZ : zlen (bits_le Zz) = 8 * zlen Zz) by apply zlen_bits_le.
    replace (sub (bits_le X ++ bits_le [Y] ++ bits_le Zz) 0 164) with (bits_le X ++ sub (bits_le [Y]) 0 4).
    2: { change 164 with (160 + 4). rewrite sub_app_split by lia. f_equal.
         - rewrite sub_app_l by lia. rewrite <- LX. symmetry. apply sub_all.
         - rewrite sub_app_r by lia. rewrite sub_app_l by lia. f_equal. lia. }
    replace (sub (bits_le X ++ bits_le [Y] ++ bits_le Zz) 165 (s - 165)) with (sub (bits_le [Y]) 5 3 ++ bits_le Zz).
    2: { rewrite sub_app_r by lia. replace (s - 165) with (3 + zlen (bits_le Zz)) by lia. replace (165 - zlen (bits_le X)) with 5 by lia. rewrite sub_app_split by (pose proof (zlen_nonneg (bits_le Zz)); lia). f_equal.
         rewrite sub_app_r by lia. replace (5 + 3 - zlen (bits_le [Y])) with 0 by lia. symmetry. apply sub_all. }
    rewrite <- !app_assoc. reflexivity.
Qed.

Context (level : Z).
Notation strip := (strip_chunk (has_level level STRIP_USELESS) (riff_names level)).

Lemma nodup_mid {A} (f : A -> str) l1 x l2 : NoDup (map f (l1 ++ x :: l2)) -> forall y, In y (l1 ++ l2) -> f y <> f x.
Proof using.
  clear. intros H y Hy E. rewrite map_app in H. cbn [map] in H. apply NoDup_remove_2 in H. apply H. rewrite <- map_app, <- E. apply in_map. assumption.
Qed.
Lemma child_mid i l1 c l2 : i_children i = l1 ++ c :: l2 -> NoDup (map i_name (i_children i)) -> child i (i_name c) = Some c.
Proof using. clear. intros E ND. apply find_child_in; [assumption|]. rewrite E. apply in_elt. Qed.
Lemma fresh_others i nm x fields l : set_ok i -> (forall c, In c fields -> In c (i_children i) /\ i_name c <> nm) -> Forall2 (lays data) fields l ->
  Forall2 (fun c ch => elays i c (the_item i [(nm, x)] c) ch) fields l.
Proof using Hd Hs.
  intros SO Hin F. induction F as [|c ch fields l Hc F IH]; constructor.
  - destruct (Hin c (or_introl eq_refl)) as [I1 I2]. unfold the_item. cbn [assoc]. apply not_eq_sym, str_eqb_neq in I2. rewrite I2. apply (lays_elays data Hd input Hs c ch Hc i SO I1).
  - apply IH. intros y Hy. apply Hin. right. assumption.
Qed.
Lemma the_item_this i nm x c : i_name c = nm -> the_item i [(nm, x)] c = x.
Proof using. clear. intros <-. unfold the_item. cbn [assoc]. rewrite str_eqb_refl. reflexivity. Qed.

Lemma map_others (f : chunk -> chunk) l : (forall c, In c l -> f c = c) -> map f l = l.
Proof using. clear. induction l as [|c l IH]; intros H; [reflexivity|]. cbn [map]. rewrite (H c (or_introl eq_refl)), IH; [reflexivity|]. intros x Hx. apply H. right. assumption. Qed.
Lemma forall2_names fields l : Forall2 (lays data) fields l -> map i_name fields = map ch_name l.
Proof using. clear. induction 1 as [|c ch fields l Hc F IH]; [reflexivity|]. cbn [map]. rewrite IH. f_equal. apply (lays_range data _ _ Hc). Qed.
Lemma avih_other c : ch_name c <> lit "avi_hdr" -> clear_avih c = c.
Proof using. clear. destruct c; cbn [ch_name clear_avih]; try reflexivity. intros H. apply str_eqb_neq in H. rewrite H. reflexivity. Qed.
Lemma index_other c : ch_name c <> lit "headers" -> clear_index c = c.
Proof using. clear. destruct c; cbn [ch_name clear_index]; try reflexivity. intros H. apply str_eqb_neq in H. rewrite H. reflexivity. Qed.

Lemma cons_inv {A B} (P : A -> B -> Prop) l y m : Forall2 P l (y :: m) -> exists x k, l = x :: k /\ P x y /\ Forall2 P k m.
Proof using. clear. inversion 1; subst; eauto. Qed.
Lemma list_inv c name subtag l : lays data c (Lst name subtag l) ->
  exists a s fields, let b := chunk_bytes (Lst name subtag l) in let body := bytes l in
  let all := ILeaf (lit "tag") (KString FFixed 0 []) a 32 :: ILeaf (lit "size") (KInt false) (a + 32) 32 :: ILeaf (lit "subtag") (KString FFixed 0 []) (a + 64) 32 :: fields in
  c = ISet name LE a s all /\ zlen subtag = 4 /\ stored_at data a b /\ s = 8 * zlen b /\ 4 + zlen body < 2 ^ 32 /\ NoDup (map i_name all) /\ tiles (a + 96) (8 * zlen body) fields /\ Forall2 (lays data) fields l.
Proof using. clear. inversion 1; subst. do 3 eexists. cbv zeta. split; [reflexivity|]. auto 10. Qed.
Lemma data_inv name e a s l name' tag content pad : lays data (ISet name e a s l) (Data name' tag content pad) -> zlen tag = 4 /\ tag <> lit "LIST" /\ stored_at data a (chunk_bytes (Data name' tag content pad)).
Proof using. clear. inversion 1; subst. auto. Qed.
Lemma riff_index filesize type l1 subtag h1 tag content pad h2 l2 i ah :
  let l := l1 ++ Lst (lit "headers") subtag (h1 ++ Data (lit "avi_hdr") tag content pad :: h2) :: l2 in
  riff_file data filesize type l i -> has_level level STRIP_INDEX = true ->
  field_at i [lit "headers"; lit "avi_hdr"] = Some ah -> avi_header ah -> 13 <= zlen content ->
  let l' := map clear_index l in
  let removed := zlen (bytes l') - zlen (bytes (flat_map strip l')) in
  removed <= filesize ->
  strip_file input (riff_strip input level) i = Ok (if removed =? 0 then None else Some (riff_bytes (filesize - removed) type (flat_map strip l'))).
Proof using Hd Hs.
  intros l R Hl Fa Ah Hc l' removed Hr. pose proof R as (_ & _ & Hf & _). destruct (riff_header data _ _ _ _ R) as (name & fields & Ei & SO & F & O1 & O2 & O3). cbv zeta in Ei.
  set (all := ILeaf (lit "signature") _ _ _ :: _) in *.
  pose proof SO as (_ & _ & ND & _).
  assert (NDf : NoDup (map i_name fields)). { rewrite Ei in ND. cbn [i_children all map] in ND. do 3 apply NoDup_cons_iff in ND as [_ ND]. exact ND. }
  pose proof (forall2_names _ _ F) as Nm.
  unfold l in F. apply Forall2_app_inv_r in F as (f1 & fh & F1 & F & Ef). apply cons_inv in F as (hd & f2 & -> & Lh & F2).
  set (hl := h1 ++ Data (lit "avi_hdr") tag content pad :: h2) in *.
  destruct (list_inv _ _ _ _ Lh) as (a0 & s0 & hf & Eh & Zs & St & Es & Zb & NDh & Th & Fh). symmetry in Eh.
  set (hall := ILeaf (lit "tag") _ _ _ :: _) in *. set (body := bytes hl) in *.
  destruct (header_set data (lit "headers") a0 s0 (lit "tag") (KString FFixed 0 []) (lit "size") (KInt false) (lit "subtag") (KString FFixed 0 []) hf hl (lit "LIST") (le32 (4 + zlen body)) subtag) as (SOh & Q1 & Q2 & Q3); try assumption; try reflexivity.
  fold hall in SOh. rewrite Eh in SOh.
  assert (NDhf : NoDup (map i_name hf)). { unfold hall in NDh. cbn [map] in NDh. do 3 apply NoDup_cons_iff in NDh as [_ NDh]. exact NDh. }
  pose proof (forall2_names _ _ Fh) as Nmh.
  pose proof Fh as Fh'. unfold hl in Fh'. apply Forall2_app_inv_r in Fh' as (g1 & gh & G1 & Gx & Eg). apply cons_inv in Gx as (av & g2 & -> & La & G2).
  assert (Na : i_name av = lit "avi_hdr") by apply (lays_range data _ _ La).
  assert (Nh : i_name hd = lit "headers") by (rewrite <- Eh; reflexivity).
  assert (Ch : child i (lit "headers") = Some hd). { rewrite <- Nh. apply (child_mid i (firstn 3 all ++ f1) hd f2); [|assumption]. rewrite Ei. cbn [i_children all firstn app]. unfold all. rewrite Ef. reflexivity. }
  assert (Ca : child hd (lit "avi_hdr") = Some av). { rewrite <- Na. apply (child_mid hd (firstn 3 hall ++ g1) av g2); rewrite <- Eh; cbn [i_children hall firstn app]; [unfold hall; rewrite Eg; reflexivity|exact NDh]. }
  assert (ah = av). { revert Fa. cbn [field_at]. rewrite Ch, Ca. intros E. injection E as ->. reflexivity. } subst ah.
  pose proof Ah as (aa & sa & rest & Ea & NDa & Ta & Fra).
  assert (Ci : child av (lit "has_index") = Some (ILeaf (lit "has_index") KBits (aa + 164) 1)).
  { rewrite Ea. reflexivity. }
  set (xa := ESet av [(lit "has_index", cleared)] [] []). set (xh := ESet hd [(lit "avi_hdr", xa)] [] []).
  (* the editor after the index flag *)
  assert (Fr : fresh hd = ESet hd [] [] [] /\ fresh av = ESet av [] [] []) by (rewrite <- Eh, Ea; split; reflexivity). destruct Fr as [Fr1 Fr2].
  assert (I1 : get_item (ESet i [] [] []) (lit "headers") = Ok (ESet hd [] [] [])) by (cbn [get_item mem existsb assoc]; rewrite Ch, Fr1; reflexivity).
  assert (I2 : get_item (ESet hd [] [] []) (lit "avi_hdr") = Ok (ESet av [] [] [])) by (cbn [get_item mem existsb assoc]; rewrite Ca, Fr2; reflexivity).
  assert (I3 : get_item (ESet av [] [] []) (lit "has_index") = Ok (EField {| ef_name := lit "has_index"; ef_kind := KBits; ef_size := 1; ef_value := None; ef_altered := false |})) by (cbn [get_item mem existsb assoc]; rewrite Ci; reflexivity).
  assert (Ed : edit_at [lit "headers"; lit "avi_hdr"; lit "has_index"] (assign (VInt 0)) (createEditor i) = Ok (ESet i [(lit "headers", xh)] [] [])).
  { unfold createEditor. cbn [edit_at]. rewrite I1. cbn [bind]. rewrite I2. cbn [bind]. rewrite I3. reflexivity. }
  assert (Gp : exists m, get_path (createEditor i) [lit "headers"; lit "avi_hdr"; lit "has_index"] = Ok m).
  { unfold createEditor. cbn [get_path]. rewrite I1. cbn [bind]. rewrite I2. cbn [bind]. rewrite I3. eexists; reflexivity. }
  (* what it holds *)
  set (da := Data (lit "avi_hdr") tag (clear_flag content) pad).
  assert (Xa : elays hd av xa da).
  { pose proof (avi_holds hd av tag content pad Ah Na La Hc) as H. unfold xa, da. rewrite Ea in *.
    destruct (data_inv _ _ _ _ _ _ _ _ _ La) as (Zt & Nt & St1).
    apply (el_data data input hd (lit "avi_hdr") LE aa sa _ [(lit "has_index", cleared)] tag (clear_flag content) pad aa (KString FFixed 0 [])); try assumption; try reflexivity.
    pose proof (stored_part data aa [] tag (le32 (zlen content) ++ content ++ pad) St1) as P. rewrite Zt in P. change (zlen (@nil Z)) with 0 in P. rewrite Z.mul_0_r, Z.add_0_r in P.
    unfold orig_bytes in P. change (8 * 4 / 8) with 4 in P. destruct St1 as (S1 & S2 & S3 & S4). cbn [chunk_bytes] in S3. rewrite !zlen_app, Zt, zlen_le32 in S3.
    pose proof (zlen_nonneg content). pose proof (zlen_nonneg pad).
    replace aa with (8 * (aa / 8)) at 1 by lia. rewrite (readBytes_serves input data) by (assumption || lia). f_equal. exact P. }
  set (hl' := h1 ++ da :: h2).
  assert (Ehl : map clear_avih hl = hl').
  { rewrite Nmh in NDhf. unfold hl in NDhf. pose proof (nodup_mid ch_name h1 _ h2 NDhf) as Z0. unfold hl, hl'. rewrite map_app. cbn [map clear_avih]. rewrite str_eqb_refl.
    f_equal; [|f_equal]; apply map_others; intros c Hcc; apply avih_other, Z0; apply in_or_app; [left|right]; assumption. }
  assert (Zl : zlen (bytes hl') = zlen body).
  { unfold hl', body, hl. rewrite !flat_map_app. cbn [flat_map da chunk_bytes]. rewrite !zlen_app, !zlen_le32, zlen_clear by assumption. lia. }
  assert (Xh : elays i hd xh (Lst (lit "headers") subtag hl')).
  { unfold xh. rewrite <- Eh. apply el_list; try assumption; try reflexivity.
    - change (set_ok (ISet (lit "headers") LE a0 s0 hall)). rewrite Eh. exact SOh.
    - rewrite Zl. exact Q2.
    - rewrite Zl. exact Zb.
    - change (ISet (lit "headers") LE a0 s0 (list_children a0 hf)) with (ISet (lit "headers") LE a0 s0 hall). rewrite Eh.
      assert (NO : forall c, In c (g1 ++ g2) -> In c (i_children hd) /\ i_name c <> lit "avi_hdr").
      { intros c Hcc. split.
        - rewrite <- Eh. cbn [i_children hall]. right; right; right. rewrite Eg. apply in_app_or in Hcc. apply in_or_app. cbn [In]. tauto.
        - rewrite <- Na. apply (nodup_mid i_name g1 av g2); [|assumption]. rewrite <- Eg. exact NDhf. }
      rewrite Eg. unfold hl'. apply Forall2_app; [|constructor].
      + apply fresh_others; [assumption| |assumption]. intros c Hcc. apply NO. apply in_or_app. left. assumption.
      + rewrite the_item_this by assumption. exact Xa.
      + apply fresh_others; [assumption| |assumption]. intros c Hcc. apply NO. apply in_or_app. right. assumption. }
  assert (El : l' = l1 ++ Lst (lit "headers") subtag hl' :: l2).
  { rewrite Nm in NDf. unfold l in NDf. pose proof (nodup_mid ch_name l1 _ l2 NDf) as Z0. unfold l', l. rewrite map_app. cbn [map clear_index]. rewrite str_eqb_refl, Ehl.
    f_equal; [|f_equal]; apply map_others; intros c Hcc; apply index_other, Z0; apply in_or_app; [left|right]; assumption. }
  assert (F' : Forall2 (fun c ch => elays i c (the_item i [(lit "headers", xh)] c) ch) fields l').
  { assert (NO : forall c, In c (f1 ++ f2) -> In c (i_children i) /\ i_name c <> lit "headers").
    { intros c Hcc. split.
      - rewrite Ei. cbn [i_children all]. right; right; right. rewrite Ef. apply in_app_or in Hcc. apply in_or_app. cbn [In]. tauto.
      - rewrite <- Nh. apply (nodup_mid i_name f1 hd f2); [|assumption]. rewrite <- Ef. exact NDf. }
    rewrite Ef, El. apply Forall2_app; [|constructor].
    + apply fresh_others; [assumption| |assumption]. intros c Hcc. apply NO. apply in_or_app. left. assumption.
    + rewrite the_item_this by assumption. exact Xh.
    + apply fresh_others; [assumption| |assumption]. intros c Hcc. apply NO. apply in_or_app. right. assumption. }
  rewrite Ei in SO, F'.
  destruct (root_ok data Hd input Hs level (ISet [] BIG_ENDIAN 0 0 []) name fields [(lit "headers", xh)] filesize type l' SO eq_refl eq_refl eq_refl O1 O2 O3 Hf Hr F') as (n1 & n2 & P1 & P2 & P3 & P4).
  fold removed in P1, P2, P3, P4. fold all in P1, P2, P4. rewrite <- Ei in *.
  rewrite (strip_file_ok data input (riff_strip input level) i n2 (8 * removed) (riff_bytes (filesize - removed) type (flat_map strip l'))); [|unfold riff_strip|exact P4].
  - replace (8 * removed =? 0) with (removed =? 0) by lia. reflexivity.
  - rewrite Hl. cbv zeta. destruct Gp as [m Gp]. rewrite Gp, Ed. cbn [bind]. rewrite P1. cbn [bind]. rewrite P2. reflexivity.
Qed.
End Avi.

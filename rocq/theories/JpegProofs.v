(** What the parser of JPEG pictures does on the files of the format. *)
From Coq Require Import String.
From Verif Require Import Base BaseProofs BitsModel BitsSpec BitsProofs StreamModel StreamSpec StreamProofs StreamProofs2 DictModel DictProofs FieldModel ToolsModel NumSpec NumRead ChunkBase GenModel GenSpec GenProofs ItemSpec ItemProofs ItemProofs2 ZipSpec ZipProofs GifFileProofs JpegModel MidiSpec MidiProofs JpegSpec Lit.
Open Scope Z_scope.
Ltac Zify.zify_post_hook ::= Z.div_mod_to_equations.

Lemma natural_order : JPEG_NATURAL_ORDER = zigzag.
Proof. vm_compute. reflexivity. Qed.
Lemma val_be_rev l : val_be (rev l) = val_le l.
Proof. induction l as [|b l IH]; [reflexivity|]. cbn [rev]. rewrite val_be_app, IH, val_be_cons, val_be_nil, val_le_cons. change (zlen [b]) with 1. change (zlen (@nil bool)) with 0. change (2 ^ 1) with 2. change (2 ^ 0) with 1. lia. Qed.
Lemma val_of_high n v : u (Z.of_nat n) v -> val_of BIG_ENDIAN (rev (low n v)) = v.
Proof. intros U. rewrite <- (val_of_low n v U) at 2. apply val_be_rev. Qed.
Section Read.
Context (read : read_fun) (data : list Z) (Hs : serves read data) (Hb : is_bytes data).
Notation obeys := (obeys read data).
(** Loops to the end of a field set *)
Lemma ob_rounds body items stop p : stop = 8 * (p + zlen (bytes_of_all items)) -> (forall i p k, In i items -> 0 < len i /\ obeys stop p (body k) [i] k) -> obeys stop p (rounds body) items PRet.
Proof using Type.
  intros E H. unfold rounds. apply ob_ask. replace items with (flat_map (fun i : item => [i]) items) in * by (clear; induction items as [|i l IH]; [reflexivity|cbn; f_equal; exact IH]).
  remember (flat_map (fun i : item => [i]) items) as l0 eqn:El. assert (l0 = items) by (subst; clear; induction items as [|i l IH]; [reflexivity|cbn; f_equal; exact IH]). rewrite El.
  assert (P : forall d, In d items -> 1 <= zlen (bytes_of_all [d])) by (intros d D; destruct (H d 0 PRet) as [L _]; [congruence|]; rewrite bytes_of_all_cons, app_nil_r; unfold len in L; lia). pose proof (items_len (fun i => [i]) items P) as Ln. rewrite <- El in Ln.
  apply ob_loop; [lia|rewrite <- El; exact E|]. intros d p' k D. destruct (H d p' k) as [L O]; [congruence|]. split; [rewrite bytes_of_all_cons, app_nil_r; exact L|exact O].
Qed.
Lemma ob_two4 stop p a b x y pr l q : nibble x -> nibble y -> obeys stop (p + 1) (pr (VNum x) (VNum y)) l q -> obeys stop p (PFld (lit a) (KNum 4 BE) (fun v => PFld (lit b) (KNum 4 BE) (fun w => pr v w))) (two4 a b x y :: l) q.
Proof using Type.
  intros X Y H. unfold two4. eapply (ob_bits read data); [discriminate|lia|reflexivity| |exact H]. unfold high. apply ta_cons; [cbn; lia|reflexivity|]. apply ta_cons; [cbn; lia|reflexivity|]. rewrite !val_of_high by (unfold nibble, u in *; cbn; lia). apply ta_nil.
Qed.
Ltac ob8 := apply ob_plain; [split; [discriminate|split; [lia|unfold byte, short in *; first [assumption|lia]]]|reflexivity|]; cbn [plain_val num].
Lemma frame_component_obeys stop p c k : frame_component_ok c -> 0 < len (frame_component_item c) /\ obeys stop p (SOFComponent k) [frame_component_item c] k.
Proof using Type.
  destruct c as [[[id h] v] q]. intros (I1 & H & V & Q). unfold frame_component_item, SOFComponent, u8, u4, be. assert (L : 0 < zlen (bytes_of_all [I (lit "component_id") (SNum 1 BIG_ENDIAN id); two4 "horiz_sample" "vert_sample" h v; I (lit "quant_table") (SNum 1 BIG_ENDIAN q)])) by (unfold two4, bytes_of_all; cbn [flat_map bytes_of plain_bytes]; rewrite !zlen_app, !zlen_uint; change (zlen (@nil Z)) with 0; lia).
  split; [exact L|]. apply ob_open; [exact L| |apply ob_nil]. ob8. apply (ob_two4 _ _ _ _ _ _ (fun _ _ => _)); [assumption|assumption|]. ob8. apply ob_nil.
Qed.
Lemma scan_component_obeys stop p n c k : n < 2 ^ 8 -> scan_component_ok n c -> obeys stop p (SOSComponent n k) [scan_component_item c] k.
Proof using Type.
  destruct c as [[id dc] ac]. intros N (I1 & H & V). unfold scan_component_item, SOSComponent, u4, be. apply ob_open; [unfold two4, bytes_of_all; cbn [flat_map bytes_of plain_bytes]; rewrite !zlen_app, !zlen_uint; change (zlen (@nil Z)) with 0; lia| |apply ob_nil].
  ob8. replace ((1 <=? id) && (id <=? n)) with true by lia. cbn [negb]. apply (ob_two4 _ _ _ _ _ _ (fun _ _ => _)); [assumption|assumption|]. apply ob_nil.
Qed.
Lemma coeffs_obeys stop wide order vals : List.length order = List.length vals -> Forall (fun v => 0 <= v < (if wide =? 0 then 2 ^ 8 else 2 ^ 16)) vals -> forall p,
  obeys stop p (coeffs (if wide =? 0 then 8 else 16) order) (map (fun iv => I (nth_name "coeff" (fst iv)) (SNum (if wide =? 0 then 1 else 2) BIG_ENDIAN (snd iv))) (combine order vals)) PRet.
Proof using Type.
  revert vals. induction order as [|i order IH]; intros [|v vals] E F p; try discriminate E; cbn [coeffs combine map]; [apply ob_nil|]. apply Forall_inv in F as V. apply Forall_inv_tail in F. apply ob_plain; [destruct (wide =? 0); (split; [discriminate|split; [lia|exact V]])|destruct (wide =? 0); reflexivity|]. apply IH; [cbn in E; lia|exact F].
Qed.
Lemma zigzag_length : List.length zigzag = 64%nat.
Proof using Type. vm_compute. reflexivity. Qed.
Lemma quant_obeys stop p t k : quant_ok t -> 0 < len (quant_item t) /\ obeys stop p (QuantizationTable k) [quant_item t] k.
Proof using Type.
  intros (W & Ix & L & F). unfold quant_item, QuantizationTable. set (cs := map _ _). assert (P : 0 < zlen (bytes_of_all (two4 "is_16bit" "index" (q_wide t) (q_index t) :: cs))) by (rewrite bytes_of_all_cons, zlen_app; unfold two4; cbn [bytes_of]; rewrite zlen_uint; pose proof (zlen_nonneg (bytes_of_all cs)); lia).
  split; [exact P|]. apply ob_open; [exact P| |apply ob_nil]. match goal with |- ItemProofs2.obeys _ _ _ _ (PFld _ _ (fun wide => PFld _ _ (fun index => @?f wide index))) _ _ => apply (ob_two4 _ _ _ _ _ _ f) end; [exact W|unfold nibble; lia|]. cbn [num]. replace (4 <=? q_index t) with false by lia. rewrite natural_order. apply coeffs_obeys; [rewrite zigzag_length; unfold zlen in L; lia|exact F].
Qed.
Lemma numbered_cons {A} i (x : A) l : numbered i (x :: l) = (i, x) :: numbered (i + 1) l.
Proof using Type. unfold numbered. cbn [List.length seq map combine]. rewrite Z.add_0_r. f_equal. rewrite <- seq_shift, map_map. f_equal. apply map_ext. intros a. lia. Qed.
Lemma counts_obey stop rows : forall i p c, Forall (fun r => zlen r < 2 ^ 8 /\ Forall byte r) rows -> obeys stop p (count_fields i (List.length rows) c) (map (fun ir => I (nth_name "count" (fst ir)) (SNum 1 BIG_ENDIAN (zlen (snd ir)))) (numbered i rows)) (c (map zlen rows)).
Proof using Type.
  induction rows as [|r rows IH]; intros i p c F; [apply ob_nil|]. rewrite numbered_cons. cbn [List.length count_fields map fst snd]. apply Forall_inv in F as R. apply Forall_inv_tail in F. pose proof (zlen_nonneg r). apply ob_plain; [split; [discriminate|split; [lia|change (8 * Z.of_nat 1) with 8; lia]]|reflexivity|]. cbn [plain_val num]. apply (IH (i + 1) _ (fun l => c (zlen r :: l)) F).
Qed.
Definition row_items (i : Z) (r : list (Z * Z)) : list item := map (fun jv => I (lit "value[" ++ dec i ++ lit "][" ++ dec (fst jv) ++ lit "]") (SNum 1 BIG_ENDIAN (snd jv))) r.
Lemma row_obeys stop i r k : Forall byte r -> forall j p, obeys stop p (value_row i j (List.length r) k) (row_items i (numbered j r)) k.
Proof using Type.
  induction r as [|v r IH]; intros F j p; [apply ob_nil|]. rewrite numbered_cons. cbn [List.length value_row row_items map fst snd]. apply Forall_inv in F as R. apply Forall_inv_tail in F. apply ob_plain; [split; [discriminate|split; [lia|exact R]]|reflexivity|]. apply (IH F (j + 1)).
Qed.
Lemma rows_obey stop rows k : Forall (fun r => zlen r < 2 ^ 8 /\ Forall byte r) rows -> forall i p, obeys stop p (value_rows i (map zlen rows) k) (flat_map (fun ir => row_items (fst ir) (numbered 0 (snd ir))) (numbered i rows)) k.
Proof using Type.
  induction rows as [|r rows IH]; intros F i p; [apply ob_nil|]. rewrite numbered_cons. cbn [map value_rows flat_map fst snd]. apply Forall_inv in F as R. apply Forall_inv_tail in F. eapply ob_app; [|apply (IH F)]. replace (Z.to_nat (zlen r)) with (List.length r) by (unfold zlen; lia). apply row_obeys, R.
Qed.
Lemma some_code rows : concat rows <> [] -> fold_right Z.add 0 (map (@zlen Z) rows) =? 0 = false.
Proof using Type.
  assert (E : fold_right Z.add 0 (map (@zlen Z) rows) = zlen (concat rows)) by (induction rows as [|r l IH]; [reflexivity|cbn [map fold_right concat]; rewrite zlen_app, IH; reflexivity]). rewrite E. intros N. apply zlen_pos in N. lia.
Qed.
Lemma codes_obeys stop p t k : codes_ok t -> 0 < len (codes_item t) /\ obeys stop p (HuffmanTable k) [codes_item t] k.
Proof using Type.
  intros (C & Ix & L & F & Ne). unfold codes_item, HuffmanTable, u4. set (cs := map _ _ ++ _). assert (P : 0 < zlen (bytes_of_all (two4 "table_class" "index" (c_class t) (c_index t) :: cs))) by (rewrite bytes_of_all_cons, zlen_app; unfold two4; cbn [bytes_of]; rewrite zlen_uint; pose proof (zlen_nonneg (bytes_of_all cs)); lia).
  split; [exact P|]. apply ob_open; [exact P| |apply ob_nil]. apply (ob_two4 _ _ _ _ _ _ (fun _ _ => _)); [exact C|exact Ix|]. replace 16%nat with (List.length (c_symbols t)) by (unfold zlen in L; lia). unfold cs. eapply ob_app; [apply counts_obey, F|]. rewrite some_code by exact Ne. apply rows_obey, F.
Qed.
Lemma ducky_obeys stop p k b : short (fst b) -> fst b <> 0 -> zlen (snd b) < 2 ^ 16 -> 0 < len (ducky_items b) /\ obeys stop p (JpegModel.Ducky k) [ducky_items b] k.
Proof using Type.
  intros T N L. pose proof (zlen_nonneg (snd b)). unfold ducky_items, JpegModel.Ducky. set (tl := match snd b with [] => _ | _ => _ end). assert (P : 0 < zlen (bytes_of_all ([be 2 "type" (fst b); be 2 "size" (zlen (snd b))] ++ tl))) by (cbn [app]; rewrite !bytes_of_all_cons, zlen_app; unfold be; cbn [bytes_of plain_bytes]; rewrite zlen_uint; match goal with |- context [_ + zlen ?y] => pose proof (zlen_nonneg y) end; lia).
  split; [exact P|]. apply ob_open; [exact P| |apply ob_nil]. cbn [app]. unfold be. ob8. replace (fst b =? 0) with false by lia. apply ob_plain; [split; [discriminate|split; [lia|change (8 * Z.of_nat 2) with 16; lia]]|reflexivity|]. cbn [plain_val num]. unfold tl. destruct (snd b) as [|y x] eqn:E; [apply ob_nil|]. assert (P' : 1 <= zlen (y :: x)) by (rewrite zlen_cons; pose proof (zlen_nonneg x); lia). replace (zlen (y :: x) =? 0) with false by lia.
  apply ob_plain; [split; [discriminate|change (2 ^ 16) with 65536 in L; change (2 ^ 64) with 18446744073709551616; lia]|reflexivity|apply ob_nil].
Qed.
(** The parser of the content of a part *)
Definition part_parser (p : part) : option prog :=
  match p with
  | Jfif _ _ _ _ _ _ _ => Some App0_fields | Adobe _ _ _ _ _ => Some Adobe_fields | Ducky _ => Some APP12_fields | Frame _ _ _ _ _ => Some StartOfFrame_fields | Tables _ => Some DefineQuantizationTable_fields
  | Huffman _ => Some DefineHuffmanTable_fields | Interval _ => Some RestartInterval_fields | Comment _ => Some Comment_fields | Exif _ | Photoshop _ => Some opaque | Segment _ _ | Rst _ _ => None | Scan _ _ _ _ _ _ => Some StartOfScan_fields
  end.
Lemma opaque_obeys p x stop : stop = 8 * (p + zlen x) -> x <> [] -> zlen x <= 2 ^ 64 -> obeys stop p opaque [I (lit "content") (SBytes x)] PRet.
Proof using Type. intros E N L. unfold opaque. apply ob_ask. replace ((stop - 8 * p) / 8) with (zlen x) by lia. apply ob_plain; [split; assumption|reflexivity|apply ob_nil]. Qed.
Lemma content_obeys pt pr p stop : part_ok pt -> part_parser pt = Some pr -> content_items pt <> [] -> stop = 8 * (p + content_size pt) -> obeys stop p pr (content_items pt) PRet.
Proof using Hs Hb.
  intros [Sz K] Pr Ne E. unfold content_size in *. set (l := content_items pt) in *. assert (S64 : zlen (bytes_of_all l) <= 2 ^ 64) by (change (2 ^ 16) with 65536 in Sz; change (2 ^ 64) with 18446744073709551616; lia).
  destruct pt as [a b u x y w h|v b r f t|bl|t pc h w cl|ql|hl|n|x|x|x|t x|cl ss se hb lb x|n x]; cbn [part_parser] in Pr; try discriminate Pr; injection Pr as <-; cbn [content_items] in l.
  - destruct K as (A & B & U & X & Y & W & H & Z0). unfold App0_fields, l, u8, u16, be. cbn [app]. apply ob_plain; [split; [discriminate|vm_compute; discriminate]|reflexivity|]. cbn [plain_val bytes]. change (str_eqb (lit "JFIF" ++ [0]) (lit "JFIF" ++ [0])) with true. cbn [negb]. do 3 ob8. destruct (u =? 0); cbn [app]; do 4 ob8; rewrite Z0; apply ob_nil.
  - destruct K as (V & B & R & F & T). unfold Adobe_fields, l. apply (ob_peek read data Hs Hb stop p 0 (SBytes (lit "Adobe")) false _ _ _ (KBytes 5) 0 [] (bytes_of_all (tl l))); [reflexivity|reflexivity|split; [discriminate|vm_compute; discriminate]|reflexivity|reflexivity|]. cbn [plain_val bytes]. change (str_eqb (lit "Adobe") (lit "Adobe")) with true. cbn [negb].
    apply ob_plain; [split; [discriminate|vm_compute; discriminate]|reflexivity|]. unfold u16, u8, be. ob8. eapply ob_bits; [discriminate|lia|reflexivity| |].
    + unfold high. repeat (apply ta_cons; [cbn; lia|reflexivity|]). apply ta_nil.
    + apply ob_plain; [split; [intros ->; discriminate F|rewrite F; vm_compute; discriminate]|cbn [kind_of]; rewrite F; reflexivity|]. ob8. apply ob_nil.
  - unfold APP12_fields, l. apply ob_plain; [split; [discriminate|vm_compute; discriminate]|reflexivity|]. apply ob_rounds.
    + rewrite E. unfold l. rewrite bytes_of_all_cons, zlen_app. unfold len. lia.
    + intros i p' k D. apply in_app_iff in D as [D|[<-|[]]].
      * apply in_map_iff in D as (d & <- & D). rewrite Forall_forall in K. destruct (K d D) as (K1 & K2 & K3). apply ducky_obeys; assumption.
      * split; [reflexivity|]. unfold JpegModel.Ducky. apply ob_open; [reflexivity| |apply ob_nil]. unfold be. ob8. apply ob_nil.
  - destruct K as (T & P & H & W & L & C). unfold StartOfFrame_fields, l, u8, u16, be. cbn [app]. do 3 ob8. pose proof (zlen_nonneg cl). apply ob_plain; [split; [discriminate|split; [lia|change (8 * Z.of_nat 1) with 8; lia]]|reflexivity|]. cbn [plain_val num]. replace (Z.to_nat (zlen cl)) with (List.length cl) by (unfold zlen; lia).
    replace (map frame_component_item cl) with (flat_map (fun c => [frame_component_item c]) cl) by (clear; induction cl as [|c l' IH]; [reflexivity|cbn; f_equal; exact IH]). apply ob_times. intros d p' k D. rewrite Forall_forall in C. apply frame_component_obeys, C, D.
  - unfold DefineQuantizationTable_fields, l. apply ob_rounds; [exact E|]. intros i p' k D. apply in_map_iff in D as (d & <- & D). rewrite Forall_forall in K. apply quant_obeys, K, D.
  - unfold DefineHuffmanTable_fields, l. apply ob_rounds; [exact E|]. intros i p' k D. apply in_map_iff in D as (d & <- & D). rewrite Forall_forall in K. apply codes_obeys, K, D.
  - unfold RestartInterval_fields, l, u16, be. ob8. apply ob_nil.
  - unfold Comment_fields, l in *. destruct x as [|y x]; [contradiction|]. apply ob_ask. assert (Z1 : zlen (bytes_of_all [I (lit "comment") (SText (y :: x))]) = zlen (y :: x)) by (rewrite bytes_of_all_cons; cbn [bytes_of plain_bytes bytes_of_all flat_map]; rewrite app_nil_r; reflexivity). rewrite Z1 in *. replace ((stop - 8 * p) / 8) with (zlen (y :: x)) by lia. apply ob_plain; [split; [discriminate|change (2 ^ 16) with 65536 in Sz; lia]|reflexivity|apply ob_nil].
  - unfold l in *. set (z := lit "Exif" ++ [0; 0] ++ x) in *. assert (Z1 : zlen (bytes_of_all [I (lit "content") (SBytes z)]) = zlen z) by (rewrite bytes_of_all_cons; cbn [bytes_of plain_bytes bytes_of_all flat_map]; rewrite app_nil_r; reflexivity). rewrite Z1 in *. apply opaque_obeys; [exact E|discriminate|lia].
  - unfold l in *. destruct x as [|y x]; [contradiction|]. set (z := y :: x) in *. assert (Z1 : zlen (bytes_of_all [I (lit "content") (SBytes z)]) = zlen z) by (rewrite bytes_of_all_cons; cbn [bytes_of plain_bytes bytes_of_all flat_map]; rewrite app_nil_r; reflexivity). rewrite Z1 in *. apply opaque_obeys; [exact E|discriminate|lia].
  - destruct K as (C & L & S & Se & H & Lo & _). unfold StartOfScan_fields, l, u8, u4, be. cbn [app]. pose proof (zlen_nonneg cl). apply ob_plain; [split; [discriminate|split; [lia|change (8 * Z.of_nat 1) with 8; lia]]|reflexivity|]. cbn [plain_val num]. replace (Z.to_nat (zlen cl)) with (List.length cl) by (unfold zlen; lia).
    replace (map scan_component_item cl) with (flat_map (fun c => [scan_component_item c]) cl) by (clear; induction cl as [|c l' IH]; [reflexivity|cbn; f_equal; exact IH]). eapply ob_app; [apply ob_times; intros d p' k D; rewrite Forall_forall in C; apply scan_component_obeys; [exact L|apply C, D]|]. do 2 ob8. apply (ob_two4 _ _ _ _ _ _ (fun _ _ => _)); [assumption|assumption|]. apply ob_nil.
Qed.
(** The coded data end at the next marker *)
Lemma coded_split x : coded x -> ~ In 255 x \/ exists z y, x = z ++ 255 :: 0 :: y /\ ~ In 255 z /\ coded y.
Proof using Type.
  induction 1 as [|b x B C IH|x C IH]; [left; intros []|..].
  - destruct IH as [N|(z & y & -> & N & Y)]; [left; intros [E|E]; [lia|contradiction]|]. right. exists (b :: z), y. split; [reflexivity|]. split; [intros [E|E]; [lia|contradiction]|exact Y].
  - right. exists [], x. split; [reflexivity|]. split; [intros []|exact C].
Qed.
Lemma first_ff z w q up i : occurs_at (z ++ 255 :: w) data q -> ~ In 255 z -> first_occurrence [255] data q up i -> i = q + zlen z.
Proof using Type.
  intros O N (I1 & I2 & I3 & I4). apply occ_app in O as [O1 O2]. change (255 :: w) with ([255] ++ w) in O2. apply occ_app in O2 as [O2 _]. destruct (Z_lt_le_dec i (q + zlen z)) as [L|L]; [exfalso|destruct (Z.eq_dec i (q + zlen z)); [assumption|exfalso; apply (I4 (q + zlen z)); [pose proof (zlen_nonneg z); lia|exact O2]]].
  set (n := Z.to_nat (i - q)). rewrite <- (firstn_skipn n z) in O1. apply occ_app in O1 as [_ O1]. assert (Ln : (n < List.length z)%nat) by (unfold n, zlen in *; lia). assert (Zf : zlen (firstn n z) = i - q) by (unfold zlen; rewrite firstn_length_le by lia; unfold n; lia). rewrite Zf in O1. replace (q + (i - q)) with i in O1 by lia.
  destruct (skipn n z) as [|c y] eqn:Sk; [apply (f_equal (@List.length Z)) in Sk; rewrite skipn_length in Sk; cbn in Sk; lia|]. change (c :: y) with ([c] ++ y) in O1. apply occ_app in O1 as [O1 _]. destruct O1 as (_ & _ & O1). destruct I3 as (_ & _ & I3). change (zlen [c]) with 1 in O1. change (zlen [255]) with 1 in I3. rewrite O1 in I3. injection I3 as ->. apply N. rewrite <- (firstn_skipn n z). apply in_app_iff. right. rewrite Sk. left. reflexivity.
Qed.
Lemma data_end_ok a t : t <> 0 -> forall n x q, (List.length x < n)%nat -> coded x -> occurs_at (x ++ [255; t]) data q -> q + zlen x + 1 <= 100 * 1024 * 1024 -> data_end read (8 * zlen data) a n (8 * q) = Ok (8 * (q + zlen x) - a).
Proof using Hs.
  intros T. induction n as [|n IH]; intros x q N C O Lm; [lia|]. pose proof (occ_in _ _ _ O) as [Q0 Q1]. rewrite zlen_app in Q1. change (zlen [255; t]) with 2 in Q1. pose proof (zlen_nonneg x). assert (Nd : data <> []) by (intros E; rewrite E in Q1; change (zlen (@nil Z)) with 0 in Q1; lia).
  assert (F : forall z w, occurs_at (z ++ 255 :: w) data q -> ~ In 255 z -> q + zlen z + 1 <= 100 * 1024 * 1024 -> searchBytes read (8 * zlen data) [255] (8 * q) (Some (100 * 1024 * 1024 * 8)) = Ok (Some (8 * (q + zlen z)))).
  { intros z w Oz Nz Lz. pose proof (zlen_nonneg z). assert (Oj : occurs_at [255] data (q + zlen z)) by (apply occ_app in Oz as [_ Oz]; change (255 :: w) with ([255] ++ w) in Oz; apply occ_app in Oz as [Oz _]; exact Oz). pose proof (occ_in _ _ _ Oj) as [_ J]. change (zlen [255]) with 1 in J.
    destruct (first_le [255] data (q + zlen z) (search_limit data (Some (100 * 1024 * 1024 * 8))) Oj ltac:(change (zlen [255]) with 1; unfold search_limit; lia) q ltac:(lia)) as (k & Fk & _).
    destruct (searchBytes_correct read data [255] q (Some (100 * 1024 * 1024 * 8)) Hs Nd ltac:(discriminate) Q0) as [(i & R & Fi)|[R Nf]]; [|exfalso; exact (Nf k Fk)]. rewrite R. do 2 f_equal. rewrite (first_ff z w q _ i Oz Nz Fi). reflexivity. }
  cbn [data_end]. destruct (coded_split x C) as [Nx|(z & y & -> & Nz & Cy)].
  - rewrite (F x [t]) by (assumption || lia). cbn [bind]. apply occ_app in O as [_ O]. pose proof (rb_occ read data Hs _ _ O ltac:(discriminate)) as R. change (zlen [255; t]) with 2 in R. rewrite R. cbn [bind]. replace (str_eqb [255; t] [255; 0]) with false; [reflexivity|]. symmetry. cbn. destruct (t =? 0) eqn:E; [lia|reflexivity].
  - rewrite <- app_assoc in O. cbn [app] in O. pose proof (zlen_nonneg z). pose proof (zlen_nonneg y). rewrite zlen_app, !zlen_cons in *. rewrite (F z (0 :: y ++ [255; t])) by (assumption || lia). cbn [bind]. apply occ_app in O as [_ O]. change (255 :: 0 :: y ++ [255; t]) with ([255; 0] ++ y ++ [255; t]) in O. apply occ_app in O as [O1 O2]. change (zlen [255; 0]) with 2 in O2.
    pose proof (rb_occ read data Hs _ _ O1 ltac:(discriminate)) as R. change (zlen [255; 0]) with 2 in R. rewrite R. cbn [bind]. change (str_eqb [255; 0] [255; 0]) with true. cbn iota. replace (8 * (q + zlen z) + 16) with (8 * (q + zlen z + 2)) by lia. rewrite (IH y); [f_equal; lia|rewrite app_length in N; cbn [List.length] in N; lia|exact Cy|exact O2|lia].
Qed.
Lemma image_obeys stop p x k t : 0 <= p -> coded x -> x <> [] -> t <> 0 -> occurs_at [255; t] data (p + zlen x) -> p + zlen x + 1 <= 100 * 1024 * 1024 -> obeys stop p (JpegImageData k) [image x] k.
Proof using Hs.
  intros P C Ne T Ot L. unfold JpegImageData, image. pose proof (zlen_pos x Ne). apply (ob_do read data _ _ _ _ (VNum (8 * zlen x))).
  - intros [O _]. assert (Z1 : bytes_of_all [ISet (lit "image_data[]") [I (lit "content") (SBytes x)]] = x) by (unfold bytes_of_all; cbn [flat_map bytes_of plain_bytes]; rewrite !app_nil_r; reflexivity). rewrite Z1 in O. unfold data_size. pose proof (occ_in _ _ _ O) as [P0 P1]. rewrite (data_end_ok (8 * p) t T _ x p); [cbn [bind]; do 2 f_equal; lia|unfold zlen in *; lia|exact C|apply occ_app; split; assumption|exact L].
  - cbn [num]. replace (8 * zlen x <=? 0) with false by lia. assert (Z1 : bytes_of_all [I (lit "content") (SBytes x)] = x) by (unfold bytes_of_all; cbn [flat_map bytes_of plain_bytes]; apply app_nil_r). apply ob_set; [rewrite Z1; reflexivity|lia| |apply ob_nil]. apply opaque_obeys; [lia|exact Ne|]. pose proof (occ_in _ _ _ Ot). change (2 ^ 64) with 18446744073709551616. lia.
Qed.
(** Chunks *)
Definition exif_flag (p : part) : Z := match p with Exif _ => 1 | _ => 0 end.
Lemma part_info pt : part_ok pt -> chunk_info (part_tag pt) (exif_flag pt) = (part_name pt, part_parser pt).
Proof using Type.
  intros [_ K]. destruct pt as [a b u x y w h|v b r f t|bl|t pc h w cl|ql|hl|n|x|x|x|t x|cl ss se hb lb x|n x]; try reflexivity; cbn [part_tag part_name part_parser exif_flag].
  - destruct K as [T _]. unfold frame_tags in T. cbn [In] in T. repeat (destruct T as [<-|T]; [reflexivity|]). destruct T.
  - destruct K as [T|[T|[T|[-> _]]]]; [cbn [In] in T; repeat (destruct T as [<-|T]; [reflexivity|]); destruct T|..].
    + assert (X : t = 227 \/ t = 228 \/ t = 229 \/ t = 230 \/ t = 231 \/ t = 232 \/ t = 233 \/ t = 234 \/ t = 235) by lia. repeat (destruct X as [->|X]; [reflexivity|]). subst t. reflexivity.
    + assert (X : t = 240 \/ t = 241 \/ t = 242 \/ t = 243 \/ t = 244 \/ t = 245 \/ t = 246 \/ t = 247 \/ t = 248 \/ t = 249 \/ t = 250 \/ t = 251 \/ t = 252 \/ t = 253) by lia. repeat (destruct X as [->|X]; [reflexivity|]). subst t. reflexivity.
    + reflexivity.
  - destruct K as [N _]. assert (X : n = 0 \/ n = 1 \/ n = 2 \/ n = 3 \/ n = 4 \/ n = 5 \/ n = 6 \/ n = 7) by lia. repeat (destruct X as [->|X]; [reflexivity|]). subst n. reflexivity.
Qed.
Lemma tag_range pt : part_ok pt -> 0xc0 <= part_tag pt < 0xff.
Proof using Type.
  intros [_ K]. destruct pt; cbn [part_tag]; try lia.
  - destruct K as [T _]. unfold frame_tags in T. cbn [In] in T. lia.
  - destruct K as [T|[T|[T|[T _]]]]; cbn [In] in *; lia.
Qed.
Lemma chunk_obeys stop p name tag flag parser rest k : 0 <= tag < 256 -> chunk_info tag flag = (name, parser) -> (fits data stop p [ISet name (marker tag ++ rest)] -> chunk_exif tag read (8 * zlen data) stop (8 * p) = Ok (VNum flag)) -> obeys stop p (Chunk_fields parser) (marker tag ++ rest) PRet ->
  obeys stop p (JpegChunk k) [ISet name (marker tag ++ rest)] (k tag (shows (marker tag ++ rest) p)).
Proof using Hs Hb.
  intros T In X H. unfold JpegChunk. assert (B : bytes_of_all (marker tag ++ rest) = [255] ++ [tag] ++ bytes_of_all rest) by (unfold marker, be; cbn [app]; rewrite !bytes_of_all_cons; cbn [bytes_of plain_bytes]; rewrite !uint1 by lia; reflexivity).
  assert (B2 : bytes_of_all [ISet name (marker tag ++ rest)] = [255] ++ [tag] ++ bytes_of_all rest) by (rewrite <- B; unfold bytes_of_all at 1; cbn [flat_map bytes_of]; apply app_nil_r).
  apply (ob_do read data _ _ _ _ (VNum tag)).
  { intros [O St]. rewrite B2 in O, St. apply occ_app in O as [O1 O2]. apply occ_app in O2 as [O2 _]. rewrite !zlen_app in St. change (zlen [255]) with 1 in *. change (zlen [tag]) with 1 in *. pose proof (zlen_nonneg (bytes_of_all rest)). unfold chunk_type. rewrite <- (uint1 255) in O1 by lia. rewrite <- (uint1 tag) in O2 by lia. rewrite (read_num read data Hs Hb BIG_ENDIAN 1 8 255 p) by (discriminate || lia || exact O1). cbn [bind]. change (negb (255 =? 255)) with false. cbn iota. replace (stop <? 8 * p + 16) with false by lia.
    replace (8 * p + 8) with (8 * (p + 1)) by lia. rewrite (read_num read data Hs Hb BIG_ENDIAN 1 8 tag (p + 1)) by (discriminate || lia || exact O2). reflexivity. }
  cbn [num]. apply (ob_do read data _ _ _ _ (VNum flag)); [exact X|]. cbn [num]. rewrite In. cbn [fst snd]. apply ob_open; [rewrite B, !zlen_app; change (zlen [255]) with 1; change (zlen [tag]) with 1; pose proof (zlen_nonneg (bytes_of_all rest)); lia|exact H|apply ob_nil].
Qed.
Lemma part_fields_obey stop p pt : part_ok pt -> obeys stop p (Chunk_fields (part_parser pt)) (marker (part_tag pt) ++
    match pt with Rst _ _ => [] | _ => be 2 "size" (content_size pt + 2) :: match content_items pt with [] => [] | l => if in_set pt then [ISet (lit "content") l] else l end end) PRet.
Proof using Hs Hb.
  intros K. pose proof (tag_range pt K) as T. unfold Chunk_fields, marker, be. cbn [app]. ob8. change (negb (255 =? 255)) with false. cbn iota. apply ob_plain; [split; [discriminate|split; [lia|change (2 ^ (8 * Z.of_nat 1)) with 256; lia]]|reflexivity|]. cbn [plain_val num]. cbv zeta.
  assert (Sz : 0 <= content_size pt) by apply zlen_nonneg. assert (Sz2 : content_size pt + 2 < 2 ^ 16) by apply K. assert (Long : match pt with Rst _ _ => True | _ => (part_tag pt =? 216) || (part_tag pt =? 217) || (208 <=? part_tag pt) && (part_tag pt <=? 215) = false end).
  { destruct K as [_ K]. destruct pt; try exact Logic.I; try reflexivity; cbn [part_tag].
    - destruct K as [F _]. unfold frame_tags in F. cbn [In] in F. lia.
    - destruct K as [F|[F|[F|[F _]]]]; cbn [In] in *; lia. }
  assert (G : (part_tag pt =? 216) || (part_tag pt =? 217) || (208 <=? part_tag pt) && (part_tag pt <=? 215) = false -> forall q, obeys stop q (PFld (lit "size") (KNum 16 BE) (fun s => if 0 <? num s - 2 then match part_parser pt with Some p0 => PSet (lit "content") (Some ((num s - 2) * 8)) p0 (fun _ => PRet) | None => PFld (lit "data") (KBytes (num s - 2)) (fun _ => PRet) end else PRet))
    (I (lit "size") (SNum 2 BIG_ENDIAN (content_size pt + 2)) :: match content_items pt with [] => [] | l => if in_set pt then [ISet (lit "content") l] else l end) PRet).
  { intros _ q. apply ob_plain; [split; [discriminate|split; [lia|change (8 * Z.of_nat 2) with 16; lia]]|reflexivity|]. cbn [plain_val num]. replace (content_size pt + 2 - 2) with (content_size pt) by lia. set (q' := q + _). clearbody q'. destruct (content_items pt) as [|i l] eqn:E.
    - replace (content_size pt) with 0 by (unfold content_size; rewrite E; reflexivity). apply ob_nil.
    - assert (Ne : content_items pt <> []) by (rewrite E; discriminate). assert (P : 0 < content_size pt).
      { unfold content_size. rewrite E, bytes_of_all_cons, zlen_app. pose proof (zlen_nonneg (bytes_of_all l)). enough (0 < len i) by (unfold len in *; lia). clear - E K Hs Hb. destruct K as [_ K]. destruct pt as [a b u x y w h|v b r f t|bl|t pc h w cl|ql|hl|n|x|x|x|t x|cl ss se hb lb x|n x]; cbn [content_items app] in E; try discriminate E.
        all: try (injection E as <- _; unfold len, be; cbn [bytes_of plain_bytes]; first [rewrite zlen_uint; lia | vm_compute; reflexivity]).
        - destruct ql as [|q0 ql]; [discriminate E|]. injection E as <- _. apply Forall_inv in K. apply (quant_obeys 0 0 q0 PRet K).
        - destruct hl as [|q0 hl]; [discriminate E|]. injection E as <- _. apply Forall_inv in K. apply (codes_obeys 0 0 q0 PRet K).
        - destruct x as [|z x]; [discriminate E|]. injection E as <- _. unfold len. cbn [bytes_of plain_bytes]. rewrite zlen_cons. pose proof (zlen_nonneg x). lia.
        - destruct x as [|z x]; [discriminate E|]. injection E as <- _. unfold len. cbn [bytes_of plain_bytes]. rewrite zlen_cons. pose proof (zlen_nonneg x). lia.
        - destruct x as [|z x]; [discriminate E|]. injection E as <- _. unfold len. cbn [bytes_of plain_bytes]. rewrite zlen_cons. pose proof (zlen_nonneg x). lia. }
      replace (0 <? content_size pt) with true by lia. destruct (part_parser pt) as [pr|] eqn:Pr.
      + replace (in_set pt) with true by (destruct pt; try reflexivity; discriminate Pr). rewrite <- E. apply ob_set; [unfold content_size; lia|lia| |apply ob_nil]. apply content_obeys; [exact K|exact Pr|exact Ne|lia].
      + destruct pt as [a b u x y w h|v b r f t|bl|t pc h w cl|ql|hl|n|x|x|x|t x|cl ss se hb lb x|n x]; try discriminate Pr; [|discriminate E]. cbn [in_set]. cbn [content_items] in E. destruct x as [|z x]; [discriminate E|]. injection E as <- <-. assert (Z1 : content_size (Segment t (z :: x)) = zlen (z :: x)) by (unfold content_size; cbn [content_items]; rewrite bytes_of_all_cons; cbn [bytes_of plain_bytes bytes_of_all flat_map]; rewrite app_nil_r; reflexivity).
        rewrite Z1 in *. apply ob_plain; [split; [discriminate|change (2 ^ 16) with 65536 in Sz2; change (2 ^ 64) with 18446744073709551616; lia]|reflexivity|apply ob_nil]. }
  destruct pt; try (rewrite Long; apply (G Long)). destruct K as [_ [K _]]. cbn [part_tag]. replace ((208 <=? 208 + n) && (208 + n <=? 215)) with true by lia. rewrite Bool.orb_true_r. apply ob_nil.
Qed.
(** The step of the loop *)
Definition is_scan (p : part) : bool := match p with Scan _ _ _ _ _ _ => true | _ => false end.
Definition is_rst (p : part) : bool := match p with Rst _ _ => true | _ => false end.
Definition is_interval (p : part) : bool := match p with Interval _ => true | _ => false end.
Lemma part_kind pt : part_ok pt -> START_OF_FRAME (part_tag pt) = is_frame pt /\ (part_tag pt =? 0xda) = is_scan pt /\ (0xd0 <=? part_tag pt) && (part_tag pt <=? 0xd7) = is_rst pt /\ (part_tag pt =? 0xdd) = is_interval pt.
Proof using Type.
  intros [_ K]. unfold START_OF_FRAME. destruct pt; try (repeat split; reflexivity); cbn [part_tag is_frame is_scan is_rst is_interval].
  - destruct K as [T _]. unfold frame_tags in T. cbn [In] in T. lia.
  - destruct K as [T|[T|[T|[T _]]]]; cbn [In] in *; lia.
  - destruct K as [T _]. lia.
Qed.
Definition chunk_rest (pt : part) : list item := match pt with Rst _ _ => [] | _ => be 2 "size" (content_size pt + 2) :: match content_items pt with [] => [] | l => if in_set pt then [ISet (lit "content") l] else l end end.
Lemma exif_ok stop p pt : part_ok pt -> fits data stop p [part_item pt] -> chunk_exif (part_tag pt) read (8 * zlen data) stop (8 * p) = Ok (VNum (exif_flag pt)).
Proof using Hs.
  intros [_ K] [O _]. unfold chunk_exif. assert (R : forall b y, firstn 6 b = y -> zlen y = 6 -> occurs_at b data (p + 4) -> readBytes read (8 * p + 32) 6 = Ok y).
  { intros b y F L Ob. rewrite <- (firstn_skipn 6 b), F in Ob. apply occ_app in Ob as [Ob _]. replace (8 * p + 32) with (8 * (p + 4)) by lia. rewrite <- L. apply (rb_occ read data Hs); [exact Ob|intros ->; discriminate L]. }
  destruct pt as [a b u x y w h|v b r f t|bl|t pc h w cl|ql|hl|n|x|x|x|t x|cl ss se hb lb x|n x]; try reflexivity; cbn [part_tag exif_flag].
  - destruct K as [T _]. unfold frame_tags in T. cbn [In] in T. replace (t =? 225) with false by lia. reflexivity.
  - change (225 =? 225) with true. cbn iota. rewrite (R (lit "Exif" ++ [0; 0] ++ x) (lit "Exif" ++ [0; 0]) eq_refl eq_refl); [reflexivity|]. unfold part_item, marker, be, bytes_of_all in O. cbn [content_items in_set] in O. set (z := lit "Exif" ++ [0; 0] ++ x) in *. cbn [app flat_map bytes_of plain_bytes] in O. rewrite <- !app_assoc in O. apply occ_app in O as [_ O]. apply occ_app in O as [_ O]. apply occ_app in O as [_ O]. apply occ_app in O as [O _]. rewrite !zlen_uint in O. replace (p + 4) with (p + Z.of_nat 1 + Z.of_nat 1 + Z.of_nat 2) by lia. exact O.
  - destruct (t =? 225) eqn:E; [|reflexivity]. assert (X : 6 <= zlen x /\ firstn 6 x <> lit "Exif" ++ [0; 0]) by (destruct K as [T|[T|[T|[_ T]]]]; [cbn [In] in T; lia|lia|lia|exact T]). destruct X as [L N]. rewrite (R x (firstn 6 x) eq_refl); [|unfold zlen in *; rewrite firstn_length_le by lia; reflexivity|].
    + cbn [bind]. destruct (str_eqb (firstn 6 x) (lit "Exif" ++ [0; 0])) eqn:S; [apply str_eqb_eq in S; contradiction|reflexivity].
    + unfold part_item, marker, be, bytes_of_all in O. destruct x as [|z x]; [cbn in L; lia|]. cbn [content_items in_set app flat_map bytes_of plain_bytes] in O. rewrite <- !app_assoc in O. apply occ_app in O as [_ O]. apply occ_app in O as [_ O]. apply occ_app in O as [_ O]. cbn [app] in O. rewrite ?app_nil_r in O. rewrite !zlen_uint in O. replace (p + 4) with (p + Z.of_nat 1 + Z.of_nat 1 + Z.of_nat 2) by lia. exact O.
  - destruct K as [T _]. replace (208 + n =? 225) with false by lia. reflexivity.
Qed.
Lemma part_chunk_obeys stop p pt k : part_ok pt -> obeys stop p (JpegChunk k) [part_item pt] (k (part_tag pt) (shows (marker (part_tag pt) ++ chunk_rest pt) p)).
Proof using Hs Hb.
  intros K. pose proof (tag_range pt K). apply (chunk_obeys stop p (part_name pt) (part_tag pt) (exif_flag pt) (part_parser pt) (chunk_rest pt)); [lia|apply part_info, K|apply (exif_ok stop p pt K)|apply part_fields_obey, K].
Qed.
Lemma chunk_content p pt : in_set pt = true -> is_rst pt = false -> content_items pt <> [] -> content (shows (marker (part_tag pt) ++ chunk_rest pt) p) = Some (shows (content_items pt) (p + 4)).
Proof using Type.
  intros S R Ne. assert (E : chunk_rest pt = [be 2 "size" (content_size pt + 2); ISet (lit "content") (content_items pt)]) by (unfold chunk_rest; rewrite S; destruct (content_items pt) eqn:E; [contradiction|]; destruct pt; try reflexivity; discriminate R). rewrite E. unfold marker, be, content. cbn [app shows ItemSpec.show]. unfold len. cbn [bytes_of plain_bytes]. rewrite !zlen_uint. replace (p + Z.of_nat 1 + Z.of_nat 1 + Z.of_nat 2) with (p + 4) by lia. reflexivity.
Qed.
(** The interval, when there is one, has a value *)
Definition known_interval (iv : option (list fld)) : Prop := forall l, iv = Some l -> exists c v, content l = Some c /\ get (lit "interval") c = Some v.
Lemma part_obeys stop p pt fr iv k : 0 <= p -> part_ok pt -> (needs_frame pt = true -> fr = true) -> known_interval iv ->
  (needs_frame pt = true -> exists t, t <> 0 /\ occurs_at [255; t] data (p + zlen (bytes_of_all (part_items pt))) /\ p + zlen (bytes_of_all (part_items pt)) + 1 <= 100 * 1024 * 1024) ->
  exists iv', known_interval iv' /\ obeys stop p (jpeg_chunk (fr, iv) k) (part_items pt) (k (fr || is_frame pt, iv')).
Proof using Hs Hb.
  intros P K Fr Kn Nx. unfold jpeg_chunk. destruct (part_kind pt K) as (K1 & K2 & K3 & K4). set (l := shows (marker (part_tag pt) ++ chunk_rest pt) p). set (iv' := match iv with Some _ => iv | None => if part_tag pt =? 0xdd then Some l else None end).
  assert (Kn' : known_interval iv').
  { unfold iv'. destruct iv as [i|]; [exact Kn|]. rewrite K4. destruct pt; try (intros ? E; discriminate E). intros l' E. injection E as <-. unfold l. exists (shows (content_items (Interval n)) (p + 4)), (VNum n). split; [apply chunk_content; [reflexivity|reflexivity|discriminate]|reflexivity]. }
  exists iv'. split; [exact Kn'|].
  assert (Il : forall k', match iv' with None => JpegImageData (k' tt) | Some i => match content i with None => PErr MissingField | Some c => match get (lit "interval") c with None => PErr MissingField | Some _ => JpegImageData (k' tt) end end end = JpegImageData (k' tt)).
  { intros k'. destruct iv' as [i|]; [|reflexivity]. destruct (Kn' i eq_refl) as (c & v & -> & ->). reflexivity. }
  change (part_items pt) with ([part_item pt] ++ match pt with Scan _ _ _ _ _ x | Rst _ x => [image x] | _ => [] end). eapply ob_app; [apply part_chunk_obeys, K|]. cbv beta iota zeta. fold l. fold iv'. rewrite K1, K2, K3. set (q := p + _).
  destruct (is_frame pt) eqn:If.
  - destruct pt; try discriminate If. unfold l at 1. rewrite chunk_content by (reflexivity || discriminate). cbn [is_scan is_rst]. rewrite Bool.orb_true_r. apply ob_nil.
  - rewrite Bool.orb_false_r. assert (Img : forall x k', match pt with Scan _ _ _ _ _ y | Rst _ y => x = y | _ => False end -> needs_frame pt = true -> obeys stop q (JpegImageData k') [image x] k').
    { intros x k' X Nf. destruct (Nx Nf) as (t & T & Ot & Lt). assert (Ex : part_items pt = [part_item pt; image x]) by (destruct pt; try contradiction; subst; reflexivity). rewrite Ex in Ot, Lt. change [part_item pt; image x] with ([part_item pt] ++ [image x]) in Ot, Lt. rewrite bytes_of_all_app, zlen_app in Ot, Lt. assert (Z1 : bytes_of_all [image x] = x) by (unfold image, bytes_of_all; cbn [flat_map bytes_of plain_bytes]; rewrite !app_nil_r; reflexivity). rewrite Z1 in Ot, Lt. pose proof (zlen_nonneg (bytes_of_all [part_item pt])).
      assert (Cx : coded x /\ x <> []) by (destruct K as [_ K]; destruct pt; try contradiction; subst; tauto). destruct Cx as [Cx Nex]. apply (image_obeys stop q x k' t); [unfold q; lia|exact Cx|exact Nex|exact T|unfold q; rewrite <- Z.add_assoc; exact Ot|unfold q; lia]. }
    destruct pt; cbn [is_scan is_rst]; try apply ob_nil.
    + rewrite (Fr eq_refl). cbn [negb]. unfold l at 1. rewrite chunk_content by (reflexivity || discriminate). rewrite (Il (fun _ => k (true, iv'))). apply Img; reflexivity.
    + apply Img; reflexivity.
Qed.
Lemma part_len pt : part_ok pt -> 2 <= zlen (bytes_of_all [part_item pt]).
Proof using Type.
  intros K. unfold part_item, marker, be. rewrite bytes_of_all_cons, app_nil_r. change (bytes_of (ISet ?n ?x)) with (bytes_of_all x). cbn [app]. rewrite !bytes_of_all_cons, !zlen_app. cbn [bytes_of plain_bytes]. rewrite !zlen_uint. match goal with |- context [_ + (_ + zlen ?y)] => pose proof (zlen_nonneg y) end. lia.
Qed.
Lemma items_pos pt : part_ok pt -> 2 <= zlen (bytes_of_all (part_items pt)).
Proof using Type. intros K. pose proof (part_len pt K). unfold part_items. rewrite bytes_of_all_cons, zlen_app. rewrite bytes_of_all_cons, app_nil_r in H. match goal with |- context [_ + zlen ?y] => pose proof (zlen_nonneg y) end. lia. Qed.
(** The next marker *)
Lemma starts_with_marker l : Forall part_ok l -> exists t y, t <> 0 /\ bytes_of_all (flat_map part_items l ++ [ISet (lit "end_image") (marker 0xd9)]) = [255; t] ++ y.
Proof using Type.
  intros K. destruct l as [|pt l]; [exists 217, []; split; [lia|reflexivity]|]. apply Forall_inv in K. pose proof (tag_range pt K) as T. exists (part_tag pt). cbn [flat_map part_items app]. rewrite bytes_of_all_cons. unfold part_item, marker, be. change (bytes_of (ISet ?n ?x)) with (bytes_of_all x). cbn [app]. rewrite !bytes_of_all_cons. cbn [bytes_of plain_bytes]. rewrite !uint1 by lia. eexists. split; [lia|]. cbn [app]. reflexivity.
Qed.
Definition eoi : item := ISet (lit "end_image") (marker 0xd9).
Lemma short_chunk_obeys stop p tag name fr iv k : (tag, name) = (0xd8, lit "start_image") \/ (tag, name) = (0xd9, lit "end_image") -> obeys stop p (jpeg_chunk (fr, iv) k) [ISet name (marker tag)] (k (fr, iv)).
Proof using Hs Hb.
  intros T. unfold jpeg_chunk. rewrite <- (app_nil_r (marker tag)). assert (C : forall k', obeys stop p (JpegChunk k') [ISet name (marker tag ++ [])] (k' tag (shows (marker tag ++ []) p))).
  { intros k'. destruct T as [T|T]; injection T as -> ->; (eapply (chunk_obeys _ _ _ _ 0); [lia|reflexivity|intros _; reflexivity|]); unfold Chunk_fields, marker, be; cbn [app]; ob8; change (negb (255 =? 255)) with false; cbn iota; ob8; apply ob_nil. }
  rewrite <- (app_nil_r [ISet _ _]). eapply ob_app; [apply C|]. destruct T as [T|T]; injection T as -> ->; destruct iv; apply ob_nil.
Qed.
Lemma parts_obey stop l : forall p n fr iv, 0 <= p -> Forall part_ok l -> framed fr l -> known_interval iv -> p + zlen (bytes_of_all (flat_map part_items l ++ [eoi])) <= 100 * 1024 * 1024 -> (List.length l < n)%nat ->
  exists s, obeys stop p (loop_from jpeg_chunk n (fr, iv)) (flat_map part_items l ++ [eoi]) (loop_from jpeg_chunk (n - List.length l - 1) s).
Proof using Hs Hb.
  induction l as [|pt l IH]; intros p n fr iv P K Fr Kn Lm N; (destruct n as [|n]; [cbn [List.length] in N; lia|]); cbn [flat_map app List.length] in *.
  - exists (fr, iv). intros F. pose proof (proj2 F) as St. change (zlen (bytes_of_all [eoi])) with 2 in St. revert F. cbn [loop_from]. apply ob_ask. replace (stop <=? 8 * p) with false by lia. replace (S n - 0 - 1)%nat with n by lia. apply short_chunk_obeys. right. reflexivity.
  - apply Forall_inv in K as Kp. apply Forall_inv_tail in K. destruct Fr as [Fp Fr]. rewrite <- app_assoc in *. rewrite bytes_of_all_app, zlen_app in Lm. pose proof (items_pos pt Kp) as Lp. set (rest := flat_map part_items l ++ [eoi]) in *. pose proof (zlen_nonneg (bytes_of_all rest)).
    destruct (starts_with_marker l K) as (t & y & T & Ey). fold eoi in Ey. fold rest in Ey.
    assert (Dec : {occurs_at [255; t] data (p + zlen (bytes_of_all (part_items pt)))} + {~ occurs_at [255; t] data (p + zlen (bytes_of_all (part_items pt)))}). { set (j := p + _). unfold occurs_at. destruct (Z_le_dec 0 j); [|right; tauto]. destruct (Z_le_dec (j + zlen [255; t]) (zlen data)); [|right; tauto]. destruct (list_eq_dec Z.eq_dec (sub data j (zlen [255; t])) [255; t]); [left; auto|right; tauto]. }
    destruct Dec as [O|O]; [|exists (fr, iv); intros [F _]; exfalso; apply O; rewrite bytes_of_all_app in F; apply occ_app in F as [_ F]; rewrite Ey in F; apply occ_app in F as [F _]; exact F].
    destruct (part_obeys stop p pt fr iv (loop_from jpeg_chunk n) P Kp Fp Kn) as (iv' & Kn' & H1); [intros _; exists t; split; [exact T|]; split; [exact O|]; assert (2 <= zlen (bytes_of_all rest)) by (rewrite Ey, zlen_app; change (zlen [255; t]) with 2; pose proof (zlen_nonneg y); lia); lia|].
    destruct (IH (p + zlen (bytes_of_all (part_items pt))) n (fr || is_frame pt) iv' ltac:(lia) K Fr Kn' ltac:(lia) ltac:(lia)) as [s H2]. exists s. intros F. pose proof (proj2 F) as St. rewrite bytes_of_all_app, zlen_app in St. revert F. cbn [loop_from]. apply ob_ask. replace (stop <=? 8 * p) with false by lia. eapply ob_app; [exact H1|exact H2].
Qed.
Lemma parts_count l : Forall part_ok l -> Z.of_nat (List.length l) <= zlen (bytes_of_all (flat_map part_items l)).
Proof using Type. intros K. apply items_len. intros d D. rewrite Forall_forall in K. pose proof (items_pos d (K d D)). lia. Qed.
Lemma soi_split l : bytes_of_all (jpeg_items l) = [255; 216] ++ bytes_of_all (flat_map part_items l ++ [eoi]).
Proof using Type. reflexivity. Qed.
Lemma jpeg_obeys stop l : jpeg_ok l -> 8 * zlen (bytes_of_all (jpeg_items l)) <= stop -> exists n s, obeys stop 0 jpeg_fields (jpeg_items l) (loop_from jpeg_chunk (S n) s).
Proof using Hs Hb.
  intros (K & Fr & Lm) St. rewrite soi_split, zlen_app in *. change (zlen [255; 216]) with 2 in *. pose proof (parts_count l K) as C. rewrite bytes_of_all_app, zlen_app in *. change (zlen (bytes_of_all [eoi])) with 2 in *. destruct (parts_obey stop l 2 (Z.to_nat (stop - 0)) false None ltac:(lia) K Fr) as [s H]; [intros ? E; discriminate E|rewrite bytes_of_all_app, zlen_app; change (zlen (bytes_of_all [eoi])) with 2; lia|lia|].
  destruct (Z.to_nat (stop - 0) - List.length l - 1)%nat as [|m] eqn:Em; [lia|]. exists m, s. unfold jpeg_fields. apply ob_ask. change (8 * 0) with 0. cbn [loop_from]. apply ob_ask. replace (stop <=? 8 * 0) with false by lia. unfold jpeg_items. change (ISet (lit "start_image") (marker 216) :: ?r) with ([ISet (lit "start_image") (marker 216)] ++ r). eapply ob_app; [apply short_chunk_obeys; left; reflexivity|]. exact H.
Qed.
End Read.

(** C76: what the PNG parser shows. *)
From Coq Require Import String.
From Verif Require Import Base BaseProofs BitsModel BitsSpec BitsProofs StreamModel StreamSpec StreamProofs StreamProofs2 DictModel DictProofs NumSpec NumRead ChunkBase GenModel GenSpec GenProofs ItemSpec ItemProofs PngModel PngSpec PngProofs Lit.
Open Scope Z_scope.
Ltac Zify.zify_post_hook ::= Z.div_mod_to_equations.

Lemma length_chunks cs : Forall chunk_ok cs -> Z.of_nat (length cs) <= zlen (bytes_of_all (map chunk_item cs)).
Proof.
  induction 1 as [|c cs K _ IH]; [cbn; lia|]. cbn [map length]. change (bytes_of_all (chunk_item c :: map chunk_item cs)) with (bytes_of (chunk_item c) ++ bytes_of_all (map chunk_item cs)). rewrite zlen_app. fold (len (chunk_item c)). rewrite chunk_len by exact K. pose proof (zlen_nonneg (bytes_of_all (body_of (fst c)))). lia.
Qed.
Lemma id_bytes cs : bytes_of_all (png cs) = png_signature ++ bytes_of_all (map chunk_item cs).
Proof. reflexivity. Qed.
(** For every list of chunks: the fields are the signature and the chunks, each with its size, its tag, its contents and its checksum, where they are. *)
Theorem C76_chunks : forall read cs, let data := bytes_of_all (png cs) in serves read data -> is_bytes data -> Forall chunk_ok cs -> no_hole cs ->
  PngFile read (8 * zlen data) = (shows (png cs) 0, None, 8 * zlen data).
Proof.
  intros read cs data Hs Hb K H. unfold PngFile. pose proof (occ_self data) as O.
  apply (follow_file read data Hs Hb); [reflexivity|].
  unfold png_fields, png. apply fo_plain; [split; [discriminate|cbn; lia]|reflexivity|]. rewrite <- flat_map_single. change (0 + len _) with 8.
  assert (E : flat_map (fun x => [chunk_item x]) cs = map chunk_item cs) by apply flat_map_single. pose proof (length_chunks cs K) as Lc.
  unfold data in O. rewrite id_bytes in O. apply occ_app in O as [_ O]. change (0 + zlen png_signature) with 8 in O.
  assert (L : zlen data = 8 + zlen (bytes_of_all (map chunk_item cs))) by (unfold data; rewrite id_bytes, zlen_app; reflexivity).
  apply (follows_loop_from read data (fun x => [chunk_item x]) next_first good); rewrite ?E; [lia|lia|exact O| |apply hole_good; assumption].
  intros s d p k I' G O' St'. rewrite Forall_forall in K. split; [|apply chunk_follows; auto].
  unfold bytes_of_all. cbn [flat_map]. rewrite app_nil_r. fold (len (chunk_item d)). rewrite chunk_len by auto. pose proof (zlen_nonneg (bytes_of_all (body_of (fst d)))). lia.
Qed.
Print Assumptions C76_chunks.
(** Every file: the fields follow each other from the start and end inside the file, and the loops end. *)
Section Ends.
Context (read : read_fun) (data : list Z) (Hs : serves read data) (Hb : is_bytes data) (He : ends read data) (Hd : data <> []).
Lemma tag_safe s n tag name f k : TAG_INFO s n tag = Some (name, Some f) -> (forall m, safe read data m k) -> forall m, safe read data m (f k).
Proof using All.
  unfold TAG_INFO. intros E K m. repeat (match type of E with (if ?b then _ else _) = _ => destruct b end; [first [discriminate E|apply (f_equal (fun o => match o with Some (_, Some f) => f | _ => f end)) in E; subst f]|]); try discriminate E.
  - unfold timestampParse. repeat calm_step. apply K.
  - unfold physicalParse. repeat calm_step. apply K.
  - unfold headerParse. repeat calm_step. apply K.
  - unfold paletteParse. calm_step; [calm_step|]. apply safe_times; [|apply K]. intros m' k' K'. apply safe_set; [unfold RGB; repeat calm_step|]. intros _. eapply safe_more; [exact K'|lia].
  - unfold gammaParse. repeat calm_step. apply K.
  - unfold textParse. repeat calm_step; apply K.
  - unfold parseTransparency. apply safe_times; [|apply K]. intros m' k' K'. calm_step. eapply safe_more; [exact K'|cbn [least]; lia].
  - unfold parseBackgroundColor. repeat calm_step. apply K.
  - unfold imageData. destruct s as [[|]|]; repeat calm_step; apply K.
Qed.
Lemma chunk_safe : forall s m k, (forall s, safe read data (m - 1) (k s)) -> safe read data m (Chunk s k).
Proof using All.
  intros s m k H. unfold Chunk. apply safe_peek; auto; [split; [lia|discriminate]|lia|]. intros size. destruct (_ <? _); [apply safe_err; discriminate|]. apply safe_peek; auto; [exact Logic.I|lia|]. intros tag.
  destruct (TAG_INFO s (num size) (bytes tag)) as [[name parse]|] eqn:E; (apply safe_set; [|intros _; apply H]); unfold Chunk_fields; do 2 calm_step; (destruct (num size =? 0); [repeat calm_step|]); [|repeat calm_step].
  destruct parse as [parse|]; [|repeat calm_step]. eapply tag_safe; [exact E|]. intros m'. repeat calm_step.
Qed.
End Ends.
Theorem C76_any : forall read data, serves read data -> ends read data -> is_bytes data -> data <> [] ->
  let '(l, e, b) := PngFile read (8 * zlen data) in tiled 0 l b /\ b <= 8 * zlen data /\ settled_file (l, e, b).
Proof.
  intros read data Hs He Hb Hd. apply (any_file read data Hs Hb He Hd). pose proof (zlen_nonneg data). unfold png_fields. calm_step. cbn [least]. apply safe_loop_from; [|lia]. intros s m k K. apply chunk_safe; auto.
Qed.
Print Assumptions C76_any.
(** A file is accepted when its first chunk is a header, and refused when it is another. *)
Theorem C76_valid : forall read c cs, let data := bytes_of_all (png (c :: cs)) in serves read data -> is_bytes data -> Forall chunk_ok (c :: cs) -> no_hole (c :: cs) ->
  png_validate read (8 * zlen data) = Ok (match fst c with Header _ _ _ _ _ _ _ _ _ => true | _ => false end).
Proof.
  intros read c cs data Hs Hb K H. unfold png_validate, data. rewrite C76_chunks by assumption. cbn [fst png map shows]. unfold chunk_item at 1. rewrite (show_set (name_of (fst c))). cbn [ItemSpec.show app plain_val bytes f_name].
  change (str_eqb [0x89; 0x50; 0x4E; 0x47; 0x0D; 0x0A; 0x1A; 0x0A] png_signature) with true. cbn [negb]. f_equal. destruct (fst c) eqn:C; try reflexivity. cbn [name_of].
  destruct (str_eqb tag (lit "iTXt")), (str_eqb tag (lit "zTXt")), (str_eqb tag (lit "IEND")); reflexivity.
Qed.
Print Assumptions C76_valid.
(** Every file whose first eight bytes are not the signature is refused. *)
Theorem C76_signature : forall read data, serves read data -> is_bytes data -> 8 <= zlen data -> sub data 0 8 <> png_signature -> png_validate read (8 * zlen data) = Ok false.
Proof.
  intros read data Hs Hb L N. pose proof (occ_sub data 0 8 ltac:(lia) ltac:(lia) ltac:(lia)) as O. set (x := sub data 0 8) in *. assert (Lx : zlen x = 8) by (unfold x; rewrite zlen_sub_exact; lia).
  unfold png_validate, PngFile, png_fields. rewrite (at_bytes read data Hs (8 * zlen data) _ x 8 _ _ 0 0 64); try lia; [|intros X0; rewrite X0 in Lx; discriminate|exact O]. cbn [put fst bytes].
  replace (str_eqb x png_signature) with false; [reflexivity|]. symmetry. destruct (str_eqb x png_signature) eqn:E; [|reflexivity]. apply str_eqb_eq in E. contradiction.
Qed.
Print Assumptions C76_signature.
(** The last chunk of a file *)
Definition iend : list Z := bytes_of (chunk_item (Other (lit "IEND") [], 0xAE426082)).
(** The size of the contents is that of the file up to its last chunk, whatever follows it, unless the bytes of the last chunk are also found before. *)
Theorem C76_content_size : forall read c cs junk, let file := bytes_of_all (png (c :: cs)) in let data := file ++ iend ++ junk in
  serves read data -> is_bytes data -> chunk_ok c -> tag_of (fst c) = lit "IHDR" -> zlen file + 12 <= 500 * 1024 * 1024 ->
  (forall i, 8 + len (chunk_item c) <= i < zlen file -> ~ occurs_at iend data i) ->
  png_content_size read (8 * zlen data) = Ok (Some (8 * (zlen file + 12))).
Proof.
  intros read c cs junk file data Hs Hb K T L N.
  assert (E : data = bytes_of_all (png [c]) ++ bytes_of_all (map chunk_item cs) ++ iend ++ junk).
  { unfold data, file. rewrite !id_bytes. cbn [map]. change (bytes_of_all (chunk_item c :: map chunk_item cs)) with (bytes_of (chunk_item c) ++ bytes_of_all (map chunk_item cs)). change (bytes_of_all [chunk_item c]) with (bytes_of (chunk_item c) ++ []). rewrite app_nil_r, <- !app_assoc. reflexivity. }
  assert (Hh : name_of (fst c) = lit "header") by (destruct K as [[_ K] _]; destruct (fst c); try discriminate T; try reflexivity; destruct K as [_ K]; exfalso; apply K; cbn [tag_of] in T; subst tag; cbn; tauto).
  pose proof (occ_self data) as O. rewrite E in O at 1. apply occ_app in O as [O _].
  assert (H1 : len (chunk_item c) = zlen (bytes_of_all (body_of (fst c))) + 12) by (apply chunk_len, K). pose proof (zlen_nonneg (bytes_of_all (body_of (fst c)))).
  assert (Z1 : zlen (bytes_of_all (png [c])) = 8 + len (chunk_item c)) by (rewrite id_bytes, zlen_app; change (bytes_of_all (map chunk_item [c])) with (bytes_of (chunk_item c) ++ []); rewrite app_nil_r; reflexivity).
  assert (Zd : zlen data = zlen file + 12 + zlen junk) by (unfold data; rewrite !zlen_app; change (zlen iend) with 12; lia).
  assert (Zf : zlen file = 8 + len (chunk_item c) + zlen (bytes_of_all (map chunk_item cs))) by (unfold file; rewrite id_bytes, zlen_app; change (bytes_of_all (map chunk_item (c :: cs))) with (bytes_of (chunk_item c) ++ bytes_of_all (map chunk_item cs)); rewrite zlen_app; unfold len; change (zlen png_signature) with 8; lia).
  pose proof (zlen_nonneg junk). pose proof (zlen_nonneg (bytes_of_all (map chunk_item cs))).
  assert (R : exists r, PngFile read (8 * zlen data) = puts (shows (png [c]) 0) r).
  { eexists. unfold PngFile. assert (Fo : follows read data (8 * zlen data) 0 (png_fields (8 * zlen data)) (png [c]) (loop_from Chunk (Z.to_nat (8 * zlen data)) (next_first None c))).
    { unfold png_fields, png. apply fo_plain; [split; [discriminate|cbn; lia]|reflexivity|]. change (0 + len _) with 8. cbn [loop_from]. apply fo_ask. replace (8 * zlen data <=? 8 * 8) with false by lia.
      rewrite id_bytes in O. apply occ_app in O as [_ O]. change (0 + zlen png_signature) with 8 in O. apply chunk_follows; auto.
      - destruct (fst c) eqn:C; try exact Logic.I; unfold good; rewrite C; try exact Logic.I. destruct x; exact Logic.I.
      - change (map chunk_item [c]) with [chunk_item c] in O. pose proof (occ_in _ _ _ O). lia. }
    pose proof (follow read data Hs Hb _ _ _ _ _ Fo true O ltac:(rewrite Z1; lia)) as R. change (8 * 0) with 0 in R. exact R. }
  destruct R as [r R]. unfold png_content_size. rewrite R. unfold puts. cbn [fst]. unfold png. cbn [map shows]. unfold chunk_item at 1. rewrite show_set. cbn [ItemSpec.show app find f_name]. change (str_eqb (lit "id") (lit "header")) with false. cbn iota. rewrite Hh. change (str_eqb (lit "header") (lit "header")) with true. cbn iota. cbn [f_addr f_size].
  fold (bytes_of (ISet (name_of (fst c)) ([long "size" (zlen (bytes_of_all (body_of (fst c)))); I (lit "tag") (SText (tag_of (fst c)))] ++ body_of (fst c) ++ [long "crc32" (snd c)]))). change (0 + len (I (lit "id") (SBytes [137; 80; 78; 71; 13; 10; 26; 10]))) with 8.
  match goal with |- context [searchBytes read _ ?b ?x _] => change b with iend; replace x with (8 * (8 + len (chunk_item c))) by (change (len (chunk_item c)) with (zlen (bytes_of_all ([long "size" (zlen (bytes_of_all (body_of (fst c)))); I (lit "tag") (SText (tag_of (fst c)))] ++ body_of (fst c) ++ [long "crc32" (snd c)]))); cbn [app]; lia) end.
  assert (Oi : occurs_at iend data (zlen file)) by (unfold data; apply occ_pre).
  destruct (searchBytes_correct read data iend (8 + len (chunk_item c)) (Some (500 * 1024 * 1024 * 8)) Hs ltac:(intros D; rewrite D in Zd; change (zlen (@nil Z)) with 0 in Zd; lia) ltac:(discriminate) ltac:(lia)) as [(i & Si & I1 & I2 & I3 & I4)|[_ Nf]].
  - rewrite Si. cbn [bind]. assert (i = zlen file); [|subst i; do 2 f_equal; lia]. destruct (Z.lt_trichotomy i (zlen file)) as [Lt|[Eq|Gt]]; [exfalso; apply (N i); auto; lia|exact Eq|exfalso; apply (I4 (zlen file)); [lia|exact Oi]].
  - exfalso. apply (Nf (zlen file)). split; [lia|]. split; [change (zlen iend) with 12; unfold search_limit; lia|]. split; [exact Oi|intros j J; apply N; lia].
Qed.
Print Assumptions C76_content_size.

(** Concrete files *)
Definition hdr : chunk := (Header 2 3 8 false true false 0 0 0, 0x12345678).
Definition a_png : list chunk := [hdr; (Palette [(1, 2, 3); (255, 0, 128)], 1); (Text (lit "Title") (lit "hi"), 2); (Data [], 3); (Other (lit "IEND") [], 0xAE426082)].
Definition b_png : list chunk := [hdr; (Gamma 45455, 1); (Time 2026 11 17 15 30 0, 2); (Physical 2835 2835 1, 3); (Transparency [0; 255], 4); (Background 1 2 3, 5); (Data [1; 2; 3], 6); (Data [4], 7); (Other (lit "zTXt") [9], 8); (Other (lit "IEND") [], 0xAE426082)].
Definition shown_of (l : list Z) : shown := PngFile (string_read l) (8 * zlen l).
Ltac chunks := repeat apply Forall_cons; try apply Forall_nil; repeat split; try (vm_compute; intuition congruence); try (repeat constructor; vm_compute; intuition congruence).
Example C76_files : Forall chunk_ok a_png /\ no_hole a_png /\ Forall chunk_ok b_png /\ no_hole b_png /\ zlen (bytes_of_all (png b_png)) = 174 /\
  shown_of (bytes_of_all (png b_png)) = (shows (png b_png) 0, None, 8 * 174) /\
  nth_error (shows (png a_png) 0) 3 = Some (G (lit "text[]") (8 * 51) (8 * 20)
    [F (lit "size") (8 * 51) 32 (VNum 8); F (lit "tag") (8 * 55) 32 (VBytes (lit "tEXt")); F (lit "keyword") (8 * 59) 48 (VBytes (lit "Title")); F (lit "text") (8 * 65) 16 (VBytes (lit "hi")); F (lit "crc32") (8 * 67) 32 (VNum 2)] None) /\
  png_validate (string_read (bytes_of_all (png b_png))) (8 * 174) = Ok true.
Proof.
  split; [chunks|]. split; [apply Forall_nil|]. split; [chunks|]. split; [exact Logic.I|]. split; [vm_compute; reflexivity|]. split; [vm_compute; reflexivity|]. split; vm_compute; reflexivity.
Qed.
(** The end of a file with the bytes of the last chunk found in a text: these bytes end the contents. *)
Definition c_png : list chunk := [hdr; (Text (lit "Title") [0; 0; 0; 0; 0x49; 0x45; 0x4E; 0x44; 0xae; 0x42; 0x60; 0x82], 2); (Data [7], 3)].
Example C76_sizes : (forall i, 8 + len (chunk_item hdr) <= i < zlen (bytes_of_all (png a_png)) - 12 -> ~ occurs_at iend (bytes_of_all (png a_png)) i) /\
  png_content_size (string_read (bytes_of_all (png a_png))) (8 * zlen (bytes_of_all (png a_png))) = Ok (Some (8 * zlen (bytes_of_all (png a_png)))).
Proof.
  split; [|vm_compute; reflexivity]. intros i I (_ & _ & E). change (8 + len (chunk_item hdr)) with 33 in I. change (zlen (bytes_of_all (png a_png)) - 12) with 83 in I.
  assert (C : forallb (fun i => negb (str_eqb (sub (bytes_of_all (png a_png)) (Z.of_nat i) 12) iend)) (seq 33 50) = true) by (vm_compute; reflexivity). rewrite forallb_forall in C.
  specialize (C (Z.to_nat i)). rewrite in_seq in C. specialize (C ltac:(lia)). rewrite Z2Nat.id in C by lia. change (zlen iend) with 12 in E. rewrite E in C. rewrite (proj2 (str_eqb_eq _ _) eq_refl) in C. discriminate.
Qed.
(** A file whose text holds the twelve bytes that end PNG files is said to end inside this text: its contents are cut before the image (png.py:290 looks for these bytes
    anywhere). *)
Theorem C76_content_size_refuted : let data := bytes_of_all (png (c_png ++ [(Other (lit "IEND") [], 0xAE426082)])) in
  Forall chunk_ok c_png /\ zlen data = 88 /\ png_content_size (string_read data) (8 * zlen data) = Ok (Some (8 * 59)).
Proof. cbv zeta. split; [chunks|]. split; vm_compute; reflexivity. Qed.
Print Assumptions C76_content_size_refuted.
(** The background of a gray picture is one number (RFC 2083, 4.2.1): the parser shows the checksum of the chunk as two other colours, and no checksum (png.py:141-144 always
    reads three numbers). *)
Theorem C76_gray_refuted : let gray := [0; 0; 0; 2] ++ lit "bKGD" ++ [0; 7] ++ [0x11; 0x22; 0x33; 0x44] in let data := bytes_of_all (png [hdr]) ++ gray ++ iend in
  nth_error (fst (fst (shown_of data))) 2 = Some (G (lit "background") (8 * 33) (8 * 14)
    [F (lit "size") (8 * 33) 32 (VNum 2); F (lit "tag") (8 * 37) 32 (VBytes (lit "bKGD")); F (lit "red") (8 * 41) 16 (VNum 7); F (lit "green") (8 * 43) 16 (VNum 0x1122); F (lit "blue") (8 * 45) 16 (VNum 0x3344)]
    (Some StopIteration)).
Proof. vm_compute. reflexivity. Qed.
Print Assumptions C76_gray_refuted.
(** When the first chunk of image data is empty, the others are shown neither as image data nor with their checksums (png.py:167 looks for the data of the first chunk). *)
Theorem C76_empty_refuted : let data := bytes_of_all (png [hdr; (Data [], 1); (Data [5; 6], 2); (Other (lit "IEND") [], 0xAE426082)]) in
  nth_error (fst (fst (shown_of data))) 3 = Some (G (lit "data[]") (8 * 45) (8 * 14) [F (lit "size") (8 * 45) 32 (VNum 2); F (lit "tag") (8 * 49) 32 (VBytes (lit "IDAT"))] (Some MissingField)).
Proof. vm_compute. reflexivity. Qed.
Print Assumptions C76_empty_refuted.
(** A text of 65536 bytes is not shown, nor its checksum: strings are at most 65535 bytes long (string_field.py:142). *)
Theorem C76_text_refuted : let t := List.repeat 65 (Z.to_nat 65536) in let data := bytes_of_all (png [hdr; (Text (lit "k") t, 2)]) in
  nth_error (fst (fst (shown_of data))) 2 = Some (G (lit "text[]") (8 * 33) (8 * 65550) [F (lit "size") (8 * 33) 32 (VNum 65538); F (lit "tag") (8 * 37) 32 (VBytes (lit "tEXt")); F (lit "keyword") (8 * 41) 16 (VBytes (lit "k"))] (Some ParserError)).
Proof. vm_compute. reflexivity. Qed.
Print Assumptions C76_text_refuted.

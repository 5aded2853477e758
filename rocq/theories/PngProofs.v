(** Proofs about PngModel.v. *)
From Coq Require Import String.
From Verif Require Import Base BaseProofs BitsModel BitsSpec BitsProofs StreamModel StreamSpec StreamProofs DictModel DictProofs NumSpec NumRead ChunkBase GenModel GenSpec GenProofs ItemSpec ItemProofs PngModel PngSpec Lit.
Open Scope Z_scope.
Ltac Zify.zify_post_hook ::= Z.div_mod_to_equations.

Ltac ok := first [ split; [discriminate|split; [lia|assumption]] | assumption ].
Definition parser_of (first : option bool) (size : Z) (c : content) : option (prog -> prog) :=
  match c with
  | Header _ _ _ _ _ _ _ _ _ => Some headerParse | Palette _ => Some (paletteParse size) | Gamma _ => Some gammaParse | Text _ _ => Some (textParse size) | Time _ _ _ _ _ _ => Some timestampParse
  | Physical _ _ _ => Some physicalParse | Transparency _ => Some (parseTransparency size) | Background _ _ _ => Some parseBackgroundColor | Data _ => Some (imageData first size) | Other tag _ => None
  end.
Lemma other_tag tag t : ~ In tag typed -> In t typed -> str_eqb tag t = false.
Proof. intros N T. destruct (str_eqb tag t) eqn:E; [|reflexivity]. apply str_eqb_eq in E. subst. contradiction. Qed.
Lemma info_of first size c : content_ok c -> match TAG_INFO first size (tag_of c) with Some x => x | None => (lit "chunk[]", None) end = (name_of c, parser_of first size c).
Proof.
  intros [_ K]. destruct c; try reflexivity. destruct K as [_ N]. unfold TAG_INFO. cbn [tag_of name_of parser_of].
  rewrite !(other_tag tag) by (try exact N; cbn; tauto). destruct (str_eqb tag (lit "iTXt")), (str_eqb tag (lit "zTXt")), (str_eqb tag (lit "IEND")); reflexivity.
Qed.
Lemma data_tag c : content_ok c -> str_eqb (tag_of c) (lit "IDAT") = match c with Data _ => true | _ => false end.
Proof. intros [_ K]. destruct c; try reflexivity. destruct K as [_ N]. apply other_tag; [exact N|cbn; tauto]. Qed.
Lemma tag_len c : content_ok c -> zlen (tag_of c) = 4.
Proof. intros [_ K]. destruct c; try reflexivity. apply K. Qed.
(** Whether the first chunk of image data has contents, after a chunk *)
Definition next_first (first : option bool) (c : chunk) : option bool :=
  match fst c with Data x => match first with None => Some (negb (zlen x =? 0)) | _ => first end | _ => first end.
Definition good (first : option bool) (c : chunk) : Prop := match fst c, first with Data (_ :: _), Some false => False | _, _ => True end.

Section Read.
Context (read : read_fun) (data : list Z) (Hs : serves read data) (Hb : is_bytes data).
Notation follows := (follows read data).
Lemma body_follows c first stop p k v : content_ok c -> good first (c, v) -> occurs_at (bytes_of_all (body_of c)) data p -> 8 * (p + zlen (bytes_of_all (body_of c))) <= stop -> zlen (bytes_of_all (body_of c)) <> 0 ->
  follows stop p (match parser_of first (zlen (bytes_of_all (body_of c))) c with Some parse => parse k | None => emit (lit "content") (KBytes (zlen (bytes_of_all (body_of c)))); k end) (body_of c) k.
Proof using All.
  intros [L K] Gd O St Z0. destruct c as [w h d a c p0 m f i|l|g|ke t|y mo d h mi s|x y u|l|r g b|x|tag x]; cbn [parser_of].
  - destruct K as (K1 & K2 & K3 & K4 & K5 & K6). unfold headerParse. cbn [body_of]. unfold long, byte. do 3 (apply fo_plain; [ok|reflexivity|]).
    eapply fo_bits; [discriminate|lia|reflexivity|do 4 (apply ta_cons; [lia|reflexivity|]); apply ta_nil|]. do 3 (apply fo_plain; [ok|reflexivity|]). apply fo_nil.
  - assert (E : zlen (bytes_of_all (body_of (Palette l))) = 3 * Z.of_nat (length l)).
    { cbn [body_of]. clear. induction l as [|[[r g] b] l IH]; [reflexivity|]. cbn [map]. unfold bytes_of_all in *. cbn [flat_map]. rewrite zlen_app, IH. cbn [bytes_of flat_map byte plain_bytes]. rewrite !zlen_app, !zlen_uint. change (zlen (@nil Z)) with 0. cbn [length]. lia. }
    rewrite E. unfold paletteParse. replace ((3 * Z.of_nat (length l)) mod 3 =? 0) with true by lia. cbn [negb]. replace (Z.to_nat (3 * Z.of_nat (length l) / 3)) with (length l) by lia.
    cbn [body_of] in *. rewrite <- flat_map_single in *. apply follows_times; [exact O|exact St|]. intros [[r g] b] q k' In' O' St'. rewrite Forall_forall in K. destruct (K _ In') as (K1 & K2 & K3).
    apply fo_set; [reflexivity|lia| |apply fo_nil]. unfold RGB, byte. do 3 (apply fo_plain; [ok|reflexivity|]). apply fo_nil.
  - unfold gammaParse. cbn [body_of]. unfold long. apply fo_plain; [ok|reflexivity|]. apply fo_nil.
  - destruct K as [K1 K2]. unfold textParse. cbn [body_of]. apply fo_plain; [exact K1|reflexivity|]. cbn [plain_val bytes].
    change (bytes_of_all (I (lit "keyword") (SLine 0 ke) :: non_empty t (fun t0 => I (lit "text") (SText t0)))) with ((ke ++ [0]) ++ bytes_of_all (non_empty t (fun t0 => I (lit "text") (SText t0)))). rewrite !zlen_app. change (zlen [0]) with 1.
    destruct t as [|t1 t]; cbn [non_empty].
    + change (zlen (bytes_of_all [])) with 0. replace (zlen ke + 1 + 0 - (zlen ke + 1)) with 0 by lia. apply fo_nil.
    + change (bytes_of_all [I (lit "text") (SText (t1 :: t))]) with ((t1 :: t) ++ []). rewrite app_nil_r. replace (zlen ke + 1 + zlen (t1 :: t) - (zlen ke + 1)) with (zlen (t1 :: t)) by lia.
      replace (zlen (t1 :: t) =? 0) with false by (rewrite zlen_cons; pose proof (zlen_nonneg t); lia). cbn [negb when]. apply fo_plain; [split; [discriminate|exact K2]|reflexivity|]. apply fo_nil.
  - destruct K as (K1 & K2 & K3 & K4 & K5 & K6). unfold timestampParse. cbn [body_of]. unfold word, byte. do 6 (apply fo_plain; [ok|reflexivity|]). apply fo_nil.
  - destruct K as (K1 & K2 & K3). unfold physicalParse. cbn [body_of]. unfold long, byte. do 3 (apply fo_plain; [ok|reflexivity|]). apply fo_nil.
  - assert (E : zlen (bytes_of_all (body_of (Transparency l))) = Z.of_nat (length l)).
    { cbn [body_of]. clear. induction l as [|r l IH]; [reflexivity|]. cbn [map]. unfold bytes_of_all in *. cbn [flat_map]. rewrite zlen_app, IH. cbn [bytes_of byte plain_bytes]. rewrite !zlen_uint. cbn [length]. lia. }
    rewrite E. unfold parseTransparency. rewrite Nat2Z.id. cbn [body_of] in *. rewrite <- flat_map_single in *. apply follows_times; [exact O|exact St|]. intros r q k' In' O' St'. rewrite Forall_forall in K. pose proof (K _ In').
    unfold byte. apply fo_plain; [ok|reflexivity|]. apply fo_nil.
  - destruct K as (K1 & K2 & K3). unfold parseBackgroundColor. cbn [body_of]. unfold word. do 3 (apply fo_plain; [ok|reflexivity|]). apply fo_nil.
  - destruct x as [|x1 x]; [exfalso; apply Z0; reflexivity|]. cbn [body_of non_empty] in *. set (b := x1 :: x) in *.
    assert (E : bytes_of_all [ISet (lit "compressed_data") [I (lit "rawdata") (SBytes b)]] = b) by (unfold bytes_of_all; cbn [flat_map bytes_of plain_bytes]; rewrite !app_nil_r; reflexivity). rewrite E in *.
    unfold imageData. unfold good in Gd. cbn [fst] in Gd. unfold b in Gd. destruct first as [[|]|]; [|contradiction|].
    all: assert (E2 : bytes_of_all [I (lit "rawdata") (SBytes b)] = b) by (unfold bytes_of_all; cbn [flat_map bytes_of plain_bytes]; apply app_nil_r);
      assert (1 <= zlen b) by (unfold b; rewrite zlen_cons; pose proof (zlen_nonneg x); lia);
      apply fo_set; [rewrite E2; reflexivity|lia|apply fo_plain; [split; [discriminate|lia]|reflexivity|apply fo_nil]|apply fo_nil].
  - destruct x as [|x1 x]; [exfalso; apply Z0; reflexivity|]. cbn [body_of non_empty] in *. set (b := x1 :: x) in *.
    assert (E2 : bytes_of_all [I (lit "content") (SBytes b)] = b) by (unfold bytes_of_all; cbn [flat_map bytes_of plain_bytes]; apply app_nil_r). rewrite E2 in *. apply fo_plain; [split; [discriminate|lia]|reflexivity|apply fo_nil].
Qed.
Lemma fields_follow c first stop p v : content_ok c -> u32 v -> good first (c, v) ->
  let size := zlen (bytes_of_all (body_of c)) in let l := [long "size" size; I (lit "tag") (SText (tag_of c))] ++ body_of c ++ [long "crc32" v] in
  occurs_at (bytes_of_all l) data p -> 8 * (p + zlen (bytes_of_all l)) <= stop -> follows stop p (Chunk_fields size (parser_of first size c)) l PRet.
Proof using All.
  intros K V Gd size l O St. assert (0 <= size < 2 ^ 32) by (pose proof (zlen_nonneg (bytes_of_all (body_of c))); destruct K as [L _]; fold size in L |- *; lia).
  unfold Chunk_fields, l. cbn [app]. unfold long at 1. apply fo_plain; [ok|reflexivity|]. pose proof (tag_len c K) as T4. apply fo_plain; [cbn [plain_ok]; split; [intros T0; rewrite T0 in T4; discriminate|lia]|cbn [kind_of]; rewrite T4; reflexivity|]. cbv zeta.
  set (q := p + _ + _). assert (Q : q = p + 8) by (unfold q, len; cbn [bytes_of plain_bytes]; rewrite zlen_uint; lia). clearbody q. subst q.
  assert (Crc : forall q, follows stop q (emit (lit "crc32") (KNum 32 BE); PRet) [long "crc32" v] PRet) by (intros q; unfold long; apply fo_plain; [ok|reflexivity|apply fo_nil]).
  destruct (size =? 0) eqn:Z0.
  - assert (E : body_of c = []).
    { assert (Z1 : size = 0) by lia. clear - Z1. unfold size in Z1. destruct c as [w h d a c p0 m f i|l|g|ke t|y mo d h mi s|x y u|l|r g b|x|tag x]; cbn [body_of] in *; try discriminate Z1.
      - destruct l as [|[[r g] b] l]; [reflexivity|exfalso]. unfold bytes_of_all in Z1. cbn [map flat_map bytes_of byte plain_bytes] in Z1. rewrite !zlen_app, !zlen_uint in Z1. match type of Z1 with context [zlen (flat_map ?f ?m)] => pose proof (zlen_nonneg (flat_map f m)) end. change (zlen (@nil Z)) with 0 in Z1. lia.
      - exfalso. unfold bytes_of_all in Z1. cbn [flat_map bytes_of plain_bytes] in Z1. rewrite !zlen_app in Z1. change (zlen [0]) with 1 in Z1. pose proof (zlen_nonneg ke). match type of Z1 with context [zlen (flat_map ?f ?m)] => pose proof (zlen_nonneg (flat_map f m)) end. lia.
      - destruct l as [|r l]; [reflexivity|exfalso]. unfold bytes_of_all in Z1. cbn [map flat_map bytes_of byte plain_bytes] in Z1. rewrite !zlen_app, !zlen_uint in Z1. match type of Z1 with context [zlen (flat_map ?f ?m)] => pose proof (zlen_nonneg (flat_map f m)) end. lia.
      - destruct x as [|x1 x]; [reflexivity|]. exfalso. unfold bytes_of_all in Z1. cbn [non_empty flat_map bytes_of plain_bytes] in Z1. rewrite !app_nil_r, zlen_cons in Z1. pose proof (zlen_nonneg x). lia.
      - destruct x as [|x1 x]; [reflexivity|]. exfalso. unfold bytes_of_all in Z1. cbn [non_empty flat_map bytes_of plain_bytes] in Z1. rewrite !app_nil_r, zlen_cons in Z1. pose proof (zlen_nonneg x). lia. }
    rewrite E. apply Crc.
  - apply (follows_app _ _ _ _ _ _ (emit (lit "crc32") (KNum 32 BE); PRet)); [|apply Crc]. unfold l in O, St. rewrite !bytes_of_all_app in O, St. rewrite !zlen_app in St. apply occ_app in O as [O1 O]. apply occ_app in O as [O2 O3].
    assert (H8 : zlen (bytes_of_all [long "size" size; I (lit "tag") (SText (tag_of c))]) = 8) by (unfold bytes_of_all; cbn [flat_map bytes_of long plain_bytes]; rewrite !zlen_app, zlen_uint; change (zlen (@nil Z)) with 0; lia).
    rewrite H8 in *. pose proof (zlen_nonneg (bytes_of_all [long "crc32" v])). apply (body_follows c first stop (p + 8) _ v); auto; unfold size in *; lia.
Qed.
Lemma chunk_len c : chunk_ok c -> len (chunk_item c) = zlen (bytes_of_all (body_of (fst c))) + 12.
Proof using Type.
  intros [K V]. unfold chunk_item, len. cbn [bytes_of]. fold (bytes_of_all ([long "size" (zlen (bytes_of_all (body_of (fst c)))); I (lit "tag") (SText (tag_of (fst c)))] ++ body_of (fst c) ++ [long "crc32" (snd c)])).
  rewrite !bytes_of_all_app, !zlen_app.
  assert (H8 : zlen (bytes_of_all [long "size" (zlen (bytes_of_all (body_of (fst c)))); I (lit "tag") (SText (tag_of (fst c)))]) = 8)
    by (generalize (zlen (bytes_of_all (body_of (fst c)))); intros z; unfold bytes_of_all; cbn [flat_map bytes_of long plain_bytes]; rewrite !zlen_app, zlen_uint, (tag_len _ K); reflexivity).
  assert (H4 : zlen (bytes_of_all [long "crc32" (snd c)]) = 4) by (unfold bytes_of_all; cbn [flat_map bytes_of long plain_bytes]; rewrite zlen_app, zlen_uint; reflexivity). lia.
Qed.
Lemma chunk_follows c first stop p k : chunk_ok c -> good first c -> occurs_at (bytes_of_all [chunk_item c]) data p -> 8 * (p + zlen (bytes_of_all [chunk_item c])) <= stop ->
  follows stop p (Chunk first k) [chunk_item c] (k (next_first first c)).
Proof using All.
  intros K Gd O St. assert (L : zlen (bytes_of_all [chunk_item c]) = zlen (bytes_of_all (body_of (fst c))) + 12) by (unfold bytes_of_all at 1; cbn [flat_map]; rewrite app_nil_r; apply (chunk_len c K)).
  rewrite L in *. destruct c as [c v]. destruct K as [K V]. unfold chunk_item in *. cbn [fst snd] in *. set (size := zlen (bytes_of_all (body_of c))) in *. set (l := [long "size" size; I (lit "tag") (SText (tag_of c))] ++ body_of c ++ [long "crc32" v]) in *.
  assert (E : bytes_of_all [ISet (name_of c) l] = bytes_of_all l) by (unfold bytes_of_all; cbn [flat_map bytes_of]; apply app_nil_r). rewrite E in *.
  assert (0 <= size < 2 ^ 32) by (pose proof (zlen_nonneg (bytes_of_all (body_of c))); destruct K as [L' _]; unfold size; lia). pose proof (tag_len c K) as T4.
  pose proof O as O0. unfold l in O0. rewrite bytes_of_all_app in O0. apply occ_app in O0 as [O1 _]. unfold bytes_of_all in O1. cbn [flat_map bytes_of long plain_bytes] in O1. apply occ_app in O1 as [O1 O2]. apply occ_app in O2 as [O2 _]. rewrite zlen_uint in O2.
  unfold Chunk. apply (peek_ok read data Hs Hb 0 (SNum 4 BE size)); [ok|rewrite Z.add_0_r; exact O1|intros _; cbn [plain_bytes]; rewrite zlen_uint; lia|reflexivity|reflexivity|]. cbn [plain_val num].
  replace (64 * 1024 * 1024 <? size + 12) with false by (destruct K as [L' _]; fold size in L'; lia).
  apply (peek_ok read data Hs Hb 4 (SText (tag_of c))); [cbn [plain_ok]; split; [intros T0; rewrite T0 in T4; discriminate|lia]|exact O2|discriminate|cbn [kind_of]; rewrite T4; reflexivity|reflexivity|]. cbn [plain_val bytes].
  rewrite (info_of first size c K), (data_tag c K). apply fo_set; [fold size; rewrite L; lia|lia| |].
  { apply (fields_follow c first _ p v K V Gd O). change (8 * (p + zlen (bytes_of_all l)) <= 8 * p + (size + 12) * 8). rewrite L. lia. }
  replace (k _) with (k (next_first first (c, v))); [apply fo_nil|]. unfold next_first. cbn [fst]. destruct c as [w h d a c p0 m f i|l'|g|ke t|y mo d h mi s|x y u|l'|r g b|x|tag x]; try reflexivity.
  destruct first; [reflexivity|]. do 3 f_equal. unfold size. destruct x; cbn [body_of non_empty]; [reflexivity|]. unfold bytes_of_all. cbn [flat_map bytes_of plain_bytes]. rewrite !app_nil_r. reflexivity.
Qed.
Lemma hole_good cs : Forall chunk_ok cs -> no_hole cs -> (fix along s ds := match ds with [] => True | d :: ds => good s d /\ along (next_first s d) ds end) None cs.
Proof using Type.
  intros _. unfold no_hole.
  assert (A : forall cs b, (b = false -> Forall (fun c => fst c = Data []) (filter is_data cs)) -> (fix along s ds := match ds with [] => True | d :: ds => good s d /\ along (next_first s d) ds end) (Some b) cs).
  { induction cs0 as [|[c v] cs0 IH]; intros b H; [exact Logic.I|]. cbn [filter] in H. unfold is_data at 1 in H. cbn [fst] in H. unfold good, next_first. cbn [fst].
    destruct c as [w h d a c p0 m f i|l'|g|ke t|y mo d h mi s|x y u|l'|r g b'|x|tag x]; try (split; [exact Logic.I|apply IH, H]).
    split; [destruct b; [destruct x; exact Logic.I|]; specialize (H eq_refl); apply Forall_inv in H; cbn [fst] in H; injection H as ->; exact Logic.I|]. apply IH. intros B. specialize (H B). apply Forall_inv_tail in H. exact H. }
  induction cs as [|[c v] cs IH]; intros H; [exact Logic.I|]. cbn [filter] in H. unfold is_data at 1 in H. cbn [fst] in H. unfold good, next_first. cbn [fst].
  destruct c as [w h d a c p0 m f i|l'|g|ke t|y mo d h mi s|x y u|l'|r g b'|x|tag x]; try (split; [exact Logic.I|apply IH, H]).
  split; [destruct x; exact Logic.I|]. apply A. intros B. destruct x; [exact H|rewrite zlen_cons in B; pose proof (zlen_nonneg x); lia].
Qed.
End Read.

(** C78: what the parser of Ogg files shows. *)
From Coq Require Import String.
From Verif Require Import Base BaseProofs BitsModel BitsSpec BitsProofs StreamModel StreamSpec StreamProofs StreamProofs2 DictModel DictProofs NumSpec NumRead ChunkBase VarintModel VarintProofs2 FragmentModel FragmentSpec GenModel GenSpec GenProofs ItemSpec ItemProofs ItemProofs2 ZipSpec ZipProofs OggModel OggSpec OggProofs Lit.
Open Scope Z_scope.
Ltac Zify.zify_post_hook ::= Z.div_mod_to_equations.

Lemma raw_len pg : page_ok pg -> zlen (page_raw pg) = page_len pg.
Proof. apply page_zlen. Qed.
Lemma ogg_bytes : forall ps seen, bytes_of_all (ogg seen ps) = raw_pages ps.
Proof.
  induction ps as [|pg ps IH]; intros seen; [reflexivity|]. cbn [ogg]. rewrite bytes_of_all_cons, IH. unfold raw_pages. cbn [flat_map]. f_equal. unfold page_item, page_raw. change (bytes_of (ISet (lit "page[]") ?l)) with (bytes_of_all l). rewrite !page_bytes. reflexivity.
Qed.
Lemma raw_count ps : Forall page_ok ps -> Z.of_nat (List.length ps) <= zlen (raw_pages ps).
Proof.
  induction 1 as [|pg ps K _ IH]; [cbn; lia|]. unfold raw_pages in *. cbn [flat_map List.length]. rewrite zlen_app, raw_len by exact K. unfold page_len. pose proof (zlen_nonneg (p_lacing pg)). pose proof (zlen_nonneg (page_data pg)). lia.
Qed.
(** For every file: the pages, one after the other, with the fields of their headers, the sizes of the parts of packets they hold, and these parts, with the fields of
    those that are headers of Vorbis, Theora and video streams or comments. *)
Theorem C78_pages : forall read ps, let data := bytes_of_all (ogg [] ps) in serves read data -> is_bytes data -> Forall page_ok ps -> Forall filled ps ->
  OggFile read (8 * zlen data) = (shows (ogg [] ps) 0, None, 8 * zlen data).
Proof.
  intros read ps data Hs Hb K Fi. unfold OggFile, ogg_fields. apply (obey_file read data Hs Hb); [reflexivity|]. pose proof (raw_count ps K) as Rc. assert (Ed : data = raw_pages ps) by apply ogg_bytes. rewrite <- Ed in Rc.
  rewrite <- (app_nil_r (ogg [] ps)). eapply ob_app; [apply pages_obey; auto; [lia|fold data; lia]|]. destruct (_ - _)%nat as [|n] eqn:En; [lia|]. cbn [loop_from]. apply ob_ask. fold data. replace (8 * zlen data <=? 8 * (0 + zlen data)) with true by lia. apply ob_nil.
Qed.
Print Assumptions C78_pages.
(** For every file that starts with pages, whatever follows: they are shown first. *)
Theorem C78_prefix : forall read ps rest, let data := bytes_of_all (ogg [] ps) ++ rest in serves read data -> is_bytes data -> Forall page_ok ps -> Forall filled ps ->
  exists r, OggFile read (8 * zlen data) = puts (shows (ogg [] ps) 0) r.
Proof.
  intros read ps rest data Hs Hb K Fi. unfold OggFile, ogg_fields. pose proof (raw_count ps K) as Rc. rewrite <- (ogg_bytes ps []) in Rc. assert (Zd : zlen data = zlen (bytes_of_all (ogg [] ps)) + zlen rest) by (unfold data; apply zlen_app). pose proof (zlen_nonneg rest).
  assert (O : occurs_at (bytes_of_all (ogg [] ps)) data 0) by (apply (occ_pre [])). eapply (obey_start read data Hs Hb); [|exact O]. apply pages_obey; auto; lia.
Qed.
Print Assumptions C78_prefix.
(** Every file: the fields follow each other from the start and end inside the file, and the loops end. *)
Section Ends.
Context (read : read_fun) (data : list Z) (Hs : serves read data) (Hb : is_bytes data) (He : ends read data) (Hd : data <> []).
Notation safe := (safe read data).
Lemma xiph_any : forall fuel max a acc size, 0 <= a -> max - size < Z.of_nat fuel -> (1 <= fuel)%nat ->
  match xiph_loop read fuel (Some max) a acc size with Ok r => size <= snd r /\ (size < max -> size + 8 <= snd r) | Err e => e <> OutOfFuel end.
Proof using All.
  induction fuel as [|fuel IH]; intros max a acc size A M F; [lia|]. cbn [xiph_loop]. destruct (size <? max) eqn:Sm; [|cbn [snd]; lia].
  destruct (bits_any read data Hs He a 8 LITTLE_ENDIAN Hb ltac:(discriminate) ltac:(lia) ltac:(lia)) as [(R & _ & B)|R]; rewrite R; cbn [bind]; [|discriminate]. destruct (negb _); [cbn [snd]; lia|].
  destruct fuel as [|fuel]; [lia|]. pose proof (IH max (a + 8) (acc + bits_at data a 8 LITTLE_ENDIAN) (size + 8) ltac:(lia) ltac:(lia) ltac:(lia)) as X. destruct (xiph_loop read (S fuel) (Some max) (a + 8) _ (size + 8)); [|exact X]. lia.
Qed.
Lemma lacing_safe n m : m <= 8 * n -> safe m (Lacing_fields n).
Proof using All.
  intros N. unfold Lacing_fields. assert (L : forall j m, m < 8 * Z.of_nat j -> safe m (loop (fun k => PAsk (fun stop a => emit (lit "size[]") (XiphInt (stop - a)); k)) j)); [|apply L; lia]. clear N n m.
  induction j as [|j IH]; intros m M f stop a A L; [lia|]. cbn [loop run]. destruct (stop <=? a) eqn:Sa; [split; [discriminate|constructor]|]. unfold XiphInt. apply (safe_code_by read data 8 (stop - a)); try lia.
  - intros b Bb. pose proof (xiph_any (S (Z.to_nat (stop - a))) (stop - a) b 0 0 Bb ltac:(lia) ltac:(lia)) as X. unfold xiph_int. destruct (xiph_loop _ _ _ _ _ _); [lia|exact X].
  - intros _. apply IH. lia.
Qed.
Lemma head_safe m k : (forall a b c m, safe m (k a b c)) -> safe m (page_head k).
Proof using All. intros K. unfold page_head. do 11 calm_step. apply K. Qed.
Lemma lacing_set_safe n m k : (forall m, safe m k) -> safe m (page_lacing n k).
Proof using All. intros K. unfold page_lacing. apply safe_set; [|intros _; apply K]. apply lacing_safe. lia. Qed.
Lemma info_safe codec type nm pr m : chunk_info codec type = Some (nm, pr) -> safe m pr.
Proof using All.
  unfold chunk_info. intros E. assert (C : safe m parseVorbisComment).
  { unfold parseVorbisComment. do 2 calm_step. assert (T : forall n m, safe m (times (fun k => emit (lit "metadata[]") (KPascal 4 true); k) n (PAsk (fun stop a => when (negb (a =? stop)) (fun k => emit (lit "framing_flag") (KNum 8 LE); k) PRet)))); [|apply T].
    induction n as [|n IH]; intros m'; cbn [times]; [apply safe_ask; intros stop a A M; repeat calm_step|calm_step; apply IH]. }
  repeat (match type of E with (if ?b then _ else _) = _ => destruct b end); try discriminate E; apply (f_equal (fun o => match o with Some x => snd x | None => PRet end)) in E; cbn [snd] in E; subst pr; try exact C.
  - unfold parseVorbisHeader. repeat calm_step.
  - unfold parseTheoraHeader. repeat calm_step.
  - unfold parseVideoHeader. repeat calm_step.
Qed.
Lemma chunk_safe n m k : (forall m, safe m k) -> safe m (Chunk n k).
Proof using All.
  intros K. unfold Chunk. cbv zeta. apply safe_do. intros stop a A.
  assert (Go : forall v, safe m (PSet (match match bytes v with type :: codec => chunk_info codec type | [] => None end with Some (name, _) => name | None => lit "chunk[]" end) (Some (n * 8))
    (when (7 * 8 <=? n * 8) (fun k => emit (lit "type") (KNum 8 LE); emit (lit "codec") (KText 6); k)
     match match bytes v with type :: codec => chunk_info codec type | [] => None end with
     | Some (_, parser) => parser
     | None => PAsk (fun stop a => when (negb ((stop - a) / 8 =? 0)) (fun k => emit (lit "raw") (KBytes ((stop - a) / 8)); k) PRet)
     end) (fun _ => k))).
  { intros v. apply safe_set; [|intros _; apply K]. set (info := match bytes v with type :: codec => chunk_info codec type | [] => None end). assert (B : forall m, safe m match info with Some (_, parser) => parser | None => PAsk (fun stop a => when (negb ((stop - a) / 8 =? 0)) (fun k => emit (lit "raw") (KBytes ((stop - a) / 8)); k) PRet) end).
    { intros m'. destruct info as [[nm pr]|] eqn:E; [|apply safe_ask; intros; repeat calm_step]. unfold info in E. destruct (bytes v); [discriminate|]. eapply info_safe, E. }
    destruct (_ <=? _); cbn [when]; [do 2 calm_step; apply B|apply B]. }
  destruct (_ <=? _); [destruct (readBytes read a 7)|]; apply Go.
Qed.
Lemma link_safe nm m k : safe m k -> safe m (link nm k).
Proof using Type. intros K. unfold link. apply (safe_code_by read data 0); [lia|cbn; lia|]. intros _. eapply safe_more; [exact K|lia]. Qed.
Lemma segments_safe known last sizes m : safe m (Segments_fields known last sizes).
Proof using All.
  unfold Segments_fields. assert (C : forall sizes m, safe m (fold_right (fun n k => if n =? 0 then k else Chunk n k) PRet sizes)). { induction sizes0 as [|n sizes0 IH]; intros m'; cbn [fold_right]; [apply safe_ret|]. destruct (n =? 0); [apply IH|apply chunk_safe, IH]. }
  destruct known, last; cbn [negb when]; try apply link_safe; try apply link_safe; apply C.
Qed.
Lemma page_safe seen m k : (forall s, safe (m - 1) (k s)) -> safe m (OggPage seen k).
Proof using All.
  intros K. unfold OggPage. apply safe_do. intros stop a A. assert (P : match page_sizes read (8 * zlen data) stop a with Err e => e <> OutOfFuel | Ok _ => True end).
  { unfold page_sizes. assert (S : safe (stop - a) (page_head (fun _ _ n => when (negb (n =? 0)) (page_lacing n) PRet))). { apply head_safe. intros _ _ n m'. destruct (negb _); cbn [when]; [apply lacing_set_safe; intros; apply safe_ret|apply safe_ret]. }
    specialize (S true stop a A ltac:(lia)). destruct (run _ _ _ _ _ _) as [[l e] b]. destruct S as [S _]. assert (Me : missing e <> OutOfFuel) by (destruct e as [[]|]; cbn; congruence). destruct (get _ _) as [v|]; [|exact Me]. destruct (num v =? 0); [exact Logic.I|]. destruct (kids _ _); [exact Logic.I|exact Me]. }
  destruct (page_sizes read (8 * zlen data) stop a) as [v|e]; [|exact P]. apply safe_set; [|intros l; apply K]. apply head_safe. intros last serial n m'. destruct (hd 0 (bytes v) =? 0); cbn [negb when]; [apply safe_ret|]. apply lacing_set_safe. intros m''. apply safe_ask. intros stop' a' A' M'. apply safe_set; [apply segments_safe|intros; apply safe_ret].
Qed.
End Ends.
Theorem C78_any : forall read data, serves read data -> ends read data -> is_bytes data -> data <> [] ->
  let '(l, e, b) := OggFile read (8 * zlen data) in tiled 0 l b /\ b <= 8 * zlen data /\ settled_file (l, e, b).
Proof.
  intros read data Hs He Hb Hd. apply (any_file read data Hs Hb He Hd). pose proof (zlen_nonneg data). unfold ogg_fields. apply safe_loop_from; [|lia]. intros s m k K. apply page_safe; auto.
Qed.
Print Assumptions C78_any.
(** A file is accepted exactly when the version of its first three pages is zero. *)
Lemma validate_pages : forall n ps seen p e rest, e = None -> pages_validate n (shows (ogg seen ps) p) e rest = Ok (forallb (fun pg => p_version pg =? 0) (firstn n ps)).
Proof.
  induction n as [|n IH]; intros ps seen p e rest ->; [destruct ps; reflexivity|]. destruct ps as [|pg ps]; [reflexivity|]. cbn [ogg shows firstn forallb]. unfold page_item at 1. rewrite show_set. cbn [app pages_validate].
  change (page_validate (shows (page_fields (existsb (Z.eqb (p_serial pg)) seen) pg) p)) with (Ok (str_eqb (lit "OggS") (lit "OggS") && (p_version pg =? 0))). change (str_eqb (lit "OggS") (lit "OggS")) with true. cbn [andb bind]. destruct (p_version pg =? 0); [|reflexivity]. cbn [andb]. apply IH. reflexivity.
Qed.
Theorem C78_valid : forall read ps, let data := bytes_of_all (ogg [] ps) in serves read data -> is_bytes data -> Forall page_ok ps -> Forall filled ps -> ps <> [] ->
  ogg_validate read (8 * zlen data) = Ok (forallb (fun pg => p_version pg =? 0) (firstn 3 ps)).
Proof.
  intros read ps data Hs Hb K Fi Ne. unfold ogg_validate. assert (O : occurs_at (lit "OggS") data 0). { destruct ps as [|pg ps]; [contradiction|]. unfold data. cbn [ogg]. rewrite bytes_of_all_cons. unfold page_item. change (bytes_of (ISet (lit "page[]") ?l)) with (bytes_of_all l). unfold page_fields, head_items. cbn [app]. rewrite bytes_of_all_cons. rewrite <- app_assoc. apply (occ_pre []). }
  pose proof (rb_occ read data Hs 0 _ O ltac:(discriminate)) as R. change (8 * 0) with 0 in R. change (zlen (lit "OggS")) with 4 in R. rewrite R. cbn [bind]. change (str_eqb (lit "OggS") (lit "OggS")) with true. cbn [negb]. unfold data. rewrite C78_pages by assumption. apply validate_pages. reflexivity.
Qed.
Print Assumptions C78_valid.
(** The first bytes of every other file are refused. *)
Theorem C78_signature : forall read data, serves read data -> is_bytes data -> 4 <= zlen data -> sub data 0 4 <> lit "OggS" -> ogg_validate read (8 * zlen data) = Ok false.
Proof.
  intros read data Hs Hb L N. unfold ogg_validate. pose proof (occ_sub data 0 4 ltac:(lia) ltac:(lia) ltac:(lia)) as O. set (x := sub data 0 4) in *. assert (Lx : zlen x = 4) by (unfold x; rewrite zlen_sub_exact; lia).
  pose proof (rb_occ read data Hs 0 _ O ltac:(intros X; rewrite X in Lx; discriminate)) as R. change (8 * 0) with 0 in R. rewrite Lx in R. rewrite R. cbn [bind]. replace (str_eqb x (lit "OggS")) with false; [reflexivity|]. symmetry. destruct (str_eqb x (lit "OggS")) eqn:E; [|reflexivity]. apply str_eqb_eq in E. contradiction.
Qed.
Print Assumptions C78_signature.
(** The size of the contents: up to the end of the page found as the last one. *)
Lemma first_shown read data pg rest : serves read data -> is_bytes data -> data = page_raw pg ++ rest -> page_ok pg -> filled pg -> exists r, OggFile read (8 * zlen data) = puts (shows (ogg [] [pg]) 0) r.
Proof.
  intros Hs Hb E K Fi. assert (Eb : data = bytes_of_all (ogg [] [pg]) ++ rest) by (rewrite ogg_bytes; unfold raw_pages; cbn [flat_map]; rewrite app_nil_r; exact E). rewrite Eb. apply C78_prefix; rewrite <- ?Eb; auto.
Qed.
Lemma start_fits data p stop pg : occurs_at (page_raw pg) data p -> 8 * zlen data <= stop -> fits data stop p (head_items pg ++ lacing_items pg).
Proof.
  intros O St. pose proof (occ_in _ _ _ O) as In'. eapply (fits_more data stop p (page_fields false pg) _ (match p_lacing pg with [] => [] | _ => page_data pg end)); [|split; [exact O|unfold page_raw in *; lia]].
  rewrite page_bytes, bytes_of_all_app. unfold lacing_items. destruct (p_lacing pg) as [|v l] eqn:E; [rewrite !app_nil_r; reflexivity|]. rewrite <- E. rewrite <- app_assoc. f_equal. f_equal. rewrite bytes_of_all_cons, app_nil_r. symmetry. apply (lace_bytes (p_lacing pg)).
Qed.
Lemma search_none (needle data : list Z) s e i : (forall j, ~ first_occurrence needle data s e j) -> ~ first_occurrence needle data s e i.
Proof. auto. Qed.
Lemma first_unique (needle data : list Z) s e i j : first_occurrence needle data s e i -> first_occurrence needle data s e j -> i = j.
Proof.
  intros (A1 & A2 & A3 & A4) (B1 & B2 & B3 & B4). destruct (Z.lt_trichotomy i j) as [L|[L|L]]; [|exact L|]; exfalso; [apply (B4 i)|apply (A4 j)]; auto; lia.
Qed.
Theorem C78_content_size : forall read first between pg rest, let start := page_len first + zlen between in let data := page_raw first ++ between ++ page_raw pg ++ rest in
  serves read data -> is_bytes data -> page_ok first -> filled first -> page_ok pg -> last_found data (page_len first) start ->
  ogg_content_size read (8 * zlen data) = Ok (Some (8 * (start + page_len pg))).
Proof.
  intros read first between pg rest start data Hs Hb K Fi K2 L. destruct (first_shown read data first _ Hs Hb eq_refl K Fi) as [r R]. unfold ogg_content_size. rewrite R. unfold puts. cbn [ogg shows fst]. unfold page_item at 1. rewrite show_set. cbn [app f_size].
  rewrite page_zlen by exact K. change (lit "OggS" ++ [0; 5]) with (page_start 5). change (lit "OggS" ++ [0; 4]) with (page_start 4). assert (P0 : 0 <= page_len first) by (unfold page_len; pose proof (zlen_nonneg (p_lacing first)); pose proof (zlen_nonneg (page_data first)); lia).
  assert (Nd : data <> []). { intros E. assert (X : zlen data = zlen (page_raw first) + zlen (between ++ page_raw pg ++ rest)) by apply zlen_app. rewrite E, raw_len in X by exact K. change (zlen (@nil Z)) with 0 in X. pose proof (zlen_nonneg (between ++ page_raw pg ++ rest)). unfold page_len in *. pose proof (zlen_nonneg (p_lacing first)). pose proof (zlen_nonneg (page_data first)). lia. }
  assert (O : occurs_at (page_raw pg) data start). { unfold data, start. rewrite (app_assoc (page_raw first)), <- (raw_len first K), <- zlen_app. apply occ_pre. }
  assert (U : search_limit data (Some (1000 * 1024 * 1024 * 8)) = Z.min (zlen data) (1000 * 1024 * 1024)) by reflexivity.
  pose proof (sizes_read read data Hs Hb (8 * zlen data) start pg K2 (start_fits data start (8 * zlen data) pg O ltac:(lia))) as Sz.
  assert (Fin : (do v <- page_sizes read (8 * zlen data) (8 * zlen data) (8 * start); Ok (Some (8 * start + (27 + hd 0 (bytes v) + sum (tl (bytes v))) * 8))) = Ok (Some (8 * (start + page_len pg)))).
  { rewrite Sz. cbn [bind bytes page_values hd tl]. rewrite sizes_sum by exact K2. do 2 f_equal. unfold page_len. lia. }
  destruct (searchBytes_correct read data (page_start 5) (page_len first) (Some (1000 * 1024 * 1024 * 8)) Hs Nd ltac:(discriminate) P0) as [(i & Ei & Fo)|[Ei Nf]]; rewrite Ei; rewrite U in *; cbn [bind].
  - destruct L as [L|[L _]]; [|exfalso; apply (L i), Fo]. rewrite (first_unique _ _ _ _ _ _ Fo L). exact Fin.
  - destruct L as [L|[_ L]]; [exfalso; apply (Nf start), L|].
    destruct (searchBytes_correct read data (page_start 4) (page_len first) (Some (1000 * 1024 * 1024 * 8)) Hs Nd ltac:(discriminate) P0) as [(i & E4 & Fo)|[E4 N4]]; rewrite E4; rewrite U in *; cbn [bind]; [|exfalso; apply (N4 start), L]. rewrite (first_unique _ _ _ _ _ _ Fo L). exact Fin.
Qed.
Print Assumptions C78_content_size.
(** And no size is told of a file where no page after the first has these flags, be it the last one. *)
Theorem C78_no_content_size : forall read first rest, let data := page_raw first ++ rest in
  serves read data -> is_bytes data -> page_ok first -> filled first -> (forall i, ~ last_found data (page_len first) i) -> ogg_content_size read (8 * zlen data) = Ok None.
Proof.
  intros read first rest data Hs Hb K Fi L. destruct (first_shown read data first _ Hs Hb eq_refl K Fi) as [r R]. unfold ogg_content_size. rewrite R. unfold puts. cbn [ogg shows fst]. unfold page_item at 1. rewrite show_set. cbn [app f_size].
  rewrite page_zlen by exact K. change (lit "OggS" ++ [0; 5]) with (page_start 5). change (lit "OggS" ++ [0; 4]) with (page_start 4). assert (P0 : 27 <= page_len first) by (unfold page_len; pose proof (zlen_nonneg (p_lacing first)); pose proof (zlen_nonneg (page_data first)); lia).
  assert (Nd : data <> []). { intros E. assert (X : zlen data = zlen (page_raw first) + zlen rest) by apply zlen_app. rewrite E, raw_len in X by exact K. change (zlen (@nil Z)) with 0 in X. pose proof (zlen_nonneg rest). lia. }
  assert (U : search_limit data (Some (1000 * 1024 * 1024 * 8)) = Z.min (zlen data) (1000 * 1024 * 1024)) by reflexivity.
  destruct (searchBytes_correct read data (page_start 5) (page_len first) (Some (1000 * 1024 * 1024 * 8)) Hs Nd ltac:(discriminate) ltac:(lia)) as [(i & Ei & Fo)|[Ei Nf]]; rewrite Ei; rewrite U in *; cbn [bind]; [exfalso; apply (L i); left; exact Fo|].
  destruct (searchBytes_correct read data (page_start 4) (page_len first) (Some (1000 * 1024 * 1024 * 8)) Hs Nd ltac:(discriminate) ltac:(lia)) as [(i & E4 & Fo)|[E4 N4]]; rewrite E4; rewrite U in *; cbn [bind]; [exfalso; apply (L i); right; split; [exact Nf|exact Fo]|]. reflexivity.
Qed.
Print Assumptions C78_no_content_size.

(** The type of a file: that of the headers in its first page. *)
Definition is_theora (p : part) : bool := match p with TheoraHeader _ _ _ _ _ _ _ _ _ _ _ _ _ _ _ _ _ _ _ => true | _ => false end.
Definition is_vorbis (p : part) : bool := match p with VorbisHeader _ _ _ _ _ _ _ _ _ => true | _ => false end.
Lemma has_parts nm f : (forall x p, has (lit nm) (shows (part_item x) p) = f x) -> forall xs p, has (lit nm) (shows (flat_map part_item xs) p) = existsb f xs.
Proof. intros H. induction xs as [|x xs IH]; intros p; [reflexivity|]. cbn [flat_map existsb]. rewrite shows_app. unfold has in *. rewrite existsb_app, H, IH. reflexivity. Qed.
Lemma has_theora x p : has (lit "theora_hdr") (shows (part_item x) p) = is_theora x.
Proof. unfold part_item. destruct x; try reflexivity; destruct (part_bytes _); reflexivity. Qed.
Lemma has_vorbis x p : has (lit "vorbis_hdr") (shows (part_item x) p) = is_vorbis x.
Proof. unfold part_item. destruct x; try reflexivity; destruct (part_bytes _); reflexivity. Qed.
Theorem C78_mime : forall read pg rest, let data := page_raw pg ++ rest in serves read data -> is_bytes data -> page_ok pg -> p_lacing pg <> [] -> page_data pg <> [] ->
  ogg_mime read (8 * zlen data) = Ok (if existsb is_theora (p_parts pg) then lit "video/theora" else if existsb is_vorbis (p_parts pg) then lit "audio/vorbis" else lit "application/ogg").
Proof.
  intros read pg rest data Hs Hb K L D. destruct (first_shown read data pg _ Hs Hb eq_refl K ltac:(intros _; exact D)) as [r R]. unfold ogg_mime. rewrite R. unfold puts. cbn [ogg shows fst]. unfold page_item at 1. rewrite show_set. cbn [app existsb].
  assert (X : exists p, kids (lit "segments") (shows (page_fields false pg) 0) = Some (shows ((if p_last pg =? 1 then [] else [link_item "next"]) ++ flat_map part_item (p_parts pg)) p)). { unfold page_fields. destruct (p_lacing pg) as [|v l] eqn:E; [contradiction|]. eexists. reflexivity. }
  destruct X as [p ->]. rewrite shows_app. assert (N : forall nm, str_eqb (lit "next") nm = false -> forall l, has nm (shows (if p_last pg =? 1 then [] else [link_item "next"]) p ++ l) = has nm l). { intros nm E l. unfold has. rewrite existsb_app. destruct (p_last pg =? 1); [reflexivity|]. cbn [shows ItemSpec.show link_item app existsb f_name]. rewrite E. reflexivity. }
  rewrite !N by reflexivity. rewrite (has_parts _ _ has_theora), (has_parts _ _ has_vorbis). reflexivity.
Qed.
Print Assumptions C78_mime.
(** The description tells no format, of any file: the headers are looked for among the fields of the page, but are among its segments (ogg.py:310-313). *)
Theorem C78_description_refuted : forall read pg rest, let data := page_raw pg ++ rest in serves read data -> is_bytes data -> page_ok pg -> filled pg -> ogg_description read (8 * zlen data) = Ok (lit "Ogg multimedia container").
Proof.
  intros read pg rest data Hs Hb K D. destruct (first_shown read data pg _ Hs Hb eq_refl K D) as [r R]. unfold ogg_description. rewrite R. unfold puts. cbn [ogg shows fst]. unfold page_item at 1. rewrite show_set. cbn [app existsb].
  assert (X : forall nm, In nm ["theora_hdr"; "vorbis_hdr"]%string -> has (lit nm) (shows (page_fields false pg) 0) = false). { intros nm [<-|[<-|[]]]; unfold page_fields; destruct (p_lacing pg); reflexivity. }
  rewrite !X by (cbn; tauto). reflexivity.
Qed.
Print Assumptions C78_description_refuted.

(** ** Logical streams *)
Definition view (a : Z) (pg : ogg_page) : page :=
  Page (p_serial pg) (p_last pg =? 1) (p_continued pg =? 1) (map total (groups (p_lacing pg))) (match p_lacing pg with [] => None | _ => Some (8 * (a + 27 + zlen (p_lacing pg)), 8 * zlen (page_data pg)) end).
Fixpoint views (a : Z) (ps : list ogg_page) : list page := match ps with [] => [] | pg :: ps => view a pg :: views (a + page_len pg) ps end.
Lemma kids_lacing known pg p : p_lacing pg <> [] -> exists q, kids (lit "lacing") (shows (page_fields known pg) p) = Some (shows (map lace_item (groups (p_lacing pg))) q).
Proof. intros Ne. unfold page_fields. destruct (p_lacing pg) as [|v l] eqn:E; [contradiction|]. rewrite <- E. eexists. unfold lacing_item. rewrite E. reflexivity. Qed.
Lemma page_seen known pg p : page_ok pg -> map page_of (ItemSpec.show (page_item known pg) p) = [Some (view p pg)].
Proof.
  intros K. unfold page_item. rewrite show_set. cbn [map page_of]. f_equal.
  change (get (lit "serial") (shows (page_fields known pg) p)) with (Some (VNum (p_serial pg))). change (get (lit "last_page") (shows (page_fields known pg) p)) with (Some (VNum (val_of LITTLE_ENDIAN (low 1 (p_last pg))))). change (get (lit "continued_packet") (shows (page_fields known pg) p)) with (Some (VNum (val_of LITTLE_ENDIAN (low 1 (p_continued pg))))).
  destruct K as (K1 & K2 & K3 & K4 & K5 & K6 & K7 & K8 & K9 & K10 & K11 & K12 & K13). cbn iota. cbn [num]. rewrite !val_of_low by assumption. unfold view. f_equal. f_equal.
  - destruct (p_lacing pg) as [|v l] eqn:E; [unfold page_fields; rewrite E; reflexivity|]. destruct (kids_lacing known pg p ltac:(rewrite E; discriminate)) as [q ->]. rewrite gets_lacing, map_map, E. reflexivity.
  - unfold page_fields. destruct (p_lacing pg) as [|v l] eqn:E; [reflexivity|]. rewrite <- E. rewrite shows_app, head_bytes. cbn [shows]. unfold segments_item. rewrite !show_set.
    change (find (fun f => str_eqb (f_name f) (lit "segments")) (shows (head_items pg) p ++ ?x)) with (find (fun f => str_eqb (f_name f) (lit "segments")) x). unfold lacing_item at 1. rewrite show_set. cbn [app find f_name]. change (str_eqb (lit "lacing") (lit "segments")) with false. change (str_eqb (lit "segments") (lit "segments")) with true. cbn iota.
    match goal with |- Some (8 * (_ + len ?a), 8 * zlen (bytes_of_all ?l)) = _ => change (bytes_of_all l) with (bytes_of (segments_item known pg)); assert (La : len a = zlen (p_lacing pg)) by (unfold len, lacing_item; apply (f_equal zlen), (lace_bytes (p_lacing pg))); rewrite La end. rewrite segments_bytes. reflexivity.
Qed.
Lemma pages_seen : forall ps seen p, Forall page_ok ps -> map page_of (shows (ogg seen ps) p) = map Some (views p ps).
Proof.
  induction ps as [|pg ps IH]; intros seen p K; [reflexivity|]. inversion K as [|? ? K1 K2]; subst. cbn [ogg shows views map]. rewrite map_app, page_seen, IH by assumption. cbn [app]. do 3 f_equal. unfold len. f_equal. apply (page_zlen _ pg K1).
Qed.
Lemma seg_at data a pg : page_ok pg -> p_lacing pg <> [] -> occurs_at (page_raw pg) data a -> occurs_at (page_data pg) data (a + 27 + zlen (p_lacing pg)).
Proof.
  intros K Ne O. unfold page_raw in O. rewrite page_bytes in O. apply occ_app in O as [_ O]. rewrite head_bytes in O. destruct (p_lacing pg) as [|v l] eqn:E; [contradiction|]. apply occ_app in O as [_ O]. exact O.
Qed.
Lemma chain_cons data a x chain : occurs_at x data a -> chain_content data (Some (8 * a, 8 * zlen x) :: chain) = x ++ chain_content data chain.
Proof.
  intros O. pose proof (occ_in _ _ _ O). cbn [chain_content]. replace (8 * a / 8) with a by lia. replace (8 * zlen x / 8) with (zlen x) by lia. replace (8 * a + 8 * zlen x <=? 8 * zlen data) with true by lia. destruct O as (_ & _ & ->). reflexivity.
Qed.
Lemma no_data s ps : Forall (fun q => p_serial q <> s) ps -> stream_data s ps = [].
Proof. induction 1 as [|q ps N _ IH]; [reflexivity|]. unfold stream_data in *. cbn [flat_map]. replace (p_serial q =? s) with false by lia. exact IH. Qed.
Section Chain.
Context (data : list Z).
Lemma chain_data : forall n s ps a v, (List.length ps < n)%nat -> Forall page_ok ps -> Forall (fun q => p_lacing q <> []) ps -> occurs_at (raw_pages ps) data a -> closed s ps ->
  g_serial v = s -> (g_last v = true -> Forall (fun q => p_serial q <> s) ps) -> chain_content data (map (fun q => g_segments q) (fragments n v (views a ps))) = stream_data s ps.
Proof.
  induction n as [|n IH]; intros s ps a v N K L O C Sv La; [lia|]. cbn [fragments]. destruct (g_last v) eqn:Lv; [rewrite no_data by auto; reflexivity|]. clear La. rewrite Sv. clear Sv Lv v.
  revert a N O C. induction ps as [|q ps IHp]; intros a N O C; [reflexivity|]. inversion K as [|? ? K1 K2]; subst. inversion L as [|? ? L1 L2]; subst. cbn [views createNext]. unfold raw_pages in O. cbn [flat_map] in O. apply occ_app in O as [O1 O2]. rewrite raw_len in O2 by exact K1. destruct C as [C1 C2].
  unfold view at 1. cbn [g_segments]. destruct (p_lacing q) as [|x y] eqn:E; [contradiction|]. rewrite <- E in *. unfold view at 1. cbn [g_serial]. unfold stream_data. cbn [flat_map]. fold (stream_data s ps). destruct (p_serial q =? s) eqn:Eq.
  - cbn [map]. unfold view at 1. cbn [g_segments]. rewrite E. rewrite <- E. rewrite chain_cons by (apply seg_at; auto). f_equal. cbn [List.length] in N. apply IH; auto; [lia|unfold view; cbn [g_serial]; lia|]. unfold view. cbn [g_last]. intros X. apply C1; lia.
  - apply IHp; auto. cbn [List.length] in N. lia.
Qed.
End Chain.
Lemma views_app : forall l a l', Forall page_ok l -> views a (l ++ l') = views a l ++ views (a + zlen (raw_pages l)) l'.
Proof.
  induction l as [|q l IH]; intros a l' K; [cbn [app views]; change (zlen (raw_pages [])) with 0; rewrite Z.add_0_r; reflexivity|]. inversion K as [|? ? K1 K2]; subst. cbn [app views]. rewrite IH by exact K2. unfold raw_pages. cbn [flat_map]. rewrite zlen_app, raw_len by exact K1. rewrite Z.add_assoc. reflexivity.
Qed.
Lemma views_length : forall l a, List.length (views a l) = List.length l.
Proof. induction l as [|q l IH]; intros a; [reflexivity|]. cbn [views List.length]. rewrite IH. reflexivity. Qed.
(** For every file whose pages all have data, and every stream that has no page after its last one: the stream that is opened on the segments of its first page reads the data of
    all its pages, in order, and nothing else. *)
Theorem C78_data : forall read before pg after, let ps := before ++ pg :: after in let data := bytes_of_all (ogg [] ps) in
  serves read data -> is_bytes data -> Forall page_ok ps -> Forall (fun q => p_lacing q <> [] /\ page_data q <> []) ps -> Forall (fun q => p_serial q <> p_serial pg) before -> closed (p_serial pg) (pg :: after) ->
  exists vs v rest, map page_of (fst (fst (OggFile read (8 * zlen data)))) = map Some (vs ++ v :: rest) /\ List.length vs = List.length before /\
    chain_content data (stream_fragments v rest) = stream_data (p_serial pg) ps.
Proof.
  intros read before pg after ps data Hs Hb K F N C. assert (Fi : Forall filled ps) by (eapply Forall_impl; [|exact F]; intros q [_ X] _; exact X).
  unfold data. rewrite C78_pages by assumption. cbn [fst]. rewrite pages_seen by exact K. pose proof K as K0. pose proof F as F0. unfold ps in K0, F0. apply Forall_app in K0 as [Kb Kp]. apply Forall_app in F0 as [Fb Fp]. inversion Kp as [|? ? K1 Ka]; subst. inversion Fp as [|? ? [L1 F1] Fa]; subst.
  unfold ps at 1. rewrite views_app by exact Kb. cbn [views]. eexists _, _, _. split; [reflexivity|]. split; [apply views_length|].
  assert (O : occurs_at (raw_pages ps) data 0) by (unfold data; rewrite ogg_bytes; apply occ_self). change (bytes_of_all (ogg [] ps)) with data. unfold ps, raw_pages in O. rewrite flat_map_app in O. apply occ_app in O as [_ O]. cbn [flat_map] in O. change (flat_map page_raw before) with (raw_pages before) in O. set (a := 0 + zlen (raw_pages before)) in *. apply occ_app in O as [O1 O2]. rewrite raw_len in O2 by exact K1.
  unfold ps, stream_data. rewrite flat_map_app. fold (stream_data (p_serial pg) before). rewrite no_data by exact N. cbn [app flat_map]. rewrite Z.eqb_refl. fold (stream_data (p_serial pg) after). unfold stream_fragments. cbn [map]. unfold view at 1. cbn [g_segments]. destruct (p_lacing pg) as [|x y] eqn:E; [contradiction|]. rewrite <- E in *.
  rewrite chain_cons by (apply seg_at; auto). f_equal. destruct C as [C1 C2]. apply chain_data; auto.
  - rewrite views_length. lia.
  - eapply Forall_impl; [|exact Fa]. intros q [X _]. exact X.
  - unfold view. cbn [g_last]. intros X. apply C1; lia.
Qed.
Print Assumptions C78_data.
(** The packets: the list of packets of a logical stream always ends with an error, whatever the file: after the first page, the code asks for an attribute that no field has
    ([fragment.__next__], ogg.py:181; the links are called [next]). *)
Theorem C78_packets_refuted : forall read size p, snd (fst (OggStream read size p)) <> None.
Proof.
  intros read size p. unfold OggStream, ogg_stream_fields. cbv zeta. generalize (snd (Packets p)), (fst (Packets p)). intros e l.
  assert (H : forall l b a, snd (fst (run read size (fold_right (fun n k => emit (lit "packet[]") (KBytes n); k) (PErr e) l) b size a)) <> None); [|apply H]. clear l. induction l as [|n l IH]; intros b a; cbn [fold_right run]; [discriminate|].
  destruct (fsize read size (KBytes n) a) as [s|e']; [|discriminate]. destruct (size <? a + s); [destruct b; discriminate|]. destruct (fval read (KBytes n) a s) as [v|e']; [|discriminate]. specialize (IH false (a + s)). unfold put. destruct (run read size _ false size (a + s)) as [[l' e'] b']. exact IH.
Qed.
Print Assumptions C78_packets_refuted.
(** What is shown of a stream whose first page starts a packet: the parts of packets of this page but the last, whatever follows. *)
Lemma packets_go : forall l n s, page_packets false (l ++ [n]) (Some s) = (filter (fun z => negb (z =? 0)) (s :: l), Ok (Some n)).
Proof.
  induction l as [|m l IH]; intros n s; cbn [app page_packets].
  - cbn [filter fst snd]. destruct (s =? 0); reflexivity.
  - rewrite IH. cbn [fst snd filter]. destruct (s =? 0); reflexivity.
Qed.
Lemma packets_of l n : page_packets false (l ++ [n]) None = (filter (fun z => negb (z =? 0)) l, Ok (Some n)).
Proof. destruct l as [|m l]; [reflexivity|]. cbn [app page_packets]. rewrite packets_go. reflexivity. Qed.
Lemma groups_total l : total (map total (groups l)) = total l.
Proof.
  induction l as [|v l IH]; [reflexivity|]. cbn [groups]. destruct (v =? 255) eqn:E; [|cbn [map total fold_right] in *; fold (total (map total (groups l))); fold (total l); lia].
  destruct (groups l) as [|g gs]; cbn [map total fold_right] in *; fold (total l) in *; try fold (total g) in *; try fold (total (map total gs)) in *; lia.
Qed.
Lemma total_le l : Forall (u 8) l -> total l <= 255 * zlen l.
Proof. induction 1 as [|v l V _ IH]; [reflexivity|]. rewrite zlen_cons. cbn [total fold_right]. fold (total l). unfold u in V. change (2 ^ 8) with 256 in V. lia. Qed.
Theorem C78_packets : forall read pg ps x more a, let content := page_data pg ++ more in serves read content -> is_bytes content -> page_ok pg -> p_parts pg = ps ++ [x] -> p_continued pg = 0 ->
  OggStream read (8 * zlen content) (view a pg) = (shows (flat_map (fun x => some_bytes_item "packet[]" (part_bytes x)) ps) 0, Some AttributeError, 8 * zlen (flat_map part_bytes ps)).
Proof.
  intros read pg ps x more a content Hs Hb K E C. unfold OggStream, ogg_stream_fields, Packets, view. cbn [g_continued g_sizes]. rewrite C. cbn [Z.eqb]. destruct K as (_ & _ & _ & _ & _ & _ & _ & _ & _ & K10 & K11 & _ & K13). rewrite K13, E, map_app. cbn [map]. rewrite packets_of. cbn [fst snd].
  assert (B : zlen (page_data pg) <= 255 * 255). { unfold page_data. rewrite <- sum_parts. change sum with total. rewrite <- K13, groups_total. pose proof (total_le _ K11). lia. }
  assert (B2 : zlen (flat_map part_bytes ps) <= 255 * 255). { unfold page_data in B. rewrite E, flat_map_app, zlen_app in B. pose proof (zlen_nonneg (flat_map part_bytes [x])). lia. } clear B.
  assert (O : occurs_at (flat_map part_bytes ps) content 0). { unfold content, page_data. rewrite E, flat_map_app, <- app_assoc. apply (occ_pre []). } pose proof (occ_in _ _ _ O) as In'.
  set (items := flat_map (fun x => some_bytes_item "packet[]" (part_bytes x)) ps). assert (Eb : forall ps, bytes_of_all (flat_map (fun x => some_bytes_item "packet[]" (part_bytes x)) ps) = flat_map part_bytes ps).
  { clear. induction ps as [|y ps IH]; [reflexivity|]. cbn [flat_map]. rewrite bytes_of_all_app, IH. f_equal. unfold some_bytes_item. destruct (part_bytes y); [reflexivity|]. cbn. rewrite app_nil_r. reflexivity. }
  assert (H : forall ps p, zlen (flat_map part_bytes ps) <= 255 * 255 -> obeys read content (8 * zlen content) p (fold_right (fun n k => emit (lit "packet[]") (KBytes n); k) (PErr AttributeError) (filter (fun z => negb (z =? 0)) (map (fun x => zlen (part_bytes x)) ps))) (flat_map (fun x => some_bytes_item "packet[]" (part_bytes x)) ps) (PErr AttributeError)).
  { clear -Hs Hb. induction ps as [|y ps IH]; intros p B; [apply ob_nil|]. cbn [flat_map] in B. rewrite zlen_app in B. pose proof (zlen_nonneg (flat_map part_bytes ps)). pose proof (zlen_nonneg (part_bytes y)). cbn [map filter flat_map]. unfold some_bytes_item at 1. destruct (part_bytes y) as [|z0 zs] eqn:Ey.
    - change (zlen (@nil Z) =? 0) with true. cbn [negb app]. apply IH. lia.
    - rewrite <- Ey in *. pose proof (zlen_pos (part_bytes y) ltac:(rewrite Ey; discriminate)). replace (zlen (part_bytes y) =? 0) with false by lia. cbn [negb fold_right app]. apply ob_plain; [split; [rewrite Ey; discriminate|lia]|reflexivity|]. apply IH. lia. }
  assert (F : fits content (8 * zlen content) 0 items) by (unfold items; split; rewrite Eb; [exact O|lia]). pose proof (follow read content Hs Hb _ _ _ _ _ (H ps 0 B2 F) true (proj1 F) (proj2 F)) as R. change (8 * 0) with 0 in R. rewrite R. fold items. unfold puts. cbn [run fst snd]. rewrite app_nil_r. unfold items. rewrite Eb. reflexivity.
Qed.
Print Assumptions C78_packets.

(** Concrete files *)
Definition pg (flags : Z * Z * Z) (serial number : Z) (lacing : list Z) (parts : list part) : ogg_page := let '(c, f, l) := flags in OggP 0 c f l 0 (1000 * number) serial number 0x1234 lacing parts.
Definition hdr : part := VorbisHeader 0 2 44100 0 128000 0 8 11 1.
Definition thd : part := TheoraHeader 3 2 1 20 15 320 240 0 0 25 1 1 1 0 0 48 6 0 0.
Definition com : part := Comments false (lit "me") [lit "TITLE=x"; lit "A=b"] (Some 1).
Definition com_len : Z := Eval vm_compute in zlen (part_bytes com).
(** Two streams; the last page of the first one continues a packet *)
Definition a_ogg : list ogg_page :=
  [pg (0, 1, 0) 7 0 [30] [hdr]; pg (0, 1, 0) 9 0 [42] [thd]; pg (0, 0, 0) 7 1 [com_len; 255; 3; 0; 255] [com; Bytes (List.repeat 65 258); Bytes []; Bytes (List.repeat 66 255)];
   pg (0, 0, 1) 9 1 [3] [Bytes [1; 2; 3]]; pg (1, 0, 1) 7 2 [2; 4] [Bytes [66; 66]; Bytes [10; 11; 12; 13]]].
Definition shown_of (l : list Z) : shown := OggFile (string_read l) (8 * zlen l).
Lemma not_header x : zlen x < 7 \/ (hd 0 x <> 1 /\ hd 0 x <> 3 /\ hd 0 x <> 128 /\ hd 0 x <> 129) -> ~ is_header x.
Proof.
  intros H (y & E). pose proof (zlen_nonneg y). destruct H as [H|H].
  - decompose [or] E; subst; rewrite zlen_cons, zlen_app in H; change (zlen vorbis) with 6 in H; change (zlen theora_) with 6 in H; change (zlen video) with 6 in H; lia.
  - decompose [or] E; subst; cbn [hd] in H; lia.
Qed.
Lemma some_bytes x : forallb (fun b => (0 <=? b) && (b <=? 255)) x = true -> (zlen x <? 7) || negb (existsb (Z.eqb (hd 0 x)) [1; 3; 128; 129]) = true -> zlen x <=? 1000 = true -> part_ok (Bytes x).
Proof.
  intros B H L. split; [|split].
  - apply Forall_forall. rewrite forallb_forall in B. intros b I. specialize (B b I). unfold is_byte. lia.
  - apply not_header. apply orb_true_iff in H as [H|H]; [left; lia|right]. cbn [existsb] in H. lia.
  - apply Z.leb_le in L. eapply Z.le_trans; [exact L|vm_compute; discriminate].
Qed.
Ltac small := match goal with |- _ /\ _ => split; small | |- u _ _ => split; small | |- Forall _ _ => repeat apply Forall_cons; [..|apply Forall_nil]; small | |- some_u8 _ => split; small | |- _ = _ => vm_compute; reflexivity | |- _ <= _ => vm_compute; discriminate | |- _ < _ => vm_compute; reflexivity | |- part_ok (Bytes _) => apply some_bytes; vm_compute; reflexivity | |- part_ok _ => red; small | |- page_ok _ => red; cbn [p_version p_continued p_first p_last p_unused p_granule p_serial p_number p_checksum p_lacing p_parts pg]; small end.
Lemma a_ogg_ok : Forall page_ok a_ogg.
Proof. unfold a_ogg, hdr, thd, com. small. Qed.
Example C78_files : let data := bytes_of_all (ogg [] a_ogg) in
  Forall (fun q => p_lacing q <> [] /\ page_data q <> []) a_ogg /\ closed 7 a_ogg /\ closed 9 a_ogg /\ zlen data = 775 /\ shown_of data = (shows (ogg [] a_ogg) 0, None, 8 * 775) /\
  ogg_validate (string_read data) (8 * 775) = Ok true /\ ogg_content_size (string_read data) (8 * 775) = Ok (Some (8 * 775)) /\
  stream_data 9 a_ogg = part_bytes thd ++ [1; 2; 3] /\ zlen (stream_data 7 a_ogg) = 30 + com_len + 258 + 255 + 6 /\
  map f_name (match nth_error (shows (ogg [] a_ogg) 0) 2 with Some (G _ _ _ l _) => match kids (lit "segments") l with Some l => l | None => [] end | _ => [] end) = [lit "first"; lit "next"; lit "comment"; lit "chunk[]"; lit "chunk[]"].
Proof.
  cbv zeta. split; [repeat apply Forall_cons; try apply Forall_nil; split; discriminate|]. assert (D : forall s, s = 7 \/ s = 9 -> closed s a_ogg).
  { intros s S. unfold a_ogg. cbn [closed pg p_serial p_last]. repeat split; try discriminate; intros E _; repeat apply Forall_cons; try apply Forall_nil; cbn [pg p_serial]; lia. }
  split; [apply D; auto|]. split; [apply D; auto|]. repeat (split; [vm_compute; reflexivity|]). vm_compute. reflexivity.
Qed.
(** A chained file (RFC 3533, 4): the first stream ends, another one follows.  The file is said to end with the first of them (ogg.py:322-332 takes the first page with the flags of a
    last page). *)
Definition chained : list ogg_page := [pg (0, 1, 0) 7 0 [30] [hdr]; pg (0, 0, 1) 7 1 [3] [Bytes [1; 2; 3]]; pg (0, 1, 0) 8 0 [30] [hdr]; pg (0, 0, 1) 8 1 [2] [Bytes [4; 5]]].
Theorem C78_content_size_refuted : let data := bytes_of_all (ogg [] chained) in
  Forall page_ok chained /\ Forall filled chained /\ closed 7 chained /\ closed 8 chained /\ zlen data = 177 /\ ogg_content_size (string_read data) (8 * 177) = Ok (Some (8 * 89)).
Proof.
  cbv zeta. split; [unfold chained, hdr; small|]. split; [repeat apply Forall_cons; try apply Forall_nil; discriminate|]. assert (D : forall s, s = 7 \/ s = 8 -> closed s chained).
  { intros s S. unfold chained. cbn [closed pg p_serial p_last]. repeat split; try discriminate; intros E _; repeat apply Forall_cons; try apply Forall_nil; cbn [pg p_serial]; lia. }
  split; [apply D; auto|]. split; [apply D; auto|]. split; vm_compute; reflexivity.
Qed.
Print Assumptions C78_content_size_refuted.
(** A page may have one empty packet: the parser shows its lacing but no segments, and the field set ends with an error (a field set of size 0 is refused, and ends the list of fields). *)
Definition with_empty (lacing : list Z) (parts : list part) : list ogg_page := [pg (0, 1, 0) 7 0 [30] [hdr]; pg (0, 0, 0) 7 1 lacing parts; pg (0, 0, 1) 7 2 [3] [Bytes [1; 2; 3]]].
Definition shown_page (ps : list ogg_page) (n : nat) : option (list str * option exn) := match nth_error (fst (fst (shown_of (bytes_of_all (ogg [] ps))))) n with Some (G _ _ _ l e) => Some (map f_name l, e) | _ => None end.
Theorem C78_empty_refuted : Forall page_ok (with_empty [0] [Bytes []]) /\
  match shown_page (with_empty [0] [Bytes []]) 1 with Some (names, e) => In (lit "lacing") names /\ ~ In (lit "segments") names /\ e = Some ParserError | None => False end.
Proof.
  split; [unfold with_empty, hdr; small|]. match goal with |- match ?x with _ => _ end => let y := eval vm_compute in x in replace x with y by (vm_compute; reflexivity) end. cbn iota. split; [vm_compute; tauto|]. split; [vm_compute; intuition discriminate|reflexivity].
Qed.
Print Assumptions C78_empty_refuted.
(** The data of a stream stop at the first page without data, of this stream or of another one (ogg.py:205-217: a page without segments ends the search of the next fragment): here the
    three bytes of the last page are lost. *)
Theorem C78_data_refuted : let ps := with_empty [] [] in let data := bytes_of_all (ogg [] ps) in Forall page_ok ps /\ Forall filled ps /\ closed 7 ps /\
  exists v rest, map page_of (fst (fst (shown_of data))) = map Some (v :: rest) /\ stream_data 7 ps = part_bytes hdr ++ [1; 2; 3] /\ chain_content data (stream_fragments v rest) = part_bytes hdr.
Proof.
  cbv zeta. split; [unfold with_empty, hdr; small|]. split; [repeat apply Forall_cons; try apply Forall_nil; intros N; first [discriminate|exfalso; apply N; reflexivity]|]. split; [unfold with_empty; cbn [closed pg p_serial p_last]; repeat split; try discriminate; intros E _; apply Forall_nil|].
  exists (hd (view 0 (pg (0, 0, 0) 0 0 [] [])) (views 0 (with_empty [] []))), (tl (views 0 (with_empty [] []))). split; [vm_compute; reflexivity|]. split; vm_compute; reflexivity.
Qed.
Print Assumptions C78_data_refuted.
Example C78_packets_seen : let q := pg (0, 1, 0) 7 0 [2; 0; 3; 4] [Bytes [1; 2]; Bytes []; Bytes [3; 4; 5]; Bytes [6; 7; 8; 9]] in let content := page_data q ++ [10; 11] in
  page_ok q /\ OggStream (string_read content) (8 * zlen content) (view 0 q) = ([F (lit "packet[]") 0 16 (VBytes [1; 2]); F (lit "packet[]") 16 24 (VBytes [3; 4; 5])], Some AttributeError, 40).
Proof. cbv zeta. split; [small|vm_compute; reflexivity]. Qed.
(** A stream whose first page continues a packet shows nothing: the size of the packet is added to nothing. *)
Example C78_continued : let q := pg (1, 0, 0) 7 3 [2; 1] [Bytes [1; 2]; Bytes [3]] in page_ok q /\ OggStream (string_read [1; 2; 3]) 24 (view 0 q) = ([], Some TypeError, 0).
Proof. cbv zeta. split; [small|vm_compute; reflexivity]. Qed.
Example C78_types : let data := bytes_of_all (ogg [] a_ogg) in let data' := bytes_of_all (ogg [] (tl a_ogg)) in
  ogg_mime (string_read data) (8 * zlen data) = Ok (lit "audio/vorbis") /\ ogg_mime (string_read data') (8 * zlen data') = Ok (lit "video/theora") /\ ogg_description (string_read data') (8 * zlen data') = Ok (lit "Ogg multimedia container").
Proof. cbv zeta. repeat split; vm_compute; reflexivity. Qed.

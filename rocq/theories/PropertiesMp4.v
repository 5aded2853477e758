(** C73, C74: what the MP4 parser shows of atoms and of tables of samples. *)
From Coq Require Import String.
From Verif Require Import Base BaseProofs BitsModel BitsSpec BitsProofs StreamModel StreamSpec StreamProofs DictModel DictProofs FieldModel NumSpec NumRead ChunkBase TlvModel TlvSpec TlvProofs Mp4Model Mp4Spec Mp4Proofs Lit.
Open Scope Z_scope.
Ltac Zify.zify_post_hook ::= Z.div_mod_to_equations.

Lemma occ_self data : occurs_at data data 0.
Proof. pose proof (occ_pre [] data []) as O. cbn [app] in O. rewrite app_nil_r in O. exact O. Qed.
Lemma occ_pair a b : occurs_at a (a ++ b) 0 /\ occurs_at b (a ++ b) (zlen a).
Proof. pose proof (occ_self (a ++ b)) as O. apply occ_app in O. exact O. Qed.

Lemma atoms_file read data docs ts : serves read data -> is_bytes data -> atoms_at Plain 0 docs data ts -> MP4File read (8 * zlen data) = (ts, None).
Proof.
  intros Hs Hb T. unfold MP4File. set (fuel := S _).
  pose proof (zlen_nonneg data). pose proof (atoms_read read data Hs Hb Plain 0 docs data ts fuel fuel T (occ_self data) ltac:(unfold fuel; lia) ltac:(unfold fuel; lia)) as W.
  change (8 * 0) with 0 in W. rewrite Z.add_0_l in W. rewrite W. cbn [fst snd]. rewrite (proj2 prune_laid _ _ _ _ _ T). reflexivity.
Qed.
(** All the atoms of a file, nested as their tags say, with sizes of 32 or 64 bits and user tags,
    are shown at their addresses with their sizes. *)
Theorem C73_atoms : forall read data docs, serves read data -> is_bytes data -> atoms Plain docs data ->
  exists ts, atoms_at Plain 0 docs data ts /\ MP4File read (8 * zlen data) = (ts, None).
Proof.
  intros read data docs Hs Hb E. destruct (proj2 (enc_laid leaf nest any_last) _ _ _ E 0) as [ts T]. exists ts. split; [exact T|]. exact (atoms_file read data docs ts Hs Hb T).
Qed.
Print Assumptions C73_atoms.

Definition a_ftyp := header false (lit "ftyp") None 12 ++ lit "qt  " ++ [0; 0; 0; 1] ++ lit "isom".
Definition a_co64 := header true (lit "co64") None 16 ++ [0; 0; 0; 0] ++ [0; 0; 0; 1] ++ [0; 0; 0; 1; 0; 0; 0; 2].
Definition a_uuid := header false (lit "uuid") (Some (List.repeat 7 16)) 3 ++ [1; 2; 3].
Definition a_moov := header false (lit "moov") None (zlen (a_co64 ++ a_uuid ++ [])) ++ (a_co64 ++ a_uuid ++ []) ++ [].
Definition a_docs : list (doc atom) :=
  [Raw (Atom (Some (lit "ftyp")) None (Some (lit "file_type", 64)));
   Grp (Atom (Some (lit "moov")) None (Some (lit "movie", 64)))
     [Raw (Atom (Some (lit "co64")) None (Some (lit "co64", 128)));
      Raw (Atom (Some (lit "uuid")) (Some (List.repeat 7 16)) (Some (lit "data", 192)))]].
Lemma a_file : atoms Plain a_docs (a_ftyp ++ a_moov ++ []).
Proof.
  assert (L1 : forall c, leaf c (Atom (Some (lit "co64")) None (Some (lit "co64", 128))) a_co64).
  { intros c. apply (lf_intro c true (lit "co64") None [0;0;0;0;0;0;0;1;0;0;0;1;0;0;0;2]); [split; [reflexivity|discriminate]|vm_compute; reflexivity|left; destruct c; reflexivity]. }
  assert (L2 : forall c, leaf c (Atom (Some (lit "uuid")) (Some (List.repeat 7 16)) (Some (lit "data", 192))) a_uuid).
  { intros c. apply (lf_intro c false (lit "uuid") (Some (List.repeat 7 16)) [1;2;3]); [split; [reflexivity|split; reflexivity]|vm_compute; reflexivity|left; destruct c; reflexivity]. }
  constructor; [constructor|discriminate|constructor; [|exact (fun _ => I)|constructor]].
  - apply (lf_intro Plain false (lit "ftyp") None (lit "qt  " ++ [0; 0; 0; 1] ++ lit "isom")); [split; [reflexivity|discriminate]|vm_compute; reflexivity|left; reflexivity].
  - apply (e_grp leaf nest any_last Plain _ Plain).
    + constructor; [constructor; apply L1|discriminate|constructor; [constructor; apply L2|exact (fun _ => I)|constructor]].
    + apply (n_list Plain false (lit "moov") (lit "movie") (a_co64 ++ a_uuid ++ [])); [split; [reflexivity|discriminate]|vm_compute; reflexivity|discriminate|reflexivity].
Qed.
Example C73_atoms_example : exists ts, MP4File (string_read (a_ftyp ++ a_moov ++ [])) (8 * zlen (a_ftyp ++ a_moov ++ [])) = (ts, None) /\
  ts = [Tree 0 160 (Atom (Some (lit "ftyp")) None (Some (lit "file_type", 64))) KNone;
        Tree 160 536 (Atom (Some (lit "moov")) None (Some (lit "movie", 64)))
          (KSome [Tree 224 256 (Atom (Some (lit "co64")) None (Some (lit "co64", 128))) KNone;
                  Tree 480 216 (Atom (Some (lit "uuid")) (Some (List.repeat 7 16)) (Some (lit "data", 192))) KNone] None)].
Proof.
  destruct (C73_atoms (string_read (a_ftyp ++ a_moov ++ [])) _ a_docs ltac:(apply string_serves) ltac:(repeat constructor; unfold is_byte; lia) a_file) as (ts & _ & E). exists ts. split; [exact E|].
  apply (f_equal fst) in E. cbn [fst] in E. rewrite <- E. vm_compute. reflexivity.
Qed.

(** The last atom of a file may have the size 0: its content goes up to the end of the file,
    and is shown as that of any other atom. *)
Theorem C73_open : forall read l1 b1 tag user x, let h := open_header tag user in let data := b1 ++ h ++ x in let info := shown tag user (zlen h) (zlen x) in
  serves read data -> is_bytes data -> atoms Plain l1 b1 -> tag_ok tag user ->
  exists ts1, atoms_at Plain 0 l1 b1 ts1 /\
    (nests Plain tag user = false \/ x = [] -> MP4File read (8 * zlen data) = (ts1 ++ [Tree (8 * zlen b1) (8 * zlen (h ++ x)) info KNone], None)) /\
    (forall name l2, holds tag user = Some (name, KList) -> x <> [] -> atoms (below Plain name) l2 x ->
       exists ts2, atoms_at (below Plain name) (zlen b1 + zlen h) l2 x ts2 /\
         MP4File read (8 * zlen data) = (ts1 ++ [Tree (8 * zlen b1) (8 * zlen (h ++ x)) info (KSome ts2 None)], None)).
Proof.
  intros read l1 b1 tag user x h data info Hs Hb E T. destruct (proj2 (enc_laid leaf nest any_last) _ _ _ E 0) as [ts1 T1]. exists ts1. split; [exact T1|].
  destruct (occ_pair b1 (h ++ x)) as [O1 O]. fold data in O1, O. apply occ_app in O as [O2 O3].
  assert (L : zlen data = zlen b1 + zlen h + zlen x) by (unfold data; rewrite !zlen_app; lia). pose proof (zlen_nonneg b1). pose proof (zlen_nonneg x).
  assert (Lh : 8 <= zlen h) by (unfold h, open_header; destruct T as (T4 & _); rewrite !zlen_app, zlen_uint, T4; pose proof (zlen_nonneg (user_bytes user)); lia).
  unfold MP4File. set (fuel := S _).
  destruct (atoms_walk read data Hs Hb Plain 0 l1 b1 ts1 fuel fuel (8 * zlen data) T1 O1 ltac:(lia) ltac:(unfold fuel; lia) ltac:(unfold fuel; lia)) as [W Le].
  change (8 * 0) with 0 in W. rewrite Z.add_0_l in W. rewrite W. cbv zeta. cbn [fst snd]. rewrite map_app, (proj2 prune_laid _ _ _ _ _ T1).
  pose proof (open_read read data Hs Hb Plain tag user (zlen x) (zlen b1) T ltac:(discriminate) ltac:(lia) O2) as R. cbv zeta in R. fold h in R. rewrite <- L in R. fold info in R.
  assert (Step : forall k, parse (atom_head read) fuel Plain (8 * zlen data) (8 * zlen b1) = Ok (Tree (8 * zlen b1) (8 * zlen (h ++ x)) info k) ->
    walk (parse (atom_head read) fuel Plain) (fuel - List.length ts1) 0 (8 * zlen data) (8 * zlen b1) = ([Tree (8 * zlen b1) (8 * zlen (h ++ x)) info k], None)).
  { intros k P. destruct (fuel - List.length ts1)%nat as [|m] eqn:F; [unfold fuel in F; lia|]. cbn [walk]. replace (8 * zlen data - 8 * zlen b1 <=? 0) with false by lia. rewrite P. cbn [t_size fst snd].
    rewrite zlen_app. replace (8 * zlen b1 + 8 * (zlen h + zlen x)) with (8 * zlen data) by lia. destruct m as [|m]; [unfold fuel in F; lia|]. cbn [walk]. rewrite Z.sub_diag. reflexivity. }
  split.
  - intros N. rewrite (Step KNone); [reflexivity|]. unfold fuel at 1. cbn [parse]. rewrite R, zlen_app. destruct (zlen x =? 0) eqn:Zx; cbn [bind h_size h_body h_info].
    + do 2 f_equal. lia.
    + assert (B : match holds tag user with
               | Some (name, KList) => BKids (below Plain name) (8 * zlen h) 0
               | Some (_, KMeta) => match readBits read (8 * (zlen b1 + zlen h)) 32 BIG_ENDIAN with Ok v => BKids MetaTags (if v =? 0 then 8 * zlen h + 32 else 8 * zlen h) 0 | Err _ => BRaw end
               | _ => BRaw end = BRaw). { destruct N as [N|N]; [|rewrite N in Zx; discriminate Zx]. unfold nests in N. destruct (holds tag user) as [[name k]|]; [|reflexivity]. destruct k; try reflexivity; discriminate. }
      rewrite B. do 2 f_equal. lia.
  - intros name l2 Ho X E2. destruct (proj2 (enc_laid leaf nest any_last) _ _ _ E2 (zlen b1 + zlen h)) as [ts2 T2]. exists ts2. split; [exact T2|]. rewrite (Step (KSome ts2 None)).
    + cbn [map prune fst snd]. rewrite (proj2 prune_laid _ _ _ _ _ T2). reflexivity.
    + unfold fuel at 1. cbn [parse]. rewrite R. rewrite Ho. assert (zlen x <> 0) by (destruct x; [contradiction|rewrite zlen_cons; pose proof (zlen_nonneg x); lia]). replace (zlen x =? 0) with false by lia. cbn [bind h_size h_body h_info].
      replace (Z.min (8 * (zlen h + zlen x)) (8 * zlen data - 8 * zlen b1)) with (8 * (zlen h + zlen x)) by lia.
      replace (8 * zlen b1 + 8 * zlen h) with (8 * (zlen b1 + zlen h)) by lia. replace (8 * zlen b1 + 8 * (zlen h + zlen x)) with (8 * (zlen b1 + zlen h + zlen x)) by lia.
      rewrite (atoms_read read data Hs Hb _ _ _ _ _ _ _ T2 O3) by lia. rewrite zlen_app. reflexivity.
Qed.
Print Assumptions C73_open.
Example C73_open_example : exists ts, MP4File (string_read (a_ftyp ++ open_header (lit "mdat") None ++ [1; 2; 3])) (8 * 31) = (ts, None) /\
  ts = [Tree 0 160 (Atom (Some (lit "ftyp")) None (Some (lit "file_type", 64))) KNone; Tree 160 88 (Atom (Some (lit "mdat")) None (Some (lit "data", 64))) KNone].
Proof.
  assert (E : atoms Plain [Raw (Atom (Some (lit "ftyp")) None (Some (lit "file_type", 64)))] (a_ftyp ++ [])).
  { constructor; [constructor|exact (fun _ => I)|constructor].
    apply (lf_intro Plain false (lit "ftyp") None (lit "qt  " ++ [0; 0; 0; 1] ++ lit "isom")); [split; [reflexivity|discriminate]|vm_compute; reflexivity|left; reflexivity]. }
  rewrite app_nil_r in E.
  destruct (C73_open (string_read (a_ftyp ++ open_header (lit "mdat") None ++ [1; 2; 3])) _ _ (lit "mdat") None [1; 2; 3] ltac:(apply string_serves) ltac:(repeat constructor; unfold is_byte; lia) E ltac:(split; [reflexivity|discriminate])) as (ts1 & _ & R & _).
  specialize (R (or_introl eq_refl)). eexists. split; [exact R|]. apply (f_equal fst) in R. cbn [fst] in R. rewrite <- R. vm_compute. reflexivity.
Qed.

(** Whatever the bytes of a file, the parser ends; atoms follow one another inside their parents,
    up to their ends unless an error stopped them. *)
Scheme tiles_mut := Minimality for tiles Sort Prop with chain_mut := Minimality for chain Sort Prop.
Combined Scheme tiles_chain from tiles_mut, chain_mut.
Lemma prune_same t : t_addr (prune t) = t_addr t /\ t_size (prune t) = t_size t.
Proof. destruct t; split; reflexivity. Qed.
Lemma prune_tiles : (forall t, tiles 0 t -> tiles 0 (prune t)) /\ (forall p l q, chain 0 p l q -> chain 0 p (map prune l) q).
Proof.
  apply (tiles_chain atom 0 (fun t => tiles 0 (prune t)) (fun p l q => chain 0 p (map prune l) q)).
  - intros a s i l e p q A _ C Q F D. cbn [prune]. destruct e as [e|]; [|exact (t_group _ _ _ _ _ _ _ _ A C Q F D)]. destruct (is_meta i); [|exact (t_group _ _ _ _ _ _ _ _ A C Q F D)].
    apply (t_group _ _ _ _ _ _ p p A); [constructor|lia|exact F|discriminate].
  - intros a s i. constructor.
  - intros p. constructor.
  - intros p n l q A S _ T _ C. destruct (prune_same n) as [A' S']. cbn [map]. constructor; [congruence|rewrite S'; exact S|exact T|rewrite S'; exact C].
Qed.
Theorem C73_any : forall read data, serves read data -> ends read data -> is_bytes data ->
  let r := MP4File read (8 * zlen data) in
  exists q, chain 0 0 (fst r) q /\ q <= 8 * zlen data /\ snd r <> Some OutOfFuel /\ (snd r = None -> q = 8 * zlen data).
Proof.
  intros read data Hs He Hb r. unfold r, MP4File. set (fuel := S _). pose proof (zlen_nonneg data).
  destruct (walk_any data (atom_head read) 0 (atom_any read data Hs Hb He) (parse (atom_head read) fuel Plain) (zlen data) 0 0
    ltac:(intros p P [Q|Q]; [|lia]; apply (parse_any data (atom_head read) 0 (atom_any read data Hs Hb He)); unfold fuel; lia) fuel 0 ltac:(lia) ltac:(unfold fuel; lia) ltac:(unfold fuel; lia)) as (q & C & Q & F & D).
  change (8 * 0) with 0 in *. cbn [fst snd]. exists q. split; [apply prune_tiles; exact C|]. split; [lia|]. split; [exact F|]. intros N. specialize (D N). lia.
Qed.
Print Assumptions C73_any.
Example C73_any_example : let data := [0; 0; 0; 20] ++ lit "moov" ++ [0; 0; 0; 9] ++ lit "mvhd" ++ [5; 6; 7; 8; 9] in
  is_bytes data /\ serves (string_read data) data /\ ends (string_read data) data /\
  MP4File (string_read data) (8 * zlen data) =
    ([Tree 0 160 (Atom (Some (lit "moov")) None (Some (lit "movie", 64))) (KSome [Tree 64 72 (Atom (Some (lit "mvhd")) None (Some (lit "movie_hdr", 64))) KNone] (Some ParserError))], Some ParserError).
Proof. split; [repeat constructor; unfold is_byte; lia|]. split; [apply string_serves|]. split; [apply string_ends|]. vm_compute. reflexivity. Qed.

(** A file is accepted when its first atom has a size of at least 8 bytes and one of four tags. *)
Theorem C73_valid : forall read v tag rest, let data := uint BIG_ENDIAN 4 v ++ tag ++ rest in
  serves read data -> is_bytes data -> 0 <= v < 2 ^ 32 -> zlen tag = 4 ->
  exists r, mp4_validate read = Ok r /\ (r = true <-> 8 <= v /\ In tag [lit "ftyp"; lit "moov"; lit "free"; lit "skip"]).
Proof.
  intros read v tag rest data Hs Hb V T. destruct (occ_pair (uint BIG_ENDIAN 4 v) (tag ++ rest)) as [O1 O]. fold data in O1, O. apply occ_app in O as [O2 _]. rewrite zlen_uint in O2.
  unfold mp4_validate. pose proof (read_num read data Hs Hb BIG_ENDIAN 4 32 v 0 ltac:(discriminate) ltac:(lia) ltac:(lia) ltac:(lia) O1) as R. change (8 * 0) with 0 in R. rewrite R. cbn [bind].
  destruct (v <? 8) eqn:V8; [exists false; split; [reflexivity|]; split; [discriminate|lia]|].
  pose proof (rb_occ read data Hs _ tag O2 ltac:(intros ->; discriminate T)) as R2. rewrite T in R2. change (8 * Z.of_nat 4) with 32 in R2. rewrite R2. cbn [bind].
  eexists. split; [reflexivity|]. rewrite existsb_exists. split.
  - intros (y & I & S). apply str_eqb_eq in S. subst y. split; [lia|exact I].
  - intros (_ & I). exists tag. split; [exact I|]. apply str_eqb_eq. reflexivity.
Qed.
Print Assumptions C73_valid.
Example C73_valid_example : mp4_validate (string_read (a_ftyp ++ a_moov)) = Ok true /\ mp4_validate (string_read (header false (lit "mdat") None 0)) = Ok false.
Proof. split; vm_compute; reflexivity. Qed.
(** A file whose first atom has a size of 64 bits is refused, although the parser shows such atoms
    everywhere. *)
Theorem C73_wide_refuted : forall read tag user n rest, let data := header true tag user n ++ rest in
  serves read data -> is_bytes data -> tag_ok tag user -> mp4_validate read = Ok false.
Proof.
  intros read tag user n rest data Hs Hb (T & _). destruct (occ_pair (header true tag user n) rest) as [O _]. fold data in O. unfold header in O. rewrite <- !app_assoc in O. apply occ_app in O as [O _].
  unfold mp4_validate. pose proof (read_num read data Hs Hb BIG_ENDIAN 4 32 1 0 ltac:(discriminate) ltac:(lia) ltac:(lia) ltac:(lia) O) as R. change (8 * 0) with 0 in R. rewrite R. reflexivity.
Qed.
Print Assumptions C73_wide_refuted.
Example C73_wide_refuted_example : exists data docs, data = header true (lit "ftyp") None 4 ++ lit "isom" /\ atoms Plain docs data /\ mp4_validate (string_read data) = Ok false.
Proof.
  exists (header true (lit "ftyp") None 4 ++ lit "isom"), [Raw (Atom (Some (lit "ftyp")) None (Some (lit "file_type", 128)))]. split; [reflexivity|]. split.
  - rewrite <- (app_nil_r (_ ++ _)). constructor; [constructor|exact (fun _ => I)|constructor]. apply (lf_intro Plain true (lit "ftyp") None (lit "isom")); [split; [reflexivity|discriminate]|vm_compute; reflexivity|left; reflexivity].
  - vm_compute. reflexivity.
Qed.

(** The MIME type is video/mp4 exactly when the brand of the first atom or one of its compatible
    brands is one of five. *)
Lemma brands_read read data : serves read data -> forall l p n, Forall (fun b => zlen b = 4) l -> occurs_at (List.concat l) data p -> (List.length l < n)%nat ->
  exists r, brands read n (8 * (p + 4 * zlen l)) (8 * p) = Ok r /\ (r = true <-> exists b, In b l /\ In b BRANDS).
Proof.
  intros Hs. induction l as [|b l IH]; intros p n F O N; (destruct n as [|n]; [cbn [List.length] in N; lia|]); cbn [brands].
  - change (zlen (@nil (list Z))) with 0. replace (8 * (p + 4 * 0) <? 8 * p + 32) with true by lia. exists false. split; [reflexivity|]. split; [discriminate|intros (b & [] & _)].
  - inversion F as [|? ? B F']; subst. cbn [List.concat] in O. apply occ_app in O as [O1 O2]. rewrite B in O2. rewrite zlen_cons. pose proof (zlen_nonneg l). replace (8 * (p + 4 * (1 + zlen l)) <? 8 * p + 32) with false by lia.
    pose proof (rb_occ read data Hs p b O1 ltac:(intros ->; discriminate B)) as R. rewrite B in R. rewrite R. cbn [bind].
    assert (Ex : existsb (str_eqb b) BRANDS = true <-> In b BRANDS). { rewrite existsb_exists. split; [intros (y & I & S); apply str_eqb_eq in S; subst; exact I|intros I; exists b; split; [exact I|apply str_eqb_eq; reflexivity]]. }
    destruct (existsb (str_eqb b) BRANDS) eqn:X.
    + exists true. split; [reflexivity|]. split; [intros _; exists b; split; [left; reflexivity|apply Ex; reflexivity]|reflexivity].
    + cbn [List.length] in N. destruct (IH (p + 4) n F' O2 ltac:(lia)) as (r & E & Er). exists r. replace (8 * p + 32) with (8 * (p + 4)) by lia. replace (p + 4 * (1 + zlen l)) with (p + 4 + 4 * zlen l) by lia. split; [exact E|]. rewrite Er. split.
      * intros (y & I & J). exists y. split; [right; exact I|exact J].
      * intros (y & [<-|I] & J); [apply Ex in J; congruence|]. exists y. split; assumption.
Qed.
Lemma concat_len (l : list (list Z)) : Forall (fun b => zlen b = 4) l -> zlen (List.concat l) = 4 * zlen l.
Proof. induction 1 as [|b l B F IH]; [reflexivity|]. cbn [List.concat]. rewrite zlen_app, zlen_cons, B, IH. lia. Qed.
Theorem C73_mime : forall read wide brand version compat docs rest,
  let x := brand ++ version ++ List.concat compat in let data := (header wide (lit "ftyp") None (zlen x) ++ x) ++ rest in
  serves read data -> is_bytes data -> size_ok wide None (zlen x) -> zlen brand = 4 -> zlen version = 4 -> Forall (fun b => zlen b = 4) compat -> atoms Plain docs rest ->
  exists t ts r, MP4File read (8 * zlen data) = (t :: ts, None) /\ mp4_mime read t = Ok (Some r) /\ (r = true <-> exists b, In b (brand :: compat) /\ In b mp4_brands).
Proof.
  change mp4_brands with BRANDS.
  intros read wide brand version compat docs rest x data Hs Hb S B V F E. set (i := shown (lit "ftyp") None (zlen (header wide (lit "ftyp") None (zlen x))) (zlen x)).
  assert (Tk : tag_ok (lit "ftyp") None) by (split; [reflexivity|discriminate]).
  assert (Lf : leaf Plain i (header wide (lit "ftyp") None (zlen x) ++ x)) by (apply lf_intro; [exact Tk|exact S|left; reflexivity]).
  set (h := header wide (lit "ftyp") None (zlen x)) in *. destruct (proj2 (enc_laid leaf nest any_last) _ _ _ E (zlen (h ++ x))) as [ts T].
  assert (L : atoms_at Plain 0 (Raw i :: docs) data (Tree 0 (8 * zlen (h ++ x)) i KNone :: ts)) by (apply (l_cons leaf nest any_last Plain 0); [apply (l_raw leaf nest any_last Plain 0); exact Lf|exact (fun _ => I)|exact T]).
  exists (Tree 0 (8 * zlen (h ++ x)) i KNone), ts.
  assert (Lx : zlen x = 8 + 4 * zlen compat) by (unfold x; rewrite !zlen_app, B, V, (concat_len _ F); lia). pose proof (zlen_nonneg compat). pose proof (zlen_nonneg h).
  assert (Ei : i = Atom (Some (lit "ftyp")) None (Some (lit "file_type", 8 * zlen h))) by (unfold i, shown; replace (zlen x =? 0) with false by lia; reflexivity).
  assert (M : exists r, mp4_mime read (Tree 0 (8 * zlen (h ++ x)) i KNone) = Ok (Some r) /\ (r = true <-> exists b, In b (brand :: compat) /\ In b BRANDS)).
  { unfold mp4_mime. rewrite Ei. cbn [a_tag a_content]. change (negb (str_eqb (lit "ftyp") (lit "ftyp"))) with false. cbv iota. rewrite zlen_app. replace (8 * (zlen h + zlen x) <? 8 * zlen h + 32) with false by lia.
    destruct (occ_pair (h ++ x) rest) as [O _]. fold data in O. apply occ_app in O as [_ O]. rewrite Z.add_0_l in *. unfold x in O. apply occ_app in O as [O1 O]. apply occ_app in O as [_ O2]. rewrite B, V in *.
    pose proof (rb_occ read data Hs _ brand O1 ltac:(intros ->; discriminate B)) as R. rewrite B in R. rewrite R. cbn [bind].
    assert (Ex : existsb (str_eqb brand) BRANDS = true <-> In brand BRANDS). { rewrite existsb_exists. split; [intros (y & I & Sy); apply str_eqb_eq in Sy; subst; exact I|intros I; exists brand; split; [exact I|apply str_eqb_eq; reflexivity]]. }
    destruct (existsb (str_eqb brand) BRANDS) eqn:X.
    - exists true. split; [reflexivity|]. split; [intros _; exists brand; split; [left; reflexivity|apply Ex; reflexivity]|reflexivity].
    - replace (8 * (zlen h + zlen x) <? 8 * zlen h + 64) with false by lia.
      destruct (brands_read read data Hs compat (zlen h + 4 + 4) (Datatypes.S (Z.to_nat (8 * (zlen h + zlen x) / 8))) F O2 ltac:(assert (Lc : zlen compat = Z.of_nat (List.length compat)) by reflexivity; lia)) as (r & Er & Eq).
      replace (8 * (zlen h + 4 + 4 + 4 * zlen compat)) with (8 * (zlen h + zlen x)) in Er by lia. replace (8 * (zlen h + 4 + 4)) with (8 * zlen h + 64) in Er by lia. rewrite ?Z.add_0_l, Er. cbn [bind]. exists r. split; [reflexivity|]. rewrite Eq. split.
      + intros (y & I & J). exists y. split; [right; exact I|exact J].
      + intros (y & [<-|I] & J); [apply Ex in J; congruence|]. exists y. split; assumption. }
  destruct M as (r & M1 & M2). exists r. split; [exact (atoms_file read data _ _ Hs Hb L)|]. split; assumption.
Qed.
Print Assumptions C73_mime.
Example C73_mime_example : exists t ts, MP4File (string_read (a_ftyp ++ a_moov)) (8 * zlen (a_ftyp ++ a_moov)) = (t :: ts, None) /\ mp4_mime (string_read (a_ftyp ++ a_moov)) t = Ok (Some true).
Proof. eexists. eexists. split; vm_compute; reflexivity. Qed.

(** The boxes that hold boxes only are read as atoms, and the tables of samples as tables with their columns. *)
Theorem C73_registry : (forall tag, In tag iso_containers -> exists name, tag_kind tag = Some (name, KList)) /\ (forall tag per bits, In (tag, (per, bits)) iso_tables -> exists name, tag_kind tag = Some (name, KTable per bits)) /\
  (exists name, tag_kind (lit "stsz") = Some (name, KSizes)) /\ (exists name, tag_kind (lit "stz2") = Some (name, KCompact)) /\ (exists name, tag_kind (lit "meta") = Some (name, KMeta)).
Proof.
  split; [|split; [|split; [|split]]]; try (eexists; vm_compute; reflexivity).
  - intros tag T. unfold iso_containers in T. cbn [map In] in T. repeat destruct T as [<-|T]; try (eexists; vm_compute; reflexivity). contradiction.
  - intros tag per bits T. unfold iso_tables in T. cbn [In] in T. repeat destruct T as [T|T]; try contradiction; apply pair_equal_spec in T as [<- T]; apply pair_equal_spec in T as [<- <-]; eexists; vm_compute; reflexivity.
Qed.
Print Assumptions C73_registry.
(** The boxes of fragmented movies that say so, "mvex" with "trex", hold boxes and are shown as bytes (mp4.py:1110-1247 does not have them). *)
Theorem C73_mvex_refuted : forall c wide x, size_ok wide None (zlen x) -> x <> [] -> let h := header wide (lit "mvex") None (zlen x) in
  leaf c (Atom (Some (lit "mvex")) None (Some (lit "data", 8 * zlen h))) (h ++ x).
Proof.
  intros c wide x S X h. pose proof (lf_intro c wide (lit "mvex") None x ltac:(split; [reflexivity|discriminate]) S ltac:(left; reflexivity)) as L. unfold shown in L. replace (zlen x =? 0) with false in L; [exact L|]. destruct x; [contradiction|]. rewrite zlen_cons. pose proof (zlen_nonneg x). lia.
Qed.
Print Assumptions C73_mvex_refuted.
Example C73_mvex_refuted_example : let trex := header false (lit "trex") None 24 ++ repeat 0 24 in exists ts, MP4File (string_read (a_ftyp ++ header false (lit "mvex") None (zlen trex) ++ trex)) (8 * (zlen a_ftyp + 40)) = (ts, None) /\ List.length ts = 2%nat.
Proof. eexists. split; vm_compute; reflexivity. Qed.

(** Metadata whose atoms are followed by one to three bytes, for instance a 4-byte
    terminator cut short, shows none of its atoms: the list has no size of its own, and the error on its last atom deletes all of it. *)
Theorem C73_meta_refuted : forall read l1 b1 wide l2 b2 junk, let n := 4 + zlen b2 + zlen junk in let h := header wide (lit "meta") None n in let data := b1 ++ h ++ [0; 0; 0; 0] ++ b2 ++ junk in
  serves read data -> is_bytes data -> atoms Plain l1 b1 -> size_ok wide None n -> atoms MetaTags l2 b2 -> 1 <= zlen junk <= 3 ->
  exists ts1, atoms_at Plain 0 l1 b1 ts1 /\
    MP4File read (8 * zlen data) = (ts1 ++ [Tree (8 * zlen b1) (8 * (zlen h + n)) (shown (lit "meta") None (zlen h) n) (KSome [] (Some ParserError))], None).
Proof.
  intros read l1 b1 wide l2 b2 junk n h data Hs Hb E1 S E2 J. destruct (proj2 (enc_laid leaf nest any_last) _ _ _ E1 0) as [ts1 T1]. exists ts1. split; [exact T1|].
  assert (Tk : tag_ok (lit "meta") None) by (split; [reflexivity|discriminate]).
  destruct (occ_pair b1 (h ++ [0; 0; 0; 0] ++ b2 ++ junk)) as [O1 O]. fold data in O1, O. apply occ_app in O as [O2 O]. apply occ_app in O as [O3 O]. apply occ_app in O as [O4 O5]. change (zlen [0; 0; 0; 0]) with 4 in *.
  assert (L : zlen data = zlen b1 + zlen h + n) by (unfold data; rewrite !zlen_app; change (zlen [0; 0; 0; 0]) with 4; unfold n; lia). pose proof (zlen_nonneg b1). pose proof (zlen_nonneg b2). pose proof (zlen_nonneg h).
  destruct (proj2 (enc_laid leaf nest any_last) _ _ _ E2 (zlen b1 + zlen h + 4)) as [ts2 T2].
  unfold MP4File. set (fuel := Datatypes.S _).
  destruct (atoms_walk read data Hs Hb Plain 0 l1 b1 ts1 fuel fuel (8 * zlen data) T1 O1 ltac:(lia) ltac:(unfold fuel; lia) ltac:(unfold fuel; lia)) as [W Le].
  change (8 * 0) with 0 in W. rewrite Z.add_0_l in W. rewrite W. cbv zeta. cbn [fst snd]. rewrite map_app, (proj2 prune_laid _ _ _ _ _ T1).
  pose proof (head_read read data Hs Hb Plain wide (lit "meta") None n (zlen b1) (8 * zlen data) Tk S ltac:(lia) O2 ltac:(fold h; lia)) as R. cbv zeta in R. fold h in R. replace (n =? 0) with false in R by lia.
  change (holds (lit "meta") None) with (Some (lit "meta", KMeta)) in R. cbv iota in R.
  pose proof (read_num read data Hs Hb BIG_ENDIAN 4 32 0 _ ltac:(discriminate) ltac:(lia) ltac:(lia) ltac:(lia) O3) as R0. rewrite R0 in R. change (0 =? 0) with true in R. cbv iota in R.
  set (info := shown (lit "meta") None (zlen h) n) in *.
  destruct (atoms_walk read data Hs Hb MetaTags _ l2 b2 ts2 (Z.to_nat (8 * zlen data / 8)) fuel (8 * zlen data) T2 O4 ltac:(lia) ltac:(lia) ltac:(unfold fuel; lia)) as [W2 Le2].
  assert (P : parse (atom_head read) fuel Plain (8 * zlen data) (8 * zlen b1) = Ok (Tree (8 * zlen b1) (8 * (zlen h + n)) info (KSome ts2 (Some ParserError)))).
  { unfold fuel at 1. cbn [parse]. rewrite R. cbn [bind h_size h_body h_info]. replace (Z.min (8 * (zlen h + n)) (8 * zlen data - 8 * zlen b1)) with (8 * (zlen h + n)) by lia.
    replace (8 * zlen b1 + (8 * zlen h + 32)) with (8 * (zlen b1 + zlen h + 4)) by lia. replace (8 * zlen b1 + 8 * (zlen h + n)) with (8 * zlen data) by lia. fold fuel. rewrite W2.
    destruct (fuel - List.length ts2)%nat as [|m] eqn:Fm; [unfold fuel in Fm; lia|]. cbn [walk]. replace (8 * zlen data - 8 * (zlen b1 + zlen h + 4 + zlen b2) <=? 0) with false by lia.
    destruct (Z.to_nat (8 * zlen data / 8)) as [|k] eqn:K; [lia|]. cbn [parse].
    assert (Hd : atom_head read MetaTags (8 * zlen data) (8 * (zlen b1 + zlen h + 4 + zlen b2)) = Err ParserError) by (unfold atom_head; replace (8 * zlen data <? 8 * (zlen b1 + zlen h + 4 + zlen b2) + 32) with true by lia; reflexivity).
    rewrite Hd. cbn [bind fst snd]. rewrite app_nil_r. reflexivity. }
  destruct (fuel - List.length ts1)%nat as [|m] eqn:Fm; [unfold fuel in Fm; lia|]. cbn [walk]. replace (8 * zlen data - 8 * zlen b1 <=? 0) with false by lia. rewrite P. cbn [t_size fst snd].
  replace (8 * zlen b1 + 8 * (zlen h + n)) with (8 * zlen data) by lia. destruct m as [|m]; [unfold fuel in Fm; lia|]. cbn [walk]. rewrite Z.sub_diag. cbn [Z.leb Z.compare fst snd map prune].
  replace (is_meta info) with true; [reflexivity|]. unfold info, shown, is_meta. replace (n =? 0) with false by lia. reflexivity.
Qed.
Print Assumptions C73_meta_refuted.
Definition m_name := header false (169 :: lit "nam") None 0.
Example C73_meta_refuted_example : let meta junk := header false (lit "meta") None (12 + zlen junk) ++ [0; 0; 0; 0] ++ m_name ++ junk in
  MP4File (string_read (meta [])) (8 * 20) = ([Tree 0 160 (Atom (Some (lit "meta")) None (Some (lit "meta", 64))) (KSome [Tree 96 64 (Atom (Some (169 :: lit "nam")) None None) KNone] None)], None) /\
  MP4File (string_read (meta [0])) (8 * 21) = ([Tree 0 168 (Atom (Some (lit "meta")) None (Some (lit "meta", 64))) (KSome [] (Some ParserError))], None).
Proof. split; vm_compute; reflexivity. Qed.

(** The numbers of the tables of samples are those that were written, with the
    number of bits the table says. *)
Theorem C74_tables : forall read data tag name k l x p, serves read data -> is_bytes data ->
  tag_kind tag = Some (name, k) -> table k l x -> occurs_at x data p -> Table read k (8 * (p + zlen x)) (8 * p) = (l, None).
Proof.
  intros read data tag name k l x p Hs Hb K T O. apply (table_read read data Hs Hb); auto. intros per bits ->. unfold tag_kind in K. destruct (find _ tag_info) as [[t [nm k]]|] eqn:Fi; [|discriminate]. apply find_some in Fi as [I _]. cbn in K. injection K as _ ->.
  assert (All : forallb (fun e => match snd (snd e) with KTable _ b => 1 <=? b | _ => true end) tag_info = true) by (vm_compute; reflexivity). rewrite forallb_forall in All. specialize (All _ I). cbn [snd] in All. lia.
Qed.
Print Assumptions C74_tables.
(** Four sizes of 12 bits *)
Example C74_tables_example : let x := [0; 0; 0; 0; 0; 0; 0] ++ uint BIG_ENDIAN 1 12 ++ uint BIG_ENDIAN 4 3 ++ [0x12; 0x3A; 0xBC; 0x00; 0x7F] in
  table KCompact [0x123; 0xABC; 7] x /\ Table (string_read x) KCompact (8 * zlen x) 0 = ([0x123; 0xABC; 7], None).
Proof.
  split; [|vm_compute; reflexivity]. apply (t_compact [0; 0; 0; 0; 0; 0; 0] 12 [0x123; 0xABC; 7]); [reflexivity|lia|vm_compute; reflexivity|].
  exists (map (fun i => sub (bits_be [0x12; 0x3A; 0xBC; 0x00; 0x7F]) i 12) [0; 12; 24]), [true; true; true; true]. split; [vm_compute; reflexivity|]. repeat constructor.
Qed.
(** Whatever the bytes and the numbers it says it has, a table shows those of its numbers that are
    there. *)
Theorem C74_any : forall read data k p m, serves read data -> ends read data -> is_bytes data -> 0 <= p -> p <= m -> m <= zlen data ->
  match table_layout read k (8 * m) (8 * p) with
  | Err e => e <> OutOfFuel /\ Table read k (8 * m) (8 * p) = ([], Some e)
  | Ok (bits, n, b) =>
      8 * p <= b <= 8 * m /\
      (1 <= bits -> let c := Z.min (Z.max 0 n) ((8 * m - b) / bits) in
       Table read k (8 * m) (8 * p) = (map (fun i => bits_at data (b + Z.of_nat i * bits) bits BIG_ENDIAN) (seq 0 (Z.to_nat c)), if c =? Z.max 0 n then None else Some StopIteration))
  end.
Proof.
  intros read data k p m Hs He Hb P Pm M. unfold Table.
  assert (Rd : forall x n, 0 <= x -> 1 <= n -> match readBits read x n BIG_ENDIAN with Ok v => 0 <= v | Err e => e <> OutOfFuel end).
  { intros x n X N. destruct (bits_any read data Hs He x n BIG_ENDIAN Hb ltac:(discriminate) ltac:(lia) ltac:(lia)) as [(R' & _ & B)|R']; rewrite R'; [lia|discriminate]. }
  destruct (table_layout read k (8 * m) (8 * p)) as [[[bits n] b]|e] eqn:T.
  - assert (B : 8 * p <= b <= 8 * m).
    { unfold table_layout in T. destruct k; try discriminate; destruct (_ <? _) eqn:S in T; try discriminate;
        repeat match type of T with context [readBits read ?a ?b ?c] => destruct (readBits read a b c); cbn [bind] in T; [|discriminate] end; apply ok_inj in T; apply (f_equal snd) in T; cbn [snd] in T; lia. }
    split; [exact B|]. intros B1. rewrite (samples_any read data Hs Hb bits (8 * m) B1 ltac:(lia) (Z.to_nat n) b ltac:(lia) ltac:(lia)). cbv zeta. replace (Z.of_nat (Z.to_nat n)) with (Z.max 0 n) by lia. reflexivity.
  - split; [|reflexivity]. unfold table_layout in T. destruct k; try (injection T as <-; discriminate); destruct (_ <? _) eqn:S in T; try (injection T as <-; discriminate);
      repeat match type of T with context [readBits read ?a ?b ?c] => let Q := fresh in pose proof (Rd a b ltac:(lia) ltac:(lia)) as Q; destruct (readBits read a b c); cbn [bind] in T; [|injection T as <-; exact Q] end; discriminate.
Qed.
Print Assumptions C74_any.
Example C74_any_example : let x := [0; 0; 0; 0] ++ uint BIG_ENDIAN 4 5 ++ [0; 0; 0; 9; 0; 0; 1; 0; 7] in
  Table (string_read x) (KTable 1 32) (8 * zlen x) 0 = ([9; 256], Some StopIteration).
Proof. vm_compute. reflexivity. Qed.

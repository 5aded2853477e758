(** Proofs about the atoms of MP4 files. *)
From Coq Require Import String.
From Verif Require Import Base BaseProofs BitsModel BitsSpec BitsProofs StreamModel StreamProofs ChunkBase DictModel DictProofs NumSpec NumRead TlvModel TlvSpec TlvProofs Mp4Model Mp4Spec Lit.
Open Scope Z_scope.
Ltac Zify.zify_post_hook ::= Z.div_mod_to_equations.

Definition no_gap (_ : place) : Z := 0.
Lemma user_len tag user : tag_ok tag user -> zlen (user_bytes user) = 0 \/ zlen (user_bytes user) = 16.
Proof. intros (_ & U). destruct user; [right; apply U|left; reflexivity]. Qed.
Lemma zlen_header wide tag user n : tag_ok tag user -> zlen (header wide tag user n) = (if wide then 16 else 8) + zlen (user_bytes user).
Proof. intros (T & _). unfold header. destruct wide; rewrite ?zlen_app, ?zlen_uint, T; lia. Qed.

Lemma leaf_len c i b : leaf c i b -> 0 < zlen b /\ 64 <= 8 * zlen b.
Proof. intros [c0 wide tag user x T _ _]. rewrite zlen_app, zlen_header by exact T. pose proof (zlen_nonneg x). pose proof (zlen_nonneg (user_bytes user)). destruct wide; lia. Qed.
Lemma nest_len c i c' h b t : nest c i c' h b t -> 0 < zlen h /\ 64 <= 8 * zlen (h ++ b ++ t).
Proof.
  intros H. assert (L : 8 <= zlen h); [|rewrite zlen_app; pose proof (zlen_nonneg (b ++ t)); lia].
  inversion H as [c0 wide tag name x T S N Ho|wide tag name v y x T S V Ho|wide tag name x n T S Ho]; subst; rewrite ?zlen_app, zlen_header by exact T; cbn [user_bytes]; change (zlen (@nil Z)) with 0; change (zlen [0; 0; 0; 0]) with 4; destruct wide; lia.
Qed.
Lemma last_el c b : any_last c b -> 0 < zlen b -> 64 <= 8 * zlen b -> no_gap c < 8 * zlen b.
Proof. unfold no_gap. lia. Qed.
Lemma no_gap_2 c : no_gap c < 2 * 64.
Proof. unfold no_gap. lia. Qed.
(** Trees without errors are shown as they are. *)
Scheme laid_mut := Minimality for TlvSpec.laid Sort Prop
  with laids_mut := Minimality for TlvSpec.laids Sort Prop.
Combined Scheme laid_laids from laid_mut, laids_mut.
Lemma prune_laid : (forall c p d b t, atom_at c p d b t -> prune t = t) /\ (forall c p l b ts, atoms_at c p l b ts -> map prune ts = ts).
Proof.
  apply laid_laids; cbn [prune map].
  - reflexivity.
  - intros c p i c' l h b t ts _ IH _. rewrite IH. reflexivity.
  - reflexivity.
  - intros c p d l b bs t ts _ IH1 _ _ IH2. rewrite IH1, IH2. reflexivity.
Qed.

Section Read.
Context (read : read_fun) (data : list Z) (Hs : serves read data) (Hb : is_bytes data).

(** What follows the size and the tag *)
Lemma content_read c tag user n h p stop : tag_ok tag user -> 0 <= n -> occurs_at (user_bytes user) data (p + h) -> let h' := h + zlen (user_bytes user) in 8 * (p + h') <= stop -> (0 < n -> 8 * (p + h') < stop) ->
  atom_content read c stop (8 * p) tag (zlen (user_bytes user) + n) (8 * h) =
    if n =? 0 then Ok (Head (shown tag user h' n) (8 * h') BRaw)
    else Ok (Head (shown tag user h' n) (8 * (h' + n))
               match holds tag user with
               | Some (name, KList) => BKids (below c name) (8 * h') 0
               | Some (_, KMeta) => match c with Plain => match readBits read (8 * (p + h')) 32 BIG_ENDIAN with Ok v => BKids MetaTags (if v =? 0 then 8 * h' + 32 else 8 * h') 0 | Err _ => BRaw end | _ => BRaw end
               | _ => BRaw
               end).
Proof using All.
  intros (T & U) N O h' S1 S2. unfold atom_content. destruct user as [u|].
  - destruct U as [-> U]. cbn [user_bytes] in *. change (str_eqb (lit "uuid") UUID) with true. cbv iota. rewrite U in *.
    pose proof (occ_in _ _ _ O) as I. rewrite U in I. rewrite (readBits_serves _ data) by (auto; try lia; unfold bits_available; destruct O; lia). cbn [bind]. unfold h' in *. replace (stop <? 8 * p + 8 * h + 128) with false by lia.
    replace (8 * p + 8 * h) with (8 * (p + h)) by lia. pose proof (rb_occ read data Hs (p + h) u O ltac:(intros ->; discriminate U)) as R. rewrite U in R. rewrite R. cbn [bind].
    replace (16 + n - 16) with n by lia. unfold shown, holds. destruct (n =? 0) eqn:Z0.
    + replace (n <=? 0) with true by lia. cbn [orb]. do 2 f_equal. lia.
    + replace (n <=? 0) with false by lia. replace (stop <=? 8 * p + (8 * h + 128)) with false by lia. cbn [orb]. do 2 f_equal; [|lia]. do 3 f_equal. lia.
  - cbn [user_bytes] in *. change (zlen (@nil Z)) with 0 in *. unfold h' in *. rewrite !Z.add_0_r in *. rewrite Z.add_0_l. destruct (str_eqb tag UUID) eqn:E; [apply str_eqb_eq in E; contradiction|]. cbn [bind].
    unfold shown, holds. destruct (n =? 0) eqn:Z0; [replace (n <=? 0) with true by lia; reflexivity|]. replace (n <=? 0) with false by lia. replace (stop <=? 8 * p + 8 * h) with false by lia. cbn [orb].
    replace (8 * p + 8 * h) with (8 * (p + h)) by lia. replace (8 * h + n * 8) with (8 * (h + n)) by lia. destruct (tag_kind tag) as [[name k]|]; [|reflexivity]. destruct k; reflexivity.
Qed.
Lemma head_read c wide tag user n p stop : tag_ok tag user -> size_ok wide user n -> 0 <= n -> let h := header wide tag user n in occurs_at h data p -> 8 * (p + zlen h + n) <= stop ->
  atom_head read c stop (8 * p) =
    if n =? 0 then Ok (Head (shown tag user (zlen h) n) (8 * zlen h) BRaw)
    else Ok (Head (shown tag user (zlen h) n) (8 * (zlen h + n))
               match holds tag user with
               | Some (name, KList) => BKids (below c name) (8 * zlen h) 0
               | Some (_, KMeta) => match c with Plain => match readBits read (8 * (p + zlen h)) 32 BIG_ENDIAN with Ok v => BKids MetaTags (if v =? 0 then 8 * zlen h + 32 else 8 * zlen h) 0 | Err _ => BRaw end | _ => BRaw end
               | _ => BRaw
               end).
Proof using All.
  intros T S N h O St. pose proof (zlen_header wide tag user n T) as Lh. fold h in Lh. rewrite Lh in *. pose proof (zlen_nonneg (user_bytes user)). unfold h, header in O. pose proof T as (T4 & _).
  unfold atom_head. replace (stop <? 8 * p + 32) with false by (destruct wide; lia). unfold size_ok in S. destruct wide.
  - rewrite <- !app_assoc in O. apply occ_app in O as [O1 O]. apply occ_app in O as [O2 O]. apply occ_app in O as [O3 O4]. rewrite !zlen_uint in *. rewrite T4 in *. rewrite (read_num read data Hs Hb BIG_ENDIAN 4 32 1 p) by (try discriminate; auto; lia). cbn [bind].
    replace (stop <? 8 * p + 64) with false by lia. replace (8 * p + 32) with (8 * (p + 4)) by lia. pose proof (rb_occ read data Hs (p + 4) tag O2 ltac:(intros ->; discriminate T4)) as R. rewrite T4 in R. rewrite R. cbn [bind]. change (1 =? 1) with true. cbv iota.
    replace (stop <? 8 * p + 128) with false by lia. replace (8 * p + 64) with (8 * (p + 8)) by lia. replace (p + Z.of_nat 4 + 4) with (p + 8) in * by lia. change (Z.of_nat 8) with 8 in *.
    rewrite (read_num read data Hs Hb BIG_ENDIAN 8 64 (16 + (zlen (user_bytes user) + n)) (p + 8)) by (try discriminate; auto; lia). cbn [bind]. replace (16 + (zlen (user_bytes user) + n) - 16) with (zlen (user_bytes user) + n) by lia.
    rewrite <- Z.add_assoc in O4. change (8 + 8) with 16 in O4. change 128 with (8 * 16). apply content_read; auto; lia.
  - rewrite <- !app_assoc in O. apply occ_app in O as [O1 O]. apply occ_app in O as [O2 O4]. rewrite !zlen_uint in *. rewrite T4 in *. rewrite (read_num read data Hs Hb BIG_ENDIAN 4 32 (8 + (zlen (user_bytes user) + n)) p) by (try discriminate; auto; lia). cbn [bind].
    replace (stop <? 8 * p + 64) with false by lia. replace (8 * p + 32) with (8 * (p + 4)) by lia. pose proof (rb_occ read data Hs (p + 4) tag O2 ltac:(intros ->; discriminate T4)) as R. rewrite T4 in R. rewrite R. cbn [bind].
    replace (8 + (zlen (user_bytes user) + n) =? 1) with false by lia. replace (8 + (zlen (user_bytes user) + n) =? 0) with false by lia. replace (8 + (zlen (user_bytes user) + n) - 8) with (zlen (user_bytes user) + n) by lia.
    replace (p + Z.of_nat 4 + 4) with (p + 8) in * by lia. change 64 with (8 * 8). apply content_read; auto; lia.
Qed.
Lemma leaf_hd c i b p stop : leaf c i b -> occurs_at b data p -> 8 * (p + zlen b) <= stop -> atom_head read c stop (8 * p) = Ok (Head i (8 * zlen b) BRaw).
Proof using All.
  intros [c0 wide tag user x T S N] O St. apply occ_app in O as [O _]. rewrite zlen_app in *. pose proof (zlen_nonneg x). rewrite (head_read c0 wide tag user (zlen x) p stop T S ltac:(lia) O ltac:(lia)).
  destruct (zlen x =? 0) eqn:Z0; [do 2 f_equal; lia|]. destruct N as [N| -> ]; [|discriminate Z0]. unfold nests in N. destruct (holds tag user) as [[name k]|]; [|reflexivity]. destruct k; try reflexivity; [discriminate|]. destruct c0; [discriminate|reflexivity|reflexivity].
Qed.
Lemma nest_hd c i c' h b t p stop : nest c i c' h b t -> occurs_at (h ++ b ++ t) data p -> 8 * (p + zlen (h ++ b ++ t)) <= stop ->
  exists slack, atom_head read c stop (8 * p) = Ok (Head i (8 * zlen (h ++ b ++ t)) (BKids c' (8 * zlen h) slack)) /\ 8 * zlen t <= slack <= 8 * zlen t + no_gap c'.
Proof using All.
  intros H O St. exists 0. split; [|inversion H; subst; change (zlen (@nil Z)) with 0; unfold no_gap; lia]. inversion H as [c0 wide tag name x T S N Ho|wide tag name v y x T S V Ho|wide tag name x n T S Ho]; subst; rewrite app_nil_r in *.
  - apply occ_app in O as [O _]. rewrite zlen_app in *. pose proof (zlen_nonneg b). rewrite (head_read c wide tag None (zlen b) p stop T S ltac:(lia) O ltac:(lia)). assert (zlen b <> 0) by (intros Z0; destruct b; [contradiction|rewrite zlen_cons in Z0; pose proof (zlen_nonneg b); lia]).
    replace (zlen b =? 0) with false by lia. rewrite Ho. reflexivity.
  - fold x in O, St |- *. apply occ_app in O as [O O2]. rewrite zlen_app in *. assert (L : 4 <= zlen x) by (unfold x; rewrite zlen_app, zlen_uint; pose proof (zlen_nonneg y); lia). rewrite (head_read Plain wide tag None (zlen x) p stop T S ltac:(lia) O ltac:(lia)).
    replace (zlen x =? 0) with false by lia. rewrite Ho. unfold x in O2. apply occ_app in O2 as [O2 _]. rewrite (read_num read data Hs Hb BIG_ENDIAN 4 32 v _) by (try discriminate; try exact O2; lia). replace (v =? 0) with false by lia. reflexivity.
  - set (hb := header wide tag None n) in *. rewrite <- app_assoc in O, St |- *. apply occ_app in O as [O O2]. apply occ_app in O2 as [O2 O3]. rewrite !zlen_app in *. change (zlen [0; 0; 0; 0]) with 4 in *. pose proof (zlen_nonneg b). unfold n in *.
    rewrite (head_read Plain wide tag None (4 + zlen b) p stop T S ltac:(lia) O ltac:(fold hb; lia)). replace (4 + zlen b =? 0) with false by lia. rewrite Ho. fold hb.
    rewrite (read_num read data Hs Hb BIG_ENDIAN 4 32 0 (p + zlen hb)) by (try discriminate; auto; lia). change (0 =? 0) with true. cbv iota. do 3 f_equal; lia.
Qed.

Lemma atoms_read c p l b ts fuel m : atoms_at c p l b ts -> occurs_at b data p -> zlen b <= Z.of_nat fuel -> zlen b < Z.of_nat m ->
  walk (parse (atom_head read) fuel c) m 0 (8 * (p + zlen b)) (8 * p) = (ts, None).
Proof using All.
  intros H O F M. pose proof (proj2 (complete leaf nest any_last data (atom_head read) no_gap 64 leaf_len nest_len last_el no_gap_2 leaf_hd nest_hd) c p l b ts H fuel m 0 0 O ltac:(unfold no_gap; lia) ltac:(lia) F M) as C.
  rewrite Z.add_0_r in C. exact C.
Qed.
Lemma atom_read c p d b t stop fuel : atom_at c p d b t -> occurs_at b data p -> 8 * (p + zlen b) <= stop -> zlen b <= Z.of_nat fuel -> parse (atom_head read) fuel c stop (8 * p) = Ok t.
Proof using All.
  intros H. exact (proj1 (complete leaf nest any_last data (atom_head read) no_gap 64 leaf_len nest_len last_el no_gap_2 leaf_hd nest_hd) c p d b t H stop fuel).
Qed.
Lemma atoms_walk c p l b ts fuel n stop : atoms_at c p l b ts -> occurs_at b data p -> 8 * (p + zlen b) < stop -> zlen b <= Z.of_nat fuel -> zlen b <= Z.of_nat n ->
  walk (parse (atom_head read) fuel c) n 0 stop (8 * p) = (let r := walk (parse (atom_head read) fuel c) (n - List.length ts) 0 stop (8 * (p + zlen b)) in (ts ++ fst r, snd r)) /\ Z.of_nat (List.length ts) <= zlen b.
Proof using All.
  intros H O St Fu N. pose proof (laids_length leaf nest any_last data (atom_head read) no_gap 64 leaf_len nest_len last_el no_gap_2 leaf_hd nest_hd c p l b ts H) as Le. split; [|exact Le].
  replace n with (List.length ts + (n - List.length ts))%nat at 1 by lia.
  exact (walk_laids leaf nest any_last data (atom_head read) no_gap 64 leaf_len nest_len last_el no_gap_2 leaf_hd nest_hd c p l b ts H fuel (n - List.length ts)%nat 0 stop O ltac:(lia) ltac:(lia) Fu).
Qed.
(** An atom without size *)
Lemma open_read c tag user n p : tag_ok tag user -> c <> MetaTags -> 0 <= n -> let h := open_header tag user in occurs_at h data p ->
  atom_head read c (8 * (p + zlen h + n)) (8 * p) =
    if n =? 0 then Ok (Head (shown tag user (zlen h) n) (8 * zlen h) BRaw)
    else Ok (Head (shown tag user (zlen h) n) (8 * (zlen h + n))
               match holds tag user with
               | Some (name, KList) => BKids (below c name) (8 * zlen h) 0
               | Some (_, KMeta) => match c with Plain => match readBits read (8 * (p + zlen h)) 32 BIG_ENDIAN with Ok v => BKids MetaTags (if v =? 0 then 8 * zlen h + 32 else 8 * zlen h) 0 | Err _ => BRaw end | _ => BRaw end
               | _ => BRaw
               end).
Proof using All.
  intros T C N h O. pose proof T as (T4 & _). assert (Lh : zlen h = 8 + zlen (user_bytes user)) by (unfold h, open_header; rewrite !zlen_app, zlen_uint, T4; lia). rewrite Lh in *. pose proof (zlen_nonneg (user_bytes user)). unfold h, open_header in O.
  set (stop := 8 * (p + (8 + zlen (user_bytes user)) + n)). unfold atom_head. replace (stop <? 8 * p + 32) with false by (unfold stop; lia).
  apply occ_app in O as [O1 O]. apply occ_app in O as [O2 O4]. rewrite !zlen_uint in *. rewrite T4 in *. rewrite (read_num read data Hs Hb BIG_ENDIAN 4 32 0 p) by (try discriminate; auto; lia). cbn [bind].
  replace (stop <? 8 * p + 64) with false by (unfold stop; lia). replace (8 * p + 32) with (8 * (p + 4)) by lia. pose proof (rb_occ read data Hs (p + 4) tag O2 ltac:(intros ->; discriminate T4)) as R. rewrite T4 in R. rewrite R. cbn [bind].
  change (0 =? 1) with false. change (0 =? 0) with true. cbv iota. replace (p + Z.of_nat 4 + 4) with (p + 8) in * by lia. replace ((stop - 8 * p) / 8 - 8) with (zlen (user_bytes user) + n) by (unfold stop; lia).
  assert (E : forall x : res (head atom place), match c with MetaTags => Err OtherError | _ => x end = x) by (destruct c; [reflexivity|reflexivity|contradiction]). rewrite E. change 64 with (8 * 8). apply content_read; auto; unfold stop; lia.
Qed.

(** ** Every file *)
Context (He : ends read data).
Lemma atom_any c p m : 0 <= p -> p < m -> m <= zlen data ->
  match atom_head read c (8 * m) (8 * p) with
  | Ok h => (exists k, h_size h = 8 * k /\ 1 <= k) /\ match h_body h with BRaw => True | BKids _ off slack => 0 <= slack <= 0 /\ exists j, off = 8 * j /\ 1 <= j end
  | Err e => e <> OutOfFuel
  end.
Proof using All.
  intros P L M. unfold atom_head. destruct (8 * m <? 8 * p + 32) eqn:S1; [discriminate|].
  assert (Rd : forall x n, 0 <= x -> 1 <= n -> match readBits read x n BIG_ENDIAN with Ok v => 0 <= v | Err e => e <> OutOfFuel end).
  { intros x n X N. destruct (bits_any read data Hs He x n BIG_ENDIAN Hb ltac:(discriminate) ltac:(lia) ltac:(lia)) as [(R' & _ & B)|R']; rewrite R'; [lia|discriminate]. }
  assert (Rb : forall q n, 0 <= q -> 1 <= n -> match readBytes read (8 * q) n with Ok _ => True | Err e => e <> OutOfFuel end).
  { intros q n Q N. rewrite (rb read data Hs He) by lia. destruct (_ <=? _); [exact I|discriminate]. }
  pose proof (Rd (8 * p) 32 ltac:(lia) ltac:(lia)) as Q1. destruct (readBits read (8 * p) 32 BIG_ENDIAN) as [size|e]; cbn [bind]; [|exact Q1].
  assert (Whole : forall i, (exists k, h_size (Head i (8 * m - 8 * p) (@BRaw place)) = 8 * k /\ 1 <= k) /\ match h_body (@Head atom place i (8 * m - 8 * p) BRaw) with BRaw => True | BKids _ off slack => 0 <= slack <= 0 /\ exists j, off = 8 * j /\ 1 <= j end).
  { intros i. cbn [h_size h_body]. split; [exists (m - p); lia|exact I]. }
  destruct (8 * m <? 8 * p + 64) eqn:S2; [apply Whole|]. replace (8 * p + 32) with (8 * (p + 4)) by lia. pose proof (Rb (p + 4) 4 ltac:(lia) ltac:(lia)) as Q2. destruct (readBytes read (8 * (p + 4)) 4) as [tag|e]; cbn [bind]; [|exact Q2].
  assert (Co : forall s j, 8 <= j -> 8 * (p + j) <= 8 * m -> match atom_content read c (8 * m) (8 * p) tag s (8 * j) with
     | Ok h => (exists k, h_size h = 8 * k /\ 1 <= k) /\ match h_body h with BRaw => True | BKids _ off slack => 0 <= slack <= 0 /\ exists j, off = 8 * j /\ 1 <= j end | Err e => e <> OutOfFuel end).
  { intros s j J Jm. unfold atom_content.
    assert (Tail : forall user s j, 8 <= j -> 8 * (p + j) <= 8 * m -> match (if (s <=? 0) || (8 * m <=? 8 * p + 8 * j) then Ok (Head (Atom (Some tag) user None) (8 * j) BRaw) else
        match (match user with None => tag_kind tag | Some _ => None end) with
        | None => Ok (Head (Atom (Some tag) user (Some (lit "data", 8 * j))) (8 * j + s * 8) BRaw)
        | Some (name, k) => Ok (Head (Atom (Some tag) user (Some (name, 8 * j))) (8 * j + s * 8)
                 match k with KList => BKids (if str_eqb name (lit "tags") then BelowTags else match c with Plain => Plain | _ => BelowTags end) (8 * j) 0
                 | KMeta => match c with Plain => match readBits read (8 * p + 8 * j) 32 BIG_ENDIAN with Ok v => BKids MetaTags (if v =? 0 then 8 * j + 32 else 8 * j) 0 | Err _ => BRaw end | _ => BRaw end
                 | _ => BRaw end)
        end) with Ok h => (exists k, h_size h = 8 * k /\ 1 <= k) /\ match h_body h with BRaw => True | BKids _ off slack => 0 <= slack <= 0 /\ exists j, off = 8 * j /\ 1 <= j end | Err e => e <> OutOfFuel end).
    { clear s j J Jm. intros user s j J Jm. destruct (_ || _) eqn:Or; [cbn [h_size h_body]; split; [exists j; lia|exact I]|]. destruct (match user with None => tag_kind tag | Some _ => None end) as [[name k]|]; cbn [h_size h_body]; (split; [exists (j + s); lia|]); [|exact I].
      destruct k; try exact I; [split; [lia|exists j; lia]|]. destruct c; try exact I. destruct (readBits read (8 * p + 8 * j) 32 BIG_ENDIAN) as [v|]; [|exact I]. split; [lia|]. destruct (v =? 0); [exists (j + 4)|exists j]; lia. }
    destruct (str_eqb tag UUID).
    - pose proof (Rd (8 * p + 8 * j + 60) 4 ltac:(lia) ltac:(lia)) as Q3. destruct (readBits read (8 * p + 8 * j + 60) 4 BIG_ENDIAN) as [x|e]; cbn [bind]; [|exact Q3]. destruct (8 * m <? 8 * p + 8 * j + 128) eqn:S3; cbn [bind]; [apply Whole|].
      replace (8 * p + 8 * j) with (8 * (p + j)) by lia. pose proof (Rb (p + j) 16 ltac:(lia) ltac:(lia)) as Q4. destruct (readBytes read (8 * (p + j)) 16) as [user|e]; cbn [bind]; [|exact Q4].
      replace (8 * j + 128) with (8 * (j + 16)) by lia. apply (Tail (Some user)); lia.
    - cbn [bind]. apply (Tail None); lia. }
  destruct (size =? 1).
  - destruct (8 * m <? 8 * p + 128) eqn:S3; [apply Whole|]. pose proof (Rd (8 * p + 64) 64 ltac:(lia) ltac:(lia)) as Q3. destruct (readBits read (8 * p + 64) 64 BIG_ENDIAN) as [x|e]; cbn [bind]; [|exact Q3]. apply (Co (x - 16) 16); lia.
  - destruct (size =? 0); [destruct c; try discriminate; apply (Co _ 8); lia|]. apply (Co _ 8); lia.
Qed.
End Read.

(** ** Tables *)
Section Tables.
Context (read : read_fun) (data : list Z) (Hs : serves read data) (Hb : is_bytes data).
Lemma samples_read bits b p : 1 <= bits -> occurs_at b data p -> forall ds l, Forall2 (fun d v => zlen d = bits /\ val_be d = v) ds l -> forall done pad, bits_be b = done ++ List.concat ds ++ pad ->
  samples read bits (List.length l) (8 * (p + zlen b)) (8 * p + zlen done) = (l, None).
Proof using All.
  intros B (K & L & E). induction 1 as [|d v ds l (Ld & Ev) F IH]; intros done pad Eb; cbn [List.length samples]; [reflexivity|]. cbn [List.concat] in Eb. rewrite <- app_assoc in Eb.
  pose proof (f_equal zlen Eb) as Lb. rewrite zlen_bits_be, !zlen_app in Lb. pose proof (zlen_nonneg done). pose proof (zlen_nonneg (List.concat ds)). pose proof (zlen_nonneg pad).
  replace (8 * (p + zlen b) <? 8 * p + zlen done + bits) with false by lia. rewrite (readBits_serves _ data) by (auto; try lia; unfold bits_available; lia).
  assert (V : bits_at data (8 * p + zlen done) bits BIG_ENDIAN = v).
  { unfold bits_at. replace (sub (bits_be data) (8 * p + zlen done) bits) with d; [exact Ev|]. rewrite <- (sub_sub (bits_be data) (8 * p) (8 * zlen b)) by lia. rewrite <- bits_be_sub by (pose proof (zlen_nonneg b); lia). rewrite E, Eb.
    rewrite sub_app_r, Z.sub_diag by lia. rewrite sub_app_l by lia. rewrite <- Ld. symmetry. apply sub_all. }
  rewrite V. rewrite <- Z.add_assoc. replace (zlen done + bits) with (zlen (done ++ d)) by (rewrite zlen_app; lia). rewrite (IH (done ++ d) pad) by (rewrite <- app_assoc; exact Eb). reflexivity.
Qed.
Lemma samples_packed bits l b p : 1 <= bits -> occurs_at b data p -> packed bits l b -> samples read bits (List.length l) (8 * (p + zlen b)) (8 * p) = (l, None).
Proof using All.
  intros B O (ds & pad & E & F). pose proof (samples_read bits b p B O ds l F [] pad E) as S. change (zlen (@nil bool)) with 0 in S. rewrite Z.add_0_r in S. exact S.
Qed.
Lemma table_read k l x p : table k l x -> (forall per bits, k = KTable per bits -> 1 <= bits) -> occurs_at x data p -> Table read k (8 * (p + zlen x)) (8 * p) = (l, None).
Proof using All.
  intros T K O. unfold Table, table_layout. inversion T as [per bits version n l0 b V N L P|version l0 b V N P|version u n b V U N|version bits l0 b V N L P]; subst; apply occ_app in O as [_ O]; rewrite V in O.
  - apply occ_app in O as [O1 O2]. rewrite zlen_uint in O2. rewrite !zlen_app, zlen_uint, V. pose proof (zlen_nonneg b). set (stop := 8 * (p + (4 + (Z.of_nat 4 + zlen b)))). replace (stop <? 8 * p + 64) with false by (unfold stop; lia).
    replace (8 * p + 32) with (8 * (p + 4)) by lia. rewrite (read_num read data Hs Hb BIG_ENDIAN 4 32 n (p + 4)) by (try discriminate; auto; lia). cbn [bind]. rewrite <- L. unfold zlen at 1. rewrite Nat2Z.id.
    replace stop with (8 * (p + 8 + zlen b)) by (unfold stop; lia). replace (8 * p + 64) with (8 * (p + 8)) by lia. apply samples_packed; [eapply K; reflexivity| |exact P]. replace (p + 4 + Z.of_nat 4) with (p + 8) in O2 by lia. exact O2.
  - apply occ_app in O as [O1 O2]. apply occ_app in O2 as [O2 O3]. rewrite !zlen_uint in *. rewrite !zlen_app, !zlen_uint, V. pose proof (zlen_nonneg b). pose proof (zlen_nonneg l). set (stop := 8 * (p + (4 + (Z.of_nat 4 + (Z.of_nat 4 + zlen b))))). replace (stop <? 8 * p + 96) with false by (unfold stop; lia).
    replace (8 * p + 32) with (8 * (p + 4)) by lia. rewrite (read_num read data Hs Hb BIG_ENDIAN 4 32 0 (p + 4)) by (try discriminate; auto; lia). cbn [bind].
    replace (8 * p + 64) with (8 * (p + 4 + Z.of_nat 4)) by lia. rewrite (read_num read data Hs Hb BIG_ENDIAN 4 32 (zlen l) (p + 4 + Z.of_nat 4)) by (try discriminate; auto; lia). cbn [bind]. change (0 =? 0) with true. cbv iota. unfold zlen at 1. rewrite Nat2Z.id.
    replace stop with (8 * (p + 12 + zlen b)) by (unfold stop; lia). replace (8 * p + 96) with (8 * (p + 12)) by lia. apply samples_packed; [lia| |exact P]. replace (p + 4 + Z.of_nat 4 + Z.of_nat 4) with (p + 12) in O3 by lia. exact O3.
  - apply occ_app in O as [O1 O2]. apply occ_app in O2 as [O2 O3]. rewrite !zlen_uint in *. rewrite !zlen_app, !zlen_uint, V. pose proof (zlen_nonneg b). set (stop := 8 * (p + (4 + (Z.of_nat 4 + (Z.of_nat 4 + zlen b))))). replace (stop <? 8 * p + 96) with false by (unfold stop; lia).
    replace (8 * p + 32) with (8 * (p + 4)) by lia. rewrite (read_num read data Hs Hb BIG_ENDIAN 4 32 u (p + 4)) by (try discriminate; auto; lia). cbn [bind].
    replace (8 * p + 64) with (8 * (p + 4 + Z.of_nat 4)) by lia. rewrite (read_num read data Hs Hb BIG_ENDIAN 4 32 n (p + 4 + Z.of_nat 4)) by (try discriminate; auto; lia). cbn [bind]. replace (u =? 0) with false by lia. reflexivity.
  - apply occ_app in O as [O1 O2]. apply occ_app in O2 as [O2 O3]. rewrite !zlen_uint in *. rewrite !zlen_app, !zlen_uint, V. pose proof (zlen_nonneg b). pose proof (zlen_nonneg l). set (stop := 8 * (p + (7 + (Z.of_nat 1 + (Z.of_nat 4 + zlen b))))). replace (stop <? 8 * p + 96) with false by (unfold stop; lia).
    replace (8 * p + 56) with (8 * (p + 7)) by lia. rewrite (read_num read data Hs Hb BIG_ENDIAN 1 8 bits (p + 7)) by (try discriminate; auto; try (change (2 ^ 8) with 256); lia). cbn [bind].
    replace (8 * p + 64) with (8 * (p + 7 + Z.of_nat 1)) by lia. rewrite (read_num read data Hs Hb BIG_ENDIAN 4 32 (zlen l) (p + 7 + Z.of_nat 1)) by (try discriminate; auto; lia). cbn [bind]. unfold zlen at 1. rewrite Nat2Z.id.
    replace stop with (8 * (p + 12 + zlen b)) by (unfold stop; lia). replace (8 * p + 96) with (8 * (p + 12)) by lia. apply samples_packed; [lia| |exact P]. replace (p + 7 + Z.of_nat 1 + Z.of_nat 4) with (p + 12) in O3 by lia. exact O3.
Qed.
(** Any table shows the numbers that are there. *)
Lemma samples_any bits stop : 1 <= bits -> stop <= 8 * zlen data -> forall n a, 0 <= a -> a <= stop ->
  let m := Z.min (Z.of_nat n) ((stop - a) / bits) in
  samples read bits n stop a = (map (fun i => bits_at data (a + Z.of_nat i * bits) bits BIG_ENDIAN) (seq 0 (Z.to_nat m)), if m =? Z.of_nat n then None else Some StopIteration).
Proof using All.
  intros B St. induction n as [|n IH]; intros a A A2 m; cbn [samples].
  - unfold m. assert (0 <= (stop - a) / bits) by (apply Z.div_pos; lia). replace (Z.min (Z.of_nat 0) ((stop - a) / bits)) with 0 by lia. reflexivity.
  - destruct (stop <? a + bits) eqn:S.
    + assert (D : (stop - a) / bits = 0) by (apply Z.div_small; lia). unfold m. rewrite D. replace (Z.min (Z.of_nat (Datatypes.S n)) 0) with 0 by lia. replace (0 =? Z.of_nat (Datatypes.S n)) with false by lia. reflexivity.
    + rewrite (readBits_serves _ data) by (auto; try lia; unfold bits_available; lia). rewrite IH by lia. cbn [fst snd].
      assert (D : (stop - a) / bits = (stop - (a + bits)) / bits + 1) by (replace (stop - a) with (stop - (a + bits) + 1 * bits) by lia; apply Z.div_add; lia).
      assert (0 <= (stop - (a + bits)) / bits) by (apply Z.div_pos; lia). unfold m. rewrite D. set (q := (stop - (a + bits)) / bits) in *.
      replace (Z.min (Z.of_nat (Datatypes.S n)) (q + 1)) with (Z.min (Z.of_nat n) q + 1) by lia. set (r := Z.min (Z.of_nat n) q). assert (0 <= r) by (unfold r; lia).
      replace (Z.to_nat (r + 1)) with (Datatypes.S (Z.to_nat r)) by lia. cbn [seq map]. rewrite <- seq_shift, map_map. replace (r + 1 =? Z.of_nat (Datatypes.S n)) with (r =? Z.of_nat n) by lia. f_equal. f_equal.
      * f_equal. lia.
      * apply map_ext. intros i. f_equal. lia.
Qed.
End Tables.

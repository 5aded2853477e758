(** C71: what the Matroska parser shows. *)
From Coq Require Import String.
From Verif Require Import Base BaseProofs BitsModel DictModel DictProofs FieldModel TextModel NumSpec NumRead VarintSpec VarintProofs2 TlvModel TlvSpec TlvProofs TarProofs MkvModel MkvSpec MkvProofs Lit.
Open Scope Z_scope.
Ltac Zify.zify_post_hook ::= Z.div_mod_to_equations.

Lemma laid_size c p d b t : element_at c p d b t -> t_addr t = 8 * p /\ t_size t = 8 * zlen b /\ el_name (t_info t) = el_name match d with Raw i => i | Grp i _ => i end.
Proof. unfold element_at. intros H. inversion H; subst; auto. Qed.
Lemma hd_size c p d b t read data stop fuel : serves read data -> is_bytes data -> element_at c p d b t -> occurs_at b data p -> 8 * (p + zlen b) <= stop -> zlen b <= Z.of_nat fuel ->
  exists h, ebml_head read c stop (8 * p) = Ok h /\ h_size h = 8 * zlen b.
Proof.
  intros Hs Hb H O St Fu. unfold element_at in H. inversion H as [c0 p0 i b0 L|c0 p0 i c' l h b0 t0 ts _ M]; subst.
  - exists (Head i (8 * zlen b) BRaw). split; [apply (leaf_hd read data Hs Hb c i b p stop L O St)|reflexivity].
  - destruct (master_hd read data Hs Hb c i c' h b0 t0 p stop M O St) as (s & E & _). rewrite E. eauto.
Qed.
Lemma occ_self data : occurs_at data data 0.
Proof. pose proof (occ_pre [] data []) as O. cbn [app] in O. rewrite app_nil_r in O. exact O. Qed.
Lemma occ_pair a b : occurs_at a (a ++ b) 0 /\ occurs_at b (a ++ b) (zlen a).
Proof. pose proof (occ_self (a ++ b)) as O. apply occ_app in O. exact O. Qed.
Lemma first_read read data hd d t : serves read data -> is_bytes data -> element_at ROOT_HEADER 0 d hd t -> occurs_at hd data 0 ->
  MkvFile read (8 * zlen data) = Ok (t, walk (parse (ebml_head read) (S (Z.to_nat (8 * zlen data / 8))) ROOT_SEGMENT) (S (Z.to_nat (8 * zlen data / 8))) 0 (8 * zlen data) (8 * zlen hd)).
Proof.
  intros Hs Hb T O. pose proof (occ_in _ _ _ O) as I. pose proof (zlen_nonneg hd). unfold MkvFile. set (fuel := S _).
  destruct (hd_size ROOT_HEADER 0 d hd t read data (8 * zlen data) fuel Hs Hb T O ltac:(lia) ltac:(unfold fuel; lia)) as (h & Eh & Sh). change (8 * 0) with 0 in Eh. rewrite Eh. cbn [bind]. rewrite Sh.
  replace (8 * zlen data <? 8 * zlen hd) with false by lia.
  pose proof (element_read read data Hs Hb ROOT_HEADER 0 d hd t (8 * zlen data) fuel T O ltac:(lia) ltac:(unfold fuel; lia)) as P. change (8 * 0) with 0 in P. rewrite P. cbn [bind].
  destruct (laid_size _ _ _ _ _ T) as (_ & -> & _). reflexivity.
Qed.
(** All the elements of a file, nested as the tables say and with sizes and identifiers of any
    length, are shown at their addresses with their names, sizes and values. *)
Theorem C71_elements : forall read hd rest d docs, let data := hd ++ rest in
  serves read data -> is_bytes data -> element ROOT_HEADER d hd -> elements ROOT_SEGMENT docs rest ->
  exists t ts, element_at ROOT_HEADER 0 d hd t /\ elements_at ROOT_SEGMENT (zlen hd) docs rest ts /\
    MkvFile read (8 * zlen data) = Ok (t, (ts, None)).
Proof.
  intros read hd rest d docs data Hs Hb E Es. destruct (proj1 (enc_laid leaf master any_last) _ _ _ E 0) as [t T]. destruct (proj2 (enc_laid leaf master any_last) _ _ _ Es (zlen hd)) as [ts Ts].
  exists t, ts. split; [exact T|]. split; [exact Ts|]. destruct (occ_pair hd rest) as [O1 O2]. fold data in O1, O2.
  rewrite (first_read read data hd d t Hs Hb T O1). set (fuel := S _). assert (L : zlen data = zlen hd + zlen rest) by apply zlen_app. pose proof (zlen_nonneg hd). pose proof (zlen_nonneg rest).
  pose proof (elements_read read data Hs Hb ROOT_SEGMENT (zlen hd) docs rest ts fuel fuel 0 0 Ts O2 ltac:(lia) ltac:(lia) ltac:(unfold fuel; lia) ltac:(unfold fuel; lia)) as W.
  replace (8 * (zlen hd + zlen rest) + 0) with (8 * zlen data) in W by lia. rewrite W. reflexivity.
Qed.
Print Assumptions C71_elements.

(** The document type decides if a file is accepted: the first DocType of the header, without the
    zeros after it. *)
Theorem C71_valid : forall read m size l1 n text nul l2 b1 b2 b3 rest,
  let hd := header 4 0xA45DFA3 m size ++ b1 ++ b2 ++ b3 in let data := hd ++ rest in
  serves read data -> is_bytes data -> size = zlen (b1 ++ b2 ++ b3) -> header_ok 4 0xA45DFA3 m size ->
  elements 1 l1 b1 -> element 1 (Raw (El 0x4282 (lit "DocType") n (VText (text ++ nul)))) b2 -> elements 1 l2 b3 ->
  Forall (fun d => el_name match d with Raw i => i | Grp i _ => i end <> lit "DocType") l1 -> ~ In 0 text -> Forall (eq 0) nul ->
  exists r, mkv_validate read (8 * zlen data) = Ok r /\ (r = true <-> text = lit "matroska" \/ text = lit "webm").
Proof.
  intros read m size l1 n text nul l2 b1 b2 b3 rest hd data Hs Hb Sz Ho E1 E2 E3 F1 Nz Zs.
  set (dt := Raw (El 0x4282 (lit "DocType") n (VText (text ++ nul)))) in *.
  assert (Ek : elements 1 (l1 ++ dt :: l2) (b1 ++ b2 ++ b3)).
  { apply encs_app; [exact E1|]. constructor; [exact E2|exact (fun _ => I)|exact E3]. }
  assert (Ed : element ROOT_HEADER (Grp (El (marked 4 0xA45DFA3) (lit "EBML[]") (Some size) NoVal) (l1 ++ dt :: l2)) hd).
  { unfold hd. rewrite <- (app_nil_r (b1 ++ b2 ++ b3)), Sz. apply (e_grp leaf master any_last ROOT_HEADER _ 1); [exact Ek|]. apply master_intro; [rewrite <- Sz; exact Ho|reflexivity]. }
  destruct (proj1 (enc_laid leaf master any_last) _ _ _ Ed 0) as [t T]. destruct (occ_pair hd rest) as [O1 _]. fold data in O1.
  pose proof (first_read read data hd _ t Hs Hb T O1) as R.
  assert (Sig : readBits read 0 32 BIG_ENDIAN = Ok 0x1A45DFA3).
  { unfold hd, header in O1. rewrite <- !app_assoc in O1. apply occ_app in O1 as [O1 _]. change (ebml 4 0xA45DFA3) with (uint BIG_ENDIAN 4 0x1A45DFA3) in O1.
    apply (read_num read data Hs Hb BIG_ENDIAN 4 32 _ 0); auto; try discriminate; lia. }
  unfold mkv_validate. rewrite Sig. cbn [bind]. change (negb (0x1A45DFA3 =? 0x1A45DFA3)) with false. cbv iota. rewrite R.
  assert (D : doctype t = Ok (strip (fun c => existsb (Z.eqb c) [0]) (text ++ nul))).
  { clear R. unfold element_at in T. inversion T as [|c0 p0 i c' l h b0 t0 ts K M]; subst. unfold doctype. cbn [t_kids].
    assert (Y : forall l1 c p b ts, Forall (fun d => el_name match d with Raw i => i | Grp i _ => i end <> lit "DocType") l1 -> laids leaf master any_last c p (l1 ++ dt :: l2) b ts ->
      exists a, find (fun t => str_eqb (el_name (t_info t)) (lit "DocType")) ts = Some a /\ t_info a = El 0x4282 (lit "DocType") n (VText (text ++ nul))).
    { clear. induction l1 as [|d l1 IH]; intros c p b ts F H; cbn [app] in H; inversion H as [|c0 p0 d0 l0 b0 bs t ts0 Hd _ Hl]; subst.
      - inversion Hd; subst. cbn [find t_info el_name]. change (str_eqb (lit "DocType") (lit "DocType")) with true. cbv iota. eexists. split; reflexivity.
      - inversion F as [|? ? F1 F2]; subst. cbn [find]. destruct (laid_size _ _ _ _ _ Hd) as (_ & _ & ->).
        destruct (str_eqb _ _) eqn:S; [apply str_eqb_eq in S; contradiction|]. apply (IH _ _ _ _ F2 Hl). }
    destruct (Y l1 _ _ _ _ F1 K) as (a & -> & ->). reflexivity. }
  rewrite D. cbn [bind]. rewrite strip_nul by assumption. eexists. split; [reflexivity|]. rewrite orb_true_iff, !str_eqb_eq. reflexivity.
Qed.
Print Assumptions C71_valid.

(** The content size is the end of the first segment. *)
Theorem C71_content_size : forall read hd d l1 b1 m l2 b2 l3 b3,
  let seg := header 4 0x8538067 m (zlen b2) ++ b2 in let data := hd ++ b1 ++ seg ++ b3 in
  serves read data -> is_bytes data -> element ROOT_HEADER d hd -> elements ROOT_SEGMENT l1 b1 -> header_ok 4 0x8538067 m (zlen b2) -> elements 2 l2 b2 -> elements ROOT_SEGMENT l3 b3 ->
  Forall (fun d => el_name match d with Raw i => i | Grp i _ => i end <> lit "Segment[]") l1 ->
  mkv_content_size read (8 * zlen data) = Ok (8 * (zlen hd + zlen b1 + zlen seg)).
Proof.
  intros read hd d l1 b1 m l2 b2 l3 b3 seg data Hs Hb Ed E1 Ho E2 E3 F1.
  set (i := El (marked 4 0x8538067) (lit "Segment[]") (Some (zlen b2)) NoVal). pose proof (zlen_nonneg hd). pose proof (zlen_nonneg b1). pose proof (zlen_nonneg b2). pose proof (zlen_nonneg b3).
  destruct (proj1 (enc_laid leaf master any_last) _ _ _ Ed 0) as [t T]. destruct (proj2 (enc_laid leaf master any_last) _ _ _ E1 (zlen hd)) as [ts1 T1].
  destruct (proj2 (enc_laid leaf master any_last) _ _ _ E2 (zlen hd + zlen b1 + zlen (header 4 0x8538067 m (zlen b2)))) as [ts2 T2]. destruct (proj2 (enc_laid leaf master any_last) _ _ _ E3 (zlen hd + zlen b1 + zlen seg)) as [ts3 T3].
  set (a := Tree (8 * (zlen hd + zlen b1)) (8 * zlen seg) i (KSome ts2 None)).
  assert (Ta : element_at ROOT_SEGMENT (zlen hd + zlen b1) (Grp i l2) seg a).
  { unfold a, seg. rewrite <- (app_nil_r b2) at 2 4. apply (l_grp leaf master any_last ROOT_SEGMENT _ _ 2); [exact T2|]. apply master_intro; [exact Ho|reflexivity]. }
  assert (Ts : elements_at ROOT_SEGMENT (zlen hd) (l1 ++ Grp i l2 :: l3) (b1 ++ seg ++ b3) (ts1 ++ a :: ts3)).
  { apply laids_app; [exact T1|]. constructor; [exact Ta|exact (fun _ => I)|exact T3]. }
  destruct (occ_pair hd (b1 ++ seg ++ b3)) as [O1 O2]. fold data in O1, O2. pose proof (first_read read data hd d t Hs Hb T O1) as R.
  assert (L : zlen data = zlen hd + zlen (b1 ++ seg ++ b3)) by apply zlen_app. pose proof (zlen_nonneg (b1 ++ seg ++ b3)).
  set (fuel := S _) in R. pose proof (elements_read read data Hs Hb ROOT_SEGMENT (zlen hd) _ _ _ fuel fuel 0 0 Ts O2 ltac:(lia) ltac:(lia) ltac:(unfold fuel; lia) ltac:(unfold fuel; lia)) as W.
  replace (8 * (zlen hd + zlen (b1 ++ seg ++ b3)) + 0) with (8 * zlen data) in W by lia. rewrite W in R. unfold mkv_content_size. rewrite R. cbn [bind fst snd].
  assert (Fi : find (fun t => str_eqb (el_name (t_info t)) (lit "Segment[]")) (ts1 ++ a :: ts3) = Some a).
  { assert (Na : str_eqb (el_name (t_info a)) (lit "Segment[]") = true) by reflexivity. clearbody a. clear - T1 F1 Na. unfold elements_at in T1. remember (zlen hd) as p. clear Heqp. remember ROOT_SEGMENT as c. clear Heqc. induction T1 as [c p|c p d l b bs t ts Hd _ _ IH]; [cbn [app find]; rewrite Na; reflexivity|]. inversion F1 as [|? ? Fa Fb]; subst. cbn [app find].
    destruct (laid_size _ _ _ _ _ Hd) as (_ & _ & ->). destruct (str_eqb (el_name (match d with Raw i => i | Grp i _ => i end)) (lit "Segment[]")) eqn:S; [apply str_eqb_eq in S; exfalso; exact (Fa S)|]. apply IH, Fb. }
  rewrite Fi. unfold a. cbn [t_addr]. apply occ_app in O2 as [_ O2]. apply occ_app in O2 as [O2 _]. unfold seg, header in O2. rewrite <- app_assoc in O2. apply occ_app in O2 as [Oa O2]. apply occ_app in O2 as [Ob _]. rewrite zlen_ebml in Ob.
  destruct Ho as (N4 & V4 & M & S2). destruct (rawint_ok read data Hs Hb 4 _ _ N4 V4 Oa) as [A1 _]. rewrite A1. cbn [bind]. replace (8 * (zlen hd + zlen b1) + 8 * Z.of_nat 4) with (8 * (zlen hd + zlen b1 + Z.of_nat 4)) by lia.
  rewrite (ebml_unsigned_ok read data Hs Hb m (zlen b2) _ M ltac:(lia) Ob). cbn [bind]. replace (zlen b2 =? 2 ^ (7 * Z.of_nat m) - 1) with false by lia. f_equal. unfold seg. rewrite zlen_app, zlen_header. lia.
Qed.
Print Assumptions C71_content_size.

(** A segment of unknown size, at the end of the file, goes to its end: its elements are shown too. *)
Theorem C71_unknown : forall read hd d l1 b1 m l2 b2, let h := header 4 0x8538067 m (unknown m) in let data := hd ++ b1 ++ h ++ b2 in
  serves read data -> is_bytes data -> element ROOT_HEADER d hd -> elements ROOT_SEGMENT l1 b1 -> (1 <= m <= 8)%nat -> elements 2 l2 b2 ->
  exists t ts1 ts2, element_at ROOT_HEADER 0 d hd t /\ elements_at ROOT_SEGMENT (zlen hd) l1 b1 ts1 /\ elements_at 2 (zlen hd + zlen b1 + zlen h) l2 b2 ts2 /\
    MkvFile read (8 * zlen data) = Ok (t, (ts1 ++ [Tree (8 * (zlen hd + zlen b1)) (8 * zlen (h ++ b2)) (El 0x18538067 (lit "Segment[]") None NoVal) (KSome ts2 None)], None)).
Proof.
  intros read hd d l1 b1 m l2 b2 h data Hs Hb Ed E1 M E2. pose proof (zlen_nonneg hd). pose proof (zlen_nonneg b1). pose proof (zlen_nonneg b2). pose proof (zlen_nonneg h).
  destruct (proj1 (enc_laid leaf master any_last) _ _ _ Ed 0) as [t T]. destruct (proj2 (enc_laid leaf master any_last) _ _ _ E1 (zlen hd)) as [ts1 T1].
  destruct (proj2 (enc_laid leaf master any_last) _ _ _ E2 (zlen hd + zlen b1 + zlen h)) as [ts2 T2]. exists t, ts1, ts2. split; [exact T|]. split; [exact T1|]. split; [exact T2|].
  destruct (occ_pair hd (b1 ++ h ++ b2)) as [O1 O2]. fold data in O1, O2. rewrite (first_read read data hd d t Hs Hb T O1). set (fuel := S _). apply occ_app in O2 as [Oa O2]. apply occ_app in O2 as [Oh O2].
  assert (L : zlen data = zlen hd + (zlen b1 + (zlen h + zlen b2))) by (unfold data; rewrite !zlen_app; reflexivity).
  set (a := Tree (8 * (zlen hd + zlen b1)) (8 * zlen (h ++ b2)) (El 0x18538067 (lit "Segment[]") None NoVal) (KSome ts2 None)).
  assert (Zh : 0 < zlen h) by (unfold h; rewrite zlen_header; lia).
  assert (P : forall fuel, zlen b2 < Z.of_nat fuel -> parse (ebml_head read) fuel ROOT_SEGMENT (8 * zlen data) (8 * (zlen hd + zlen b1)) = Ok a).
  { clear fuel. intros [|fuel] Fu; [lia|]. cbn [parse]. pose proof (Z.pow_pos_nonneg 2 (7 * Z.of_nat m) ltac:(lia) ltac:(lia)).
    rewrite (header_read read data Hs Hb ROOT_SEGMENT 4 0x8538067 m (unknown m) _ (8 * zlen data) ltac:(lia) ltac:(split; [lia|reflexivity]) M ltac:(unfold unknown; lia) Oh ltac:(fold h; lia)). cbv zeta. fold h.
    rewrite Z.eqb_refl. change (entry ROOT_SEGMENT (marked 4 0x8538067)) with (lit "Segment[]", Sub 2). cbn [fst snd]. change ((ROOT_SEGMENT =? ROOT_HEADER) || (ROOT_SEGMENT =? ROOT_SEGMENT)) with true. cbv iota. cbn [bind h_size h_info h_body].
    rewrite Z.min_id. unfold a. rewrite zlen_app. replace (8 * zlen data - 8 * (zlen hd + zlen b1)) with (8 * (zlen h + zlen b2)) by lia.
    pose proof (elements_read read data Hs Hb 2 _ l2 b2 ts2 fuel (S fuel) 0 0 T2 O2 ltac:(lia) ltac:(lia) ltac:(lia) ltac:(lia)) as W.
    replace (8 * (zlen hd + zlen b1 + zlen h + zlen b2) + 0) with (8 * (zlen hd + zlen b1) + 8 * (zlen h + zlen b2)) in W by lia. replace (8 * (zlen hd + zlen b1 + zlen h)) with (8 * (zlen hd + zlen b1) + 8 * zlen h) in W by lia.
    rewrite W. reflexivity. }
  destruct (elements_walk read data Hs Hb ROOT_SEGMENT (zlen hd) l1 b1 ts1 fuel fuel (8 * zlen data) T1 Oa ltac:(lia) ltac:(unfold fuel; lia) ltac:(unfold fuel; lia)) as [W Le]. rewrite W. cbv zeta.
  destruct (fuel - List.length ts1)%nat as [|[|n]] eqn:En; [unfold fuel in *; lia|unfold fuel in *; lia|]. cbn [walk]. replace (8 * zlen data - 8 * (zlen hd + zlen b1) <=? 0) with false by lia. rewrite P by (unfold fuel; lia).
  assert (Sa : t_size a = 8 * (zlen h + zlen b2)) by (unfold a; cbn [t_size]; rewrite zlen_app; reflexivity). rewrite Sa. replace (8 * zlen data - (8 * (zlen hd + zlen b1) + 8 * (zlen h + zlen b2)) <=? 0) with true by lia. reflexivity.
Qed.
Print Assumptions C71_unknown.

(** Whatever the bytes of a file, the parser ends; elements follow one another inside their parents,
    up to their ends unless an error stopped them. *)
Theorem C71_any : forall read data, serves read data -> ends read data -> is_bytes data -> 0 < zlen data ->
  match MkvFile read (8 * zlen data) with
  | Ok (t, (ts, e)) => exists q, chain 0 0 (t :: ts) q /\ q <= 8 * zlen data /\ e <> Some OutOfFuel /\ (e = None -> q = 8 * zlen data)
  | Err e => e <> OutOfFuel
  end.
Proof.
  intros read data Hs He Hb L. unfold MkvFile. set (fuel := S _). pose proof (el_any read data Hs Hb He ROOT_HEADER 0 (zlen data) ltac:(lia) L ltac:(lia)) as H. change (8 * 0) with 0 in H.
  destruct (ebml_head read ROOT_HEADER (8 * zlen data) 0) as [h|e]; cbn [bind]; [|exact H]. destruct (_ <? _); [discriminate|].
  pose proof (parse_any data (ebml_head read) 0 (el_any read data Hs Hb He) fuel ROOT_HEADER 0 (zlen data) ltac:(lia) L ltac:(lia) ltac:(unfold fuel; lia)) as P. change (8 * 0) with 0 in P.
  destruct (parse (ebml_head read) fuel ROOT_HEADER (8 * zlen data) 0) as [t|e]; cbn [bind any_tree] in *; [|exact P]. destruct P as (A & (k & S & K & B) & Ti).
  destruct (walk_any data (ebml_head read) 0 (el_any read data Hs Hb He) (parse (ebml_head read) fuel ROOT_SEGMENT) (zlen data) k 0
    ltac:(intros p P [Q|Q]; [|lia]; apply (parse_any data (ebml_head read) 0 (el_any read data Hs Hb He)); unfold fuel; lia) fuel k ltac:(lia) ltac:(unfold fuel; lia) ltac:(unfold fuel; lia)) as (q & C & Q & F & D).
  rewrite S. destruct (walk _ _ _ _ _) as [ts e]. cbn [fst snd] in *. exists q. split; [constructor; [exact A|lia|exact Ti|]; rewrite S; exact C|]. split; [lia|]. split; [exact F|]. intros N. specialize (D N).
  assert (Up : 8 * k <= q) by (clear - C; induction C; lia). lia.
Qed.
Print Assumptions C71_any.

(** In a segment of unknown size, what follows is shown up to the first cluster of unknown size, as written by programs
    that record or broadcast: it is refused, and the rest of the file is not shown (mkv.py:576-578). *)
Theorem C71_live_refuted : forall read hd d m l2 b2 m' rest, let h := header 4 0x8538067 m (unknown m) in let data := hd ++ h ++ b2 ++ header 4 0xF43B675 m' (unknown m') ++ rest in
  serves read data -> is_bytes data -> element ROOT_HEADER d hd -> (1 <= m <= 8)%nat -> (1 <= m' <= 8)%nat -> elements 2 l2 b2 ->
  exists t ts2, elements_at 2 (zlen hd + zlen h) l2 b2 ts2 /\
    MkvFile read (8 * zlen data) = Ok (t, ([Tree (8 * zlen hd) (8 * (zlen data - zlen hd)) (El 0x18538067 (lit "Segment[]") None NoVal) (KSome ts2 (Some ParserError))], None)).
Proof.
  intros read hd d m l2 b2 m' rest h data Hs Hb Ed M M' E2. pose proof (zlen_nonneg hd). pose proof (zlen_nonneg rest). pose proof (zlen_nonneg b2). pose proof (zlen_nonneg h).
  destruct (proj1 (enc_laid leaf master any_last) _ _ _ Ed 0) as [t T]. destruct (proj2 (enc_laid leaf master any_last) _ _ _ E2 (zlen hd + zlen h)) as [ts2 T2]. exists t, ts2. split; [exact T2|].
  set (h' := header 4 0xF43B675 m' (unknown m')) in *.
  destruct (occ_pair hd (h ++ b2 ++ h' ++ rest)) as [O1 O2]. fold data in O1, O2. rewrite (first_read read data hd d t Hs Hb T O1). set (fuel := S _). apply occ_app in O2 as [Oh O2]. apply occ_app in O2 as [Ob O2]. apply occ_app in O2 as [Oc _].
  assert (L : zlen data = zlen hd + (zlen h + (zlen b2 + (zlen h' + zlen rest)))) by (unfold data; rewrite !zlen_app; reflexivity).
  assert (Zh : 0 < zlen h /\ 0 < zlen h') by (unfold h, h'; rewrite !zlen_header; lia).
  pose proof (Z.pow_pos_nonneg 2 (7 * Z.of_nat m) ltac:(lia) ltac:(lia)). pose proof (Z.pow_pos_nonneg 2 (7 * Z.of_nat m') ltac:(lia) ltac:(lia)).
  assert (P : forall f, zlen data < Z.of_nat f -> parse (ebml_head read) f ROOT_SEGMENT (8 * zlen data) (8 * zlen hd) =
    Ok (Tree (8 * zlen hd) (8 * (zlen data - zlen hd)) (El 0x18538067 (lit "Segment[]") None NoVal) (KSome ts2 (Some ParserError)))).
  { intros [|f] Fu; [lia|]. cbn [parse].
    rewrite (header_read read data Hs Hb ROOT_SEGMENT 4 0x8538067 m (unknown m) _ (8 * zlen data) ltac:(lia) ltac:(split; [lia|reflexivity]) M ltac:(unfold unknown; lia) Oh ltac:(fold h; lia)). cbv zeta. fold h.
    rewrite Z.eqb_refl. change (entry ROOT_SEGMENT (marked 4 0x8538067)) with (lit "Segment[]", Sub 2). cbn [fst snd]. change ((ROOT_SEGMENT =? ROOT_HEADER) || (ROOT_SEGMENT =? ROOT_SEGMENT)) with true. cbv iota. cbn [bind h_size h_info h_body].
    rewrite Z.min_id. replace (8 * zlen hd + (8 * zlen data - 8 * zlen hd)) with (8 * zlen data) by lia. replace (8 * zlen hd + 8 * zlen h) with (8 * (zlen hd + zlen h)) by lia.
    destruct (elements_walk read data Hs Hb 2 (zlen hd + zlen h) l2 b2 ts2 f (S f) (8 * zlen data) T2 Ob ltac:(lia) ltac:(lia) ltac:(lia)) as [W Le]. rewrite W. cbv zeta.
    destruct (S f - List.length ts2)%nat as [|n] eqn:En; [lia|]. cbn [walk]. replace (8 * zlen data - 8 * (zlen hd + zlen h + zlen b2) <=? 0) with false by lia.
    assert (Q : parse (ebml_head read) f 2 (8 * zlen data) (8 * (zlen hd + zlen h + zlen b2)) = Err ParserError).
    { destruct f as [|f]; [lia|]. cbn [parse].
      rewrite (header_read read data Hs Hb 2 4 0xF43B675 m' (unknown m') _ (8 * zlen data) ltac:(lia) ltac:(split; [lia|reflexivity]) M' ltac:(unfold unknown; lia) Oc ltac:(fold h'; lia)). cbv zeta. fold h'. rewrite Z.eqb_refl. reflexivity. }
    rewrite Q. cbn [fst snd]. rewrite app_nil_r. do 2 f_equal. lia. }
  unfold fuel. cbn [walk]. replace (8 * zlen data - 8 * zlen hd <=? 0) with false by lia. rewrite P by lia. cbn [t_size]. replace (8 * zlen hd + 8 * (zlen data - zlen hd)) with (8 * zlen data) by lia.
  destruct (Z.to_nat (8 * zlen data / 8)) as [|n] eqn:En; [lia|]. cbn [walk]. rewrite Z.sub_diag. reflexivity.
Qed.
Print Assumptions C71_live_refuted.

(** A chapter inside a chapter, or a tag inside a tag, which the format allows, is shown as an
    unknown element: the tables do not refer to themselves (mkv.py:288-321). *)
Theorem C71_nested_refuted : forall outer c n v, (outer, c, n, v) = (30, 31, 1%nat, 0x36) \/ (outer, c, n, v) = (37, 39, 2%nat, 0x27C8) ->
  snd (entry outer (marked n v)) = Sub c /\
  forall read data m b p stop fuel, serves read data -> is_bytes data -> 1 <= zlen b -> header_ok n v m (zlen b) ->
  let e := header n v m (zlen b) ++ b in occurs_at e data p -> 8 * (p + zlen e) <= stop ->
  parse (ebml_head read) (S fuel) c stop (8 * p) = Ok (Tree (8 * p) (8 * zlen e) (El (marked n v) (lit "Unknown[]") (Some (zlen b)) (VBytes b)) KNone).
Proof.
  intros outer c n v H. assert (X : snd (entry outer (marked n v)) = Sub c /\ entry c (marked n v) = (lit "Unknown[]", Leaf KBytes)) by (destruct H as [H|H]; injection H as -> -> -> ->; split; reflexivity).
  destruct X as [X1 X2]. split; [exact X1|]. intros read data m b p stop fuel Hs Hb L Ho e O St. cbn [parse].
  rewrite (leaf_hd read data Hs Hb c (El (marked n v) (lit "Unknown[]") (Some (zlen b)) (VBytes b)) e p stop (leaf_intro c n v m b _ KBytes _ Ho X2 (sh_bytes b L)) O St). cbn [bind h_size h_info h_body].
  do 2 f_equal. lia.
Qed.
Print Assumptions C71_nested_refuted.

(** Every identifier of the tables can be written, and an element is never taken for another one: in each table, the
    identifiers are different. *)
Definition id_bytes (id : Z) : option nat := find (fun n => (2 ^ (7 * Z.of_nat n) <=? id) && (id <? 2 ^ (7 * Z.of_nat n + 1))) (seq 1 8).
Definition tables_ok : bool :=
  forallb (fun c => forallb (fun e => match id_bytes (fst e) with Some _ => true | None => false end) (ids c) &&
    forallb (fun e => match e with (id, (name, _)) => str_eqb name (fst (entry c id)) end) (ids c)) (map Z.of_nat (seq 0 44)).
Theorem C71_tables : forall c id name x, In (id, (name, x)) (ids c) ->
  (exists n v, (1 <= n <= 8)%nat /\ 0 <= v < 2 ^ (7 * Z.of_nat n) /\ id = marked n v) /\ fst (entry c id) = name.
Proof.
  assert (K : tables_ok = true) by (vm_compute; reflexivity). unfold tables_ok in K. rewrite forallb_forall in K. intros c id name x I.
  assert (C : In c (map Z.of_nat (seq 0 44))).
  { destruct (Z.lt_ge_cases c 0) as [N|N]; [|destruct (Z.lt_ge_cases c 44) as [N'|N']].
    - exfalso. unfold ids in I. repeat (replace (c =? _) with false in I by lia). exact I.
    - apply in_map_iff. exists (Z.to_nat c). split; [lia|]. apply in_seq. lia.
    - exfalso. unfold ids in I. repeat (replace (c =? _) with false in I by lia). exact I. }
  specialize (K c C). apply andb_true_iff in K as [K1 K2]. rewrite forallb_forall in K1, K2. specialize (K1 _ I). specialize (K2 _ I). cbn [fst] in K1. cbn beta iota in K2. split.
  - destruct (id_bytes id) as [n|] eqn:E; [|discriminate]. unfold id_bytes in E. apply find_some in E as [E1 E2]. apply in_seq in E1. exists n, (id - 2 ^ (7 * Z.of_nat n)). split; [lia|]. rewrite Z.pow_add_r in E2 by lia. unfold marked. lia.
  - apply str_eqb_eq in K2. symmetry. exact K2.
Qed.
Print Assumptions C71_tables.

(** A header with a document type; a segment with a title, a void and a signed number in a block group *)
Definition ex_hd : list Z := header 4 0xA45DFA3 1 8 ++ [] ++ (header 2 0x282 1 5 ++ [119; 101; 98; 109; 0]) ++ [].
Definition ex_info : list Z := header 4 0x549A966 2 5 ++ ((header 2 0x3BA9 1 2 ++ [104; 105]) ++ []) ++ [].
Definition ex_cluster : list Z := header 4 0xF43B675 1 9 ++ ((header 1 0x20 1 4 ++ ((header 1 0x7B 1 2 ++ [255; 254]) ++ []) ++ []) ++ (header 1 0x6C 1 1 ++ [0]) ++ []) ++ [].
Definition ex_data : list Z := ex_hd ++ [] ++ (header 4 0x8538067 8 25 ++ (ex_info ++ ex_cluster ++ [])) ++ [].
Definition ex_docs : list (doc el) :=
  [Grp (El 0x1549A966 (lit "Info[]") (Some 5) NoVal) [Raw (El 0x7BA9 (lit "Title") (Some 2) (VText [104; 105]))];
   Grp (El 0x1F43B675 (lit "Cluster[]") (Some 9) NoVal)
     [Grp (El 0xA0 (lit "BlockGroup[]") (Some 4) NoVal) [Raw (El 0xFB (lit "ReferenceBlock[]") (Some 2) (VInt (-2)))]; Raw (El 0xEC (lit "Void[]") (Some 1) (VBytes [0]))]].
Ltac ho := split; [split; repeat constructor|split; [vm_compute; split; congruence|split; [split; repeat constructor|vm_compute; reflexivity]]].
Ltac by_bytes := unfold is_bytes; apply Forall_forall; let x := fresh in intros x; match goal with |- In x ?l -> _ => let H := fresh in intros H; let F := fresh in assert (F : forallb (fun b => (0 <=? b) && (b <? 256)) l = true) by (vm_compute; reflexivity); rewrite forallb_forall in F; specialize (F x H); unfold is_byte; lia end.
Example C71_docs_ex : elements 2 ex_docs (ex_info ++ ex_cluster ++ []).
Proof.
  apply e_cons; [|exact (fun _ => I)|apply e_cons; [|exact (fun _ => I)|apply e_nil]].
  - apply (e_grp leaf master any_last 2 _ 5 _ (header 4 0x549A966 2 5) ((header 2 0x3BA9 1 2 ++ [104; 105]) ++ []) []).
    + apply e_cons; [|exact (fun _ => I)|apply e_nil]. apply e_raw. apply (leaf_intro 5 2 0x3BA9 1 [104; 105] _ KText); [ho|reflexivity|apply sh_text; vm_compute; split; congruence].
    + apply (master_intro 2 4 0x549A966 2 _ 5 ((header 2 0x3BA9 1 2 ++ [104; 105]) ++ [])); [ho|reflexivity].
  - set (bg := header 1 0x20 1 4 ++ ((header 1 0x7B 1 2 ++ [255; 254]) ++ []) ++ []).
    apply (e_grp leaf master any_last 2 _ 7 _ (header 4 0xF43B675 1 9) (bg ++ (header 1 0x6C 1 1 ++ [0]) ++ []) []).
    + apply e_cons; [|exact (fun _ => I)|apply e_cons; [|exact (fun _ => I)|apply e_nil]].
      * apply (e_grp leaf master any_last 7 _ 9 _ (header 1 0x20 1 4) ((header 1 0x7B 1 2 ++ [255; 254]) ++ []) []).
        -- apply e_cons; [|exact (fun _ => I)|apply e_nil]. apply e_raw.
           apply (leaf_intro 9 1 0x7B 1 [255; 254] _ KSigned); [ho|reflexivity|apply (sh_signed 2 (-2)); [lia|lia|cbn; lia]].
        -- apply (master_intro 7 1 0x20 1 _ 9 ((header 1 0x7B 1 2 ++ [255; 254]) ++ [])); [ho|reflexivity].
      * apply e_raw. apply (leaf_intro 7 1 0x6C 1 [0] _ KBytes); [ho|reflexivity|apply sh_bytes; vm_compute; congruence].
    + apply (master_intro 2 4 0xF43B675 1 _ 7 (bg ++ (header 1 0x6C 1 1 ++ [0]) ++ [])); [ho|reflexivity].
Qed.
Definition ex_doctype : doc el := Raw (El 0x4282 (lit "DocType") (Some 5) (VText [119; 101; 98; 109; 0])).
Example C71_header_ex : element 1 ex_doctype (header 2 0x282 1 5 ++ [119; 101; 98; 109; 0]) /\ element ROOT_HEADER (Grp (El 0x1A45DFA3 (lit "EBML[]") (Some 8) NoVal) [ex_doctype]) ex_hd.
Proof.
  assert (H : element 1 ex_doctype (header 2 0x282 1 5 ++ [119; 101; 98; 109; 0])).
  { apply e_raw. apply (leaf_intro 1 2 0x282 1 [119; 101; 98; 109; 0] _ KText); [ho|reflexivity|apply sh_text; vm_compute; split; congruence]. }
  split; [exact H|]. apply (e_grp leaf master any_last ROOT_HEADER _ 1 _ (header 4 0xA45DFA3 1 8) ((header 2 0x282 1 5 ++ [119; 101; 98; 109; 0]) ++ []) []).
  - apply e_cons; [exact H|exact (fun _ => I)|apply e_nil].
  - apply (master_intro ROOT_HEADER 4 0xA45DFA3 1 _ 1 ((header 2 0x282 1 5 ++ [119; 101; 98; 109; 0]) ++ [])); [ho|reflexivity].
Qed.
Example C71_elements_ex : is_bytes ex_data /\ MkvFile (string_read ex_data) 400 = Ok
  (Tree 0 104 (El 0x1A45DFA3 (lit "EBML[]") (Some 8) NoVal) (KSome [Tree 40 64 (El 0x4282 (lit "DocType") (Some 5) (VText [119; 101; 98; 109; 0])) KNone] None),
   ([Tree 104 296 (El 0x18538067 (lit "Segment[]") (Some 25) NoVal) (KSome
      [Tree 200 88 (El 0x1549A966 (lit "Info[]") (Some 5) NoVal) (KSome [Tree 248 40 (El 0x7BA9 (lit "Title") (Some 2) (VText [104; 105])) KNone] None);
       Tree 288 112 (El 0x1F43B675 (lit "Cluster[]") (Some 9) NoVal) (KSome
         [Tree 328 48 (El 0xA0 (lit "BlockGroup[]") (Some 4) NoVal) (KSome [Tree 344 32 (El 0xFB (lit "ReferenceBlock[]") (Some 2) (VInt (-2))) KNone] None);
          Tree 376 24 (El 0xEC (lit "Void[]") (Some 1) (VBytes [0])) KNone] None)] None)], None)).
Proof. split; [by_bytes|vm_compute; reflexivity]. Qed.
Example C71_valid_ex : mkv_validate (string_read ex_data) 400 = Ok true /\ header_ok 4 0xA45DFA3 1 8 /\ mkv_content_size (string_read ex_data) 400 = Ok 400.
Proof. split; [vm_compute; reflexivity|]. split; [ho|vm_compute; reflexivity]. Qed.
Example C71_any_ex : MkvFile (string_read (ex_hd ++ [0x18; 0x53; 0x80; 0x67; 0x81; 0xBF])) 152 =
  Ok (Tree 0 104 (El 0x1A45DFA3 (lit "EBML[]") (Some 8) NoVal) (KSome [Tree 40 64 (El 0x4282 (lit "DocType") (Some 5) (VText [119; 101; 98; 109; 0])) KNone] None),
      ([Tree 104 48 (El 0x18538067 (lit "Segment[]") (Some 1) NoVal) (KSome [] (Some ReadStreamError))], None)).
Proof. vm_compute. reflexivity. Qed.
Example C71_unknown_ex : unknown 1 = 127 /\ header 4 0x8538067 1 (unknown 1) = [0x18; 0x53; 0x80; 0x67; 0xFF].
Proof. split; reflexivity. Qed.

(** ** Identifiers
    Elements of RFC 8794 and RFC 9559, by the identifiers of the elements they are in and their own, with their names and types.  The parser uses the names that the format had before the RFCs
    (Timecode for Timestamp, TimecodeScale for TimestampScale, PrevUID for PrevUUID...), and adds the mark of repeated fields. *)
Definition seg : Z := 0x18538067.
Definition matroska : list (list Z * string * kind) := (
  [([0x1A45DFA3; 0x4286], "EBMLVersion", KUnsigned); ([0x1A45DFA3; 0x42F7], "EBMLReadVersion", KUnsigned); ([0x1A45DFA3; 0x42F2], "EBMLMaxIDLength", KUnsigned); ([0x1A45DFA3; 0x42F3], "EBMLMaxSizeLength", KUnsigned);
   ([0x1A45DFA3; 0x4282], "DocType", KText); ([0x1A45DFA3; 0x4287], "DocTypeVersion", KUnsigned); ([0x1A45DFA3; 0x4285], "DocTypeReadVersion", KUnsigned);
   ([seg; 0x114D9B74; 0x4DBB; 0x53AC], "SeekPosition", KUnsigned);
   ([seg; 0x1549A966; 0x73A4], "SegmentUID", KBytes); ([seg; 0x1549A966; 0x7384], "SegmentFilename", KText); ([seg; 0x1549A966; 0x3CB923], "PrevUID", KBytes); ([seg; 0x1549A966; 0x3C83AB], "PrevFilename", KText);
   ([seg; 0x1549A966; 0x3EB923], "NextUID", KBytes); ([seg; 0x1549A966; 0x3E83BB], "NextFilename", KText); ([seg; 0x1549A966; 0x2AD7B1], "TimecodeScale", KUnsigned); ([seg; 0x1549A966; 0x4489], "Duration", KFloat);
   ([seg; 0x1549A966; 0x4461], "DateUTC", KSigned); ([seg; 0x1549A966; 0x7BA9], "Title", KText); ([seg; 0x1549A966; 0x4D80], "MuxingApp", KText); ([seg; 0x1549A966; 0x5741], "WritingApp", KText);
   ([seg; 0x1F43B675; 0xE7], "Timecode", KUnsigned); ([seg; 0x1F43B675; 0xA7], "Position", KUnsigned); ([seg; 0x1F43B675; 0xAB], "PrevSize", KUnsigned); ([seg; 0x1F43B675; 0xA3], "SimpleBlock[]", KBlock);
   ([seg; 0x1F43B675; 0xA0; 0xA1], "Block", KBlock); ([seg; 0x1F43B675; 0xA0; 0x9B], "BlockDuration", KUnsigned); ([seg; 0x1F43B675; 0xA0; 0xFA], "ReferencePriority", KUnsigned); ([seg; 0x1F43B675; 0xA0; 0xFB], "ReferenceBlock[]", KSigned); ([seg; 0x1F43B675; 0xA0; 0xA4], "CodecState", KBytes);
   ([seg; 0x1F43B675; 0xA0; 0x75A1; 0xA6; 0xEE], "BlockAddID", KUnsigned); ([seg; 0x1F43B675; 0xA0; 0x75A1; 0xA6; 0xA5], "BlockAdditional", KBytes);
   ([seg; 0x1654AE6B; 0xAE; 0xD7], "TrackNumber", KUnsigned); ([seg; 0x1654AE6B; 0xAE; 0x73C5], "TrackUID", KUnsigned); ([seg; 0x1654AE6B; 0xAE; 0x83], "TrackType", KUnsigned); ([seg; 0x1654AE6B; 0xAE; 0xB9], "FlagEnabled", KUnsigned);
   ([seg; 0x1654AE6B; 0xAE; 0x88], "FlagDefault", KUnsigned); ([seg; 0x1654AE6B; 0xAE; 0x55AA], "FlagForced[]", KUnsigned); ([seg; 0x1654AE6B; 0xAE; 0x9C], "FlagLacing", KUnsigned); ([seg; 0x1654AE6B; 0xAE; 0x6DE7], "MinCache", KUnsigned);
   ([seg; 0x1654AE6B; 0xAE; 0x6DF8], "MaxCache", KUnsigned); ([seg; 0x1654AE6B; 0xAE; 0x23E383], "DefaultDuration", KUnsigned); ([seg; 0x1654AE6B; 0xAE; 0x23314F], "TrackTimecodeScale", KFloat); ([seg; 0x1654AE6B; 0xAE; 0x55EE], "MaxBlockAdditionID", KUnsigned);
   ([seg; 0x1654AE6B; 0xAE; 0x536E], "Name", KText); ([seg; 0x1654AE6B; 0xAE; 0x22B59C], "Language", KText); ([seg; 0x1654AE6B; 0xAE; 0x86], "CodecID", KText); ([seg; 0x1654AE6B; 0xAE; 0x63A2], "CodecPrivate", KBytes);
   ([seg; 0x1654AE6B; 0xAE; 0x258688], "CodecName", KText); ([seg; 0x1654AE6B; 0xAE; 0x7446], "AttachmentLink", KUnsigned); ([seg; 0x1654AE6B; 0xAE; 0xAA], "CodecDecodeAll", KUnsigned); ([seg; 0x1654AE6B; 0xAE; 0x6FAB], "TrackOverlay[]", KUnsigned);
   ([seg; 0x1654AE6B; 0xAE; 0xE0; 0x9A], "FlagInterlaced", KUnsigned); ([seg; 0x1654AE6B; 0xAE; 0xE0; 0x53B8], "StereoMode", KUnsigned); ([seg; 0x1654AE6B; 0xAE; 0xE0; 0xB0], "PixelWidth", KUnsigned); ([seg; 0x1654AE6B; 0xAE; 0xE0; 0xBA], "PixelHeight", KUnsigned);
   ([seg; 0x1654AE6B; 0xAE; 0xE0; 0x54AA], "PixelCropBottom", KUnsigned); ([seg; 0x1654AE6B; 0xAE; 0xE0; 0x54BB], "PixelCropTop", KUnsigned); ([seg; 0x1654AE6B; 0xAE; 0xE0; 0x54CC], "PixelCropLeft", KUnsigned); ([seg; 0x1654AE6B; 0xAE; 0xE0; 0x54DD], "PixelCropRight", KUnsigned);
   ([seg; 0x1654AE6B; 0xAE; 0xE0; 0x54B0], "DisplayWidth", KUnsigned); ([seg; 0x1654AE6B; 0xAE; 0xE0; 0x54BA], "DisplayHeight", KUnsigned); ([seg; 0x1654AE6B; 0xAE; 0xE0; 0x54B2], "DisplayUnit", KUnsigned); ([seg; 0x1654AE6B; 0xAE; 0xE0; 0x2EB524], "ColourSpace", KBytes);
   ([seg; 0x1654AE6B; 0xAE; 0xE1; 0xB5], "SamplingFrequency", KFloat); ([seg; 0x1654AE6B; 0xAE; 0xE1; 0x78B5], "OutputSamplingFrequency", KFloat); ([seg; 0x1654AE6B; 0xAE; 0xE1; 0x9F], "Channels", KUnsigned); ([seg; 0x1654AE6B; 0xAE; 0xE1; 0x6264], "BitDepth", KUnsigned);
   ([seg; 0x1654AE6B; 0xAE; 0x6D80; 0x6240; 0x5031], "ContentEncodingOrder", KUnsigned); ([seg; 0x1654AE6B; 0xAE; 0x6D80; 0x6240; 0x5032], "ContentEncodingScope", KUnsigned); ([seg; 0x1654AE6B; 0xAE; 0x6D80; 0x6240; 0x5033], "ContentEncodingType", KUnsigned);
   ([seg; 0x1654AE6B; 0xAE; 0x6D80; 0x6240; 0x5034; 0x4254], "ContentCompAlgo", KUnsigned); ([seg; 0x1654AE6B; 0xAE; 0x6D80; 0x6240; 0x5034; 0x4255], "ContentCompSettings", KBytes);
   ([seg; 0x1654AE6B; 0xAE; 0x6D80; 0x6240; 0x5035; 0x47E1], "ContentEncAlgo", KUnsigned); ([seg; 0x1654AE6B; 0xAE; 0x6D80; 0x6240; 0x5035; 0x47E2], "ContentEncKeyID", KBytes);
   ([seg; 0x1C53BB6B; 0xBB; 0xB3], "CueTime", KUnsigned); ([seg; 0x1C53BB6B; 0xBB; 0xB7; 0xF7], "CueTrack", KUnsigned); ([seg; 0x1C53BB6B; 0xBB; 0xB7; 0xF1], "CueClusterPosition", KUnsigned); ([seg; 0x1C53BB6B; 0xBB; 0xB7; 0x5378], "CueBlockNumber", KUnsigned);
   ([seg; 0x1C53BB6B; 0xBB; 0xB7; 0xEA], "CueCodecState", KUnsigned); ([seg; 0x1C53BB6B; 0xBB; 0xB7; 0xDB; 0x96], "CueRefTime", KUnsigned);
   ([seg; 0x1941A469; 0x61A7; 0x467E], "FileDescription", KText); ([seg; 0x1941A469; 0x61A7; 0x466E], "FileName", KText); ([seg; 0x1941A469; 0x61A7; 0x4660], "FileMimeType", KText); ([seg; 0x1941A469; 0x61A7; 0x465C], "FileData", KBytes); ([seg; 0x1941A469; 0x61A7; 0x46AE], "FileUID", KUnsigned);
   ([seg; 0x1043A770; 0x45B9; 0x45BC], "EditionUID", KUnsigned); ([seg; 0x1043A770; 0x45B9; 0x45BD], "EditionFlagHidden", KUnsigned); ([seg; 0x1043A770; 0x45B9; 0x45DB], "EditionFlagDefault", KUnsigned); ([seg; 0x1043A770; 0x45B9; 0x45DD], "EditionFlagOrdered", KUnsigned);
   ([seg; 0x1043A770; 0x45B9; 0xB6; 0x73C4], "ChapterUID", KUnsigned); ([seg; 0x1043A770; 0x45B9; 0xB6; 0x91], "ChapterTimeStart", KUnsigned); ([seg; 0x1043A770; 0x45B9; 0xB6; 0x92], "ChapterTimeEnd", KUnsigned); ([seg; 0x1043A770; 0x45B9; 0xB6; 0x98], "ChapterFlagHidden", KUnsigned);
   ([seg; 0x1043A770; 0x45B9; 0xB6; 0x4598], "ChapterFlagEnabled", KUnsigned); ([seg; 0x1043A770; 0x45B9; 0xB6; 0x6E67], "ChapterSegmentUID", KBytes); ([seg; 0x1043A770; 0x45B9; 0xB6; 0x63C3], "ChapterPhysicalEquiv", KUnsigned); ([seg; 0x1043A770; 0x45B9; 0xB6; 0x8F; 0x89], "ChapterTrackNumber[]", KUnsigned);
   ([seg; 0x1043A770; 0x45B9; 0xB6; 0x80; 0x85], "ChapString", KText); ([seg; 0x1043A770; 0x45B9; 0xB6; 0x80; 0x437C], "ChapLanguage[]", KText); ([seg; 0x1043A770; 0x45B9; 0xB6; 0x80; 0x437E], "ChapCountry[]", KText);
   ([seg; 0x1254C367; 0x7373; 0x63C0; 0x68CA], "TargetTypeValue", KUnsigned); ([seg; 0x1254C367; 0x7373; 0x63C0; 0x63CA], "TargetType", KText); ([seg; 0x1254C367; 0x7373; 0x63C0; 0x63C5], "TrackUID[]", KUnsigned); ([seg; 0x1254C367; 0x7373; 0x63C0; 0x63C9], "EditionUID[]", KUnsigned);
   ([seg; 0x1254C367; 0x7373; 0x63C0; 0x63C4], "ChapterUID[]", KUnsigned); ([seg; 0x1254C367; 0x7373; 0x63C0; 0x63C6], "AttachmentUID[]", KUnsigned); ([seg; 0x1254C367; 0x7373; 0x67C8; 0x45A3], "TagName", KText); ([seg; 0x1254C367; 0x7373; 0x67C8; 0x447A], "TagLanguage", KText);
   ([seg; 0x1254C367; 0x7373; 0x67C8; 0x4487], "TagString", KText); ([seg; 0x1254C367; 0x7373; 0x67C8; 0x4485], "TagBinary", KBytes); ([seg; 0xEC], "Void[]", KBytes); ([seg; 0x1F43B675; 0xBF], "CRC-32[]", KBytes)])%string.
(** What the parser takes an element for, by the identifiers of the elements it is in and its own *)
Fixpoint taken (c : Z) (path : list Z) : option (str * content) :=
  match path with [] => None | [id] => Some (entry c id) | id :: path => match snd (entry c id) with Sub c => taken c path | _ => None end end.
Definition root_of (path : list Z) : Z := match path with id :: _ => if id =? seg then 43 else 0 | [] => 0 end.
Theorem C71_identifiers : Forall (fun e => match e with (path, name, k) => taken (root_of path) path = Some (lit name, Leaf k) end) matroska.
Proof. repeat apply Forall_cons; try apply Forall_nil; vm_compute; reflexivity. Qed.
Print Assumptions C71_identifiers.
(** Tags inside tags, chapters inside chapters and the flag of default languages (0x4484) are in the format and are shown as unknown elements (mkv.py: their tables lack them). *)
Theorem C71_missing_refuted : taken 43 [seg; 0x1254C367; 0x7373; 0x67C8; 0x67C8] = Some (lit "Unknown[]", Leaf KBytes) /\ taken 43 [seg; 0x1043A770; 0x45B9; 0xB6; 0xB6] = Some (lit "Unknown[]", Leaf KBytes) /\
  taken 43 [seg; 0x1254C367; 0x7373; 0x67C8; 0x4484] = Some (lit "Unknown[]", Leaf KBytes).
Proof. vm_compute. repeat split; reflexivity. Qed.
Print Assumptions C71_missing_refuted.

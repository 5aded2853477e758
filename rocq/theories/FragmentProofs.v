From Verif Require Import Base BaseProofs ToolsProofs StreamModel StreamSpec FragmentModel FragmentSpec.
Ltac Zify.zify_post_hook ::= Z.div_mod_to_equations.

(** ** File view *)
Section View.
Context (read : read_fun) (data : list Z) (Hserves : serves read data) (Hne : 0 < zlen data).
Definition vpos (f : fview) : Z := fv_offset f + (if fv_from_end f then zlen data else 0).
Lemma tell_pos f : snd (fview_tell (zlen data) f) = vpos f /\ fv_from_end (fst (fview_tell (zlen data) f)) = false /\
  fv_offset (fst (fview_tell (zlen data) f)) = vpos f.
Proof. unfold fview_tell, vpos. destruct f as [o [|]]; cbn; rewrite ?Z.add_0_r; auto. Qed.
Lemma view_step f op : 0 <= vpos f -> (match op with VRead (Some n) => 0 <= n | _ => True end) ->
  vpos (fst (fview_step read (zlen data) f op)) = fst (pyfile_step data (vpos f) op) /\
  snd (fview_step read (zlen data) f op) = snd (pyfile_step data (vpos f) op).
Proof.
  intros Hp Hop. destruct op as [p w| |n]; cbn [fview_step pyfile_step].
  - unfold fview_seek. destruct (w =? 0) eqn:E0; [cbn [fst snd]; unfold vpos; cbn [fv_offset fv_from_end]; split; [lia|reflexivity]|]. destruct (w =? 1) eqn:E1.
    { cbn [fst snd vpos fv_offset fv_from_end]. unfold vpos. cbn [fv_offset fv_from_end]. split; [lia|reflexivity]. }
    destruct (w =? 2); cbn [fst snd]; unfold vpos; cbn [fv_offset fv_from_end]; split; try lia; reflexivity.
  - destruct (tell_pos f) as (H1 & H2 & H3). destruct (fview_tell (zlen data) f) as [f' p']. cbn [fst snd] in *.
    unfold vpos at 1. rewrite H2, H3. subst p'. split; [lia|reflexivity].
  - unfold fview_read. destruct (tell_pos f) as (H1 & H2 & H3). destruct (fview_tell (zlen data) f) as [f' p'].
    cbn [fst snd] in H1, H2, H3. subst p'. set (P := vpos f) in *.
    set (k := match n with None => zlen data - P | Some m => if zlen data <? P + m then zlen data - P else m end).
    assert (Hspec : pyfile_step data P (VRead n) = (P + zlen (sub data P (Z.max 0 k)), VData (sub data P (Z.max 0 k)))).
    { destruct n as [m|]; cbn [pyfile_step]; unfold k.
      - assert (Hs : sub data P m = sub data P (Z.max 0 (if zlen data <? P + m then zlen data - P else m))).
        { destruct (zlen data <? P + m) eqn:E; [|f_equal; lia]. destruct (Z_le_gt_dec (zlen data) P).
          - rewrite !sub_past by lia. reflexivity.
          - rewrite Z.max_r by lia. apply sub_clamp; lia. }
        rewrite <- Hs. reflexivity.
      - assert (Hs : skipn (Z.to_nat P) data = sub data P (Z.max 0 (zlen data - P))).
        { unfold sub. rewrite firstn_all2; [reflexivity|]. rewrite skipn_length. unfold zlen. lia. }
        rewrite <- Hs. f_equal. unfold zlen in *. rewrite skipn_length. clear - Hp. lia. }
    cbn [pyfile_step] in Hspec. rewrite Hspec. cbn [fst snd]. clear Hspec. clearbody P. destruct (k <=? 0) eqn:Ek.
    + replace (Z.max 0 k) with 0 by lia. rewrite sub_0. cbn [fst snd]. unfold vpos. rewrite H2, H3. split; [unfold zlen; cbn [length]; lia|reflexivity].
    + replace (Z.max 0 k) with k by lia.
      assert (Hk : P + k <= zlen data) by (unfold k in *; destruct n as [m|]; [destruct (zlen data <? P + m) eqn:E|]; lia).
      rewrite Hserves by lia. replace ((8 * P) mod 8) with 0 by lia. replace (8 * P / 8) with P by lia.
      replace ((8 * k + 0 + 7) / 8) with k by lia. cbn [fst snd Z.eqb negb]. unfold vpos. cbn [fv_offset fv_from_end].
      rewrite H2, H3. split; [lia|reflexivity].
Qed.
Lemma view_run ops : forall f, 0 <= vpos f -> pyfile_ok data (vpos f) ops ->
  snd (fview_run read (zlen data) f ops) = snd (pyfile_run data (vpos f) ops).
Proof.
  induction ops as [|op ops IH]; intros f Hp Hok; cbn [fview_run pyfile_run]; [reflexivity|].
  destruct Hok as (Hop & Hp1 & Hok). destruct (view_step f op Hp Hop) as [H1 H2].
  destruct (fview_step read (zlen data) f op) as [f1 r1]. destruct (pyfile_step data (vpos f) op) as [p1 r1'].
  cbn [fst snd] in *. subst p1 r1'. specialize (IH f1 Hp1 Hok).
  destruct (fview_run read (zlen data) f1 ops), (pyfile_run data (vpos f1) ops). cbn [snd] in *. congruence.
Qed.
End View.

(** ** Fragmented streams *)
Fixpoint with_bases (b : Z) (D : list frag) : list (Z * Z * Z) :=
  match D with [] => [] | (fa, fs) :: D' => (b, fa, fs) :: with_bases (b + fs) D' end.
Fixpoint sumsz (D : list frag) : Z := match D with [] => 0 | (_, fs) :: D' => fs + sumsz D' end.
Lemma with_bases_app b D1 D2 : with_bases b (D1 ++ D2) = with_bases b D1 ++ with_bases (b + sumsz D1) D2.
Proof.
  revert b; induction D1 as [|[fa fs] D1 IH]; intros b; cbn [app with_bases sumsz]; [rewrite Z.add_0_r; reflexivity|].
  rewrite IH, Z.add_assoc. reflexivity.
Qed.
Lemma with_bases_length b D : length (with_bases b D) = length D.
Proof. revert b; induction D as [|[fa fs] D IH]; intros b; cbn; [reflexivity|]. rewrite IH. reflexivity. Qed.
Lemma sumsz_app D1 D2 : sumsz (D1 ++ D2) = sumsz D1 + sumsz D2.
Proof. induction D1 as [|[fa fs] D1 IH]; cbn [app sumsz]; [reflexivity|]. rewrite IH. lia. Qed.

Lemma py_nth_of {A} (l : list A) i x : 0 <= i -> nth_error l (Z.to_nat i) = Some x -> py_nth l i = Ok x.
Proof.
  intros Hi Hx. assert (Z.to_nat i < length l)%nat by (apply nth_error_Some; congruence).
  unfold py_nth. replace (i <? 0) with false by lia. unfold zlen.
  replace ((0 <=? i) && (i <? Z.of_nat (length l))) with true by lia. rewrite Hx. reflexivity.
Qed.
Lemma rev_case {A} (l : list A) : l = [] \/ exists l0 x, l = l0 ++ [x].
Proof. induction l using rev_ind; [left; reflexivity|right; eauto]. Qed.
Section Frag.
Context (pread : read_fun) (pdata : list Z) (Hserves : serves pread pdata).
Let psize := 8 * zlen pdata.
Definition fok (f : frag) : Prop := frag_ok (Some f).
Definition inb (f : frag) : Prop := fst f + snd f <= psize.
Notation content D := (chain_content pdata (map Some D)).

Lemma skipn_sub (fa fs d : Z) : 0 <= fa -> 0 <= d -> fa mod 8 = 0 -> fs mod 8 = 0 ->
  skipn (Z.to_nat (d / 8)) (sub pdata (fa / 8) (fs / 8)) = sub pdata ((fa + d) / 8) ((fs - d + d mod 8) / 8).
Proof.
  intros Ha Hd Hm1 Hm2. unfold sub. rewrite firstn_skipn_comm'.
  rewrite <- firstn_skipn_comm'.
  replace (Z.to_nat ((fa + d) / 8)) with (Z.to_nat (fa / 8) + Z.to_nat (d / 8))%nat by lia.
  rewrite <- skipn_skipn'. set (l := skipn (Z.to_nat (fa / 8)) pdata).
  replace (Z.to_nat ((fs - d + d mod 8) / 8)) with (Z.to_nat (fs / 8) - Z.to_nat (d / 8))%nat by lia.
  rewrite skipn_firstn_comm. reflexivity.
Qed.

Lemma dsize_inb f : fok f -> inb f -> 8 * zlen (sub pdata (fst f / 8) (snd f / 8)) = snd f.
Proof. destruct f as [fa fs]. unfold fok, frag_ok, inb, psize; cbn [fst snd]. intros H Hi. rewrite zlen_sub_exact; lia. Qed.
Lemma dsize fa fs : fok (fa, fs) -> 8 * zlen (sub pdata (fa / 8) (fs / 8)) = Z.min fs (Z.max 0 (psize - fa)).
Proof.
  unfold fok, frag_ok, psize. intros H. unfold sub, zlen. rewrite firstn_length, skipn_length. lia.
Qed.
Lemma content_app_inb D1 t : Forall inb D1 ->
  chain_content pdata (map Some D1 ++ t) = content D1 ++ chain_content pdata t.
Proof.
  induction D1 as [|[fa fs] D1 IH]; intros H; [reflexivity|]. inversion H as [|? ? Hi Hr]; subst.
  cbn [map app chain_content]. unfold inb in Hi. cbn [fst snd] in Hi. fold psize.
  replace (fa + fs <=? psize) with true by lia. rewrite IH by assumption. apply app_assoc.
Qed.
Lemma content_inb_size D : Forall fok D -> Forall inb D -> 8 * zlen (content D) = sumsz D.
Proof.
  induction D as [|[fa fs] D IH]; intros Ho Hi; [reflexivity|]. inversion Ho; inversion Hi; subst.
  cbn [map chain_content sumsz]. unfold inb in *. cbn [fst snd] in *. fold psize.
  replace (fa + fs <=? psize) with true by lia. rewrite zlen_app.
  pose proof (dsize_inb (fa, fs) ltac:(assumption) ltac:(assumption)) as Hd. cbn [fst snd] in Hd. rewrite <- IH by assumption. lia.
Qed.
Lemma content_app_prefix D t : exists x, chain_content pdata (map Some D ++ t) = content D ++ x.
Proof.
  induction D as [|[fa fs] D [x IH]]; [eexists; reflexivity|]. cbn [map app chain_content]. fold psize.
  destruct (fa + fs <=? psize); [|exists []; rewrite !app_nil_r; reflexivity].
  exists x. rewrite IH. apply app_assoc.
Qed.

(** *** The reading loop *)
Lemma read_loop_spec frags : forall fuel T i fa fs size s d b,
  0 <= fa -> 0 < fs -> (fs + fa mod 8) mod 8 = 0 -> Forall fok T -> 0 <= i ->
  skipn (Z.to_nat i) frags = with_bases b T ->
  (s <> None -> fa mod 8 = 0) -> 1 <= size ->
  let C := sub pdata (fa / 8) ((fs + fa mod 8) / 8) ++ (if fa + fs <=? psize then content T else []) in
  size + fa mod 8 <= 8 * zlen C -> (length T < fuel)%nat ->
  fs_read_loop fuel pread frags i fa fs size s d =
  Ok (match s with None => fa mod 8 | Some s => s end, d ++ sub C 0 ((size + fa mod 8 + 7) / 8)).
Proof.
  induction fuel as [|fuel IH]; intros T i fa fs size s d b Hfa Hfs Hal HT Hi Hsk Hs Hsize C HC Hfuel; [lia|].
  cbn [fs_read_loop]. unfold C in *. clear C. rewrite zlen_app in HC.
  set (h := sub pdata (fa / 8) ((fs + fa mod 8) / 8)) in *.
  assert (Hh : zlen h = Z.min ((fs + fa mod 8) / 8) (Z.max 0 (zlen pdata - fa / 8))).
  { unfold h, sub, zlen. rewrite firstn_length, skipn_length. lia. }
  assert (Hsm : forall u, match s with None => Ok u | Some s0 => do _ <- assert_ (u =? 0); Ok s0 end =
                          match s with None => Ok u | Some s0 => if u =? 0 then Ok s0 else Err AssertionError end).
  { intros u. destruct s; [|reflexivity]. destruct (u =? 0); reflexivity. }
  assert (Hss : match s with None => Ok (fa mod 8) | Some s0 => do _ <- assert_ (fa mod 8 =? 0); Ok s0 end =
                Ok (match s with None => fa mod 8 | Some s0 => s0 end)).
  { destruct s; [|reflexivity]. rewrite Hs by discriminate. reflexivity. }
  destruct (Z_le_gt_dec size fs) as [Hle|Hgt].
  - rewrite Z.min_r by lia.
    assert (Hin : fa + size <= 8 * zlen pdata).
    { destruct (fa + fs <=? psize) eqn:E; unfold psize in *; [lia|]. rewrite zlen_nil in HC. lia. }
    rewrite Hserves by lia. cbn [bind assert_ negb]. rewrite Hss. cbn [bind].
    rewrite Z.sub_diag. cbn [Z.eqb]. f_equal. f_equal. f_equal.
    rewrite sub_app_l by lia. unfold h. rewrite sub_sub by lia. rewrite Z.add_0_r. reflexivity.
  - rewrite Z.min_l by lia.
    assert (Hin : fa + fs <= psize).
    { destruct (Z_le_gt_dec (fa + fs) psize); [assumption|]. replace (fa + fs <=? psize) with false in HC by lia. rewrite zlen_nil in HC. lia. }
    replace (fa + fs <=? psize) with true in * by lia. unfold psize in Hin.
    rewrite Hserves by lia. cbn [bind assert_ negb]. rewrite Hss. cbn [bind].
    replace (size - fs =? 0) with false by lia.
    assert (Hhz : zlen h = (fs + fa mod 8) / 8) by lia.
    assert (Hhz8 : 8 * zlen h = fs + fa mod 8) by lia.
    destruct T as [|[fa2 fs2] T].
    { cbn [map chain_content] in HC. rewrite zlen_nil in HC. lia. }
    cbn [with_bases] in Hsk.
    assert (Hnth : nth_error frags (Z.to_nat i) = Some (b, fa2, fs2)).
    { rewrite <- (firstn_skipn (Z.to_nat i) frags), Hsk.
      assert (Hl : length (firstn (Z.to_nat i) frags) = Z.to_nat i).
      { rewrite firstn_length. assert (length (skipn (Z.to_nat i) frags) <> 0)%nat by (rewrite Hsk; discriminate).
        rewrite skipn_length in H. lia. }
      rewrite nth_error_app2 by lia. rewrite Hl, Nat.sub_diag. reflexivity. }
    rewrite (py_nth_of _ _ _ Hi Hnth). cbn [bind].
    inversion HT as [|? ? Hf2 HT']; subst. pose proof Hf2 as Hf2'. unfold fok, frag_ok in Hf2'. destruct Hf2' as (G1 & G2 & G3 & G4).
    pose proof (IH T (i + 1) fa2 fs2 (size - fs) (Some (match s with None => fa mod 8 | Some s0 => s0 end))
                (d ++ sub pdata (fa / 8) ((fs + fa mod 8 + 7) / 8)) (b + fs2)) as IH'.
    rewrite G3 in IH'. rewrite !Z.add_0_r in IH'.
    assert (Hct : content ((fa2, fs2) :: T) = sub pdata (fa2 / 8) (fs2 / 8) ++ (if fa2 + fs2 <=? psize then content T else [])) by reflexivity.
    rewrite <- Hct in IH'. rewrite IH'; clear IH'; try lia; try assumption; try discriminate.
    + cbn [bind]. f_equal. f_equal. rewrite <- app_assoc. f_equal.
      rewrite (sub_app_mid h) by lia. f_equal.
      * replace ((fs + fa mod 8 + 7) / 8) with ((fs + fa mod 8) / 8) by lia.
        rewrite Z.sub_0_r. rewrite sub_all. reflexivity.
      * f_equal. lia.
    + replace (Z.to_nat (i + 1)) with (Z.to_nat i + 1)%nat by lia. rewrite <- skipn_skipn', Hsk. reflexivity.
    + cbn [length] in Hfuel. lia.
Qed.

(** *** Discovering fragments *)
Context (chain : list (option frag)) (Hchain : Forall frag_ok chain).
Let total := 8 * zlen (chain_content pdata chain).
Context (Htotal : 0 < total).

Record finv (st : fstream) (D0 : list frag) (l : frag) (tail : list (option frag)) : Prop := {
  fi_frags : fs_frags st = with_bases 0 (D0 ++ [l]);
  fi_chain : chain = map Some (D0 ++ [l]) ++ tail;
  fi_inb : Forall inb D0;
  fi_open : fs_size st = None -> tail = fs_next st /\ sumsz D0 <= fs_current st;
  fi_closed : forall z, fs_size st = Some z -> z = fs_current st /\ fs_current st = total;
  fi_cur : 0 <= fs_current st <= 8 * zlen (content (D0 ++ [l]))
}.
Definition FInv st := exists D0 l tail, finv st D0 l tail.

Lemma chain_fok D t : chain = map Some D ++ t -> Forall fok D.
Proof.
  intros H. rewrite H in Hchain. apply Forall_app in Hchain. destruct Hchain as [Hc _].
  clear - Hc. induction D as [|f D IH]; [constructor|]. inversion Hc; subst. constructor; [assumption|auto].
Qed.
Lemma content_snoc D0 fa fs t : Forall inb D0 ->
  chain_content pdata (map Some (D0 ++ [(fa, fs)]) ++ t) =
  content D0 ++ sub pdata (fa / 8) (fs / 8) ++ (if fa + fs <=? psize then chain_content pdata t else []).
Proof.
  intros H. rewrite map_app, <- app_assoc. rewrite content_app_inb by assumption. reflexivity.
Qed.
Lemma content_snoc0 D0 fa fs : Forall inb D0 -> content (D0 ++ [(fa, fs)]) = content D0 ++ sub pdata (fa / 8) (fs / 8).
Proof.
  intros H. pose proof (content_snoc D0 fa fs [] H) as Hc. rewrite app_nil_r in Hc. rewrite Hc.
  f_equal. destruct (fa + fs <=? psize); apply app_nil_r.
Qed.
Lemma setSize_ok st : fs_size st = None -> 0 < fs_current st ->
  fs_setSize st = Ok {| fs_frags := fs_frags st; fs_next := fs_next st; fs_current := fs_current st; fs_size := Some (fs_current st) |}.
Proof.
  intros H Hc. unfold fs_setSize. rewrite H. cbn [assert_ bind]. replace (fs_current st =? 0) with false by lia. reflexivity.
Qed.

Lemma feed_loop_spec end_ : forall fuel st D0 fa fs,
  fs_frags st = with_bases 0 (D0 ++ [(fa, fs)]) -> chain = map Some (D0 ++ [(fa, fs)]) ++ fs_next st ->
  Forall inb D0 -> fs_size st = None -> sumsz D0 < end_ -> (length (fs_next st) < fuel)%nat ->
  exists st' m, fs_feed_loop fuel psize end_ st (sumsz D0) fa fs = Ok (st', m) /\ FInv st' /\
    (m = false -> end_ <= fs_current st') /\
    (m = true -> total < end_ /\ fs_size st' = Some total).
Proof.
  induction fuel as [|fuel IH]; intros st D0 fa fs Hfr Hch Hin Hsz Hend Hfuel; [lia|].
  cbn [fs_feed_loop].
  assert (Hfok : Forall fok (D0 ++ [(fa, fs)])) by (eapply chain_fok; eassumption).
  apply Forall_app in Hfok. destruct Hfok as [HfD Hfl]. inversion Hfl as [|? ? Hf _]; subst. clear Hfl.
  pose proof (content_inb_size D0 HfD Hin) as Hsum. pose proof (dsize fa fs Hf) as Hds.
  assert (Htot : total = sumsz D0 + 8 * zlen (sub pdata (fa / 8) (fs / 8)) +
                         (if fa + fs <=? psize then 8 * zlen (chain_content pdata (fs_next st)) else 0)).
  { unfold total. rewrite Hch, content_snoc by assumption. rewrite !zlen_app. destruct (fa + fs <=? psize); rewrite ?(@zlen_nil Z); lia. }
  assert (Hc0 : 8 * zlen (content (D0 ++ [(fa, fs)])) = sumsz D0 + 8 * zlen (sub pdata (fa / 8) (fs / 8))).
  { rewrite content_snoc0 by assumption. rewrite zlen_app. lia. }
  assert (Hs0 : 0 <= sumsz D0) by (pose proof (zlen_nonneg (content D0)); lia).
  assert (Hf' : 0 <= fa /\ 0 < fs /\ fa mod 8 = 0 /\ fs mod 8 = 0) by exact Hf.
  set (a := sumsz D0) in *.
  destruct (fa + Z.min fs (end_ - a) <=? psize) eqn:Ecov.
  - destruct (end_ <=? a + fs) eqn:Ege.
    + (* the request ends in this fragment *)
      set (st1 := {| fs_frags := fs_frags st; fs_next := fs_next st; fs_current := end_; fs_size := fs_size st |}).
      assert (Hinv1 : finv st1 D0 (fa, fs) (fs_next st)).
      { constructor; cbn [st1 fs_frags fs_next fs_current fs_size]; try assumption; try congruence; try lia.
        intros _. split; [reflexivity|]. fold a. lia. }
      destruct ((a + fs =? end_) && (match fs_next st1 with [] => true | _ => false end)) eqn:Elast.
      * cbn [st1 fs_next] in Elast. destruct (fs_next st) as [|] eqn:En; [|rewrite andb_false_r in Elast; discriminate].
        rewrite andb_true_r in Elast.
        assert (Ht : total = end_).
        { rewrite Htot. replace (fa + fs <=? psize) with true by lia. cbn [chain_content]. change (zlen (@nil Z)) with 0. lia. }
        rewrite setSize_ok; [|assumption|cbn [st1 fs_current]; lia]. cbn [bind].
        eexists _, false. split; [reflexivity|]. split; [|cbn; split; [lia|discriminate]].
        exists D0, (fa, fs), []. destruct Hinv1. constructor; cbn [st1 fs_frags fs_next fs_current fs_size] in *; try assumption; try congruence.
        -- intros z Hz. injection Hz as <-. split; [reflexivity|lia].
      * eexists st1, false. split; [reflexivity|]. split; [exists D0, (fa, fs), (fs_next st); assumption|].
        cbn; split; [lia|discriminate].
    + (* go on with the next fragment *)
      assert (Hinf : fa + fs <= psize) by lia.
      assert (Hds' : 8 * zlen (sub pdata (fa / 8) (fs / 8)) = fs) by lia.
      replace (fa + fs <=? psize) with true in Htot by lia.
      assert (Hover : forall next, chain_content pdata (fs_next st) = [] ->
        exists st' m, (do st' <- fs_setSize {| fs_frags := fs_frags st; fs_next := next; fs_current := a + fs; fs_size := fs_size st |};
           Ok (st', true)) = Ok (st', m) /\ FInv st' /\ (m = false -> end_ <= fs_current st') /\
           (m = true -> total < end_ /\ fs_size st' = Some total)).
      { intros next Hnil. rewrite Hnil, (@zlen_nil Z) in Htot. rewrite setSize_ok; [|assumption|cbn [fs_current]; lia]. cbn [bind].
        eexists _, true. split; [reflexivity|]. cbn [fs_frags fs_next fs_current fs_size]. split; [|split; [discriminate|]].
        - exists D0, (fa, fs), (fs_next st). constructor; cbn [fs_frags fs_next fs_current fs_size]; try assumption; try congruence; try lia.
          intros z Hz. injection Hz as <-. split; [reflexivity|lia].
        - intros _. split; [lia|f_equal; lia]. }
      destruct (fs_next st) as [|[[fa2 fs2]|] next] eqn:En.
      * apply Hover. reflexivity.
      * destruct (IH {| fs_frags := fs_frags st ++ [(a + fs, fa2, fs2)]; fs_next := next; fs_current := fs_current st; fs_size := fs_size st |}
                     (D0 ++ [(fa, fs)]) fa2 fs2) as (st' & m & E & HR); cbn [fs_frags fs_next fs_current fs_size].
        -- rewrite Hfr. rewrite (with_bases_app 0 (D0 ++ [(fa, fs)])). rewrite sumsz_app. cbn [sumsz with_bases]. fold a. replace (0 + (a + (fs + 0))) with (a + fs) by lia. reflexivity.
        -- rewrite Hch. rewrite (map_app Some (D0 ++ [(fa, fs)])). rewrite <- app_assoc. reflexivity.
        -- apply Forall_app. split; [assumption|]. constructor; [assumption|constructor].
        -- assumption.
        -- rewrite sumsz_app. cbn [sumsz]. fold a. lia.
        -- cbn [length] in Hfuel. lia.
        -- exists st', m. split; [|assumption]. rewrite <- E. rewrite sumsz_app. cbn [sumsz]. fold a. f_equal. lia.
      * apply Hover. reflexivity.
  - (* this fragment is cut by the end of the parent *)
    assert (Hcut : psize < fa + fs) by lia. replace (fa + fs <=? psize) with false in Htot by lia.
    assert (Ht : total = a + Z.max 0 (psize - fa)) by lia.
    rewrite setSize_ok; [|assumption|cbn [fs_current]; lia]. cbn [bind].
    eexists _, true. split; [reflexivity|]. cbn [fs_frags fs_next fs_current fs_size]. split; [|split; [discriminate|]].
    + exists D0, (fa, fs), (fs_next st). constructor; cbn [fs_frags fs_next fs_current fs_size]; try assumption; try congruence; try lia.
      intros z Hz. injection Hz as <-. split; [reflexivity|lia].
    + intros _. split; [lia|f_equal; lia].
Qed.

Lemma feed_spec st end_ : FInv st ->
  match fs_feed psize st end_ with
  | Ok (st', m) => FInv st' /\ (m = false -> end_ <= fs_current st') /\
                   (m = true -> total < end_ /\ fs_size st' = Some total)
  | Err e => e = ReadStreamError /\ total < end_
  end.
Proof.
  intros (D0 & [fa fs] & tail & Hinv). pose proof Hinv as [Hfr Hch Hin Hop Hcl Hcur].
  unfold fs_feed. destruct (fs_current st <? end_) eqn:E.
  - destruct (fs_size st) as [z|] eqn:Ez.
    + destruct (Hcl z eq_refl) as [-> Hc]. rewrite Z.eqb_refl. split; [reflexivity|lia].
    + destruct (Hop eq_refl) as [-> Hle].
      assert (Hlast : py_nth (fs_frags st) (-1) = Ok (sumsz D0, fa, fs)).
      { rewrite Hfr, with_bases_app. cbn [with_bases]. rewrite Z.add_0_l. unfold py_nth.
        replace (-1 <? 0) with true by lia. rewrite zlen_app. change (zlen [(sumsz D0, fa, fs)]) with 1.
        pose proof (zlen_nonneg (with_bases 0 D0)).
        replace ((0 <=? -1 + (zlen (with_bases 0 D0) + 1)) && (-1 + (zlen (with_bases 0 D0) + 1) <? zlen (with_bases 0 D0) + 1)) with true by lia.
        rewrite nth_error_app2 by (unfold zlen in *; lia).
        replace (Z.to_nat (-1 + (zlen (with_bases 0 D0) + 1)) - length (with_bases 0 D0))%nat with O by (unfold zlen in *; lia). reflexivity. }
      rewrite Hlast. cbn [bind].
      destruct (feed_loop_spec end_ (S (length (fs_next st))) st D0 fa fs Hfr Hch Hin Ez ltac:(lia) ltac:(lia)) as (st' & m & -> & HR).
      exact HR.
  - split; [exists D0, (fa, fs), tail; assumption|]. split; [lia|discriminate].
Qed.

(** *** Reading *)
Lemma nth_with_bases D : forall b i x, nth_error (with_bases b D) i = Some x ->
  exists P f T, D = P ++ f :: T /\ length P = i /\ x = (b + sumsz P, fst f, snd f).
Proof.
  induction D as [|[fa fs] D IH]; intros b i x H; [destruct i; discriminate|].
  destruct i as [|i]; cbn [with_bases nth_error] in H.
  - injection H as <-. exists [], (fa, fs), D. cbn [sumsz length app fst snd]. rewrite Z.add_0_r. auto.
  - apply IH in H. destruct H as (P & f & T & -> & Hl & ->). exists ((fa, fs) :: P), f, T.
    cbn [app length sumsz]. split; [reflexivity|]. split; [lia|]. f_equal. f_equal. lia.
Qed.
Lemma sumsz_nonneg D : Forall fok D -> 0 <= sumsz D.
Proof.
  induction D as [|[fa fs] D IH]; intros H; [cbn; lia|]. inversion H; subst. cbn [sumsz].
  assert (0 <= fa /\ 0 < fs /\ fa mod 8 = 0 /\ fs mod 8 = 0) by assumption. specialize (IH ltac:(assumption)). lia.
Qed.
Lemma bases_closed D b addr : Forall fok D -> downward_closed (with_bases b D) (fun x => fst (fst x) <=? addr).
Proof.
  intros HD i j x y Hij Hx Hy Hp.
  destruct (nth_with_bases _ _ _ _ Hx) as (P & f & T & HP & HPl & ->).
  destruct (nth_with_bases _ _ _ _ Hy) as (Q & g & U & HQ & HQl & ->). cbn [fst snd] in *.
  assert (HPQ : exists R, Q = P ++ R).
  { exists (skipn (length P) Q). assert (P = firstn (length P) Q).
    { assert (He : firstn (length P) D = P) by (rewrite HP, firstn_app, Nat.sub_diag, firstn_all; cbn; apply app_nil_r).
      rewrite HQ in He. rewrite firstn_app in He. replace (length P - length Q)%nat with O in He by lia. cbn [firstn] in He.
      rewrite app_nil_r in He. congruence. }
    rewrite <- (firstn_skipn (length P) Q) at 1. congruence. }
  destruct HPQ as (R & ->). rewrite sumsz_app in Hp.
  assert (HR : Forall fok R) by (rewrite HQ in HD; apply Forall_app in HD; destruct HD as [HD _]; apply Forall_app in HD; tauto).
  pose proof (sumsz_nonneg R HR). lia.
Qed.

Lemma read_inside st D0 l tail address size :
  finv st D0 l tail -> 0 <= address -> 1 <= size -> address + size <= 8 * zlen (content (D0 ++ [l])) ->
  (do i <- lowerBound (fs_frags st) (fun x => fst (fst x) <=? address);
   do f <- py_nth (fs_frags st) (i - 1);
   let '(a, fa, fs) := f in
   let a := a - address in
   let fa := fa - a in
   let fs := fs + a in
   fs_read_loop (S (length (fs_frags st))) pread (fs_frags st) i fa fs size None []) =
  Ok (address mod 8, sub (chain_content pdata chain) (address / 8) ((size + address mod 8 + 7) / 8)).
Proof.
  intros Hinv Ha Hs Hend. pose proof Hinv as [Hfr Hch Hin Hop Hcl Hcur].
  set (D := D0 ++ [l]) in *.
  assert (HD : Forall fok D) by (eapply chain_fok; eassumption).
  rewrite Hfr. destruct (lowerBound_spec _ _ (bases_closed D 0 address HD)) as (i & -> & Hi & Hlo & Hhi). cbn [bind].
  assert (Hz : zlen (with_bases 0 D) = zlen D) by (unfold zlen; rewrite with_bases_length; reflexivity).
  assert (Hi1 : 1 <= i).
  { destruct (Z_le_gt_dec 1 i); [assumption|]. exfalso. unfold D in *. destruct (D0 ++ [l]) as [|[f0 s0] r] eqn:ED; [destruct D0; discriminate|].
    specialize (Hhi O (0, f0, s0) eq_refl ltac:(lia)). cbn [fst] in Hhi. lia. }
  destruct (py_nth_ok (with_bases 0 D) (i - 1) ltac:(lia)) as (x & -> & Hx). cbn [bind].
  destruct (nth_with_bases _ _ _ _ Hx) as (P & [fa fs] & T & HP & HPl & ->). cbn [fst snd] in *.
  pose proof (Hlo _ _ Hx ltac:(lia)) as Hb. cbn [fst] in Hb. rewrite Z.add_0_l in *.
  assert (HfP : Forall fok P /\ fok (fa, fs) /\ Forall fok T).
  { rewrite HP in HD. apply Forall_app in HD. destruct HD as [H1 H2]. inversion H2; subst. auto. }
  destruct HfP as (HfP & Hf & HfT).
  assert (HinP : Forall inb P).
  { destruct (rev_case T) as [->|(T0 & t & ->)].
    - assert (P = D0) by (unfold D in HP; apply app_inj_tail in HP; destruct HP; congruence). subst P. assumption.
    - unfold D in HP. replace (P ++ (fa, fs) :: T0 ++ [t]) with ((P ++ (fa, fs) :: T0) ++ [t]) in HP by (rewrite <- app_assoc; reflexivity).
      apply app_inj_tail in HP. destruct HP as [HP _]. rewrite HP in Hin. apply Forall_app in Hin. tauto. }
  pose proof (content_inb_size P HfP HinP) as HsP.
  assert (Hf' : 0 <= fa /\ 0 < fs /\ fa mod 8 = 0 /\ fs mod 8 = 0) by exact Hf.
  set (b := sumsz P) in *. set (dl := address - b).
  assert (HcD : content D = content P ++ sub pdata (fa / 8) (fs / 8) ++ (if fa + fs <=? psize then content T else [])).
  { rewrite HP. rewrite map_app. rewrite content_app_inb by assumption. reflexivity. }
  assert (Hdlt : fa + fs <= psize -> dl < fs).
  { intros Hinf. destruct T as [|[fT sT] T'].
    - replace (fa + fs <=? psize) with true in HcD by lia. cbn [map chain_content] in HcD. rewrite HcD, !zlen_app, (@zlen_nil Z) in Hend.
      pose proof (dsize fa fs Hf). unfold dl. lia.
    - assert (Hn : nth_error (with_bases 0 D) (Z.to_nat i) = Some (b + fs, fT, sT)).
      { rewrite HP, with_bases_app. rewrite nth_error_app2 by (rewrite with_bases_length; lia). rewrite with_bases_length.
        replace (Z.to_nat i - length P)%nat with 1%nat by lia. cbn [with_bases nth_error]. reflexivity. }
      specialize (Hhi _ _ Hn ltac:(lia)). cbn [fst] in Hhi. unfold dl. lia. }
  assert (Hbm : b mod 8 = 0) by lia.
  set (rest := if fa + fs <=? psize then content T else []) in *.
  set (C := sub pdata ((fa + dl) / 8) ((fs - dl + (fa + dl) mod 8) / 8) ++ (if fa + dl + (fs - dl) <=? psize then content T else [])).
  assert (HC : C = skipn (Z.to_nat (address / 8)) (content D)).
  { unfold C. replace (fa + dl + (fs - dl)) with (fa + fs) by lia. fold rest.
    assert (HzP : zlen (content P) = b / 8) by lia.
    rewrite HcD, skipn_app. rewrite (skipn_all2 (content P)) by (unfold zlen in HzP; lia). cbn [app].
    replace (Z.to_nat (address / 8) - length (content P))%nat with (Z.to_nat (dl / 8)) by (unfold zlen in HzP; lia).
    rewrite skipn_app, skipn_sub by lia. replace ((fa + dl) mod 8) with (dl mod 8) by lia. f_equal.
    unfold rest. destruct (fa + fs <=? psize) eqn:E; [|rewrite skipn_nil; reflexivity].
    pose proof (dsize fa fs Hf) as Hds. specialize (Hdlt ltac:(lia)).
    replace (Z.to_nat (dl / 8) - length (sub pdata (fa / 8) (fs / 8)))%nat with O by (unfold zlen in Hds; lia). reflexivity. }
  assert (Hmod : address mod 8 = (fa + dl) mod 8) by (unfold dl; lia).
  assert (HzC : zlen C = zlen (content D) - address / 8) by (rewrite HC; unfold zlen in *; rewrite skipn_length; lia).
  assert (Hdl2 : dl < fs).
  { destruct (fa + fs <=? psize) eqn:E; [apply Hdlt; lia|].
    unfold rest in HcD. rewrite HcD, !zlen_app, (@zlen_nil Z) in Hend. pose proof (dsize fa fs Hf). unfold dl. lia. }
  replace (fa - (b - address)) with (fa + dl) by (unfold dl; lia).
  replace (fs + (b - address)) with (fs - dl) by (unfold dl; lia).
  rewrite (read_loop_spec (with_bases 0 D) (S (length (with_bases 0 D))) T i (fa + dl) (fs - dl) size None [] (b + fs)); try assumption; try lia.
  - cbn [app]. rewrite <- Hmod. f_equal. f_equal. fold C. 
    destruct (content_app_prefix D tail) as (y & Hy). rewrite <- Hch in Hy. rewrite Hy.
    rewrite (sub_app_l (content D) y) by lia. rewrite Hmod. fold C. rewrite <- Hmod. rewrite HC. unfold sub. cbn [Z.to_nat skipn]. reflexivity.
  - rewrite HP. rewrite with_bases_app. rewrite skipn_app. rewrite skipn_all2 by (rewrite with_bases_length; lia). rewrite with_bases_length.
    replace (Z.to_nat i - length P)%nat with 1%nat by lia. cbn [app with_bases skipn]. reflexivity.
  - congruence.
  - fold C. lia.
  - rewrite with_bases_length. rewrite HP, app_length. cbn [length]. lia.
Qed.

Lemma frag_read_step st address size : FInv st -> 0 <= address -> 1 <= size ->
  FInv (fst (fs_read pread psize st address size)) /\
  read_answer (chain_content pdata chain) address size (snd (fs_read pread psize st address size)).
Proof.
  intros Hinv Ha Hs. unfold fs_read. replace (negb (0 <? size)) with false by lia.
  pose proof (feed_spec st (address + size) Hinv) as Hfeed. unfold read_answer. fold total.
  destruct (fs_feed psize st (address + size)) as [[st1 m]|e].
  - destruct Hfeed as (Hinv1 & Hm0 & Hm1). cbn [fst snd]. split; [assumption|].
    destruct Hinv1 as (D0 & l & tail & Hf1). pose proof Hf1 as [Hfr Hch Hin Hop Hcl Hcur].
    destruct m.
    + destruct (Hm1 eq_refl) as [Hlt Hsz]. rewrite Hsz. replace (address + size <=? total) with false by lia. right.
      cbn [andb]. destruct (total - address <=? 0) eqn:E.
      * exists 0. repeat f_equal. symmetry. apply skipn_all2. unfold total, zlen in E. lia.
      * destruct (Hcl _ Hsz) as [_ Hct].
        pose proof (read_inside st1 D0 l tail address (total - address) Hf1 Ha ltac:(lia) ltac:(lia)) as Hr.
        exists (address mod 8).
        destruct (lowerBound (fs_frags st1) (fun x => fst (fst x) <=? address)) as [i|]; cbn [bind] in *; [|discriminate].
        destruct (py_nth (fs_frags st1) (i - 1)) as [[[a fa] fs]|]; cbn [bind] in *; [|discriminate].
        rewrite Hr. cbn [bind]. repeat f_equal.
        unfold sub. apply firstn_all2. rewrite skipn_length. unfold total, zlen in *. lia.
    + specialize (Hm0 eq_refl). cbn [andb].
      destruct (content_app_prefix (D0 ++ [l]) tail) as (y & Hy). rewrite <- Hch in Hy.
      assert (address + size <= total) by (unfold total; rewrite Hy, zlen_app; pose proof (zlen_nonneg y); lia).
      replace (address + size <=? total) with true by lia.
      pose proof (read_inside st1 D0 l tail address size Hf1 Ha Hs ltac:(lia)) as Hr.
      destruct (lowerBound (fs_frags st1) (fun x => fst (fst x) <=? address)) as [i|]; cbn [bind] in *; [|discriminate].
      destruct (py_nth (fs_frags st1) (i - 1)) as [[[a fa] fs]|]; cbn [bind] in *; [|discriminate].
      rewrite Hr. cbn [bind]. reflexivity.
  - destruct Hfeed as [-> Hlt]. cbn [fst snd]. split; [assumption|]. replace (address + size <=? total) with false by lia. left. reflexivity.
Qed.
Lemma frag_run reads : forall st, FInv st -> Forall (fun r => 0 <= fst r /\ 1 <= snd r) reads ->
  FInv (fst (fs_run pread psize st reads)) /\
  Forall2 (fun r ans => read_answer (chain_content pdata chain) (fst r) (snd r) ans) reads (snd (fs_run pread psize st reads)).
Proof.
  induction reads as [|[a n] reads IH]; intros st Hinv Hok; cbn [fs_run]; [split; [assumption|constructor]|].
  inversion Hok as [|? ? [Ha Hn] Hok']; subst. cbn [fst snd] in Ha, Hn.
  destruct (frag_read_step st a n Hinv Ha Hn) as [H1 H2].
  destruct (fs_read pread psize st a n) as [st1 r1]. cbn [fst snd] in *. destruct (IH st1 H1 Hok') as [H3 H4].
  destruct (fs_run pread psize st1 reads) as [st2 rs]. cbn [fst snd] in *. split; [assumption|]. constructor; assumption.
Qed.
Lemma frag_init f next : chain = Some f :: next -> (next = [] -> inb f) ->
  exists st, fs_init f next = Ok st /\ FInv st.
Proof.
  intros Hch Hn. destruct f as [fa fs]. unfold fs_init. cbn [fst snd].
  assert (Hf : fok (fa, fs)) by (rewrite Hch in Hchain; inversion Hchain; assumption).
  assert (Hf' : 0 <= fa /\ 0 < fs /\ fa mod 8 = 0 /\ fs mod 8 = 0) by exact Hf.
  destruct next as [|n nx] eqn:En.
  - specialize (Hn eq_refl). rewrite setSize_ok; [|reflexivity|cbn; lia]. cbn [fs_frags fs_next fs_current fs_size].
    eexists. split; [reflexivity|]. exists [], (fa, fs), [].
    assert (Ht : total = fs).
    { unfold total. rewrite Hch. cbn [chain_content]. pose proof (dsize_inb (fa, fs) Hf Hn) as Hd. cbn [fst snd] in Hd.
      rewrite zlen_app. destruct (fa + fs <=? _); rewrite (@zlen_nil Z); lia. }
    constructor; cbn [fs_frags fs_next fs_current fs_size app]; try (apply Forall_nil || reflexivity || assumption || congruence).
    + intros z Hz. injection Hz as <-. split; [reflexivity|lia].
    + split; [lia|]. pose proof (dsize_inb (fa, fs) Hf Hn) as Hd. cbn [fst snd] in Hd. cbn [map chain_content].
      rewrite zlen_app. destruct (fa + fs <=? _); rewrite (@zlen_nil Z); lia.
  - eexists. split; [reflexivity|]. exists [], (fa, fs), (n :: nx).
    constructor; cbn [fs_frags fs_next fs_current fs_size app]; try (apply Forall_nil || reflexivity || assumption || congruence).
    + intros _. split; [reflexivity|cbn; lia].
    + split; [lia|]. pose proof (zlen_nonneg (content [(fa, fs)])). lia.
Qed.
Lemma FInv_size st z : FInv st -> fs_size st = Some z -> z = total.
Proof. intros (D0 & l & t & H) Hz. destruct (fi_closed _ _ _ _ H z Hz). congruence. Qed.
End Frag.

Lemma fs_run_cons pread psize st a n reads :
  fst (fs_run pread psize st ((a, n) :: reads)) = fst (fs_run pread psize (fst (fs_read pread psize st a n)) reads).
Proof. cbn [fs_run]. destruct (fs_read pread psize st a n) as [s1 r1]. cbn [fst]. destruct (fs_run pread psize s1 reads). reflexivity. Qed.

Section FragMain.
Context (pread : read_fun) (pdata : list Z) (f : frag) (next : list (option frag))
  (Hserves : serves pread pdata) (Hok : Forall frag_ok (Some f :: next))
  (Hne : 0 < zlen (chain_content pdata (Some f :: next)))
  (Hone : next = [] -> fst f + snd f <= 8 * zlen pdata).
Notation content := (chain_content pdata (Some f :: next)).
Notation reads_ok := (Forall (fun r : Z * Z => 0 <= fst r /\ 1 <= snd r)).
Lemma Htot : 0 < 8 * zlen content.
Proof. lia. Qed.
Lemma frag_init0 : exists st, fs_init f next = Ok st /\ FInv pdata (Some f :: next) st.
Proof. exact (frag_init pdata (Some f :: next) Hok f next eq_refl Hone). Qed.
Lemma frag_reads st reads : fs_init f next = Ok st -> reads_ok reads ->
  Forall2 (fun r ans => read_answer content (fst r) (snd r) ans) reads (snd (fs_run pread (8 * zlen pdata) st reads)).
Proof.
  intros Hst Hr. destruct frag_init0 as (st' & E & Hinv). assert (st' = st) by congruence. subst st'.
  apply (frag_run pread pdata Hserves (Some f :: next) Hok Htot); assumption.
Qed.
Lemma frag_size reads : reads_ok reads ->
  exists st, fs_init f next = Ok st /\
    forall z, fs_size (fst (fs_run pread (8 * zlen pdata) st reads)) = Some z -> z = 8 * zlen content.
Proof.
  intros Hr. destruct frag_init0 as (st & E & Hinv). exists st. split; [assumption|]. intros z.
  apply FInv_size. apply (frag_run pread pdata Hserves (Some f :: next) Hok Htot); assumption.
Qed.
Lemma frag_size_step st a n : FInv pdata (Some f :: next) st -> 0 <= a -> 1 <= n ->
  (fs_size st <> None \/ 8 * zlen content < a + n) ->
  fs_size (fst (fs_read pread (8 * zlen pdata) st a n)) = Some (8 * zlen content).
Proof.
  intros Hinv Ha Hn Hor. pose proof (FInv_size pdata (Some f :: next) st) as Hsz.
  pose proof (feed_spec pdata (Some f :: next) Hok Htot st (a + n) Hinv) as Hf.
  unfold fs_read. replace (negb (0 <? n)) with false by lia.
  destruct (fs_size st) as [z|] eqn:Ez.
  - rewrite (Hsz z Hinv eq_refl) in Ez. unfold fs_feed in *.
    destruct Hinv as (D0 & l & t & Hi). destruct (fi_closed _ _ _ _ _ _ Hi _ Ez) as [E1 _].
    rewrite Ez in *. rewrite E1 in *. rewrite Z.eqb_refl in *.
    destruct (fs_current st <? a + n); cbn [fst]; congruence.
  - destruct Hor as [Hor|Hlt]; [congruence|].
    destruct (fs_feed (8 * zlen pdata) st (a + n)) as [[st1 m]|e] eqn:Ef; cbn [fst].
    + destruct Hf as (Hi1 & Hm0 & Hm1). destruct m; [apply Hm1; reflexivity|]. exfalso. specialize (Hm0 eq_refl).
      destruct Hi1 as (D0 & l & t & Hi). pose proof (fi_cur _ _ _ _ _ _ Hi) as Hc.
      destruct (content_app_prefix pdata (D0 ++ [l]) t) as (y & Hy). rewrite <- (fi_chain _ _ _ _ _ _ Hi) in Hy.
      rewrite Hy, zlen_app in Hlt. pose proof (zlen_nonneg y). lia.
    + exfalso. destruct Hf as [-> _]. destruct Hinv as (D0 & l & t & Hi). unfold fs_feed in Ef. rewrite Ez in Ef.
      destruct (fs_current st <? a + n) eqn:E; [|discriminate].
      pose proof (fi_open _ _ _ _ _ _ Hi Ez) as [Ht Hle]. destruct l as [fa fs].
      pose proof (feed_loop_spec pdata (Some f :: next) Hok Htot (a + n) (S (length (fs_next st))) st D0 fa fs) as HL.
      destruct HL as (st' & m & HL & _); [apply Hi| |apply Hi|assumption|lia|lia|].
      { rewrite <- Ht. apply Hi. }
      assert (Hlast : py_nth (fs_frags st) (-1) = Ok (sumsz D0, fa, fs)).
      { rewrite (fi_frags _ _ _ _ _ _ Hi), with_bases_app. cbn [with_bases]. rewrite Z.add_0_l. unfold py_nth.
        replace (-1 <? 0) with true by lia. rewrite zlen_app. change (zlen [(sumsz D0, fa, fs)]) with 1.
        pose proof (zlen_nonneg (with_bases 0 D0)).
        replace ((0 <=? -1 + (zlen (with_bases 0 D0) + 1)) && (-1 + (zlen (with_bases 0 D0) + 1) <? zlen (with_bases 0 D0) + 1)) with true by lia.
        rewrite nth_error_app2 by (unfold zlen in *; lia).
        replace (Z.to_nat (-1 + (zlen (with_bases 0 D0) + 1)) - length (with_bases 0 D0))%nat with O by (unfold zlen in *; lia). reflexivity. }
      rewrite Hlast in Ef. cbn [bind] in Ef. congruence.
Qed.
Lemma frag_end_run reads : forall st, FInv pdata (Some f :: next) st -> reads_ok reads ->
  (fs_size st <> None \/ exists a n, In (a, n) reads /\ 8 * zlen content < a + n) ->
  fs_size (fst (fs_run pread (8 * zlen pdata) st reads)) = Some (8 * zlen content).
Proof.
  induction reads as [|[a n] reads IH]; intros st Hinv Hr Hor.
  - destruct Hor as [Hs|(? & ? & [] & _)]. cbn [fs_run fst]. destruct (fs_size st) as [z|] eqn:E; [|congruence].
    f_equal. eapply FInv_size; eassumption.
  - inversion Hr as [|? ? [Ha Hn] Hr']; subst. cbn [fst snd] in Ha, Hn. rewrite fs_run_cons. apply IH; [|assumption|].
    + apply (frag_read_step pread pdata Hserves (Some f :: next) Hok Htot); assumption.
    + destruct Hor as [Hs|(a' & n' & [E|Hin] & Hlt)].
      * left. rewrite (frag_size_step st a n Hinv Ha Hn (or_introl Hs)). discriminate.
      * injection E as -> ->. left. rewrite (frag_size_step st a' n' Hinv Ha Hn (or_intror Hlt)). discriminate.
      * right. eauto.
Qed.
Lemma frag_end reads st a n : fs_init f next = Ok st -> reads_ok reads -> In (a, n) reads -> 8 * zlen content < a + n ->
  fs_size (fst (fs_run pread (8 * zlen pdata) st reads)) = Some (8 * zlen content).
Proof.
  intros Hst Hr Hin Hlt. destruct frag_init0 as (st' & E & Hinv). assert (st' = st) by congruence. subst st'.
  apply frag_end_run; try assumption. right. eauto.
Qed.
End FragMain.
Lemma file_view read data ops : serves read data -> 0 < zlen data -> pyfile_ok data 0 ops ->
  snd (fview_run read (zlen data) fview_init ops) = snd (pyfile_run data 0 ops).
Proof. intros H1 H2 H3. apply (view_run read data H1 ops fview_init); cbn; [lia|exact H3]. Qed.

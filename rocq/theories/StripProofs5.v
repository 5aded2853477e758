From Coq Require Import String.
From Verif Require Import Base BaseProofs BitsModel BitsSpec BitsProofs StreamModel StreamSpec StreamProofs DictModel DictProofs Lit OutputModel OutputProofs OutputProofs2
  EditModel EditSpec EditProofs EditProofs2 EditProofs3 EditProofs4 EditProofs5 EditProofs6 ValueProofs StripModel StripSpec StripProofs StripProofs2 StripProofs3 StripProofs4.
Open Scope Z_scope.
Ltac Zify.zify_post_hook ::= Z.div_mod_to_equations.

(** ** A bit set in the middle of a field set *)
Section OneBit.
Context (data : list Z) (Hd : is_bytes data) (input : read_fun) (Hs : serves input data).
Notation LE := LITTLE_ENDIAN.
Notation orig := (orig_bits LE data).

(** A field of whole bytes, or a small field of bits. *)
Definition easy (d : inode) : Prop :=
  bits_range data (i_addr d) (i_size d) /\
  (i_addr d mod 8 = 0 /\ i_size d mod 8 = 0 \/
   is_leaf d /\ 1 <= i_size d <= 256 /\ (i_addr d mod 8 <> 0 \/ i_size d mod 8 <> 0)).
(** Writing a view appends some bits. *)
Definition puts (v : view) (a : Z) (l : list bool) : Prop :=
  forall st, wf_out LE st -> bit_pos st = a mod 8 -> exists st', v_write v st = Ok st' /\ wf_out LE st' /\ obits LE st' = obits LE st ++ l /\ bit_pos st' = (a + zlen l) mod 8.

Lemma bits_pos st st' l a : wf_out LE st -> wf_out LE st' -> obits LE st' = obits LE st ++ l -> bit_pos st = a mod 8 -> bit_pos st' = (a + zlen l) mod 8.
Proof using.
  clear. intros W W' E P. pose proof (zlen_obits LE st W) as Z1. pose proof (zlen_obits LE st' W') as Z2. rewrite E, zlen_app in Z2. unfold total in *.
  assert (0 <= bit_pos st' < 8) by apply W'. pose proof (zlen_nonneg l). lia.
Qed.
Lemma wf_aligned st : wf_out LE st -> bit_pos st = 0 -> byte_aligned st.
Proof using. clear. intros (W1 & W2 & W3) E. rewrite E in W3. change (2 ^ 0) with 1 in W3. split; [assumption|]. split; [assumption|lia]. Qed.

Lemma fresh_puts p d : i_endian p = LE -> NoDup (map i_name (i_children p)) -> In d (i_children p) -> easy d ->
  puts (view_of input p (fresh d)) (i_addr d) (orig (i_addr d) (i_size d)).
Proof using Hd Hs.
  intros Ee ND Hin [R H] st W P.
  assert (C : exists st', v_write (view_of input p (fresh d)) st = Ok st' /\ bits_R LE st st' (orig (i_addr d) (i_size d))).
  { destruct H as [[H1 H2]|(H0 & H1 & H2)].
    - assert (Rb : bytes_range data (i_addr d) (i_size d)) by (destruct R as (? & ? & ?); unfold bytes_range; repeat split; lia).
      destruct (bytes_copy_total data Hd input Hs st (i_addr d) (i_size d) Rb (wf_aligned st W ltac:(lia))) as (st' & E & _).
      exists st'. split; [|exact (bits_copy_bytes LE ltac:(discriminate) data Hd input Hs st st' (i_addr d) (i_size d) R H2 E)].
      destruct d as [n k a s|n e a s l]; cbn [i_addr i_size] in *.
      + cbn [fresh view_of field_view v_write ef_altered]. unfold fake_write. cbn [ef_name].
        pose proof (find_child_in _ _ ND Hin) as C. cbn [i_name] in C. unfold child. rewrite C. cbn [i_addr].
        replace (field_size _) with s by (unfold field_size; cbn; destruct k; reflexivity). rewrite H1, H2. exact E.
      + cbn [fresh view_of set_view v_write map set_altered existsb]. unfold set_copy. cbn [i_size i_addr]. rewrite H2. exact E.
    - destruct d as [n k a s|]; [|contradiction]. cbn [i_addr i_size] in *.
      assert (W' : wf_out LE st) by assumption. pose proof R as (R1 & R2 & R3).
      destruct (copyBitsFrom_exact st input data a s LE Hs Hd ltac:(discriminate) W R1 ltac:(lia) R3 (or_introl (proj2 H1))) as (st' & E & X).
      exists st'. split; [|exact (bits_copy_bits LE ltac:(discriminate) data Hd input Hs st st' a s LE eq_refl R E)].
      cbn [fresh view_of field_view v_write ef_altered]. unfold fake_write. cbn [ef_name].
      pose proof (find_child_in _ _ ND Hin) as C. cbn [i_name] in C. unfold child. rewrite C. cbn [i_addr].
      replace (field_size _) with s by (unfold field_size; cbn; destruct k; reflexivity). rewrite Ee.
      replace (negb (s mod 8 =? 0) || negb (a mod 8 =? 0)) with true by lia. exact E. }
  destruct C as (st' & E & B). destruct (B W) as [W' O]. exists st'. split; [exact E|]. split; [exact W'|]. split; [exact O|].
  exact (bits_pos st st' _ _ W W' O P).
Qed.
Lemma orig_app a n m : 0 <= a -> 0 <= n -> 0 <= m -> orig a (n + m) = orig a n ++ orig (a + n) m.
Proof using. clear. intros. unfold orig_bits. apply sub_app_split; lia. Qed.
Lemma fresh_puts_all p : i_endian p = LE -> NoDup (map i_name (i_children p)) -> forall l a s, tiles a s l -> 0 <= a ->
  (forall d, In d l -> In d (i_children p) /\ easy d) ->
  0 <= s /\ sum_sizes (map (fun d => view_of input p (fresh d)) l) = s /\
  forall st, wf_out LE st -> bit_pos st = a mod 8 -> exists st', write_all (map (fun d => view_of input p (fresh d)) l) st = Ok st' /\ wf_out LE st' /\
    obits LE st' = obits LE st ++ orig a s /\ bit_pos st' = (a + s) mod 8.
Proof using Hd Hs.
  intros Ee ND. induction l as [|d l IH]; intros a s T Ha H.
  - cbn [tiles] in T. subst s. split; [lia|]. split; [reflexivity|]. intros st W P. exists st. cbn [map write_all]. unfold orig_bits. rewrite sub_0, app_nil_r, Z.add_0_r. auto.
  - cbn [tiles] in T. destruct T as [E T]. destruct (H d (or_introl eq_refl)) as [Hin Ez]. pose proof Ez as [(R1 & R2 & R3) _].
    destruct (IH _ _ T ltac:(lia) (fun x Hx => H x (or_intror Hx))) as (S1 & S2 & S3). split; [lia|]. split.
    + cbn [map]. unfold sum_sizes in *. cbn [fold_right]. rewrite S2. replace (v_size _) with (i_size d) by (destruct d as [n [] ? ?|]; reflexivity). lia.
    + intros st W P. cbn [map write_all]. rewrite <- E in P. destruct (fresh_puts p d Ee ND Hin Ez st W P) as (st1 & E1 & W1 & O1 & P1). rewrite E1. cbn [bind].
      rewrite zlen_orig in P1 by (unfold bits_range; lia). rewrite E in P1.
      destruct (S3 st1 W1 P1) as (st2 & E2 & W2 & O2 & P2). exists st2. split; [exact E2|]. split; [exact W2|]. split.
      * rewrite O2, O1, <- app_assoc. f_equal. rewrite E. replace s with (i_size d + (s - i_size d)) at 2 by lia. symmetry. apply orig_app; lia.
      * rewrite P2. f_equal. lia.
Qed.

(** Assigning a field of bits. *)
Lemma bit_edit_holds p c l1 l2 nm x n v b :
  i_endian c = LE -> (exists nn e a s l, c = ISet nn e a s l) -> i_children c = l1 ++ ILeaf nm KBits x n :: l2 -> NoDup (map i_name (i_children c)) ->
  bytes_range data (i_addr c) (i_size c) -> tiles (i_addr c) (i_size c) (i_children c) ->
  (forall d, In d l1 \/ In d l2 -> easy d) -> 0 <= n -> 0 <= v < 2 ^ n ->
  let f := EField {| ef_name := nm; ef_kind := KBits; ef_size := n; ef_value := Some (VInt v); ef_altered := true |} in
  is_bytes b -> ebits LE b = orig (i_addr c) (x - i_addr c) ++ spell LE n v ++ orig (x + n) (i_addr c + i_size c - (x + n)) ->
  holds data input p c (ESet c [(nm, f)] [] []) b.
Proof using Hd Hs.
  intros Ee IS Ec ND R T Hz Hn Hv f Hb Eb. pose proof R as (R1 & R2 & R3 & R4 & R5).
  assert (Ti : tiles (i_addr c) (x - i_addr c) l1 /\ tiles (x + n) (i_addr c + i_size c - (x + n)) l2).
  { rewrite Ec in T. clear - T. revert T. generalize (i_addr c) (i_size c). induction l1 as [|d l1 IH]; intros a s T; cbn [app tiles i_addr i_size] in T.
    - destruct T as [-> T]. cbn [tiles]. split; [lia|]. replace (a + s - (a + n)) with (s - n) by lia. exact T.
    - destruct T as [E T]. destruct (IH _ _ T) as [I1 I2]. cbn [tiles]. split; [split; [assumption|]|].
      + replace (x - a - i_size d) with (x - (a + i_size d)) by lia. exact I1.
      + replace (a + s - (x + n)) with (a + i_size d + (s - i_size d) - (x + n)) by lia. exact I2. }
  destruct Ti as [T1 T2].
  assert (N1 : forall d, In d l1 \/ In d l2 -> i_name d <> nm).
  { rewrite Ec, map_app in ND. cbn [map i_name] in ND. apply NoDup_remove_2 in ND. intros d H X. apply ND. apply in_or_app. rewrite <- X. destruct H; [left|right]; apply in_map; assumption. }
  assert (Hin : forall d, In d l1 \/ In d l2 -> In d (i_children c)).
  { intros d [H|H]; rewrite Ec; apply in_or_app; [left|right; right]; assumption. }
  destruct (fresh_puts_all c Ee ND l1 _ _ T1 R1 (fun d H => conj (Hin d (or_introl H)) (Hz d (or_introl H)))) as (A1 & A2 & A3).
  destruct (fresh_puts_all c Ee ND l2 _ _ T2 ltac:(lia) (fun d H => conj (Hin d (or_intror H)) (Hz d (or_intror H)))) as (B1 & B2 & B3).
  set (fvs := [(nm, view_of input c f)]).
  assert (ST : set_iter input c [] fvs [] = map (fun d => view_of input c (fresh d)) l1 ++ view_of input c f :: map (fun d => view_of input c (fresh d)) l2).
  { unfold set_iter. rewrite iterate_plain, Ec, map_app. cbn [map].
    assert (CV : forall d, In d l1 \/ In d l2 -> child_view input c fvs d = view_of input c (fresh d)).
    { intros d H. unfold child_view, fvs. cbn [assoc]. replace (str_eqb nm (i_name d)) with false by (symmetry; apply str_eqb_neq; intros X; apply (N1 d H); congruence). apply fresh_view. }
    f_equal; [apply map_ext_in; intros d H; apply CV; auto|]. f_equal; [|apply map_ext_in; intros d H; apply CV; auto].
    unfold child_view, fvs. cbn [assoc i_name]. rewrite str_eqb_refl. reflexivity. }
  assert (L : 8 * zlen b = i_size c).
  { rewrite <- (zlen_ebits LE b), Eb, !zlen_app. rewrite zlen_spell by lia. rewrite !zlen_orig by (unfold bits_range; lia). lia. }
  unfold holds. cbv zeta. cbn [view_of map fst snd]. fold fvs. unfold set_view. cbn [v_size v_altered v_write set_altered fvs existsb snd].
  change (v_altered (view_of input c f)) with true. cbn [orb]. fold fvs. split; [|split; [discriminate|]].
  - rewrite ST. unfold sum_sizes in *. rewrite fold_right_app. cbn [fold_right]. rewrite B2. change (v_size (view_of input c f)) with n.
    assert (G : forall (vs : list view) z, fold_right (fun v acc => v_size v + acc) z vs = fold_right (fun v acc => v_size v + acc) 0 vs + z).
    { induction vs as [|w vs IHv]; intros z; cbn [fold_right]; [lia|]. rewrite IHv. lia. }
    rewrite G, A2. lia.
  - intros st A. assert (W : wf_out LE st) by (apply aligned_wf; assumption). pose proof A as (_ & P0 & _).
    rewrite ST. destruct (A3 st W ltac:(lia)) as (st1 & E1 & W1 & O1 & P1).
    destruct (writeBits_spec st1 n v LE ltac:(discriminate) W1 Hn Hv) as (st2 & E2 & W2 & X2 & Y2).
    assert (B : bits_R LE st1 st2 (spell LE n v)).
    { apply (bits_write_value LE ltac:(discriminate) st1 st2 LE {| ef_name := nm; ef_kind := KBits; ef_size := n; ef_value := Some (VInt v); ef_altered := true |} (VInt v) eq_refl eq_refl); [split; assumption|exact E2]. }
    destruct (B W1) as [_ O2].
    assert (P2 : bit_pos st2 = (x + n) mod 8).
    { rewrite (bits_pos st1 st2 (spell LE n v) x W1 W2 O2) by (rewrite P1; f_equal; lia). rewrite zlen_spell by lia. reflexivity. }
    destruct (B3 st2 W2 P2) as (st3 & E3 & W3 & O3 & P3). exists st3. split; [|split].
    + assert (WA : forall us ws s0 s1 s2, write_all us s0 = Ok s1 -> write_all ws s1 = Ok s2 -> write_all (us ++ ws) s0 = Ok s2).
      { induction us as [|u us IHu]; intros ws s0 s1 s2 U1 U2; cbn [write_all app] in *; [injection U1 as ->; assumption|].
        destruct (v_write u s0) as [s'|]; cbn [bind] in *; [|discriminate]. eapply IHu; eassumption. }
      apply (WA _ _ st st1); [exact E1|]. cbn [write_all]. change (v_write (view_of input c f) st1) with (writeBits st1 n v (i_endian c)). rewrite Ee, E2. cbn [bind]. exact E3.
    + apply wf_aligned; [assumption|]. rewrite P3. lia.
    + assert (A4 : byte_aligned st3) by (apply wf_aligned; [assumption|rewrite P3; lia]).
      assert (OB : forall s0, byte_aligned s0 -> obits LE s0 = ebits LE (out s0)).
      { intros s0 (_ & Q & _). unfold obits. rewrite Q, sub_0, app_nil_r. reflexivity. }
      rewrite O2, O1 in O3. rewrite (OB st3 A4), (OB st A) in O3. rewrite <- !app_assoc, <- Eb, <- ebits_app in O3.
      assert (IB : is_bytes (out st ++ b)) by (apply is_bytes_app; split; [apply A|assumption]).
      apply (str_value_inj LE); [apply A4|assumption| |].
      * pose proof (zlen_ebits LE (out st3)) as Z1. rewrite O3, zlen_ebits in Z1. lia.
      * rewrite <- (eval_ebits LE (out st3)) by apply A4. rewrite O3. apply eval_ebits. assumption.
Qed.
End OneBit.

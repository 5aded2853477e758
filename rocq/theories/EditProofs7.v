From Verif Require Import Base BaseProofs BitsModel BitsSpec StreamModel StreamSpec DictModel DictProofs OutputModel
  OutputProofs EditModel EditSpec EditProofs EditProofs4 EditProofs5 EditProofs6.
Ltac Zify.zify_post_hook ::= Z.div_mod_to_equations.

(** ** Fields that no edit mentions *)
Lemma filter_map_same {X} (P : X -> bool) (g : X -> X) l : (forall x, P (g x) = P x) -> (forall x, P x = true -> g x = x) ->
  filter P (map g l) = filter P l.
Proof.
  intros H1 H2. induction l as [|x l IH]; [reflexivity|]. cbn [map filter]. rewrite H1, IH. destruct (P x) eqn:E; [|reflexivity].
  rewrite H2 by assumption. reflexivity.
Qed.
Lemma filter_none {X} (P : X -> bool) l : (forall x, In x l -> P x = false) -> filter P l = [].
Proof. induction l as [|x l IH]; cbn [filter]; intros H; [reflexivity|]. rewrite (H x (or_introl eq_refl)). apply IH. intros; apply H; right; assumption. Qed.
Lemma filter_filter {X} (P Q : X -> bool) l : (forall x, P x = true -> Q x = true) -> filter P (filter Q l) = filter P l.
Proof.
  intros H. induction l as [|x l IH]; [reflexivity|]. cbn [filter]. destruct (Q x) eqn:Eq; cbn [filter]; rewrite IH; [reflexivity|].
  destruct (P x) eqn:Ep; [|reflexivity]. rewrite (H x Ep) in Eq. discriminate.
Qed.
Definition kept {A} (l : list edit) (kv : str * doc A) : bool := untouched l (fst kv).
Lemma doc_edit_kept {A} enc q i x (ds ds' : list (str * doc A)) (P : str * doc A -> bool) :
  (forall kv kv' : str * doc A, fst kv = fst kv' -> P kv = P kv') -> (forall kv, P kv = true -> mentions (fst kv) x = false) ->
  doc_edit enc q i x (Node ds) = Node ds' -> filter P ds' = filter P ds.
Proof.
  intros HP HM H.
  assert (Hpath : forall p path g, (forall kv, P kv = true -> str_eqb p (fst kv) = false) ->
            doc_at (p :: path) g (Node ds) = Node ds' -> filter P ds' = filter P ds).
  { intros p path g Hp E. cbn [doc_at] in E. injection E as <-. apply filter_map_same.
    - intros kv. apply HP. destruct (str_eqb _ _); reflexivity.
    - intros kv Hk. apply Hp in Hk. rewrite str_eqb_sym in Hk. rewrite Hk. reflexivity. }
  destruct x as [path name|path v|path key next new]; cbn [doc_edit] in H.
  - destruct path as [|p path]; [|apply (Hpath p path (doc_remove name)); [exact HM|exact H]].
    cbn [doc_at doc_remove] in H. injection H as <-. apply filter_filter. intros kv Hk. apply HM in Hk. cbn in Hk. rewrite str_eqb_sym, Hk. reflexivity.
  - destruct (field_at i path) as [[nm k a s| ]|]; [|injection H as <-; reflexivity|injection H as <-; reflexivity].
    destruct path as [|p path]; [discriminate|]. eapply Hpath; [exact HM|exact H].
  - destruct (field_at i path) as [s|]; [|injection H as <-; reflexivity].
    destruct path as [|p path]; [|eapply Hpath; [exact HM|exact H]].
    cbn [doc_at doc_place] in H. injection H as <-.
    assert (Hnew : filter P (map (new_entry enc (i_endian s)) new) = []).
    { apply filter_none. intros kv Hk. apply in_map_iff in Hk. destruct Hk as (f & <- & Hf).
      destruct (P (new_entry enc (i_endian s) f)) eqn:E; [|reflexivity]. apply HM in E. cbn [mentions] in E.
      rewrite <- E. symmetry. apply existsb_exists. exists f. split; [assumption|]. cbn. apply str_eqb_refl. }
    destruct key as [k|]; clear Hpath.
    + induction ds as [|kv ds IH]; [reflexivity|]. cbn [flat_map filter]. rewrite filter_app, IH by (intros; discriminate || (cbn [doc_at] in *; congruence)).
      destruct (str_eqb (fst kv) k); [destruct next|]; rewrite ?filter_app; cbn [filter app]; rewrite ?Hnew, ?app_nil_r; destruct (P kv); reflexivity.
    + rewrite filter_app, Hnew, app_nil_r. reflexivity.
Qed.
Lemma doc_edit_node {A} enc q i x (ds : list (str * doc A)) : field_at i [] <> None ->
  (forall nm k a s, i <> ILeaf nm k a s) -> exists ds', doc_edit enc q i x (Node ds) = Node ds'.
Proof.
  intros _ Hi. destruct x as [[|p path] name|[|p path] v|[|p path] key next new]; cbn [doc_edit doc_at doc_remove doc_place]; eauto.
  - cbn [field_at]. destruct i as [nm k a s|]; [exfalso; exact (Hi _ _ _ _ eq_refl)|eauto].
  - destruct (field_at i _) as [[]|]; eauto.
  - cbn [field_at]. eauto.
  - destruct (field_at i _); eauto.
Qed.
Theorem unedited_kept {A} (orig : Z -> Z -> list A) enc i l ds :
  (exists nm e a s ch, i = ISet nm e a s ch) -> final_doc orig enc i l = Node ds ->
  filter (kept l) ds = filter (kept l) (map (fun c => (i_name c, idoc orig c)) (i_children i)).
Proof.
  intros (nm & e & a & s & ch & ->). unfold final_doc. cbn [idoc i_children]. set (i := ISet nm e a s ch).
  assert (G : forall l ds0 ds (P : str * doc A -> bool), (forall kv kv' : str * doc A, fst kv = fst kv' -> P kv = P kv') ->
            (forall kv, P kv = true -> kept l kv = true) ->
            fold_left (fun d x => doc_edit enc root i x d) l (Node ds0) = Node ds -> filter P ds = filter P ds0).
  { clear. induction l as [|x l IH]; intros ds0 ds P HP HM H; cbn [fold_left] in H; [injection H as <-; reflexivity|].
    destruct (doc_edit_node enc root i x ds0 ltac:(discriminate) ltac:(discriminate)) as (ds1 & E1). rewrite E1 in H.
    rewrite (IH ds1 ds P HP) ; [|intros kv Hk; apply HM in Hk; unfold kept, untouched in *; cbn [forallb] in Hk; apply andb_prop in Hk; apply Hk|exact H].
    apply (doc_edit_kept enc root i x ds0 ds1 P HP); [|exact E1].
    intros kv Hk. apply HM in Hk. unfold kept, untouched in Hk. cbn [forallb] in Hk. apply andb_prop in Hk. destruct Hk as [Hk _]. apply Bool.negb_true_iff. exact Hk. }
  intros H. apply (G l _ _ (kept l)); [|auto|exact H]. intros kv kv' E. unfold kept. rewrite E. reflexivity.
Qed.

(** ** The unmodified editor *)
Theorem unmodified_copy data input i st :
  is_bytes data -> serves input data -> (exists nm e a s ch, i = ISet nm e a s ch) -> bytes_range data (i_addr i) (i_size i) -> byte_aligned st ->
  exists st', writeInto input (createEditor i) st = Ok st' /\ byte_aligned st' /\ out st' = out st ++ sub data (i_addr i / 8) (i_size i / 8).
Proof.
  intros Hd Hs _ Hr A. pose proof Hr as (_ & _ & _ & _ & M).
  unfold writeInto, createEditor. cbn [view_of set_view v_write map set_altered existsb]. unfold set_copy. rewrite M. cbn [Z.eqb negb].
  destruct (bytes_copy_total data Hd input Hs st _ _ Hr A) as (st' & E & G). exists st'. split; [exact E|exact G].
Qed.

(** ** Accepted values fit *)
Definition bytes_value (v : fvalue) : Prop := match v with VBytes b => is_bytes b | _ => True end.
Definition sane_kind (k : kind) (size : Z) : Prop :=
  match k with
  | KBits => 0 <= size
  | KTime => size = 32
  | KChar => size = 8
  | KString f prefix suffix => is_bytes suffix /\
      match f with FSuffix => prefix = 0 | FFixed => prefix = 0 /\ suffix = [] | FPascal n => 0 <= n /\ prefix = n /\ suffix = [] end
  | _ => True
  end.
Theorem accepted_fits k size v : sane_kind k size -> bytes_value v -> ~ (k = KInt true /\ size = 8) -> check_value k size v = Ok tt -> fits k size v.
Proof.
  intros Hk Hv H8 H. destruct k as [signed|f prefix suffix| | | | |], v as [z|b|t|s]; cbn [check_value] in H; try discriminate; cbn [fits sane_kind bytes_value] in *.
  - unfold valid_signed, valid_unsigned in H. destruct signed.
    + destruct (size =? 8) eqn:E8; [exfalso; apply H8; split; [reflexivity|lia]|].
      destruct (size =? 16) eqn:E16; [replace size with 16 by lia|destruct (size =? 32) eqn:E32; [replace size with 32 by lia|discriminate]];
        (destruct (_ && _) eqn:E in H; [|discriminate]); (split; [lia|split; [reflexivity|]]); cbn in E |- *; lia.
    + destruct (size =? 8) eqn:E8; [replace size with 8 by lia|destruct (size =? 16) eqn:E16; [replace size with 16 by lia|destruct (size =? 32) eqn:E32; [replace size with 32 by lia|discriminate]]];
        (destruct (_ && _) eqn:E in H; [|discriminate]); (split; [lia|split; [reflexivity|]]); cbn in E |- *; lia.
  - destruct Hk as [Hs Hk]. split; [assumption|]. split; [assumption|]. destruct f as [| |n]; [assumption|assumption|].
    destruct Hk as (K1 & K2 & K3). cbn [max_string] in H. destruct (_ <? zlen b) eqn:E; [discriminate|]. repeat split; auto. lia.
  - destruct (max_string f) as [m|]; [destruct (m <? zlen t); discriminate|discriminate].
  - destruct (_ && _) eqn:E in H; [|discriminate]. split; [assumption|]. change (2 ^ 32) with 4294967296 in *. lia.
  - assumption.
  - destruct (_ && _) eqn:E in H; [|discriminate]. split; [assumption|]. rewrite Z.shiftl_1_l in E. lia.
  - destruct (zlen t =? 1) eqn:E; [|discriminate]. split; [lia|assumption].
Qed.

From Verif Require Import Base BaseProofs DictModel DictProofs FieldModel FieldSpec FieldNames FieldProofs FieldProofs2 FieldHist FieldProofs3 FieldWeak
  PathModel PathSpec.
Ltac Zify.zify_post_hook ::= Z.div_mod_to_equations.

Lemma split_nonempty c s : split_on c s <> [].
Proof. destruct s as [|x s]; cbn; [discriminate|]. destruct (x =? c); [discriminate|]. destruct (split_on c s); discriminate. Qed.
Lemma split_app c : forall s t, ~ In c s -> split_on c (s ++ c :: t) = s :: split_on c t.
Proof.
  induction s as [|x s IH]; intros t H; cbn [app split_on].
  - rewrite Z.eqb_refl. reflexivity.
  - destruct (x =? c) eqn:E; [exfalso; apply H; left; lia|]. rewrite IH; [reflexivity|]. intros Hin. apply H. right. assumption.
Qed.
Lemma split_none c : forall s, ~ In c s -> split_on c s = [s].
Proof.
  induction s as [|x s IH]; intros H; cbn [split_on]; [reflexivity|].
  destruct (x =? c) eqn:E; [exfalso; apply H; left; lia|]. rewrite IH; [reflexivity|]. intros Hin. apply H. right. assumption.
Qed.
Lemma split_join c : forall l, l <> [] -> Forall (fun s => ~ In c s) l -> split_on c (join_with c l) = l.
Proof.
  induction l as [|s l IH]; intros Hne Hl; [congruence|]. inversion Hl; subst. destruct l as [|t l].
  - apply split_none. assumption.
  - change (join_with c (s :: t :: l)) with (s ++ c :: join_with c (t :: l)). rewrite split_app by assumption.
    rewrite IH; [reflexivity|discriminate|assumption].
Qed.
Lemma join_cons c s l : l <> [] -> join_with c (s :: l) = s ++ c :: join_with c l.
Proof. destruct l; [congruence|reflexivity]. Qed.
Lemma join_snoc c : forall l s, l <> [] -> join_with c (l ++ [s]) = join_with c l ++ c :: s.
Proof.
  induction l as [|x l IH]; intros s Hne; [congruence|]. destruct l as [|y l]; [reflexivity|].
  change ((x :: y :: l) ++ [s]) with (x :: ((y :: l) ++ [s])). rewrite join_cons by discriminate. rewrite (IH s) by discriminate.
  rewrite (join_cons c x (y :: l)) by discriminate. rewrite <- app_assoc. reflexivity.
Qed.

Lemma legal_up n p : legal n -> up p n = None.
Proof.
  intros (_ & _ & c & Hc & Hne). unfold up. destruct (only_dots n) eqn:E; [|reflexivity].
  unfold only_dots in E. rewrite forallb_forall in E. specialize (E c Hc). lia.
Qed.
Lemma find_index_nth l : NoDup (map f_name l) -> forall i f, nth_error l i = Some f -> find_index (f_name f) l = Some i.
Proof.
  induction l as [|g l IH]; intros Hn i f Hi; [destruct i; discriminate|]. cbn [find_index]. cbn [map] in Hn. inversion Hn; subst.
  destruct i as [|i].
  - cbn in Hi. injection Hi as ->. rewrite str_eqb_refl. reflexivity.
  - cbn in Hi. destruct (str_eqb (f_name f) (f_name g)) eqn:E.
    + apply str_eqb_eq in E. exfalso. apply H1. rewrite <- E. apply in_map. eapply nth_error_In. eassumption.
    + rewrite (IH H2 i f Hi). reflexivity.
Qed.
Lemma find_index_some l n : forall i, find_index n l = Some i -> exists f, nth_error l i = Some f /\ f_name f = n.
Proof.
  induction l as [|g l IH]; intros i H; cbn in H; [discriminate|]. destruct (str_eqb n (f_name g)) eqn:E.
  - injection H as <-. apply str_eqb_eq in E. exists g. auto.
  - destruct (find_index n l) as [j|]; [|discriminate]. cbn in H. injection H as <-. exact (IH j eq_refl).
Qed.
Lemma at_pos_app f p q : at_pos f (p ++ q) = match at_pos f p with Some g => at_pos g q | None => None end.
Proof.
  revert f. induction p as [|i p IH]; intros f; cbn [app at_pos]; [reflexivity|]. destruct f as [|n a s]; [reflexivity|].
  destruct (nth_error (fields s) i); [apply IH|reflexivity].
Qed.
Lemma names_app f p q : at_pos f p <> None -> names_to f (p ++ q) = names_to f p ++ match at_pos f p with Some g => names_to g q | None => [] end.
Proof.
  revert f. induction p as [|i p IH]; intros f H; cbn [app names_to at_pos] in *; [reflexivity|]. destruct f as [|n a s]; [congruence|].
  destruct (nth_error (fields s) i) as [g|]; [|congruence]. rewrite IH by assumption. reflexivity.
Qed.
Lemma names_length f p g : at_pos f p = Some g -> length (names_to f p) = length p.
Proof.
  revert f. induction p as [|i p IH]; intros f H; cbn [names_to at_pos] in *; [reflexivity|]. destruct f as [|n a s]; [discriminate|].
  destruct (nth_error (fields s) i) as [h|]; [|discriminate]. cbn. rewrite (IH h H). reflexivity.
Qed.
Lemma distinct_at root p f : distinct_names root -> at_pos root p = Some f -> distinct_names f.
Proof. intros H Hp q n a s Hq. apply (H (p ++ q) n a s). rewrite at_pos_app, Hp. exact Hq. Qed.

Lemma get_parts_down root : distinct_names root -> forall p q f g, at_pos root q = Some f -> at_pos f p = Some g ->
  Forall legal (names_to f p) -> get_parts root q (names_to f p) = Ok (q ++ p).
Proof.
  intros Hd. induction p as [|i p IH]; intros q f g Hq Hp Hl; cbn [names_to at_pos] in *.
  - rewrite app_nil_r. reflexivity.
  - destruct f as [|n a s]; [discriminate|]. destruct (nth_error (fields s) i) as [h|] eqn:Ei; [|discriminate].
    inversion Hl; subst. cbn [get_parts]. unfold get_part. rewrite legal_up by assumption. rewrite Hq.
    rewrite (find_index_nth _ (Hd q n a s Hq) i h Ei). cbn [option_map].
    rewrite (IH (q ++ [i]) h g); [rewrite <- app_assoc; reflexivity| |assumption|assumption].
    rewrite at_pos_app, Hq. cbn [at_pos]. rewrite Ei. reflexivity.
Qed.
Lemma no_slash l : Forall legal l -> Forall (fun s => ~ In slash s) l.
Proof. apply Forall_impl. intros s (_ & H & _). assumption. Qed.
Lemma join_head l : Forall legal l -> l <> [] -> exists c t, join_with slash l = c :: t /\ c <> slash.
Proof.
  intros Hl Hne. destruct l as [|s l]; [congruence|]. inversion Hl; subst. destruct H1 as (H1 & H3 & _). destruct s as [|c s]; [congruence|].
  exists c. assert (c <> slash) by (intros ->; apply H3; left; reflexivity).
  destruct l as [|t l]; [exists s; auto|]. eexists. split; [reflexivity|assumption].
Qed.
(** Every field is found by its path, from any field. *)
Lemma path_lemma root p q f : distinct_names root -> at_pos root p = Some f -> Forall legal (names_to root p) ->
  get_field root q (path_of root p) = Ok p.
Proof.
  intros Hd Hp Hl. unfold path_of. destruct p as [|i p]; [reflexivity|].
  pose proof (names_length root (i :: p) f Hp) as Hlen.
  assert (Hne : names_to root (i :: p) <> []) by (intros E; rewrite E in Hlen; discriminate).
  rewrite join_cons by assumption. cbn [app get_field]. rewrite Z.eqb_refl.
  destruct (join_head _ Hl Hne) as (c & t & E & _). rewrite E. rewrite <- E.
  rewrite split_join; [|assumption|apply no_slash; assumption].
  exact (get_parts_down root Hd (i :: p) [] root f eq_refl Hp Hl).
Qed.
(** Relative paths. *)
Lemma relative_lemma root p q f g : distinct_names root -> at_pos root q = Some f -> at_pos f p = Some g -> p <> [] ->
  Forall legal (names_to f p) -> get_field root q (join_with slash (names_to f p)) = Ok (q ++ p).
Proof.
  intros Hd Hq Hp Hne Hl.
  assert (Hne' : names_to f p <> []) by (intros E; pose proof (names_length f p g Hp) as Hlen; rewrite E in Hlen; destruct p; [congruence|discriminate]).
  destruct (join_head _ Hl Hne') as (c & t & E & Hc). unfold get_field. rewrite E. replace (c =? slash) with false by lia. rewrite <- E.
  rewrite split_join; [|assumption|apply no_slash; assumption].
  eapply get_parts_down; eassumption.
Qed.
(** Dots: n+1 dots go n parents up. *)
Lemma dots_lemma root p n : (n <= length p)%nat ->
  get_field root p (repeat dot (S n)) = Ok (firstn (length p - n) p).
Proof.
  intros Hn. cbn [repeat get_field]. replace (dot =? slash) with false by reflexivity.
  change (dot :: repeat dot n) with (repeat dot (S n)).
  rewrite split_none by (intros H; apply repeat_spec in H; discriminate). cbn [get_parts]. unfold get_part, up.
  replace (only_dots (repeat dot (S n))) with true
    by (symmetry; unfold only_dots; apply forallb_forall; intros c Hc; apply repeat_spec in Hc; subst; reflexivity).
  rewrite repeat_length. replace (S n - 1)%nat with n by lia.
  replace (length p <? n)%nat with false by (symmetry; apply Nat.ltb_ge; assumption). reflexivity.
Qed.
Lemma dot_lemma root p : get_field root p [dot] = Ok p.
Proof. change [dot] with (repeat dot 1). rewrite dots_lemma by lia. rewrite Nat.sub_0_r, firstn_all. reflexivity. Qed.
Lemma parent_lemma root p : p <> [] -> get_field root p [dot; dot] = Ok (parent_pos p).
Proof.
  intros H. change [dot; dot] with (repeat dot 2).
  rewrite dots_lemma by (destruct p; [congruence|cbn; lia]). unfold parent_pos. rewrite removelast_firstn_len.
  replace (length p - 1)%nat with (pred (length p)) by lia. reflexivity.
Qed.
Lemma root_lemma root p : get_field root p [slash] = Ok [].
Proof. reflexivity. Qed.
(** joinPath builds the path of a child. *)
Lemma join_path_lemma root p i f g : at_pos root p = Some f -> at_pos root (p ++ [i]) = Some g -> Forall legal (names_to root p) ->
  join_path (path_of root p) (f_name g) = path_of root (p ++ [i]).
Proof.
  intros Hp Hg Hl. rewrite at_pos_app, Hp in Hg. cbn [at_pos] in Hg. destruct f as [|n a s]; [discriminate|].
  destruct (nth_error (fields s) i) as [h|] eqn:Ei; [|discriminate]. injection Hg as ->.
  assert (En : names_to root (p ++ [i]) = names_to root p ++ [f_name g]).
  { rewrite names_app by congruence. rewrite Hp. cbn [names_to]. rewrite Ei. reflexivity. }
  unfold path_of at 2. destruct (p ++ [i]) as [|j r] eqn:E; [destruct p; discriminate|]. rewrite <- E in *. clear E j r.
  rewrite En. unfold join_path, path_of. destruct p as [|j p].
  - rewrite str_eqb_refl. cbn. reflexivity.
  - pose proof (names_length root (j :: p) _ Hp) as Hlen.
    assert (Hne : names_to root (j :: p) <> []) by (intros E; rewrite E in Hlen; discriminate).
    cbv beta iota. rewrite (join_cons slash [] (names_to root (j :: p))) by assumption. cbn [app].
    destruct (join_head _ Hl Hne) as (c & t & E & _). rewrite E.
    destruct (str_eqb (slash :: c :: t) [slash]) eqn:Eq; [apply str_eqb_eq in Eq; discriminate|].
    rewrite <- E. rewrite (join_cons slash [] (names_to root (j :: p) ++ [f_name g])) by (intros E'; apply app_eq_nil in E'; destruct E'; discriminate).
    rewrite join_snoc by assumption. reflexivity.
Qed.
(** An answer is a field of the tree. *)
Lemma at_pos_firstn root p f k : at_pos root p = Some f -> exists g, at_pos root (firstn k p) = Some g.
Proof.
  intros H. rewrite <- (firstn_skipn k p) in H. rewrite at_pos_app in H. destruct (at_pos root (firstn k p)); [eauto|discriminate].
Qed.
Lemma get_parts_valid root : forall l p f q, at_pos root p = Some f -> get_parts root p l = Ok q -> exists g, at_pos root q = Some g.
Proof.
  induction l as [|n l IH]; intros p f q Hp H; cbn [get_parts] in H.
  - injection H as <-. eauto.
  - destruct (get_part root p n) as [r|] eqn:E; [|discriminate]. assert (Hr : exists g, at_pos root r = Some g).
    { unfold get_part in E. destruct (up p n) as [u|] eqn:Eu.
      - injection E as <-. unfold up in Eu. destruct (only_dots n); [|discriminate]. destruct (length p <? length n - 1)%nat; [discriminate|].
        injection Eu as <-. eapply at_pos_firstn. eassumption.
      - rewrite Hp in E. destruct f as [|fn fa s]; [discriminate|]. destruct (find_index n (fields s)) as [i|] eqn:Ei; [|discriminate].
        cbn in E. injection E as <-. destruct (find_index_some _ _ _ Ei) as (g & Hg & _). exists g.
        rewrite at_pos_app, Hp. cbn [at_pos]. rewrite Hg. reflexivity. }
    destruct Hr as (g & Hr). exact (IH r g q Hr H).
Qed.
Lemma get_field_valid root p f key q : at_pos root p = Some f -> get_field root p key = Ok q -> exists g, at_pos root q = Some g.
Proof.
  intros Hp. unfold get_field. destruct key as [|c rest]; [discriminate|]. destruct (c =? slash).
  - destruct rest; [intros E; injection E as <-; eexists; reflexivity|]. apply (get_parts_valid root _ [] root). reflexivity.
  - eapply get_parts_valid. eassumption.
Qed.
(** Addresses *)
Lemma absolute_app f p q g : at_pos f p = Some g -> absolute_address f (p ++ q) = absolute_address f p + absolute_address g q.
Proof.
  revert f. induction p as [|i p IH]; intros f H; cbn [app absolute_address at_pos] in *; [injection H as ->; lia|].
  destruct f as [|n a s]; [discriminate|]. destruct (nth_error (fields s) i) as [h|]; [|discriminate]. rewrite (IH h H). lia.
Qed.
Lemma absolute_child root p i n a s g : at_pos root p = Some (FSet n a s) -> nth_error (fields s) i = Some g ->
  absolute_address root (p ++ [i]) = absolute_address root p + f_addr g.
Proof. intros Hp Hi. rewrite (absolute_app root p [i] _ Hp). cbn [absolute_address]. rewrite Hi. lia. Qed.

(** ** The trees a user can see *)
Lemma at_pos_sane : forall p s z, sane z s -> forall n a n' a' x, at_pos (FSet n a s) p = Some (FSet n' a' x) -> exists z', sane z' x.
Proof.
  induction p as [|i p IH]; intros s z Hs n a n' a' x; cbn [at_pos].
  - intros E. injection E as <- <- <-. eauto.
  - destruct (nth_error (fields s) i) as [g|] eqn:Ei; [|discriminate].
    pose proof (sane_fields z s Hs) as Hf. rewrite Forall_forall in Hf. specialize (Hf g (nth_error_In _ _ Ei)).
    destruct g as [gn ga gz|gn ga y]; [destruct p; discriminate|]. destruct Hf as (z1 & _ & Hy). apply (IH y z1 Hy).
Qed.
Lemma at_pos_neat : forall p s z, neat z s -> forall n a n' a' x, at_pos (FSet n a s) p = Some (FSet n' a' x) -> exists z', neat z' x.
Proof.
  induction p as [|i p IH]; intros s z Hs n a n' a' x; cbn [at_pos].
  - intros E. injection E as <- <- <-. eauto.
  - destruct (nth_error (fields s) i) as [g|] eqn:Ei; [|discriminate].
    pose proof (neat_fields z s Hs) as Hf. rewrite Forall_forall in Hf. specialize (Hf g (nth_error_In _ _ Ei)).
    destruct g as [gn ga gz|gn ga y]; [destruct p; discriminate|]. destruct Hf as (z1 & _ & Hy). apply (IH y z1 Hy).
Qed.
Lemma history_distinct g size autofix ops : 0 < size -> distinct_names (tree (fst (do_accesses autofix ops (root_set g size)))).
Proof.
  intros Hs p n a x Hp. destruct (history_sane g size autofix ops [] _ Hs eq_refl) as (z & Hz & _).
  destruct (at_pos_sane p _ z Hz _ _ _ _ _ Hp) as (z' & [Hw _]). destruct Hw. assumption.
Qed.
Lemma tiles_extent : forall l a e i f, tiles a (layout l) e -> nth_error l i = Some f -> a <= f_addr f /\ 0 <= f_size f /\ f_addr f + f_size f <= e.
Proof.
  assert (Hge : forall l a e, tiles a l e -> a <= e).
  { induction l as [|[[n b] z] l IH]; intros a e H; cbn in H; [lia|]. destruct H as (-> & H1 & H2). specialize (IH _ _ H2). lia. }
  induction l as [|g l IH]; intros a e i f H Hi; [destruct i; discriminate|]. cbn in H. destruct H as (H1 & H2 & H3). destruct i as [|i].
  - cbn in Hi. injection Hi as ->. specialize (Hge _ _ _ H3). lia.
  - cbn in Hi. specialize (IH _ _ i f H3 Hi). lia.
Qed.
Lemma extent_lemma g size autofix ops p i n a s f : gen_ok g -> 0 < size ->
  let root := tree (fst (do_accesses autofix ops (root_set g size))) in
  at_pos root p = Some (FSet n a s) -> nth_error (fields s) i = Some f ->
  absolute_address root p <= absolute_address root (p ++ [i]) /\ 0 <= f_size f /\
  absolute_address root (p ++ [i]) + f_size f <= absolute_address root p + f_size (FSet n a s).
Proof.
  intros Hg Hs root Hp Hi. destruct (history_neat g size autofix ops [] _ Hg Hs eq_refl) as (z & Hz & _).
  destruct (at_pos_neat p _ z Hz _ _ _ _ _ Hp) as (z' & [Hw Hsz]). rewrite (absolute_child _ _ _ _ _ _ _ Hp Hi).
  destruct Hw as [l z0 c ct r G1 G2 G3 G4 G5 G6 G7]. cbn [fields fsize f_size cur] in *. subst z0.
  pose proof (tiles_extent _ _ _ _ _ G1 Hi) as H. lia.
Qed.

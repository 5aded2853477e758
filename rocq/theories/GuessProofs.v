(** Proofs about the parser database. *)
From Coq Require Import String Permutation.
From Verif Require Import Lit.
From Verif Require Import Base BaseProofs DictModel DictProofs GuessModel GuessSpec.
Ltac Zify.zify_post_hook ::= Z.div_mod_to_equations.
Open Scope Z_scope.

Lemma str_eqb_refl s : str_eqb s s = true. Proof. apply str_eqb_eq. reflexivity. Qed.
Lemma str_eqb_sym a b : str_eqb a b = str_eqb b a.
Proof. destruct (str_eqb a b) eqn:E; [apply str_eqb_eq in E; subst; symmetry; apply str_eqb_refl|]. destruct (str_eqb b a) eqn:F; [|reflexivity]. apply str_eqb_eq in F; subst. rewrite str_eqb_refl in E. discriminate. Qed.
Lemma atom_eqb_eq a b : atom_eqb a b = true <-> a = b.
Proof.
  destruct a as [s|n], b as [t|m]; cbn [atom_eqb]; try (split; congruence).
  - rewrite str_eqb_eq. split; congruence.
  - rewrite Z.eqb_eq. split; congruence.
Qed.
Lemma atom_eqb_refl a : atom_eqb a a = true. Proof. apply atom_eqb_eq. reflexivity. Qed.

(** ** Looking up *)
Definition lookup (db : database) (name : str) (v : atom) : list Z :=
  match assoc name (bytag db) with Some b => match aassoc v b with Some l => l | None => [] end | None => [] end.
Definition look (d : list (str * list (atom * list Z))) (name : str) (v : atom) : list Z :=
  match assoc name d with Some b => match aassoc v b with Some l => l | None => [] end | None => [] end.
Definition alook (b : list (atom * list Z)) (v : atom) : list Z := match aassoc v b with Some l => l | None => [] end.
Fixpoint count (v : atom) (l : list atom) : nat := match l with [] => O | w :: l => if atom_eqb v w then S (count v l) else count v l end.
Lemma count_in v l : In v l <-> count v l <> O.
Proof.
  induction l as [|w l IH]; cbn [In count]; [split; [intros []|congruence]|].
  destruct (atom_eqb v w) eqn:E; [apply atom_eqb_eq in E; subst; split; [discriminate|auto]|].
  rewrite <- IH. split; [intros [->|H]; [rewrite atom_eqb_refl in E; discriminate|exact H]|auto].
Qed.
Lemma add_value_look v p b w : alook (add_value v p b) w = alook b w ++ (if atom_eqb w v then [p] else []).
Proof.
  unfold alook. induction b as [|[v' l] b IH]; cbn [add_value aassoc].
  - destruct (atom_eqb w v); reflexivity.
  - destruct (atom_eqb v v') eqn:E.
    + apply atom_eqb_eq in E. subst v'. cbn [aassoc]. destruct (atom_eqb w v) eqn:F; [reflexivity|rewrite app_nil_r; reflexivity].
    + cbn [aassoc]. destruct (atom_eqb w v') eqn:F; [|exact IH].
      apply atom_eqb_eq in F. subst v'. destruct (atom_eqb w v) eqn:G; [apply atom_eqb_eq in G; subst; rewrite atom_eqb_refl in E; discriminate|]. rewrite app_nil_r. reflexivity.
Qed.
Lemma add_values_look p vs : forall b w, alook (fold_left (fun b v => add_value v p b) vs b) w = alook b w ++ repeat p (count w vs).
Proof.
  induction vs as [|v vs IH]; intros b w; cbn [fold_left count repeat]; [rewrite app_nil_r; reflexivity|].
  rewrite IH, add_value_look, <- app_assoc. destruct (atom_eqb w v); reflexivity.
Qed.
Lemma add_tag_look name vs p d n w : look (add_tag name vs p d) n w = look d n w ++ (if str_eqb n name then repeat p (count w vs) else []).
Proof.
  unfold look. induction d as [|[n' b] d IH]; cbn [add_tag assoc].
  - destruct (str_eqb n name); [|reflexivity]. change (match aassoc w ?x with Some l => l | None => [] end) with (alook x w). rewrite add_values_look. reflexivity.
  - destruct (str_eqb name n') eqn:E.
    + apply str_eqb_eq in E. subst n'. cbn [assoc]. destruct (str_eqb n name) eqn:F; [|rewrite app_nil_r; reflexivity].
      exact (add_values_look p vs b w).
    + cbn [assoc]. destruct (str_eqb n n') eqn:F; [|exact IH].
      apply str_eqb_eq in F. subst n'. rewrite (str_eqb_sym n name), E, app_nil_r. reflexivity.
Qed.
Lemma add_tags_look p ts : forall d n w, look (fold_left (fun d nv => add_tag (fst nv) (snd nv) p d) ts d) n w =
  look d n w ++ flat_map (fun nv => if str_eqb n (fst nv) then repeat p (count w (snd nv)) else []) ts.
Proof.
  induction ts as [|[n' vs] ts IH]; intros d n w; cbn [fold_left flat_map fst snd]; [rewrite app_nil_r; reflexivity|].
  rewrite IH, add_tag_look, <- app_assoc. reflexivity.
Qed.

(** ** What is stored for a parser *)
Definition stored (tags : tagdict) : list (str * list atom) :=
  flat_map (fun nv => if searchable (fst nv) then [(fst nv, values_of (snd nv))] else []) tags.
Lemma translate_tag_ok db n v t : translate_tag db n v = Ok t -> t = if searchable n then Some (values_of v) else None.
Proof.
  unfold translate_tag, searchable. fold (values_of v).
  destruct (str_eqb n (lit "magic")); [intros E; injection E as <-; reflexivity|].
  destruct (str_eqb n (lit "min_size")); [destruct v as [[]| | |]; try discriminate; destruct (0 <? _); try discriminate; intros E; injection E as <-; reflexivity|].
  destruct (str_eqb n (lit "description")); [destruct v as [[[|]|]| | |]; try discriminate; intros E; injection E as <-; reflexivity|].
  cbn [orb negb].
  destruct (str_eqb n (lit "category")); [destruct v as [[]| | |]; try discriminate; destruct (existsb _ _); try discriminate; intros E; injection E as <-; reflexivity|].
  destruct (str_eqb n (lit "id")); [|intros E; injection E as <-; reflexivity].
  destruct v as [[s|]| | |]; try discriminate. destruct (id_match s); [|discriminate]. destruct (assoc _ _); [|discriminate].
  destruct (aassoc _ _) as [[|]|]; try discriminate; intros E; injection E as <-; reflexivity.
Qed.
Lemma translate_all_ok db tags : forall ts, translate_all db tags = Ok ts -> ts = stored tags.
Proof.
  induction tags as [|[n v] tags IH]; intros ts E; cbn [translate_all] in E; [injection E as <-; reflexivity|].
  destruct (translate_tag db n v) as [t|] eqn:T; [|discriminate]. cbn [bind] in E.
  destruct (translate_all db tags) as [rest|]; [|discriminate]. cbn [bind] in E. injection E as <-.
  rewrite (IH rest eq_refl). apply translate_tag_ok in T. subst t. unfold stored. cbn [flat_map fst snd].
  destruct (searchable n); reflexivity.
Qed.
Lemma assoc_not_in {A} k (d : list (str * A)) : ~ In k (map fst d) -> assoc k d = None.
Proof.
  induction d as [|[k' v] d IH]; intros N; [reflexivity|]. cbn in *. destruct (str_eqb k k') eqn:E; [apply str_eqb_eq in E; subst; tauto|]. tauto.
Qed.
Lemma stored_flat (p : Z) n w tags : NoDup (map fst tags) ->
  flat_map (fun nv => if str_eqb n (fst nv) then repeat p (count w (snd nv)) else []) (stored tags) = repeat p (count w (declares tags n)).
Proof.
  unfold declares. induction tags as [|[k v] tags IH]; intros D; [destruct (searchable n); reflexivity|].
  inversion D as [|? ? N D']; subst. specialize (IH D'). unfold stored. cbn [flat_map fst snd assoc]. fold (stored tags).
  destruct (str_eqb n k) eqn:E.
  - apply str_eqb_eq in E. subst k. rewrite flat_map_app, IH. rewrite (assoc_not_in n tags N).
    destruct (searchable n); cbn [flat_map fst snd]; [rewrite str_eqb_refl, !app_nil_r; reflexivity|reflexivity].
  - rewrite flat_map_app, IH. destruct (searchable k); cbn [flat_map fst snd]; [rewrite E|]; reflexivity.
Qed.

Definition accepted (db db' : database) (p : Z) (tags : tagdict) : Prop :=
  parser_list db' = parser_list db ++ [p] /\ validParser tags = true /\
  bytag db' = fold_left (fun d nv => add_tag (fst nv) (snd nv) p d) (stored tags) (bytag db).
Lemma add_parser_cases db p tags r : add_parser db p tags = Ok r ->
  (r = (db, false)) \/ (snd r = true /\ accepted db (fst r) p tags /\ exists ts, translate_all db tags = Ok ts).
Proof.
  unfold add_parser. destruct (validParser tags) eqn:V; cbn [negb]; [|intros E; injection E as <-; auto].
  destruct (translate_all db tags) as [ts|[]] eqn:T; intros E; try discriminate; injection E as <-; auto.
  right. split; [reflexivity|]. apply translate_all_ok in T as T'. subst ts. split; [split; [reflexivity|auto]|eauto].
Qed.

(** ** Databases reached by loading *)
Definition wf_class (c : Z * tagdict) : Prop := NoDup (map fst (snd c)).
(** [kept]: the classes that were accepted *)
Record kept_db (db : database) (kept : list (Z * tagdict)) : Prop := {
  k_list : parser_list db = map fst kept;
  k_look : forall n w, lookup db n w = flat_map (fun c => repeat (fst c) (count w (declares (snd c) n))) kept;
  k_all : forall n p, In p (List.concat (map snd (match assoc n (bytag db) with Some b => b | None => [] end))) <-> exists t, In (p, t) kept /\ declares t n <> [];
}.
Lemma concat_add_value v p b q : In q (List.concat (map snd (add_value v p b))) <-> q = p \/ In q (List.concat (map snd b)).
Proof.
  induction b as [|[v' l] b IH]; cbn [add_value map snd List.concat]; [cbn; intuition congruence|].
  destruct (atom_eqb v v'); cbn [map snd List.concat]; rewrite !in_app_iff; [|rewrite IH]; cbn [In]; intuition congruence.
Qed.
Lemma concat_add_values p vs : forall b q, In q (List.concat (map snd (fold_left (fun b v => add_value v p b) vs b))) <-> (q = p /\ vs <> []) \/ In q (List.concat (map snd b)).
Proof.
  induction vs as [|v vs IH]; intros b q; cbn [fold_left]; [intuition congruence|]. rewrite IH, concat_add_value. 
  split; [intros [[-> _]|[->|H]]; auto; left; split; congruence|]. intros [[-> _]|H]; [|auto]. auto.
Qed.
Definition all_look (d : list (str * list (atom * list Z))) (n : str) : list Z := List.concat (map snd (match assoc n d with Some b => b | None => [] end)).
Lemma all_add_tag name vs p d n q : In q (all_look (add_tag name vs p d) n) <-> (str_eqb n name = true /\ q = p /\ vs <> []) \/ In q (all_look d n).
Proof.
  unfold all_look. induction d as [|[n' b] d IH]; cbn [add_tag assoc].
  - destruct (str_eqb n name) eqn:F; [rewrite concat_add_values; cbn; tauto|]. cbn. intuition congruence.
  - destruct (str_eqb name n') eqn:E.
    + apply str_eqb_eq in E. subst n'. cbn [assoc]. destruct (str_eqb n name) eqn:F; [rewrite concat_add_values; tauto|]. intuition congruence.
    + cbn [assoc]. destruct (str_eqb n n') eqn:F; [|exact IH]. apply str_eqb_eq in F. subst n'. rewrite (str_eqb_sym n name), E. intuition congruence.
Qed.
Lemma all_add_tags p ts : forall d n q, In q (all_look (fold_left (fun d nv => add_tag (fst nv) (snd nv) p d) ts d) n) <->
  (q = p /\ exists vs, In (n, vs) ts /\ vs <> []) \/ In q (all_look d n).
Proof.
  induction ts as [|[n' vs] ts IH]; intros d n q; cbn [fold_left fst snd]; [firstorder|].
  rewrite IH, all_add_tag. split.
  - intros [[-> (ws & I & N)]|[[E [-> N]]|H]]; [left; split; [reflexivity|]; exists ws; split; [right; exact I|exact N]|left; split; [reflexivity|]; apply str_eqb_eq in E; subst; exists vs; split; [left; reflexivity|exact N]|right; exact H].
  - intros [[-> (ws & [E|I] & N)]|H]; [injection E as -> ->; right; left; rewrite str_eqb_refl; auto|left; eauto|auto].
Qed.
Lemma stored_in tags n vs : NoDup (map fst tags) -> In (n, vs) (stored tags) -> declares tags n = vs.
Proof.
  unfold declares. induction tags as [|[k v] tags IH]; intros D I; [destruct I|]. inversion D as [|? ? N D']; subst.
  unfold stored in I. cbn [flat_map fst snd] in I. fold (stored tags) in I. rewrite in_app_iff in I. cbn [assoc]. destruct I as [I|I].
  - destruct (searchable k) eqn:S; [|destruct I]. destruct I as [I|[]]. injection I as -> <-. rewrite S, str_eqb_refl. reflexivity.
  - destruct (str_eqb n k) eqn:E; [|exact (IH D' I)]. apply str_eqb_eq in E. subst k. exfalso. apply N.
    unfold stored in I. apply in_flat_map in I. destruct I as ([k w] & J & K). cbn [fst snd] in K. destruct (searchable k); [|destruct K].
    destruct K as [K|[]]. injection K as <- _. exact (in_map fst _ _ J).
Qed.
Lemma declares_stored tags n : declares tags n <> [] -> In (n, declares tags n) (stored tags).
Proof.
  unfold declares. destruct (searchable n) eqn:S; [|congruence]. induction tags as [|[k v] tags IH]; cbn [assoc]; [congruence|]. intros N.
  unfold stored. cbn [flat_map fst snd]. fold (stored tags). rewrite in_app_iff. destruct (str_eqb n k) eqn:E.
  - apply str_eqb_eq in E. subst k. rewrite S. left; left; reflexivity.
  - right. exact (IH N).
Qed.
Lemma kept_add db kept p tags db' : kept_db db kept -> NoDup (map fst tags) -> accepted db db' p tags -> kept_db db' (kept ++ [(p, tags)]).
Proof.
  intros [L K A] D (P & _ & B). split.
  - rewrite P, L, map_app. reflexivity.
  - intros n w. unfold lookup. rewrite B. fold (look (fold_left (fun d nv => add_tag (fst nv) (snd nv) p d) (stored tags) (bytag db)) n w).
    rewrite add_tags_look, stored_flat, flat_map_app by exact D. change (look (bytag db) n w) with (lookup db n w). rewrite K. cbn [flat_map fst snd]. rewrite app_nil_r. reflexivity.
  - intros n q. rewrite B. fold (all_look (fold_left (fun d nv => add_tag (fst nv) (snd nv) p d) (stored tags) (bytag db)) n).
    rewrite all_add_tags. fold (all_look (bytag db) n) in A. unfold all_look. rewrite A. split.
    + intros [[-> (vs & I & N)]|(t & I & N)].
      * exists tags. rewrite (stored_in tags n vs D I). split; [apply in_or_app; right; left; reflexivity|exact N].
      * exists t. split; [apply in_or_app; left; exact I|exact N].
    + intros (t & I & N). apply in_app_or in I. destruct I as [I|[E|[]]]; [right; eauto|]. injection E as <- <-.
      left. split; [reflexivity|]. exists (declares tags n). split; [apply declares_stored, N|exact N].
Qed.
Lemma kept_empty : kept_db empty_db [].
Proof.
  split; [reflexivity| |].
  - intros n w. unfold lookup, empty_db. cbn [bytag assoc]. destruct (str_eqb n (lit "id")); [reflexivity|]. destruct (str_eqb n (lit "category")); reflexivity.
  - intros n p. unfold empty_db. cbn [bytag assoc]. destruct (str_eqb n (lit "id")); [|destruct (str_eqb n (lit "category"))]; cbn; (split; [intros []|intros (t & [] & _)]).
Qed.
(** The accepted classes are a sublist of the loaded ones, in order. *)
Inductive sublist {A} : list A -> list A -> Prop :=
| sub_nil : sublist [] []
| sub_skip x l m : sublist l m -> sublist l (x :: m)
| sub_keep x l m : sublist l m -> sublist (x :: l) (x :: m).
Lemma sublist_refl {A} (l : list A) : sublist l l. Proof. induction l; [apply sub_nil|apply sub_keep; auto]. Qed.
Lemma sublist_in {A} (l m : list A) x : sublist l m -> In x l -> In x m.
Proof. induction 1; cbn; intuition. Qed.
Lemma sublist_map {A B} (f : A -> B) l m : sublist l m -> sublist (map f l) (map f m).
Proof. induction 1; cbn; [apply sub_nil|apply sub_skip|apply sub_keep]; auto. Qed.
Lemma sublist_nodup {A} (l m : list A) : sublist l m -> NoDup m -> NoDup l.
Proof.
  induction 1 as [|x l m H IH|x l m H IH]; intros D; [constructor| |]; inversion D as [|? ? N D']; subst; [exact (IH D')|].
  constructor; [|exact (IH D')]. intros I. apply N. exact (sublist_in l m x H I).
Qed.
Lemma sublist_app {A} (a : list A) l m : sublist l m -> sublist (a ++ l) (a ++ m). Proof. induction a; cbn; [auto|]. intros H. apply sub_keep. auto. Qed.
Lemma load_kept classes : forall db kept db', kept_db db kept -> Forall wf_class classes -> load db classes = Ok db' ->
  exists more, sublist more classes /\ kept_db db' (kept ++ more).
Proof.
  induction classes as [|[p t] classes IH]; intros db kept db' K F E; cbn [load] in E.
  - injection E as <-. exists []. rewrite app_nil_r. split; [constructor|exact K].
  - inversion F as [|? ? W F']; subst. destruct (add_parser db p t) as [r|] eqn:A; [|discriminate]. cbn [bind] in E.
    apply add_parser_cases in A. destruct A as [->|(_ & A & _)].
    + destruct (IH db kept db' K F' E) as (more & S & K'). exists more. split; [apply sub_skip; exact S|exact K'].
    + destruct (IH (fst r) (kept ++ [(p, t)]) db' (kept_add _ _ _ _ _ K W A) F' E) as (more & S & K'). exists ((p, t) :: more).
      split; [apply sub_keep; exact S|]. rewrite <- app_assoc in K'. exact K'.
Qed.

(** ** Identifiers are unique *)
Lemma stored_id db tags ts : translate_all db tags = Ok ts -> forall v, In (AStr v) (declares tags (lit "id")) -> lookup db (lit "id") (AStr v) = [].
Proof.
  intros T v I. unfold declares in I. change (searchable (lit "id")) with true in I. cbv iota in I.
  revert ts T. induction tags as [|[n w] tags IH]; intros ts T; [destruct I|]. cbn [translate_all] in T. cbn [assoc] in I.
  destruct (translate_tag db n w) as [t|] eqn:E; [|discriminate]. cbn [bind] in T. destruct (translate_all db tags) as [rest|] eqn:R; [|discriminate].
  destruct (str_eqb (lit "id") n) eqn:F; [|exact (IH I rest eq_refl)].
  apply str_eqb_eq in F. subst n. unfold translate_tag in E.
  change (str_eqb (lit "id") (lit "magic")) with false in E. change (str_eqb (lit "id") (lit "min_size")) with false in E.
  change (str_eqb (lit "id") (lit "description")) with false in E. change (str_eqb (lit "id") (lit "category")) with false in E.
  rewrite str_eqb_refl in E. destruct w as [[s|]| | |]; try discriminate. destruct (id_match s); [|discriminate].
  cbn [values_of] in I. destruct I as [I|[]]. injection I as ->. unfold lookup.
  destruct (assoc (lit "id") (bytag db)) as [b|]; [|reflexivity]. destruct (aassoc (AStr v) b) as [[|]|]; try discriminate; reflexivity.
Qed.
Lemma id_single db tags ts v : translate_all db tags = Ok ts -> (count v (declares tags (lit "id")) <= 1)%nat /\ (forall n, v = AInt n -> count v (declares tags (lit "id")) = O).
Proof.
  unfold declares. change (searchable (lit "id")) with true. cbv iota. revert ts. induction tags as [|[n w] tags IH]; intros ts T; [cbn; split; [lia|reflexivity]|].
  cbn [translate_all] in T. cbn [assoc]. destruct (translate_tag db n w) as [t|] eqn:E; [|discriminate]. cbn [bind] in T.
  destruct (translate_all db tags) as [rest|] eqn:R; [|discriminate]. destruct (str_eqb (lit "id") n) eqn:F; [|exact (IH rest eq_refl)].
  apply str_eqb_eq in F. subst n. unfold translate_tag in E.
  change (str_eqb (lit "id") (lit "magic")) with false in E. change (str_eqb (lit "id") (lit "min_size")) with false in E.
  change (str_eqb (lit "id") (lit "description")) with false in E. change (str_eqb (lit "id") (lit "category")) with false in E.
  rewrite str_eqb_refl in E. destruct w as [[s|]| | |]; try discriminate. cbn [values_of count].
  split; [destruct (atom_eqb v (AStr s)); lia|]. intros m ->. reflexivity.
Qed.
Lemma lookup_accepted db db' p tags n w : NoDup (map fst tags) -> accepted db db' p tags -> lookup db' n w = lookup db n w ++ repeat p (count w (declares tags n)).
Proof.
  intros D (_ & _ & B). unfold lookup. rewrite B. fold (look (fold_left (fun d nv => add_tag (fst nv) (snd nv) p d) (stored tags) (bytag db)) n w).
  rewrite add_tags_look, stored_flat by exact D. reflexivity.
Qed.
Lemma load_ids classes : forall db db', Forall wf_class classes -> load db classes = Ok db' -> (forall v, (length (lookup db (lit "id") v) <= 1)%nat) ->
  forall v, (length (lookup db' (lit "id") v) <= 1)%nat.
Proof.
  induction classes as [|[p t] classes IH]; intros db db' F E H v; cbn [load] in E; [injection E as <-; apply H|].
  inversion F as [|? ? W F']; subst. destruct (add_parser db p t) as [r|] eqn:A; [|discriminate]. cbn [bind] in E.
  apply add_parser_cases in A. destruct A as [->|(_ & A & (ts & T))]; [exact (IH db db' F' E H v)|].
  apply (IH (fst r) db' F' E). intros w. rewrite (lookup_accepted db (fst r) p t) by (auto; exact W). rewrite app_length, repeat_length.
  destruct (id_single db t ts w T) as [C1 C2]. destruct w as [s|n]; [|rewrite (C2 n eq_refl); specialize (H (AInt n)); lia].
  destruct (count (AStr s) (declares t (lit "id"))) as [|[|k]] eqn:E1; [specialize (H (AStr s)); lia| |lia].
  rewrite (stored_id db t ts T) with (v := s); [cbn; lia|apply count_in; rewrite E1; discriminate].
Qed.

(** ** Tags of derived classes *)
Lemma dict_set_get {A} k (v : A) d k' : assoc k' (dict_set k v d) = if str_eqb k' k then Some v else assoc k' d.
Proof.
  induction d as [|[j w] d IH]; cbn [dict_set assoc]; [reflexivity|]. destruct (str_eqb k j) eqn:E; cbn [assoc].
  - apply str_eqb_eq in E. subst j. destruct (str_eqb k' k); reflexivity.
  - destruct (str_eqb k' j) eqn:F; [|exact IH]. apply str_eqb_eq in F. subst j. rewrite str_eqb_sym in E. rewrite E. reflexivity.
Qed.
Lemma dict_set_keys {A} k (v : A) d : NoDup (map fst d) -> NoDup (map fst (dict_set k v d)).
Proof.
  induction d as [|[j w] d IH]; intros D; cbn [dict_set map fst]; [repeat constructor; intros []|]. inversion D as [|? ? N D']; subst.
  destruct (str_eqb k j) eqn:E; cbn [map fst]; [constructor; assumption|]. constructor; [|exact (IH D')].
  intros I. apply N. assert (X : forall x, In x (map fst (dict_set k v d)) -> x = k \/ In x (map fst d)).
  { clear. induction d as [|[j w] d IH]; cbn [dict_set map fst]; intros x; [cbn; intuition|]. destruct (str_eqb k j); cbn [map fst In]; [intuition|]. intros [->|H]; [auto|]. apply IH in H. intuition. }
  apply X in I. destruct I as [->|I]; [rewrite str_eqb_refl in E; discriminate|exact I].
Qed.
Lemma dict_update_get {A} (u : list (str * A)) : NoDup (map fst u) -> forall d k, assoc k (dict_update d u) = match assoc k u with Some v => Some v | None => assoc k d end.
Proof.
  unfold dict_update. induction u as [|[j w] u IH]; intros D d k; [reflexivity|]. inversion D as [|? ? N D']; subst. cbn [fold_left fst snd assoc].
  rewrite IH, dict_set_get by exact D'. destruct (str_eqb k j) eqn:E; [|reflexivity]. apply str_eqb_eq in E. subst k. rewrite (assoc_not_in j u N). reflexivity.
Qed.
Lemma dict_update_keys {A} (u : list (str * A)) : forall d, NoDup (map fst d) -> NoDup (map fst (dict_update d u)).
Proof. unfold dict_update. induction u as [|kv u IH]; intros d D; [exact D|]. cbn [fold_left]. apply IH, dict_set_keys, D. Qed.
Fixpoint nearest (k : str) (mro : list (option tagdict)) : option tagval :=
  match mro with
  | [] => None
  | Some t :: mro => match assoc k t with Some v => Some v | None => nearest k mro end
  | None :: mro => nearest k mro
  end.
Lemma tags_keys mro : NoDup (map fst (getParserTags mro)).
Proof.
  induction mro as [|c mro IH]; [constructor|]. cbn [getParserTags]. destruct (shown_tags (c :: mro)); [apply dict_update_keys|]; exact IH.
Qed.
Lemma shown_idem mro t k : shown_tags mro = Some t -> assoc k t <> None -> nearest k mro = assoc k t.
Proof.
  induction mro as [|[t'|] mro IH]; cbn [shown_tags nearest]; intros E N; [discriminate| |exact (IH E N)].
  injection E as ->. destruct (assoc k t); [reflexivity|congruence].
Qed.
Lemma tags_nearest mro k : Forall (fun c => match c with Some t => NoDup (map fst t) | None => True end) mro -> assoc k (getParserTags mro) = nearest k mro.
Proof.
  induction mro as [|c mro IH]; intros F; [reflexivity|]. inversion F as [|? ? C F']; subst. specialize (IH F'). cbn [getParserTags].
  destruct c as [t|].
  - cbn [shown_tags nearest]. rewrite dict_update_get by exact C. rewrite IH. reflexivity.
  - change (shown_tags (None :: mro)) with (shown_tags mro). cbn [nearest]. destruct (shown_tags mro) as [t|] eqn:S; [|exact IH].
    assert (D : NoDup (map fst t)).
    { clear -F' S. induction mro as [|[t'|] mro IH]; [discriminate| |].
      - injection S as ->. inversion F'; subst; assumption.
      - inversion F'; subst. exact (IH H2 S). }
    rewrite dict_update_get, IH by exact D. destruct (assoc k t) eqn:A; [|reflexivity]. symmetry. rewrite <- A. apply shown_idem; [exact S|rewrite A; discriminate].
Qed.

(** C50 and C56: the parser database and the choice of a parser. *)
From Coq Require Import String Permutation.
From Verif Require Import Lit.
From Verif Require Import Base BaseProofs DictModel DictProofs GuessModel GuessSpec GuessProofs GuessProofs2.
Ltac Zify.zify_post_hook ::= Z.div_mod_to_equations.
Open Scope Z_scope.

(** ** A small database *)
Definition ex_classes : list (Z * tagdict) :=
  [ (1, [(lit "id", VAtom (AStr (lit "zip"))); (lit "category", VAtom (AStr (lit "archive"))); (lit "file_ext", VTuple [AStr (lit "zip"); AStr (lit "jar")]);
         (lit "mime", VTuple [AStr (lit "application/zip")]); (lit "min_size", VAtom (AInt 240)); (lit "magic", VMagic); (lit "description", VAtom (AStr (lit "ZIP archive")))]);
    (2, [(lit "id", VAtom (AStr (lit "ole2"))); (lit "category", VAtom (AStr (lit "misc"))); (lit "file_ext", VTuple [AStr (lit "doc"); AStr (lit "db")]);
         (lit "min_size", VAtom (AInt 4096)); (lit "description", VAtom (AStr (lit "Microsoft Office document")))]);
    (3, [(lit "id", VAtom (AStr (lit "zip"))); (lit "description", VAtom (AStr (lit "again")))]);
    (4, [(lit "id", VAtom (AStr (lit "jarfile"))); (lit "category", VAtom (AStr (lit "archive"))); (lit "file_ext", VTuple [AStr (lit "jar")]);
         (lit "min_size", VAtom (AInt 8)); (lit "description", VAtom (AStr (lit "JAR")))]);
    (5, [(lit "id", VAtom (AStr (lit "Bad"))); (lit "description", VAtom (AStr (lit "no")))]) ].
Definition ex_db : database := match load empty_db ex_classes with Ok db => db | Err _ => empty_db end.
Example ex_db_ok : load empty_db ex_classes = Ok ex_db /\ parser_list ex_db = [1; 2; 4].
Proof. vm_compute. auto. Qed.
Ltac nodup := repeat (constructor; [vm_compute; intuition discriminate|]); try constructor.
Example ex_classes_wf : NoDup (map fst ex_classes) /\ Forall (fun c => NoDup (map fst (snd c))) ex_classes.
Proof. split; [nodup|]. repeat apply Forall_cons; try apply Forall_nil; cbn [snd map fst]; nodup. Qed.

(** ** C56 *)
(** The database after any number of registrations: looking for a name and a value
    gives the accepted parsers that declare this value, in the order they were
    registered (a parser that declares it twice is listed twice). *)
Theorem C56_lookup : forall classes db, Forall (fun c => NoDup (map fst (snd c))) classes -> load empty_db classes = Ok db ->
  exists kept, sublist kept classes /\ parser_list db = map fst kept /\
    forall name v, (match assoc name (bytag db) with Some b => match aassoc v b with Some l => l | None => [] end | None => [] end) =
      flat_map (fun c => flat_map (fun w => if atom_eqb v w then [fst c] else []) (declares (snd c) name)) kept.
Proof.
  intros classes db W E. destruct (load_kept classes empty_db [] db kept_empty W E) as (kept & S & K). cbn [app] in K. destruct K as [K1 K2 K3]. exists kept. split; [exact S|]. split; [exact K1|].
  intros name v. specialize (K2 name v). unfold lookup in K2. rewrite K2. clear. induction kept as [|c kept IH]; cbn [flat_map app]; [reflexivity|]. rewrite IH. f_equal.
  generalize (declares (snd c) name). intros l. induction l as [|w l IH']; cbn [count flat_map]; [reflexivity|]. destruct (atom_eqb v w); cbn [repeat app]; rewrite IH'; reflexivity.
Qed.
Print Assumptions C56_lookup.
(** No two parsers have the same identifier. *)
Theorem C56_unique_id : forall classes db, Forall (fun c => NoDup (map fst (snd c))) classes -> load empty_db classes = Ok db ->
  forall v, (length (match assoc (lit "id") (bytag db) with Some b => match aassoc v b with Some l => l | None => [] end | None => [] end) <= 1)%nat.
Proof.
  intros classes db W E v. apply (load_ids classes empty_db db W E). intros w. unfold lookup. cbn. lia.
Qed.
Print Assumptions C56_unique_id.
(** A refused parser leaves no trace, and an accepted one has an identifier that
    was free, a description and tags of the right shape. *)
Theorem C56_refused : forall db p tags db', add_parser db p tags = Ok (db', false) -> db' = db.
Proof. intros db p tags db' E. apply add_parser_cases in E. destruct E as [E|[E _]]; [congruence|discriminate]. Qed.
Print Assumptions C56_refused.
Theorem C56_accepted : forall db p tags db', NoDup (map fst tags) -> add_parser db p tags = Ok (db', true) ->
  parser_list db' = parser_list db ++ [p] /\ assoc (lit "description") tags <> None /\
  (exists s, assoc (lit "id") tags = Some (VAtom (AStr s)) /\ (match assoc (lit "id") (bytag db) with Some b => match aassoc (AStr s) b with Some l => l | None => [] end | None => [] end) = []) /\
  (forall c, assoc (lit "category") tags = Some c -> exists s, c = VAtom (AStr s) /\ In s valid_category) /\
  (forall c, assoc (lit "min_size") tags = Some c -> exists n, c = VAtom (AInt n) /\ 0 < n).
Proof.
  intros db p tags db' D E. apply add_parser_cases in E. destruct E as [E|(_ & (P & V & B) & ts & T)]; [congruence|]. cbn [fst] in *.
  assert (TR : forall n v, assoc n tags = Some v -> exists t, translate_tag db n v = Ok t).
  { clear -T. revert ts T. induction tags as [|[k w] tags IH]; intros ts T n v A; [discriminate|]. cbn [translate_all] in T. destruct (translate_tag db k w) as [t|] eqn:E; [|discriminate].
    cbn [bind] in T. destruct (translate_all db tags) as [r|] eqn:R; [|discriminate]. cbn [assoc] in A. destruct (str_eqb n k) eqn:Q; [|exact (IH r eq_refl n v A)].
    apply str_eqb_eq in Q. injection A as ->. subst k. eauto. }
  split; [exact P|]. unfold validParser in V. destruct (assoc (lit "id") tags) as [i|] eqn:I; [|discriminate]. destruct (assoc (lit "description") tags) as [dsc|] eqn:De; [|discriminate].
  split; [discriminate|]. split; [|split].
  - destruct (TR _ _ I) as [t X]. unfold translate_tag in X. cbn in X. destruct i as [[s|]| | |]; try discriminate. exists s. split; [reflexivity|].
    apply (stored_id db tags ts T). unfold declares. change (searchable (lit "id")) with true. cbv iota. rewrite I. left. reflexivity.
  - intros c C. destruct (TR _ _ C) as [t X]. unfold translate_tag in X. 
    change (str_eqb (lit "category") (lit "magic")) with false in X. change (str_eqb (lit "category") (lit "min_size")) with false in X. change (str_eqb (lit "category") (lit "description")) with false in X.
    rewrite str_eqb_refl in X. cbv iota in X. destruct c as [[s|]| | |]; try discriminate. exists s. split; [reflexivity|]. destruct (existsb (str_eqb s) valid_category) eqn:Y; [|discriminate].
    apply existsb_exists in Y. destruct Y as (s' & J & Y). apply str_eqb_eq in Y. subst. exact J.
  - intros c C. destruct (TR _ _ C) as [t X]. unfold translate_tag in X. 
    change (str_eqb (lit "min_size") (lit "magic")) with false in X. rewrite str_eqb_refl in X. cbv iota in X. destruct c as [[|n]| | |]; try discriminate. exists n. split; [reflexivity|]. destruct (0 <? n) eqn:L; [lia|discriminate].
Qed.
Print Assumptions C56_accepted.
Example C56_accepted_ex : exists db', add_parser ex_db 9 [(lit "id", VAtom (AStr (lit "new"))); (lit "description", VAtom (AStr (lit "d")))] = Ok (db', true) /\ add_parser db' 10 [(lit "id", VAtom (AStr (lit "new"))); (lit "description", VAtom (AStr (lit "d")))] = Ok (db', false).
Proof. eexists. split; vm_compute; reflexivity. Qed.
(** "An identifier has only lower case letters, digits and underscores" fails: the
    dollar of the regular expression accepts a newline at the end. *)
Theorem C56_id_refuted : exists db', add_parser empty_db 1 [(lit "id", VAtom (AStr (lit "zip" ++ [10]))); (lit "description", VAtom (AStr (lit "d")))] = Ok (db', true) /\ parser_list db' = [1].
Proof. eexists. split; vm_compute; reflexivity. Qed.
Print Assumptions C56_id_refuted.
(** The identifiers that are accepted, otherwise *)
Theorem C56_id_partial : forall s, id_match s = true -> ~ In 10 s -> (3 <= length s)%nat /\ forall c, In c s -> (97 <= c <= 122) \/ (48 <= c <= 57) \/ c = 95.
Proof.
  intros s M N. unfold id_match in M. apply orb_true_iff in M. destruct M as [M|M].
  - destruct s as [|a [|b [|c s]]]; try discriminate. cbn [id_word] in M. apply andb_true_iff in M. destruct M as [A B]. rewrite forallb_forall in B.
    split; [cbn; lia|]. intros x [<-|X]; [unfold id_char in A; lia|]. apply B in X. unfold id_char in X. lia.
  - destruct (rev s) as [|z r] eqn:R; [discriminate|]. destruct (Z.eq_dec z 10) as [->|Z10].
    + destruct N. apply in_rev. rewrite R. left. reflexivity.
    + exfalso. revert M. destruct z as [|z|z]; try discriminate. do 4 (destruct z as [z|z|]; try discriminate; try congruence).
Qed.
Print Assumptions C56_id_partial.
(** The tags of a derived class: those of the nearest class that sets the name *)
Theorem C56_inherit : forall mro k, Forall (fun c => match c with Some t => NoDup (map fst t) | None => True end) mro -> assoc k (getParserTags mro) = nearest k mro.
Proof. exact (fun mro k => tags_nearest mro k). Qed.
Print Assumptions C56_inherit.
Example C56_inherit_ex : assoc (lit "id") (getParserTags [Some [(lit "id", VAtom (AInt 1))]; None; Some [(lit "mime", VMagic); (lit "id", VAtom (AInt 2))]]) = Some (VAtom (AInt 1)) /\
  assoc (lit "mime") (getParserTags [Some [(lit "id", VAtom (AInt 1))]; None; Some [(lit "mime", VMagic); (lit "id", VAtom (AInt 2))]]) = Some VMagic.
Proof. vm_compute. auto. Qed.
(** A parser is made, when validation is wanted, iff its class gives a minimum
    size, the stream is that large and the method validate says True. *)
Theorem C56_construct : forall min_size sizeGe v,
  (construct min_size sizeGe v true = Good <-> exists n, min_size = Some n /\ sizeGe n = true /\ v = VTrue) /\ construct min_size sizeGe v false = Good.
Proof.
  intros ms g v. split; [|reflexivity]. unfold construct. destruct ms as [n|]; [|split; [discriminate|intros (n & X & _); discriminate]].
  destruct (g n) eqn:G; [|split; [discriminate|intros (k & X & Y & _); congruence]].
  destruct v; split; try discriminate; eauto; intros (k & _ & _ & X); discriminate.
Qed.
Print Assumptions C56_construct.

(** ** C50 *)
Lemma rank_ext (m m' : qtag -> Z -> Prop) l p n : (forall t, m t p <-> m' t p) -> rank m l p n -> rank m' l p n.
Proof. intros H R. induction R; [apply rank_none|apply rank_here, H; assumption|apply rank_later; [rewrite <- H; assumption|auto]]. Qed.
Theorem C50_order : forall lower order classes db tags q,
  (forall i l, Permutation (order i l) l) -> NoDup (map fst classes) -> Forall (fun c => NoDup (map fst (snd c))) classes -> load empty_db classes = Ok db ->
  (forall p, ~ In (TClass p) tags) -> make_query lower order db tags = Ok q ->
  let m := matches lower (tags_of classes) in
  NoDup (q_parsers q) /\
  (forall p, In p (q_parsers q) <-> In p (parser_list db) /\ (closed tags -> exists n, rank m (active tags) p n /\ (n < length (active tags))%nat)) /\
  (forall x y a b, before (q_parsers q) x y -> rank m (active tags) x a -> rank m (active tags) y b ->
     (a <= b)%nat /\ (a = b -> forall name v, nth_error (active tags) a = Some (TTag name (Some v)) -> before (parser_list db) x y)).
Proof.
  intros lower order classes db tags q perm ND W E NC Q m.
  destruct (load_kept classes empty_db [] db kept_empty W E) as (kept & SU & K). cbn [app] in K.
  assert (D : NoDup (map fst kept)) by exact (sublist_nodup _ _ (sublist_map fst _ _ SU) ND).
  unfold make_query in Q. destruct (q_loop lower order db 0 tags _) as [st|] eqn:L; [|discriminate]. cbn [bind] in Q. injection Q as <-. cbn [q_parsers].
  apply (q_loop_spec lower order perm db kept K D) in L.
  2: { apply Forall_forall. intros t T p ->. exact (NC p T). }
  2: { cbn [s_set]. rewrite (k_list _ _ K). exact D. }
  2: { cbn [s_set]. rewrite (k_list _ _ K). auto. }
  cbn [s_set s_parsers app] in L. destruct L as (out & -> & [L1 L2 L3 L4 L5]).
  set (rest := order (length tags) (s_set st)). pose proof (perm (length tags) (s_set st)) as PR. fold rest in PR.
  assert (RI : forall p, In p rest <-> In p (s_set st)) by (intros p; split; apply Permutation_in; [exact PR|exact (Permutation_sym PR)]).
  assert (MM : forall p, In p (parser_list db) -> forall t, m t p <-> matches lower (tags_of kept) t p).
  { intros p Hp t. unfold m. rewrite (k_list _ _ K) in Hp. pose proof (tags_of_sublist kept classes p ND SU Hp) as TE.
    destruct t; cbn [matches]; try tauto. rewrite TE. tauto. }
  assert (RK : forall p n, In p (parser_list db) -> rank m (active tags) p n <-> rank (matches lower (tags_of kept)) (active tags) p n).
  { intros p n Hp. split; apply rank_ext; intros t; [|symmetry]; apply MM, Hp. }
  assert (DEC : forall p, exists n, rank (matches lower (tags_of kept)) (active tags) p n) by (intros p; apply rank_exists; intros t; apply matches_dec).
  assert (OUTPL : forall p, In p out -> In p (parser_list db)) by (intros p Hp; apply L3 in Hp; tauto).
  assert (RESTPL : forall p, In p rest -> In p (parser_list db)) by (intros p Hp; apply RI, L4 in Hp; tauto).
  split; [|split].
  - assert (X : forall p, In p out -> ~ In p rest) by (intros p A B; apply RI, L4 in B; tauto). pose proof (Permutation_NoDup (Permutation_sym PR) L2) as DR.
    clear -L1 DR X. induction out as [|p f IH]; [exact DR|]. inversion L1; subst. cbn. constructor; [|apply IH; [assumption|intros; apply X; right; assumption]].
    rewrite in_app_iff. intros [Y|Y]; [contradiction|]. exact (X p (or_introl eq_refl) Y).
  - intros p. rewrite in_app_iff. split.
    + intros [H|H]; (split; [auto|]); intros C.
      * pose proof (OUTPL p H) as HP. apply L3 in H. destruct H as [_ (n & R & LT)]. exists n. split; [apply RK; assumption|exact LT].
      * apply RI, L4 in H. tauto.
    + intros [HP H]. destruct (DEC p) as [n R]. destruct (Nat.lt_ge_cases n (length (active tags))) as [LT|GE]; [left; apply L3; split; [exact HP|eauto]|].
      right. apply RI, L4. split; [exact HP|]. split.
      * intros O. apply L3 in O. destruct O as [_ (k & R' & LT)]. rewrite (rank_fun _ _ _ _ _ R' R) in LT. lia.
      * intros C. destruct (H C) as (k & R' & LT). apply RK in R'; [|exact HP]. rewrite (rank_fun _ _ _ _ _ R' R) in LT. lia.
  - intros x y a b B RA RB. apply before_app in B.
    assert (BIG : forall p n, In p rest -> rank m (active tags) p n -> n = length (active tags)).
    { intros p n H R. pose proof (RESTPL p H) as HP. apply RK in R; [|exact HP]. apply RI, L4 in H. destruct H as (_ & H & _). pose proof (rank_le _ _ _ _ R).
      destruct (Nat.eq_dec n (length (active tags))) as [|NE]; [assumption|]. destruct H. apply L3. split; [exact HP|]. exists n. split; [exact R|lia]. }
    destruct B as [B|[B|[B1 B2]]].
    + destruct (before_in _ _ _ B) as [X Y]. apply RK in RA; [|auto]. apply RK in RB; [|auto]. exact (L5 x y a b B RA RB).
    + destruct (before_in _ _ _ B) as [X Y]. rewrite (BIG x a X RA), (BIG y b Y RB). split; [lia|]. intros _ name v N. assert (T : nth_error (active tags) (length (active tags)) = None) by (apply nth_error_None; lia). congruence.
    + rewrite (BIG y b B2 RB). pose proof (rank_le _ _ _ _ RA). split; [assumption|]. intros -> name v N. assert (T : nth_error (active tags) (length (active tags)) = None) by (apply nth_error_None; lia). congruence.
Qed.
Print Assumptions C50_order.
Example C50_order_ex : exists q, make_query (fun s => s) (fun _ l => rev l) ex_db [TTag (lit "filename") (Some (lit "/tmp/a.b/x.jar")); TTag (lit "category") (Some (lit "misc"))] = Ok q /\ q_parsers q = [1; 4; 2] /\
  exists q, make_query (fun s => s) (fun _ l => rev l) ex_db [TCall (fun p => p =? 4); TTag (lit "file_ext") (Some (lit "jar")); TNone] = Ok q /\ q_parsers q = [4; 1].
Proof. eexists. split; [vm_compute; reflexivity|]. split; [reflexivity|]. eexists. split; vm_compute; reflexivity. Qed.

(** The parser that is given: the first of the list that can be made; without one,
    nothing, or the first parser unvalidated when the fallback applies. *)
Theorem C50_first : forall make uf q fb a p b, q_parsers q = a ++ p :: b -> make p (q_validate q) = Good -> (forall x, In x a -> make x (q_validate q) <> Good) ->
  doparse make uf q fb = Some (p, q_validate q).
Proof. exact (fun make uf q fb => proj1 (doparse_spec make uf q fb)). Qed.
Print Assumptions C50_first.
Theorem C50_fallback : forall make uf q fb, (forall x, In x (q_parsers q) -> make x (q_validate q) <> Good) -> forall r, doparse make uf q fb = Some r <->
  uf = true /\ fb = true /\ q_fallback q = Some true /\ snd r = false /\ hd_error (q_parsers q) = Some (fst r) /\ make (fst r) (q_validate q) = Invalid.
Proof. exact (fun make uf q fb => proj2 (doparse_spec make uf q fb)). Qed.
Print Assumptions C50_fallback.
Definition ex_q (v : bool) (l : list Z) : query := {| q_validate := v; q_fallback := Some true; q_other := None; q_args := None; q_parsers := l |}.
Example C50_first_ex : doparse (fun p _ => if p =? 4 then Good else Invalid) true (ex_q true [1; 4; 2]) true = Some (4, true) /\
  doparse (fun p _ => Invalid) true (ex_q true [1; 4; 2]) true = Some (1, false) /\ doparse (fun p _ => Invalid) false (ex_q true [1; 4; 2]) true = None.
Proof. vm_compute. auto. Qed.

(** Put together: a query without identifier or class gives a parser that validated
    the stream, and no parser that would validate it matches an earlier tag. *)
Theorem C50_choice : forall lower order classes db tags q make uf fb p v,
  (forall i l, Permutation (order i l) l) -> NoDup (map fst classes) -> Forall (fun c => NoDup (map fst (snd c))) classes -> load empty_db classes = Ok db ->
  (forall p, ~ In (TClass p) tags) -> (forall name w w', In (TTag name w) tags -> q_translate lower name w <> Ok (lit "id", w')) ->
  make_query lower order db tags = Ok q -> doparse make uf q fb = Some (p, v) ->
  let m := matches lower (tags_of classes) in
  In p (parser_list db) /\
  (v = true -> make p true = Good /\ forall x a b, In x (q_parsers q) -> make x true = Good -> rank m (active tags) p a -> rank m (active tags) x b -> (a <= b)%nat) /\
  (v = false -> uf = true /\ forall x, In x (q_parsers q) -> make x true <> Good).
Proof.
  intros lower order classes db tags q make uf fb p v perm ND W E NC NI Q P m.
  destruct (C50_order lower order classes db tags q perm ND W E NC Q) as (O1 & O2 & O3). fold m in O2, O3.
  assert (V : q_validate q = true).
  { unfold make_query in Q. destruct (q_loop lower order db 0 tags _) as [st|] eqn:L; [|discriminate]. cbn [bind] in Q. injection Q as <-. cbn [q_validate].
    apply (q_loop_validate _ _ _ _ _ _ _ L eq_refl). apply Forall_forall. intros t T H.
    assert (T' : In t tags). { clear -T. induction tags as [|u tags IH]; [destruct T|]. destruct u; cbn [active In] in T; try (destruct T as [<-|T]; [left; reflexivity|right; auto]); destruct T. }
    destruct t; cbn [wants_id] in H; try contradiction; [exact (NC _ T')|]. destruct H as [w' H]. exact (NI _ _ _ T' H). }
  destruct (doparse_spec make uf q fb) as [F1 F2]. rewrite V in *.
  assert (CASES : (exists a p b, q_parsers q = a ++ p :: b /\ make p true = Good /\ (forall x, In x a -> make x true <> Good)) \/ (forall x, In x (q_parsers q) -> make x true <> Good)).
  { clear. induction (q_parsers q) as [|y l [(a & p & b & -> & G & N)|IH]]; [right; intros x []| |].
    - destruct (make y true) eqn:M; [left; exists [], y, (a ++ p :: b); split; [reflexivity|]; split; [exact M|intros x []]| |]; (left; exists (y :: a), p, b; split; [reflexivity|]; split; [exact G|]; intros x [<-|H]; [congruence|exact (N x H)]).
    - destruct (make y true) eqn:M; [left; exists [], y, l; split; [reflexivity|]; split; [exact M|intros x []]| |]; (right; intros x [<-|H]; [congruence|exact (IH x H)]). }
  destruct CASES as [(a & p' & b & L & G & N)|N].
  - rewrite (F1 a p' b L G N) in P. injection P as <- <-. split; [apply O2; rewrite L; apply in_or_app; right; left; reflexivity|]. split; [|discriminate].
    intros _. split; [exact G|]. intros x i j X GX RP RX. rewrite L in X. apply in_app_or in X. destruct X as [X|[<-|X]]; [destruct (N x X GX)|rewrite (rank_fun _ _ _ _ _ RP RX); lia|].
    apply (O3 p' x i j); [|exact RP|exact RX]. rewrite L. apply before_app. right; left. apply before_cons. left. auto.
  - apply (F2 N) in P. cbn [fst snd] in P. destruct P as (U & _ & _ & -> & H & _). split; [apply O2; destruct (q_parsers q); [discriminate|]; injection H as ->; left; reflexivity|].
    split; [discriminate|]. auto.
Qed.
Print Assumptions C50_choice.

(** Parsing the same stream again with the same query gives a parser of the same
    class. *)
Lemma doparse_in make uf q fb p v : doparse make uf q fb = Some (p, v) -> In p (q_parsers q).
Proof.
  intros E. unfold doparse in E. destruct (doparse_loop _ _ _ _ _ _) as [o f] eqn:L.
  pose proof (doparse_loop_good make (q_validate q) (match q_fallback q with Some true => true | _ => false end) (q_parsers q) fb None o) as G. rewrite L in G. specialize (G eq_refl).
  pose proof (doparse_loop_fb make (q_validate q) (match q_fallback q with Some true => true | _ => false end) (q_parsers q) fb None) as FB. rewrite L in FB. cbn [snd] in FB.
  destruct o as [p'|].
  - injection E as -> _. destruct G as (a & b & -> & _). apply in_or_app. right; left; reflexivity.
  - destruct f as [p'|]; [|discriminate]. destruct uf; [|discriminate]. injection E as -> _. destruct (q_parsers q) as [|x l]; [discriminate|].
    destruct (make x (q_validate q)); try discriminate. destruct (fb && _); [|discriminate]. injection FB as ->. left; reflexivity.
Qed.
Theorem C50_again : forall make uf q c fb p c', parse make uf q c fb = (Some p, c') -> forall make' uf' fb', parse make' uf' q c' fb' = (Some p, c').
Proof.
  intros make uf q c fb p c' E make' uf' fb'.
  assert (X : In p (q_parsers q) /\ c' = Some p).
  { unfold parse in E. destruct c as [r|].
    - destruct (mem r (q_parsers q)) eqn:M; [injection E as -> <-; apply mem_in in M; auto|]. destruct (doparse make uf q fb) as [[r' v]|] eqn:P; [|discriminate]. injection E as -> <-. split; [exact (doparse_in _ _ _ _ _ _ P)|reflexivity].
    - destruct (doparse make uf q fb) as [[r' v]|] eqn:P; [|discriminate]. injection E as -> <-. split; [exact (doparse_in _ _ _ _ _ _ P)|reflexivity]. }
  destruct X as [X ->]. unfold parse. apply mem_in in X. rewrite X. reflexivity.
Qed.
Print Assumptions C50_again.

(** "A parser is only given if it validated the stream, or was asked for by name"
    fails: an identifier nobody has turns the validation off for all parsers. *)
Theorem C50_id_refuted : exists q, make_query (fun s => s) (fun _ l => l) ex_db [TTag (lit "id") (Some (lit "nosuch"))] = Ok q /\
  doparse (fun _ validate => if validate then Invalid else Good) false q true = Some (1, false).
Proof. eexists. split; vm_compute; reflexivity. Qed.
Print Assumptions C50_id_refuted.
(** "No parser is tried twice" fails when the query names a class: it stays among
    the others. *)
Theorem C50_class_refuted : exists q, make_query (fun s => s) (fun _ l => l) ex_db [TClass 2] = Ok q /\ q_parsers q = [2; 1; 2; 4] /\ q_validate q = false.
Proof. eexists. split; [vm_compute; reflexivity|]. auto. Qed.
Print Assumptions C50_class_refuted.
(** "The answer does not depend on earlier queries" fails: the parser remembered by
    the stream is given although another one comes first and validates. *)
Theorem C50_cache_refuted : exists q1 q2 p,
  make_query (fun s => s) (fun _ l => l) ex_db [TTag (lit "file_ext") (Some (lit "doc"))] = Ok q1 /\
  make_query (fun s => s) (fun _ l => l) ex_db [TTag (lit "file_ext") (Some (lit "zip"))] = Ok q2 /\
  parse (fun _ _ => Good) false q1 None true = (Some 2, Some p) /\ parse (fun _ _ => Good) false q2 (Some p) true = (Some 2, Some p) /\ parse (fun _ _ => Good) false q2 None true = (Some 1, Some 1).
Proof. eexists _, _, _. repeat split; vm_compute; reflexivity. Qed.
Print Assumptions C50_cache_refuted.

(** The extension that is looked up for a file name *)
Lemma after_last_gen c s : forall acc, ~ In c acc -> match (fix go (s acc : str) : option str := match s with [] => None | x :: s => if x =? c then Some acc else go s (x :: acc) end) s acc with
  | Some e => exists d, rev s ++ acc = d ++ c :: e /\ ~ In c e | None => ~ In c (rev s ++ acc) end.
Proof.
  induction s as [|x s IH]; intros acc N; [exact N|]. destruct (x =? c) eqn:E.
  - apply Z.eqb_eq in E. subst x. exists (rev s). cbn [rev]. rewrite <- app_assoc. split; [reflexivity|exact N].
  - specialize (IH (x :: acc)). cbn [rev]. rewrite <- app_assoc. cbn [app]. apply IH. cbn. intros [H|H]; [lia|contradiction].
Qed.
Lemma after_last_spec c s : match after_last c s with Some e => exists d, s = d ++ c :: e /\ ~ In c e | None => ~ In c s end.
Proof. pose proof (after_last_gen c (rev s) [] (fun H => H)) as X. rewrite rev_involutive, app_nil_r in X. exact X. Qed.
Lemma last_split {A} (c : A) d e d' e' : ~ In c e -> ~ In c e' -> d ++ c :: e = d' ++ c :: e' -> d = d' /\ e = e'.
Proof.
  revert d'. induction d as [|x d IH]; intros [|x' d'] N N' E; cbn in E.
  - injection E as ->. auto.
  - injection E as -> ->. destruct N. apply in_or_app. right; left; reflexivity.
  - injection E as -> <-. destruct N'. apply in_or_app. right; left; reflexivity.
  - injection E as -> E. destruct (IH d' N N' E). subst. auto.
Qed.
Theorem C50_extension : forall lower s, exists e', q_translate lower (lit "filename") (Some s) = Ok (lit "file_ext", Some e') /\
  (forall e, extension s e -> e' = lower e) /\ ((forall e, ~ extension s e) -> e' = []).
Proof.
  intros lower s. unfold q_translate. rewrite str_eqb_refl. eexists. split; [reflexivity|].
  assert (B : (exists dir, s = dir ++ 47 :: basename s /\ ~ In 47 (basename s)) \/ (s = basename s /\ ~ In 47 s)).
  { unfold basename. pose proof (after_last_spec 47 s) as X. destruct (after_last 47 s) as [t|]; [left; exact X|right; auto]. }
  pose proof (after_last_spec 46 (basename s)) as X. set (b := basename s) in *. destruct (after_last 46 b) as [x|].
  - destruct X as (base & EB & NX). split.
    + intros e (dir & base' & F & N1 & N2). f_equal. 
      assert (Y : b = base' ++ 46 :: e).
      { assert (N3 : ~ In 47 (base' ++ 46 :: e)) by (rewrite in_app_iff in *; cbn; intuition discriminate). destruct F as [F|F], B as [(d & B & NB)|[B NB]].
        - destruct (last_split 47 d b dir _ NB N3); [congruence|assumption].
        - destruct NB. rewrite F. apply in_or_app. right; left; reflexivity.
        - destruct N3. rewrite <- F, B. apply in_or_app. right; left; reflexivity.
        - congruence. }
      rewrite EB in Y. apply (last_split 46 base x base' e NX N2 Y).
    + intros NE. destruct (NE x). destruct B as [(d & B & NB)|[B NB]].
      * exists d, base. rewrite <- EB. split; [left; exact B|]. split; [|exact NX]. intros I. apply NB. rewrite EB. apply in_app_or in I. apply in_or_app. cbn. tauto.
      * exists [], base. rewrite <- EB. split; [right; exact B|]. split; [|exact NX]. intros I. apply NB. rewrite B, EB. apply in_app_or in I. apply in_or_app. cbn. tauto.
  - split; [|reflexivity]. intros e (dir & base' & F & N1 & N2). destruct X.
    assert (Y : b = base' ++ 46 :: e).
    { assert (N3 : ~ In 47 (base' ++ 46 :: e)) by (rewrite in_app_iff in *; cbn; intuition discriminate). destruct F as [F|F], B as [(d & B & NB)|[B NB]].
      - destruct (last_split 47 d b dir _ NB N3); [congruence|assumption].
      - destruct NB. rewrite F. apply in_or_app. right; left; reflexivity.
      - destruct N3. rewrite <- F, B. apply in_or_app. right; left; reflexivity.
      - congruence. }
    rewrite Y. apply in_or_app. right; left; reflexivity.
Qed.
Print Assumptions C50_extension.
Example C50_extension_ex : q_translate (fun s => s) (lit "filename") (Some (lit "/a.b/archive.tar.gz")) = Ok (lit "file_ext", Some (lit "gz")) /\
  q_translate (fun s => s) (lit "filename") (Some (lit "/a.b/README")) = Ok (lit "file_ext", Some []).
Proof. vm_compute. auto. Qed.

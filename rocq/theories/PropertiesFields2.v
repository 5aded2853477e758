(** Properties C26 (paths), C27 (gaps) and C28 (static field sets). *)
From Coq Require Import String.
From Verif Require Import Base DictModel ToolsModel Lit FieldModel FieldSpec FieldNames.
From Verif Require Import PathModel PathSpec PathProofs GapModel GapSpec GapProofs StaticModel StaticSpec StaticProofs.

(** ** C26 *)
(** In the tree left by any history of accesses, looking up the path of a field
    from any field [q] of the tree gives this field.  Partial: the names of the
    field and of its ancestors must not contain "/", be empty or be made of
    dots. *)
Theorem C26_path_partial : forall g size autofix ops p q f, 0 < size ->
  let root := tree (fst (do_accesses autofix ops (root_set g size))) in
  at_pos root p = Some f -> Forall legal (names_to root p) -> get_field root q (path_of root p) = Ok p.
Proof. intros g size autofix ops p q f Hs root. exact (path_lemma root p q f (history_distinct g size autofix ops Hs)). Qed.
Print Assumptions C26_path_partial.
(** The same for a path relative to any field [f] of the tree. *)
Theorem C26_relative_partial : forall g size autofix ops p q f h, 0 < size ->
  let root := tree (fst (do_accesses autofix ops (root_set g size))) in
  at_pos root q = Some f -> at_pos f p = Some h -> p <> [] -> Forall legal (names_to f p) ->
  get_field root q (join_with slash (names_to f p)) = Ok (q ++ p).
Proof. intros g size autofix ops p q f h Hs root. exact (relative_lemma root p q f h (history_distinct g size autofix ops Hs)). Qed.
Print Assumptions C26_relative_partial.
(** "." is the field itself, ".." its parent, "/" the root; n + 1 dots go n
    levels up.  No condition on names. *)
Theorem C26_dots : forall root p,
  get_field root p [dot] = Ok p /\ get_field root p [slash] = Ok [] /\
  (p <> [] -> get_field root p [dot; dot] = Ok (parent_pos p)) /\
  (forall n, (n <= length p)%nat -> get_field root p (repeat dot (S n)) = Ok (firstn (length p - n) p)).
Proof.
  intros root p. split; [exact (dot_lemma root p)|]. split; [exact (root_lemma root p)|]. split; [exact (parent_lemma root p)|].
  exact (dots_lemma root p).
Qed.
Print Assumptions C26_dots.
(** Whatever the key, a successful lookup gives a field of the tree. *)
Theorem C26_valid : forall root p f key q, at_pos root p = Some f -> get_field root p key = Ok q -> exists h, at_pos root q = Some h.
Proof. exact get_field_valid. Qed.
Print Assumptions C26_valid.
(** joinPath of the path of a set and the name of a child is the path of the child. *)
Theorem C26_join_path : forall root p i f h, at_pos root p = Some f -> at_pos root (p ++ [i]) = Some h -> Forall legal (names_to root p) ->
  join_path (path_of root p) (f_name h) = path_of root (p ++ [i]).
Proof. exact join_path_lemma. Qed.
Print Assumptions C26_join_path.
(** The absolute address is the sum of the addresses along the path. *)
Theorem C26_absolute_address : forall root p i n a s f, absolute_address root [] = 0 /\
  (at_pos root p = Some (FSet n a s) -> nth_error (fields s) i = Some f ->
   absolute_address root (p ++ [i]) = absolute_address root p + f_addr f).
Proof. intros root p i n a s f. split; [reflexivity|]. exact (absolute_child root p i n a s f). Qed.
Print Assumptions C26_absolute_address.
(** The extent of a field is inside its parent's. *)
Theorem C26_extent_partial : forall g size autofix ops p i n a s f, gen_ok g -> 0 < size ->
  let root := tree (fst (do_accesses autofix ops (root_set g size))) in
  at_pos root p = Some (FSet n a s) -> nth_error (fields s) i = Some f ->
  absolute_address root p <= absolute_address root (p ++ [i]) /\ 0 <= f_size f /\
  absolute_address root (p ++ [i]) + f_size f <= absolute_address root p + f_size (FSet n a s).
Proof. exact extent_lemma. Qed.
Print Assumptions C26_extent_partial.

Definition ex26 : field := tree (fst (do_accesses true [AName (lit "it[1]"); AIn (lit "it[0]") AAll; ALen] (root_set
  (GYield (SLeaf (lit "head") 8) (fun _ => GYield (SSet (lit "it[]") (Some 16) (gen_of_list [(lit "a", 8); (lit "b", 8)])) (fun _ =>
   GYield (SLeaf (lit "it[]") 8) (fun _ => GStop)))) 32))).
Example C26_ex_path : path_of ex26 [1; 1]%nat = lit "/it[0]/b" /\ get_field ex26 [2]%nat (lit "/it[0]/b") = Ok [1; 1]%nat.
Proof. split; reflexivity. Qed.
Example C26_ex_legal : Forall legal (names_to ex26 [1; 1]%nat).
Proof.
  repeat constructor; try discriminate.
  1,3: intros H; cbv in H; repeat (destruct H as [H|H]; [discriminate|]); exact H.
  - exists 105. split; [left; reflexivity|discriminate].
  - exists 98. split; [left; reflexivity|discriminate].
Qed.
Example C26_ex_address : absolute_address ex26 [1; 1]%nat = 16 /\ get_field ex26 [1; 1]%nat (lit "../a") = Ok [1; 0]%nat
  /\ get_field ex26 [1; 1]%nat (lit "../../head") = Ok [0]%nat /\ get_field ex26 [1; 1]%nat (lit "....") = Err MissingField.
Proof. repeat split; reflexivity. Qed.
(** Names are not checked: a field named "a/b" cannot be reached by its path,
    and the path of a field named "." is another field. *)
Theorem C26_path_refuted : exists g size ops p q, 0 < size /\
  let root := tree (fst (do_accesses true ops (root_set g size))) in
  (exists f, at_pos root p = Some f) /\ (exists f, at_pos root q = Some f) /\
  get_field root [] (path_of root p) = Err MissingField /\ get_field root [] (path_of root q) = Ok [].
Proof.
  exists (gen_of_list [(lit "a/b", 8); (lit ".", 8)]), 16, [ALen], [0]%nat, [1]%nat.
  split; [lia|]. split; [eexists; reflexivity|]. split; [eexists; reflexivity|]. split; reflexivity.
Qed.
Print Assumptions C26_path_refuted.

(** ** C27 *)
(** The gaps are exactly the part of the window that no block covers... *)
Theorem C27_gaps_exact_partial : forall start length blocks x, (forall s l, In (s, l) blocks -> s <= start + length) ->
  (covered (getgaps start length blocks) x <-> start <= x < start + length /\ ~ covered blocks x).
Proof. exact gaps_exact. Qed.
Print Assumptions C27_gaps_exact_partial.
(** ... in order and maximal (two gaps never touch). *)
Theorem C27_gaps_maximal_partial : forall start length blocks, Forall (fun b => 0 < snd b) blocks -> apart start (getgaps start length blocks).
Proof. exact gaps_apart. Qed.
Print Assumptions C27_gaps_maximal_partial.
(** With no condition: gaps are never empty and go on up to the start of the
    last block if it is after the window. *)
Theorem C27_gaps_general : forall start length blocks,
  Forall (fun g => 0 < snd g) (getgaps start length blocks) /\
  forall x, covered (getgaps start length blocks) x <->
    start <= x < fold_right (fun b m => Z.max (fst b) m) (start + length) blocks /\ ~ covered blocks x.
Proof. intros start length blocks. split; [apply gaps_loop_positive|intros x; apply gaps_general]. Qed.
Print Assumptions C27_gaps_general.
Example C27_ex : getgaps 10 30 [(20, 5); (12, 4); (14, 3); (30, 10)] = [(10, 2); (17, 3); (25, 5)].
Proof. reflexivity. Qed.
Example C27_ex_hyp : (forall s l, In (s, l) [(20, 5); (12, 4); (14, 3); (30, 10)] -> s <= 10 + 30) /\
  Forall (fun b => 0 < snd b) [(20, 5); (12, 4); (14, 3); (30, 10)].
Proof.
  split.
  - intros s l H. cbn in H. repeat (destruct H as [H|H]; [injection H as <- <-; lia|]). contradiction.
  - repeat constructor.
Qed.
(** A block after the window makes a gap leave it. *)
Theorem C27_window_refuted : exists start length blocks x,
  covered (getgaps start length blocks) x /\ ~ x < start + length /\ Forall (fun b => 0 < snd b) blocks.
Proof. exists 0, 8, [(20, 4)], 15. split; [exists 0, 20; split; [left; reflexivity|lia]|]. split; [lia|]. repeat constructor. Qed.
Print Assumptions C27_window_refuted.
(** An empty block (an empty field is allowed in a seekable set) cuts a gap in two. *)
Theorem C27_maximal_refuted : exists start length blocks, (forall s l, In (s, l) blocks -> s <= start + length /\ 0 <= l) /\
  ~ apart start (getgaps start length blocks).
Proof.
  exists 0, 8, [(4, 0)]. split; [intros s l [H|[]]; injection H as <- <-; lia|]. cbn. lia.
Qed.
Print Assumptions C27_maximal_refuted.
(** The repair of a seekable set at the end of parsing: some last fields may be
    dropped; the added padding covers exactly what no kept field covers; the
    final size is not smaller than the announced one and no field goes
    beyond it.  No more fields are dropped than needed: with the first dropped
    one, the current size would be above the announced size. *)
Theorem C27_repair : forall base size cur l l' size' cur', Forall (fun f => 0 <= snd f) l ->
  fix_seekable base size cur l = Ok (l', size', cur') ->
  size <= size' /\ cur' = size' /\
  exists kept gone gaps, l = kept ++ gone /\ l' = kept ++ gaps /\
    (forall x, covered gaps x <-> 0 <= x < size' /\ ~ covered kept x) /\
    (forall x, 0 <= x < size' -> covered l' x) /\ (forall f, In f l' -> fst f + snd f <= size') /\
    cur - sizes gone <= size /\ (forall f gone', gone = f :: gone' -> size < cur - sizes gone').
Proof. exact repair_ok. Qed.
Print Assumptions C27_repair.
Example C27_ex_repair : fix_seekable 100 64 24 [(0, 8); (40, 8); (16, 8)] = Ok ([(0, 8); (40, 8); (16, 8); (8, 8); (24, 16); (48, 16)], 64, 64).
Proof. reflexivity. Qed.
Example C27_ex_drop : fix_seekable 0 16 40 [(0, 8); (8, 16); (24, 16)] = Ok ([(0, 8); (8, 8)], 16, 16).
Proof. reflexivity. Qed.
(** A seekable set without any field is not repaired: max() of nothing raises. *)
Theorem C27_empty_refuted : forall base size, 0 <= size -> fix_seekable base size 0 [] = Err ValueError.
Proof. intros base size H. unfold fix_seekable. cbn [rev drop_last]. replace (size <? 0) with false by lia. reflexivity. Qed.
Print Assumptions C27_empty_refuted.

(** ** C28 *)
(** Whatever classes were instantiated before, in any order, an instance has
    the size of what its format contains.  Partial: no class replaces a format
    it inherits; no timestamp and no GenericInteger in formats. *)
Theorem C28_static_size_partial : forall table history c z,
  well_formed table -> no_redefinition table -> proper_leaves table ->
  has_size table c z -> snd (instance table (instances table cinit history) c) = Ok z.
Proof. intros table history c z Hw Hn Hp. exact (static_lemma table Hw Hn Hp history c z). Qed.
Print Assumptions C28_static_size_partial.
(** class A: UInt8, 4 bytes; class B(A); class C: A, Bit, B, Bits(7) *)
Definition ex28 : list cls :=
  [ {| c_name := lit "A"; c_base := None; c_format := Some [ILeaf (LInt 8); ILeaf (LBytes 4)] |};
    {| c_name := lit "B"; c_base := Some 0%nat; c_format := None |};
    {| c_name := lit "C"; c_base := None; c_format := Some [ISet 0; ILeaf LBit; ISet 1; ILeaf (LBits 7)] |} ].
Example C28_ex_wf : well_formed ex28.
Proof.
  intros c k Hc. destruct c as [|[|[|c]]]; cbn in Hc; [injection Hc as <-..|destruct c; discriminate]; cbn; split; intros.
  - discriminate.
  - injection H as <-. cbn in H0. destruct H0 as [E|[E|[]]]; discriminate.
  - injection H as <-. lia.
  - discriminate.
  - discriminate.
  - injection H as <-. cbn in H0. destruct H0 as [E|[E|[E|[E|[]]]]]; try discriminate; injection E as <-; lia.
Qed.
Example C28_ex_nr : no_redefinition ex28.
Proof. intros c k b items Hc. destruct c as [|[|[|c]]]; cbn in Hc; [injection Hc as <-..|destruct c; discriminate]; cbn; intros; congruence. Qed.
Example C28_ex_proper : proper_leaves ex28.
Proof.
  intros c k items l Hc. destruct c as [|[|[|c]]]; cbn in Hc; [injection Hc as <-..|destruct c; discriminate]; cbn; intros E; try discriminate;
  injection E as <-; cbn; intros H; repeat (destruct H as [H|H]; [try discriminate; injection H as <-; exact I|]); contradiction.
Qed.
Example C28_ex_size : has_size ex28 2 88.
Proof.
  assert (HA : has_size ex28 0 40).
  { econstructor; [eapply hf_own; reflexivity|]. change 40 with (leaf_size (LInt 8) + (leaf_size (LBytes 4) + 0)). repeat constructor. }
  econstructor; [eapply hf_own; reflexivity|]. change 88 with (40 + (leaf_size LBit + (40 + (leaf_size (LBits 7) + 0)))).
  constructor; [exact HA|]. constructor. constructor; [|repeat constructor].
  inversion HA; subst. econstructor; [|eassumption]. eapply hf_base; try reflexivity. assumption.
Qed.
Example C28_ex_run : snd (instance ex28 (instances ex28 cinit [1; 0; 2]%nat) 2) = Ok 88.
Proof. reflexivity. Qed.
(** A class that replaces an inherited format: once its base was instantiated,
    a class containing it gets a wrong size (24 instead of 32). *)
Theorem C28_redefinition_refuted : exists table history c z, well_formed table /\ proper_leaves table /\
  has_size table c z /\ snd (instance table (instances table cinit []) c) = Ok z /\
  snd (instance table (instances table cinit history) c) <> Ok z.
Proof.
  exists [ {| c_name := lit "A"; c_base := None; c_format := Some [ILeaf (LInt 8)] |};
           {| c_name := lit "B"; c_base := Some 0%nat; c_format := Some [ILeaf (LInt 16)] |};
           {| c_name := lit "C"; c_base := None; c_format := Some [ISet 1; ILeaf (LInt 16)] |} ], [0%nat], 2%nat, 32.
  split; [|split; [|split; [|split]]].
  - intros c k Hc. destruct c as [|[|[|c]]]; cbn in Hc; [injection Hc as <-..|destruct c; discriminate]; cbn; split; intros; try discriminate;
    injection H as <-; cbn in *; try lia; repeat (destruct H0 as [H0|H0]; [try discriminate; injection H0 as <-; lia|]); contradiction.
  - intros c k items l Hc. destruct c as [|[|[|c]]]; cbn in Hc; [injection Hc as <-..|destruct c; discriminate]; cbn; intros E;
    injection E as <-; cbn; intros H; repeat (destruct H as [H|H]; [try discriminate; injection H as <-; exact I|]); contradiction.
  - econstructor; [eapply hf_own; reflexivity|]. change 32 with (16 + (leaf_size (LInt 16) + 0)). repeat constructor.
    econstructor; [eapply hf_own; reflexivity|]. change 16 with (leaf_size (LInt 16) + 0). repeat constructor.
  - reflexivity.
  - cbv. discriminate.
Qed.
Print Assumptions C28_redefinition_refuted.
(** static_size of a GenericInteger is its [signed] argument, and a timestamp
    cannot be in a format at all. *)
Theorem C28_leaf_refuted :
  snd (instance [ {| c_name := lit "A"; c_base := None; c_format := Some [ILeaf (LGenInt false 16); ILeaf (LInt 8)] |} ] cinit 0) = Ok 8 /\
  snd (instance [ {| c_name := lit "A"; c_base := None; c_format := Some [ILeaf (LTime 32); ILeaf (LInt 8)] |} ] cinit 0) = Err IndexError.
Proof. split; reflexivity. Qed.
Print Assumptions C28_leaf_refuted.

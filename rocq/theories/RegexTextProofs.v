(** Parsing the text of a regex gives a regex that matches the same. *)
From Coq Require Import String.
From Verif Require Import Base DictModel DictProofs Lit BitsModel FieldModel FieldNames RegexModel RegexSpec RegexTextModel RegexProofs RegexProofs2 RegexProofs3 RegexProofs4.
Open Scope Z_scope.
Ltac Zify.zify_post_hook ::= Z.div_mod_to_equations.

(** Characters at known positions *)
Lemma nth_mid {A} (pre post : list A) c : nth_error (pre ++ c :: post) (Z.to_nat (zlen pre)) = Some c.
Proof. unfold zlen. rewrite Nat2Z.id, nth_error_app2, Nat.sub_diag by lia. reflexivity. Qed.
Lemma char_at_mid pre c post : char_at (pre ++ c :: post) (zlen pre) = Ok c.
Proof. unfold char_at. rewrite nth_mid. reflexivity. Qed.
Lemma char_is_mid pre c post x : char_is (pre ++ c :: post) (zlen pre) x = (c =? x).
Proof. unfold char_is. rewrite nth_mid. reflexivity. Qed.
Lemma zlen_app' {A} (a b : list A) : zlen (a ++ b) = zlen a + zlen b. Proof. unfold zlen. rewrite app_length. lia. Qed.
Lemma zlen_cons' {A} (x : A) (b : list A) : zlen (x :: b) = 1 + zlen b. Proof. unfold zlen. cbn [length]. lia. Qed.
Lemma zlen_pos {A} (b : list A) : 0 <= zlen b. Proof. unfold zlen. lia. Qed.
Lemma char_at_1 pre a c post : char_at (pre ++ a :: c :: post) (zlen pre + 1) = Ok c.
Proof. change (a :: c :: post) with ([a] ++ c :: post). rewrite app_assoc. replace (zlen pre + 1) with (zlen (pre ++ [a])) by (rewrite zlen_app'; reflexivity). apply char_at_mid. Qed.
Lemma char_is_1 pre a c post x : char_is (pre ++ a :: c :: post) (zlen pre + 1) x = (c =? x).
Proof. change (a :: c :: post) with ([a] ++ c :: post). rewrite app_assoc. replace (zlen pre + 1) with (zlen (pre ++ [a])) by (rewrite zlen_app'; reflexivity). apply char_is_mid. Qed.
Lemma char_at_2 pre a b c post : char_at (pre ++ a :: b :: c :: post) (zlen pre + 2) = Ok c.
Proof. change (a :: b :: c :: post) with ([a; b] ++ c :: post). rewrite app_assoc. replace (zlen pre + 2) with (zlen (pre ++ [a; b])) by (rewrite zlen_app'; reflexivity). apply char_at_mid. Qed.
Lemma char_is_2 pre a b c post x : char_is (pre ++ a :: b :: c :: post) (zlen pre + 2) x = (c =? x).
Proof. change (a :: b :: c :: post) with ([a; b] ++ c :: post). rewrite app_assoc. replace (zlen pre + 2) with (zlen (pre ++ [a; b])) by (rewrite zlen_app'; reflexivity). apply char_is_mid. Qed.

(** ** Ranges *)
Definition plain_char (c : Z) : Prop := c <> 92 /\ c <> 45 /\ c <> 93 /\ c <> 94.
Definition plain_item (i : item) : Prop := item_valid i /\ plain_char (cmin i) /\ plain_char (cmax i).
Lemma item_str_first i : exists rest, item_str i = cmin i :: rest.
Proof. unfold item_str. destruct (cmin i =? cmax i); [eauto|]. destruct (cmin i + 1 =? cmax i); eauto. Qed.
Lemma range_loop_ok l : forall pre post fuel items, Forall plain_item l -> Forall item_valid items ->
  (length (List.concat (map item_str l)) < fuel)%nat ->
  exists items', range_loop fuel (pre ++ List.concat (map item_str l) ++ 93 :: post) (zlen pre) items = Ok (items', zlen pre + zlen (List.concat (map item_str l))) /\
    Forall item_valid items' /\ (items <> [] \/ l <> [] -> items' <> []) /\ forall c, in_ranges items' c <-> in_ranges items c \/ in_ranges l c.
Proof.
  induction l as [|i l IH]; intros pre post fuel items Pl Vi Lf; (destruct fuel as [|fuel]; [lia|]).
  - cbn [map List.concat app]. cbn [range_loop]. rewrite char_is_mid. change (93 =? 93) with true. rewrite andb_false_r. exists items.
    split; [change (zlen (@nil Z)) with 0; rewrite Z.add_0_r; reflexivity|]. split; [exact Vi|]. split; [intros [H|H]; congruence|]. intros c. rewrite in_ranges_nil. tauto.
  - inversion Pl as [|? ? Pi Pl']; subst. destruct Pi as (V & (Pa1 & Pa2 & Pa3 & Pa4) & (Pb1 & Pb2 & Pb3 & Pb4)). unfold item_valid in V.
    cbn [map List.concat] in *. rewrite app_length in Lf.
    (* what follows an item is not a dash *)
    assert (Next : exists d post', List.concat (map item_str l) ++ 93 :: post = d :: post' /\ d <> 45).
    { destruct l as [|j l]; [exists 93, post; split; [reflexivity| lia]|]. inversion Pl' as [|? ? Pj _]; subst. destruct Pj as (_ & (_ & P2 & _) & _).
      destruct (item_str_first j) as [rest Er]. cbn [map List.concat]. rewrite Er. cbn [app]. eexists; eexists. split; [reflexivity| exact P2]. }
    (* one turn on a plain character *)
    assert (One : forall fuel pre a d rest items, plain_char a -> d <> 45 ->
      range_loop (S fuel) (pre ++ a :: d :: rest) (zlen pre) items = range_loop fuel (pre ++ a :: d :: rest) (zlen (pre ++ [a])) (items ++ [range_char a])).
    { clear. intros fuel pre a d rest items (N1 & N2 & N3 & N4) Nd. cbn [range_loop]. rewrite !char_is_mid, !char_is_1.
      replace (a =? 93) with false by lia. replace (a =? 92) with false by lia. replace (a =? 45) with false by lia. replace (d =? 45) with false by lia.
      rewrite !andb_false_r. cbn [andb negb]. rewrite char_at_mid. cbn [bind].
      replace (zlen pre <? zlen (pre ++ a :: d :: rest)) with true by (rewrite zlen_app', !zlen_cons'; pose proof (zlen_pos rest); lia).
      cbn [andb]. replace (zlen (pre ++ [a])) with (zlen pre + 1) by (rewrite zlen_app'; reflexivity). reflexivity. }
    remember (item_str i) as is eqn:Ei. unfold item_str in Ei. destruct (cmin i =? cmax i) eqn:E1; [|destruct (cmin i + 1 =? cmax i) eqn:E2]; subst is.
    + destruct Next as (d & post' & En & Nd). cbn [app length] in *.
      rewrite En. rewrite One by (auto; repeat split; auto). rewrite <- En.
      change (cmin i :: List.concat (map item_str l) ++ 93 :: post) with ([cmin i] ++ (List.concat (map item_str l) ++ 93 :: post)). rewrite app_assoc.
      destruct (IH (pre ++ [cmin i]) post fuel (items ++ [range_char (cmin i)]) Pl') as (items' & R1 & R2 & R3 & R4); [apply Forall_app; split; [exact Vi| repeat constructor; unfold item_valid; cbn; lia] | lia|].
      exists items'. rewrite R1. split; [f_equal; f_equal; rewrite zlen_app', !zlen_cons'; change (zlen (@nil Z)) with 0; lia|]. split; [exact R2|]. split; [intros _; apply R3; left; destruct items; discriminate|].
      intros c. rewrite R4, in_ranges_app, in_ranges_cons, (in_ranges_cons i l), in_ranges_nil. cbn [range_char cmin cmax]. assert (cmin i = cmax i) by lia. rewrite H. tauto.
    + destruct Next as (d & post' & En & Nd). cbn [app length] in *. destruct fuel as [|fuel]; [lia|].
      rewrite En. rewrite One by (auto; repeat split; auto).
      change (cmin i :: cmax i :: d :: post') with ([cmin i] ++ cmax i :: d :: post'). rewrite app_assoc.
      rewrite One by (auto; repeat split; auto). rewrite <- En.
      destruct (IH (pre ++ [cmin i; cmax i]) post fuel ((items ++ [range_char (cmin i)]) ++ [range_char (cmax i)]) Pl') as (items' & R1 & R2 & R3 & R4).
      { rewrite <- app_assoc. apply Forall_app. split; [exact Vi| repeat constructor; unfold item_valid; cbn; lia]. } { lia. }
      exists items'. rewrite <- !app_assoc in R1 |- *. cbn [app] in R1 |- *. rewrite <- (app_assoc items). cbn [app]. rewrite R1. split; [f_equal; f_equal; rewrite zlen_app', !zlen_cons'; change (zlen (@nil Z)) with 0; lia|]. split; [exact R2|]. split; [intros _; apply R3; left; destruct items; discriminate|].
      intros c. rewrite R4, !in_ranges_app, !in_ranges_one, (in_ranges_cons i l). cbn [range_char cmin cmax]. assert (cmin i + 1 = cmax i) by lia.
      split; [intros [[[H1|H1]|H1]|H1]; auto; right; left; lia | intros [H1|[H1|H1]]; auto]. assert (c = cmin i \/ c = cmax i) as [->| ->] by lia; left; [left; right|right]; lia.
    + destruct Next as (d & post' & En & Nd). cbn [app length] in *. rewrite En.
      cbn [range_loop]. rewrite !char_is_mid, !char_is_1, char_is_2, char_at_mid, char_at_2.
      replace (cmin i =? 93) with false by lia. replace (cmin i =? 92) with false by lia. replace (cmin i =? 45) with false by lia. replace (cmax i =? 93) with false by lia.
      rewrite !andb_false_r. cbn [andb negb bind Z.eqb Pos.eqb]. unfold range_item. replace (cmax i <? cmin i) with false by lia. cbn [bind].
      replace (zlen pre <? zlen (pre ++ cmin i :: 45 :: cmax i :: d :: post')) with true by (rewrite zlen_app', !zlen_cons'; pose proof (zlen_pos post'); lia).
      replace (zlen pre + 3 <? zlen (pre ++ cmin i :: 45 :: cmax i :: d :: post')) with true by (rewrite zlen_app', !zlen_cons'; pose proof (zlen_pos post'); lia).
      cbn [andb]. rewrite <- En.
      change (cmin i :: 45 :: cmax i :: List.concat (map item_str l) ++ 93 :: post) with ([cmin i; 45; cmax i] ++ (List.concat (map item_str l) ++ 93 :: post)). rewrite app_assoc.
      replace (zlen pre + 3) with (zlen (pre ++ [cmin i; 45; cmax i])) by (rewrite zlen_app'; reflexivity).
      replace {| cmin := cmin i; cmax := cmax i |} with i by (destruct i; reflexivity).
      destruct (IH (pre ++ [cmin i; 45; cmax i]) post fuel (items ++ [i]) Pl') as (items' & R1 & R2 & R3 & R4); [apply Forall_app; split; [exact Vi| repeat constructor; exact V] | lia|].
      exists items'. rewrite R1. split; [f_equal; f_equal; rewrite zlen_app', !zlen_cons'; change (zlen (@nil Z)) with 0; lia|]. split; [exact R2|]. split; [intros _; apply R3; left; destruct items; discriminate|].
      intros c. rewrite R4, in_ranges_app, in_ranges_one, (in_ranges_cons i l). tauto.
Qed.
Lemma no_special l x : Forall plain_item l -> x = 45 \/ x = 93 -> existsb (str_eqb [x]) (map item_str l) = false.
Proof.
  intros P Hx. apply not_true_is_false. intros H. apply existsb_exists in H. destruct H as (s & I1 & I2). apply in_map_iff in I1. destruct I1 as (i & <- & Ii).
  rewrite Forall_forall in P. destruct (P i Ii) as (V & (A1 & A2 & A3 & A4) & _). apply str_eqb_eq in I2. destruct (item_str_first i) as [rest E]. rewrite E in I2. injection I2 as H _. lia.
Qed.
Lemma range_str_plain l : Forall plain_item l -> range_str l false = [91] ++ List.concat (map item_str l) ++ [93].
Proof.
  intros P. unfold range_str. cbv zeta. rewrite (no_special l 45 P) by auto. rewrite (no_special l 93 P) by auto. cbn [app]. rewrite app_nil_r. reflexivity.
Qed.
Lemma parseRange_ok pre post l : Forall plain_item l -> l <> [] ->
  exists m, parseRange (pre ++ List.concat (map item_str l) ++ 93 :: post) (zlen pre) = Ok (mk_range m false, zlen pre + zlen (List.concat (map item_str l)) + 1) /\
    Forall item_valid m /\ m <> [] /\ forall c, in_ranges m c <-> in_ranges l c.
Proof.
  intros P N. unfold parseRange.
  assert (F : exists c rest, List.concat (map item_str l) = c :: rest /\ c <> 94 /\ c <> 93).
  { destruct l as [|i l]; [congruence|]. inversion P as [|? ? Pi _]; subst. destruct Pi as (_ & (_ & _ & P3 & P4) & _). destruct (item_str_first i) as [rest E].
    cbn [map List.concat]. rewrite E. cbn [app]. eauto. }
  destruct F as (c & rest & E & N1 & N2).
  assert (C1 : char_at (pre ++ List.concat (map item_str l) ++ 93 :: post) (zlen pre) = Ok c) by (rewrite E; apply char_at_mid).
  rewrite C1. cbn [bind]. replace (c =? 94) with false by lia. cbv iota beta. rewrite C1. cbn [bind]. replace (c =? 93) with false by lia. cbv iota beta.
  destruct (range_loop_ok l pre post (length (pre ++ List.concat (map item_str l) ++ 93 :: post)) [] P (Forall_nil _)) as (m & R1 & R2 & R3 & R4).
  { rewrite !app_length. cbn [length]. lia. }
  rewrite R1. cbn [bind].
  assert (C2 : char_is (pre ++ List.concat (map item_str l) ++ 93 :: post) (zlen pre + zlen (List.concat (map item_str l))) 45 = false /\
               char_is (pre ++ List.concat (map item_str l) ++ 93 :: post) (zlen pre + zlen (List.concat (map item_str l))) 93 = true).
  { rewrite app_assoc, <- zlen_app'. rewrite !char_is_mid. auto. }
  destruct C2 as [C2 C3]. rewrite C2, andb_false_r. rewrite C3. cbn [negb orb]. rewrite orb_false_r.
  replace (_ =? _) with false by (rewrite !zlen_app', zlen_cons'; pose proof (zlen_pos post); lia).
  exists m. split; [reflexivity|]. split; [exact R2|]. split; [apply R3; right; exact N|]. intros x. rewrite R4, in_ranges_nil. tauto.
Qed.

(** ** Whole regexes *)
(** Regexes whose text can be read back: ranges of plain characters, repetitions of
    strings, ranges and dots *)
Definition simple (r : regex) : Prop := match r with RString _ | RDot => True | RRange l ex => Forall plain_item l | _ => False end.
Fixpoint readable (r : regex) : Prop :=
  match r with
  | RRange l ex => Forall plain_item l
  | RAnd l | ROr l => (fix all (l : list regex) : Prop := match l with [] => True | x :: l => readable x /\ all l end) l
  | RRepeat r lo hi => simple r /\ ~ (lo = 1 /\ hi = Some 1)
  | _ => True
  end.
Lemma readable_all l : (fix all (l : list regex) : Prop := match l with [] => True | x :: l => readable x /\ all l end) l <-> Forall readable l.
Proof. induction l as [|x l IH]; [split; auto|]. rewrite Forall_cons_iff, IH. reflexivity. Qed.

Section RoundTrip.
Context (same_items : list item -> list item -> bool) (same_items_ok : forall l m, same_items l m = true -> l = m).
Context (e : engine) (dot_ok : forall c, In c (text e) -> dot e c).
Context (python : bool).
Notation D := (denote e).
Notation ploop := (parse_loop same_items).

Definition last_wf (last : option regex) : Prop := match last with Some r => wf r | None => True end.
Definition enough (fuel : nat) (text : str) (index : Z) (k : Z) : Prop := 4 * (zlen text - index) + k <= Z.of_nat fuel.
Lemma add_last_wf r last : wf r -> last_wf last -> wf (add_last r last).
Proof using All. intros H K. destruct last; [apply and_ok; assumption| exact H]. Qed.
(** Parsing the text [s] of something that denotes [S] *)
Definition reads (s : str) (S : span) : Prop := forall pre post text until fuel r last, text = pre ++ s ++ post -> enough fuel text (zlen pre) 2 -> wf r -> last_wf last ->
  exists fuel' r' last', ploop fuel text until (zlen pre) r last = ploop fuel' text until (zlen (pre ++ s)) r' last' /\ enough fuel' text (zlen (pre ++ s)) 2 /\
    wf r' /\ last_wf last' /\ same (D (add_last r' last')) (s_seq (D (add_last r last)) S).
Lemma reads_same s S T : same S T -> reads s S -> reads s T.
Proof using All.
  intros H R pre post text until fuel r last E F W L. destruct (R pre post text until fuel r last E F W L) as (f' & r' & l' & K1 & K2 & K3 & K4 & K5).
  exists f', r', l'. repeat (split; [assumption|]). apply (same_trans _ _ _ K5). apply seq_same; [apply same_refl| exact H].
Qed.
Lemma reads_nil : reads [] s_empty.
Proof using All.
  intros pre post text until fuel r last E F W L. exists fuel, r, last. rewrite app_nil_r. repeat (split; [auto; reflexivity|]). apply same_sym, seq_empty_r.
Qed.
Lemma reads_app s t S T : reads s S -> reads t T -> reads (s ++ t) (s_seq S T).
Proof using All.
  intros RS RT pre post text until fuel r last E F W L. rewrite <- app_assoc in E.
  destruct (RS pre (t ++ post) text until fuel r last E F W L) as (f1 & r1 & l1 & A1 & A2 & A3 & A4 & A5).
  destruct (RT (pre ++ s) post text until f1 r1 l1) as (f2 & r2 & l2 & B1 & B2 & B3 & B4 & B5); auto; [rewrite E, <- app_assoc; reflexivity|].
  exists f2, r2, l2. rewrite app_assoc. split; [rewrite A1; exact B1|]. split; [exact B2|]. split; [exact B3|]. split; [exact B4|].
  apply (same_trans _ _ _ B5). apply (same_trans _ (s_seq (s_seq (D (add_last r last)) S) T)); [apply seq_same; [exact A5| apply same_refl] | apply same_sym, seq_assoc].
Qed.
(** One turn of the loop that reads [s] and gives [new] *)
Lemma reads_step s new S : (1 <= length s)%nat -> wf new -> same (D new) S ->
  (forall pre post fuel until r last, enough (Datatypes.S fuel) (pre ++ s ++ post) (zlen pre) 2 ->
     ploop (Datatypes.S fuel) (pre ++ s ++ post) until (zlen pre) r last = ploop fuel (pre ++ s ++ post) until (zlen (pre ++ s)) (add_last r last) (Some new)) ->
  reads s S.
Proof using All.
  intros Ls Wn Sn H pre post text until fuel r last -> F W L.
  assert (Lt : zlen pre < zlen (pre ++ s ++ post)) by (rewrite !zlen_app'; unfold zlen; lia).
  destruct fuel as [|fuel]; [unfold enough in F; lia|]. rewrite H by exact F.
  exists fuel, (add_last r last), (Some new). split; [reflexivity|]. split; [unfold enough in *; rewrite (zlen_app' pre s); rewrite !zlen_app' in *; unfold zlen in *; lia|].
  split; [apply add_last_wf; assumption|]. split; [exact Wn|]. cbn [add_last]. apply (same_trans _ _ _ (and_sem e _ new)). apply seq_same; [apply same_refl| exact Sn].
Qed.
Lemma ploop_S fuel pre c rest until r last : ploop (S fuel) (pre ++ c :: rest) until (zlen pre) r last =
  if until && ((c =? 124) || (c =? 41)) then Ok (add_last r last, zlen pre)
  else if is_command c then
    do step <-
      (if c =? 91 then do r <- parseRange (pre ++ c :: rest) (zlen pre + 1); Ok (fst r, snd r, last)
       else if c =? 40 then do r <- parse_or same_items fuel (pre ++ c :: rest) (zlen pre + 1); Ok (fst r, snd r, last)
       else if c =? 46 then Ok (RDot, zlen pre + 1, last)
       else if c =? 94 then Ok (RStart, zlen pre + 1, last)
       else if c =? 36 then Ok (REnd, zlen pre + 1, last)
       else if c =? 123 then
         do p <- parseRepeat (pre ++ c :: rest) (zlen pre + 1);
         let '(rmin, rmax, index) := p in
         match last with None => Err AttributeError | Some l => do r <- mk_repeat same_items l rmin rmax; Ok (r, index, None) end
       else match char_to_repeat c with
       | Some (rmin, rmax) => match last with None => Err ParserError | Some l => do r <- mk_repeat same_items l rmin rmax; Ok (r, zlen pre + 1, None) end
       | None =>
         if c =? 92 then
           if zlen pre + 1 =? zlen (pre ++ c :: rest) then Err ParserError
           else do c2 <- char_at (pre ++ c :: rest) (zlen pre + 1);
             if c2 =? 98 then Ok (RWord, zlen pre + 2, last)
             else if is_command c2 || (c2 =? 32) || (c2 =? 39) then Ok (RString [c2], zlen pre + 2, last)
             else Err ParserError
         else Err NotImplementedError
       end);
    let '(new, index, last) := step in ploop fuel (pre ++ c :: rest) until index (add_last r last) (Some new)
  else ploop fuel (pre ++ c :: rest) until (zlen pre + 1) (add_last r last) (Some (RString [c])).
Proof using All.
  cbn [parse_loop]. replace (zlen pre <? zlen (pre ++ c :: rest)) with true by (rewrite zlen_app', zlen_cons'; pose proof (zlen_pos rest); lia).
  rewrite char_at_mid. reflexivity.
Qed.
Lemma escape_step c pre post fuel until r last :
  ploop (S fuel) (pre ++ escape_char c ++ post) until (zlen pre) r last = ploop fuel (pre ++ escape_char c ++ post) until (zlen (pre ++ escape_char c)) (add_last r last) (Some (RString [c])).
Proof using All.
  unfold escape_char. destruct (is_command c) eqn:E.
  - cbn [app].
    rewrite ploop_S. replace (until && ((92 =? 124) || (92 =? 41))) with false by (destruct until; reflexivity).
    change (is_command 92) with true. cbv iota. change (92 =? 91) with false. change (92 =? 40) with false. change (92 =? 46) with false. change (92 =? 94) with false.
    change (92 =? 36) with false. change (92 =? 123) with false. change (char_to_repeat 92) with (@None (Z * option Z)). change (92 =? 92) with true. cbv iota.
    replace (zlen pre + 1 =? _) with false by (rewrite zlen_app', !zlen_cons'; pose proof (zlen_pos post); lia).
    rewrite char_at_1. cbn [bind]. replace (c =? 98) with false. 2:{ symmetry. apply Z.eqb_neq. intros ->. discriminate E. }
    rewrite E. cbn [orb]. rewrite zlen_app'. reflexivity.
  - cbn [app].
    rewrite ploop_S. rewrite E.
    replace (c =? 124) with false by (symmetry; apply Z.eqb_neq; intros ->; discriminate E).
    replace (c =? 41) with false by (symmetry; apply Z.eqb_neq; intros ->; discriminate E). rewrite andb_false_r. rewrite zlen_app'. reflexivity.
Qed.
Lemma escape_len c : (1 <= length (escape_char c))%nat.
Proof using All. unfold escape_char. destruct (is_command c); cbn; lia. Qed.
Lemma reads_escape c : reads (escape_char c) (s_char e (fun x => x = c)).
Proof using All.
  apply (reads_same _ (D (RString [c]))); [apply string_cons|].
  apply (reads_step _ (RString [c])); [apply escape_len| discriminate| apply same_refl|]. intros. apply escape_step.
Qed.
Lemma reads_string t : reads (escapeRegex t) (s_string e t).
Proof using All.
  induction t as [|c t IH]; [apply (reads_same _ _ _ (same_sym _ _ (string_nil e))), reads_nil|].
  apply (reads_same _ (s_seq (s_string e [c]) (s_string e t))); [apply same_sym; change (c :: t) with ([c] ++ t); apply string_app|].
  apply reads_app; [apply (reads_same _ _ _ (same_sym _ _ (string_cons e c))), reads_escape| exact IH].
Qed.
Lemma reads_range l : Forall plain_item l -> l <> [] -> reads (range_str l false) (D (RRange l false)).
Proof using All.
  intros P N. rewrite range_str_plain by exact P. intros pre post text until fuel r last -> F W L.
  assert (Et : pre ++ ([91] ++ List.concat (map item_str l) ++ [93]) ++ post = (pre ++ [91]) ++ List.concat (map item_str l) ++ 93 :: post) by (rewrite <- !app_assoc; reflexivity).
  destruct (parseRange_ok (pre ++ [91]) post l P N) as (m & R1 & R2 & R3 & R4).
  destruct (mk_range_spec m R2 R3) as (Wm & u & Eu & U).
  assert (Lt : zlen pre < zlen (pre ++ ([91] ++ List.concat (map item_str l) ++ [93]) ++ post)) by (rewrite zlen_app'; cbn [app]; rewrite zlen_cons'; pose proof (zlen_pos ((List.concat (map item_str l) ++ [93]) ++ post)); lia).
  destruct fuel as [|fuel]; [unfold enough in F; lia|].
  exists fuel, (add_last r last), (Some (mk_range m false)).
  assert (Li : zlen (pre ++ [91]) + zlen (List.concat (map item_str l)) + 1 = zlen (pre ++ [91] ++ List.concat (map item_str l) ++ [93])).
  { rewrite !zlen_app'. change (zlen [91]) with 1. change (zlen [93]) with 1. lia. }
  split.
  - cbn [app]. rewrite ploop_S. change (91 =? 124) with false. change (91 =? 41) with false. rewrite andb_false_r. change (is_command 91) with true. cbv iota. change (91 =? 91) with true. cbv iota.
    assert (Es : pre ++ 91 :: (List.concat (map item_str l) ++ [93]) ++ post = (pre ++ [91]) ++ List.concat (map item_str l) ++ 93 :: post) by (rewrite <- !app_assoc; reflexivity).
    rewrite Es. replace (zlen pre + 1) with (zlen (pre ++ [91])) by (rewrite zlen_app'; reflexivity). rewrite R1. cbn [bind fst snd]. rewrite Li. reflexivity.
  - split; [unfold enough in *; rewrite (zlen_app' pre ([91] ++ _)), !zlen_app' in *; change (zlen [91]) with 1 in *; change (zlen [93]) with 1 in *; pose proof (zlen_pos (List.concat (map item_str l))); lia|].
    split; [apply add_last_wf; assumption|]. split; [exact Wm|]. cbn [add_last]. apply (same_trans _ _ _ (and_sem e _ _)). apply seq_same; [apply same_refl|].
    rewrite Eu. cbn [denote]. apply char_same. intros c. rewrite U. apply R4.
Qed.
Lemma or_loop_S fuel text index acc : or_loop same_items (S fuel) text index acc =
  (do p <- (if zlen text =? index then Ok (REmpty, 0) else ploop fuel text true index REmpty None);
   let '(new, index) := p in
   do r <- match acc with Some r => bar same_items r new | None => Ok new end;
   if zlen text <=? index then Err ParserError
   else if char_is text index 41 then Ok (r, index + 1)
   else or_loop same_items fuel text (index + 1) (Some r)).
Proof using All. reflexivity. Qed.
Lemma parse_or_S fuel text start : parse_or same_items (S fuel) text start =
  (let index := if char_is text start 63 && char_is text (start + 1) 58 then start + 2 else start in
   do c <- char_at text index;
   if c =? 63 then Err NotImplementedError else or_loop same_items fuel text index None).
Proof using All. reflexivity. Qed.
(** The items of an alternative *)
Lemma or_loop_ok l : forall pre post text fuel acc, l <> [] -> Forall (fun r => reads (rstr python r) (D r)) l ->
  text = pre ++ join (lit "|") (map (rstr python) l) ++ 41 :: post -> enough fuel text (zlen pre) 3 -> last_wf acc ->
  exists r, or_loop same_items fuel text (zlen pre) acc = Ok (r, zlen (pre ++ join (lit "|") (map (rstr python) l)) + 1) /\ wf r /\
    same (D r) (match acc with Some a => s_alt (D a) (Dany e l) | None => Dany e l end).
Proof using All.
  induction l as [|x l IH]; intros pre post text fuel acc N H E F Wacc; [congruence|]. inversion H as [|? ? Hx Hl]; subst. clear N.
  destruct fuel as [|fuel]; [unfold enough in F; rewrite !zlen_app', zlen_cons' in F; pose proof (zlen_pos post); pose proof (zlen_pos (join (lit "|") (map (rstr python) (x :: l)))); lia|].
  (* the text of x is followed by '|' or ')' *)
  assert (Split : exists sep rest, join (lit "|") (map (rstr python) (x :: l)) ++ 41 :: post = rstr python x ++ sep :: rest /\
     ((l = [] /\ sep = 41 /\ rest = post) \/ (l <> [] /\ sep = 124 /\ rest = join (lit "|") (map (rstr python) l) ++ 41 :: post))).
  { destruct l as [|y l].
    - exists 41, post. split; [cbn; reflexivity| left; auto].
    - exists 124. eexists. split; [cbn [map join]; rewrite <- app_assoc; reflexivity|]. right. split; [discriminate|]. auto. }
  destruct Split as (sep & rest & Es & Hs). rewrite Es in *. clear Es.
  assert (Hsep : (sep =? 124) || (sep =? 41) = true) by (destruct Hs as [(_ & -> & _)|(_ & -> & _)]; reflexivity).
  rewrite or_loop_S. replace (zlen (pre ++ rstr python x ++ sep :: rest) =? zlen pre) with false by (rewrite !zlen_app', zlen_cons'; pose proof (zlen_pos rest); pose proof (zlen_pos (rstr python x)); lia).
  destruct (Hx pre (sep :: rest) _ true fuel REmpty None eq_refl) as (f1 & r1 & l1 & A1 & A2 & A3 & A4 & A5); [unfold enough in *; lia| exact I| exact I|].
  rewrite A1. rewrite app_assoc. destruct f1 as [|f1]; [unfold enough in A2; rewrite app_assoc, (zlen_app' (pre ++ rstr python x)), zlen_cons' in A2; pose proof (zlen_pos rest); lia|].
  rewrite ploop_S. rewrite Hsep. cbn [andb bind].
  set (new := add_last r1 l1) in *. assert (Wn : wf new) by (apply add_last_wf; assumption).
  assert (Sn : same (D new) (D x)) by (apply (same_trans _ _ _ A5), seq_empty_l).
  assert (Acc : exists r, (match acc with Some a => bar same_items a new | None => Ok new end) = Ok r /\ wf r /\ same (D r) (match acc with Some a => s_alt (D a) (D x) | None => D x end)).
  { destruct acc as [a|]; [|exists new; auto]. destruct (bar_sem same_items same_items_ok e dot_ok a new Wacc Wn) as (r & B1 & B2 & B3). exists r. split; [exact B1|]. split; [exact B2|].
    apply (same_trans _ _ _ B3). apply alt_same; [apply same_refl| exact Sn]. }
  destruct Acc as (r & B1 & B2 & B3). rewrite B1. cbn [bind].
  replace (zlen ((pre ++ rstr python x) ++ sep :: rest) <=? zlen (pre ++ rstr python x)) with false by (rewrite (zlen_app' (pre ++ rstr python x)), zlen_cons'; pose proof (zlen_pos rest); lia).
  rewrite char_is_mid. destruct Hs as [(-> & -> & ->)|(Nl & -> & ->)].
  - change (41 =? 41) with true. cbv iota. exists r. split; [cbn [map join]; reflexivity|]. split; [exact B2|]. apply (same_trans _ _ _ B3).
    destruct acc; cbn [Dany fold_right]; [apply alt_same; [apply same_refl|]|]; apply same_sym, alt_false_r.
  - change (124 =? 41) with false. cbv iota. replace (zlen (pre ++ rstr python x) + 1) with (zlen (pre ++ rstr python x ++ [124])) by (rewrite !zlen_app'; change (zlen [124]) with 1; lia).
    destruct (IH (pre ++ rstr python x ++ [124]) post ((pre ++ rstr python x) ++ 124 :: join (lit "|") (map (rstr python) l) ++ 41 :: post) fuel (Some r)) as (q & C1 & C2 & C3); auto.
    { rewrite <- !app_assoc. reflexivity. }
    { unfold enough in *. rewrite !zlen_app' in *. rewrite !zlen_cons' in *. change (zlen [124]) with 1. rewrite !zlen_app' in *. rewrite !zlen_cons' in *. change (zlen (@nil Z)) with 0. pose proof (zlen_pos (rstr python x)). lia. }
    exists q. split.
    + rewrite C1. f_equal. f_equal. f_equal. f_equal. destruct l as [|y l]; [congruence|]. cbn [map join]. rewrite <- !app_assoc. reflexivity.
    + split; [exact C2|]. apply (same_trans _ _ _ C3). cbn [Dany fold_right]. fold (Dany e l). destruct acc as [a|].
      * apply (same_trans _ (s_alt (s_alt (D a) (D x)) (Dany e l))); [apply alt_same; [exact B3| apply same_refl]| apply same_sym, alt_assoc].
      * apply alt_same; [exact B3| apply same_refl].
Qed.


(** Texts never start with a question mark *)
Definition no_q (s : str) : Prop := match s with c :: _ => c <> 63 | [] => True end.
Lemma no_q_app s t : no_q s -> no_q t -> no_q (s ++ t).
Proof using All. destruct s; cbn; auto. Qed.
Lemma no_q_concat l : Forall no_q l -> no_q (List.concat l).
Proof using All. induction 1; cbn; auto using no_q_app. Qed.
Lemma no_q_escape t : no_q (escapeRegex t).
Proof using All.
  apply no_q_concat. apply Forall_map. apply Forall_forall. intros c _. unfold escape_char. destruct (is_command c) eqn:E; cbn; [lia|]. intros ->. discriminate E.
Qed.
Lemma no_q_cons c s : c <> 63 -> no_q (c :: s). Proof using All. auto. Qed.
Lemma no_q_range l ex : no_q (range_str l ex).
Proof using All.
  unfold range_str. cbv zeta. destruct (existsb (str_eqb [45]) (map item_str l)); [destruct (existsb (str_eqb [93]) (remove_first [45] (map item_str l)))| destruct (existsb (str_eqb [93]) (map item_str l))]; destruct ex; cbn; lia.
Qed.
Lemma no_q_simple r p : simple r -> wf r -> no_q (rstr p r) /\ rstr p r <> [].
Proof using All.
  destruct r as [| | | | |t|l ex|l|l|r0 lo hi]; cbn [simple rstr]; try tauto; intros S W.
  - split; [cbn; lia| discriminate].
  - split; [apply no_q_escape|]. destruct t as [|c t]; [cbn in W; congruence|]. unfold escapeRegex. cbn [map List.concat]. unfold escape_char. destruct (is_command c); discriminate.
  - destruct W as (-> & N & V). split; [apply no_q_range|]. rewrite range_str_plain by exact S. discriminate.
Qed.
Lemma no_q_app_l s t : no_q s -> s <> [] -> no_q (s ++ t).
Proof using All. destruct s; [congruence| auto]. Qed.
Lemma no_q_str r : wf r -> readable r -> forall p, no_q (rstr p r).
Proof using All.
  induction r as [| | | | |t|l ex|l IH|l IH|r lo hi IH] using regex_ind'; intros W R p; cbn [rstr]; try (cbn; lia).
  - apply no_q_escape.
  - apply no_q_range.
  - apply no_q_concat. apply Forall_map. apply wf_And in W. cbn in R. rewrite readable_all in R. destruct W as [_ W]. rewrite Forall_forall in *. intros x Hx. apply IH; auto. apply W, Hx.
  - destruct p; cbn; lia.
  - cbn in R. destruct R as [S _]. destruct W as (W & _ & _). destruct (no_q_simple r false S W) as [Q N].
    destruct r as [| | | | |t|l ex|l|l|r0 lo0 hi0]; cbn [simple] in S; try tauto; try (apply no_q_app_l; assumption). destruct (1 <? zlen t); [cbn; lia| apply no_q_app_l; assumption].
Qed.
Lemma join_no_q l : Forall no_q l -> no_q (join (lit "|") l).
Proof using All.
  induction 1 as [|x l H _ IH]; [exact I|]. destruct l as [|y l]; [exact H|]. cbn [join] in *. apply no_q_app; [exact H|]. cbn. lia.
Qed.

(** A group whose body is read by [or_loop] *)
Lemma group_ok (opt : bool) body pre post text fuel : no_q body ->
  text = pre ++ ([40] ++ (if opt then [63; 58] else []) ++ body ++ [41]) ++ post -> enough fuel text (zlen pre) 2 ->
  exists fuel' fuel'' pre', pre' = pre ++ [40] ++ (if opt then [63; 58] else []) /\ enough fuel' text (zlen pre') 3 /\
    enough fuel'' text (zlen (pre ++ [40] ++ (if opt then [63; 58] else []) ++ body ++ [41])) 2 /\
    forall q until r last, or_loop same_items fuel' text (zlen pre') None = Ok (q, zlen (pre' ++ body) + 1) ->
      ploop fuel text until (zlen pre) r last = ploop fuel'' text until (zlen (pre ++ [40] ++ (if opt then [63; 58] else []) ++ body ++ [41])) (add_last r last) (Some q).
Proof using All.
  intros Q -> F. set (o := if opt then [63; 58] else []) in *.
  assert (Lo : 0 <= zlen o) by apply zlen_pos. assert (Lb : 0 <= zlen body) by apply zlen_pos. assert (Lp : 0 <= zlen post) by apply zlen_pos.
  unfold enough in *. rewrite !zlen_app' in *. change (zlen [40]) with 1 in *. change (zlen [41]) with 1 in *.
  destruct fuel as [|[|fuel]]; try lia.
  exists fuel, (S fuel), (pre ++ [40] ++ o). split; [reflexivity|]. rewrite !zlen_app'. change (zlen [40]) with 1. split; [lia|]. split; [lia|].
  intros q until r last H. 
  replace (pre ++ ([40] ++ o ++ body ++ [41]) ++ post) with (pre ++ 40 :: (o ++ body ++ 41 :: post)) in * by (rewrite <- !app_assoc; reflexivity).
  rewrite ploop_S. change (40 =? 124) with false. change (40 =? 41) with false. rewrite andb_false_r. change (is_command 40) with true. cbv iota. change (40 =? 91) with false. change (40 =? 40) with true. cbv iota.
  rewrite parse_or_S.
  assert (I1 : (if char_is (pre ++ 40 :: o ++ body ++ 41 :: post) (zlen pre + 1) 63 && char_is (pre ++ 40 :: o ++ body ++ 41 :: post) (zlen pre + 1 + 1) 58 then zlen pre + 1 + 2 else zlen pre + 1) = zlen pre + (1 + zlen o)).
  { subst o. destruct opt; cbn [app].
    - rewrite char_is_1. replace (zlen pre + 1 + 1) with (zlen pre + 2) by lia. rewrite char_is_2. change (zlen [63; 58]) with 2. cbn [Z.eqb Pos.eqb andb]. lia.
    - change (zlen (@nil Z)) with 0. destruct body as [|c body]; cbn [app]; rewrite char_is_1; [reflexivity|]. cbn in Q. replace (c =? 63) with false by lia. reflexivity. }
  rewrite I1. cbv zeta.
  assert (C : exists c, char_at (pre ++ 40 :: o ++ body ++ 41 :: post) (zlen pre + (1 + zlen o)) = Ok c /\ c <> 63).
  { replace (zlen pre + (1 + zlen o)) with (zlen (pre ++ 40 :: o)) by (rewrite zlen_app', zlen_cons'; lia).
    replace (pre ++ 40 :: o ++ body ++ 41 :: post) with ((pre ++ 40 :: o) ++ body ++ 41 :: post) by (rewrite <- app_assoc; reflexivity).
    destruct body as [|c body]; cbn [app]; rewrite char_at_mid; eexists; (split; [reflexivity|]); [lia| exact Q]. }
  destruct C as (c & Ec & Nc). rewrite Ec. cbn [bind]. replace (c =? 63) with false by lia.
  rewrite H. cbn [bind fst snd]. f_equal. lia.
Qed.
Lemma reads_or l : wf (ROr l) -> readable (ROr l) -> Forall (fun r => reads (rstr python r) (D r)) l -> reads (rstr python (ROr l)) (D (ROr l)).
Proof using All.
  intros W R H pre post text until fuel r last E F Wr Wl. apply wf_Or in W. destruct W as [L W]. cbn [readable] in R. rewrite readable_all in R.
  assert (Q : no_q (join (lit "|") (map (rstr python) l))).
  { apply join_no_q, Forall_map. rewrite Forall_forall in *. intros x Hx. apply no_q_str; auto. }
  cbn [rstr] in *. set (body := join (lit "|") (map (rstr python) l)) in *.
  assert (Eo : lit (if python then "(?:" else "(") ++ body ++ lit ")" = [40] ++ (if python then [63; 58] else []) ++ body ++ [41]) by (destruct python; reflexivity).
  rewrite Eo in *.
  destruct (group_ok python body pre post text fuel Q E F) as (f1 & f2 & pre' & Ep & F1 & F2 & G).
  destruct (or_loop_ok l pre' post text f1 None) as (q & C1 & C2 & C3); auto.
  { destruct l; [cbn in L; lia| discriminate]. } { rewrite E, Ep. rewrite <- !app_assoc. reflexivity. } { exact I. }
  exists f2, (add_last r last), (Some q). split; [apply G; exact C1|]. split; [exact F2|]. split; [apply add_last_wf; assumption|]. split; [exact C2|].
  cbn [add_last]. apply (same_trans _ _ _ (and_sem e _ q)). apply seq_same; [apply same_refl|]. exact C3.
Qed.
Lemma reads_char c new s : s = [c] -> c = 46 /\ new = RDot \/ c = 94 /\ new = RStart \/ c = 36 /\ new = REnd -> reads s (D new).
Proof using All.
  intros -> H. apply (reads_step _ new); [cbn; lia| destruct H as [[_ ->]|[[_ ->]|[_ ->]]]; exact I| apply same_refl|].
  intros pre post fuel until r last _. cbn [app]. rewrite ploop_S. destruct H as [[-> ->]|[[-> ->]|[-> ->]]];
  (match goal with |- context [until && ?b] => change b with false end; rewrite andb_false_r; cbn -[parse_loop zlen]; rewrite (zlen_app' pre); reflexivity).
Qed.
Lemma reads_word : reads (lit "\b") (D RWord).
Proof using All.
  apply (reads_step _ RWord); [cbn; lia| exact I| apply same_refl|]. intros pre post fuel until r last _. change (lit "\b" ++ post) with (92 :: 98 :: post). rewrite ploop_S.
  change (92 =? 124) with false. change (92 =? 41) with false. cbn [orb]. rewrite andb_false_r. change (is_command 92) with true. cbv iota. change (92 =? 91) with false. change (92 =? 40) with false. change (92 =? 46) with false. change (92 =? 94) with false.
  change (92 =? 36) with false. change (92 =? 123) with false. change (char_to_repeat 92) with (@None (Z * option Z)). change (92 =? 92) with true. cbv iota.
  replace (zlen pre + 1 =? _) with false by (rewrite zlen_app', !zlen_cons'; pose proof (zlen_pos post); lia).
  rewrite char_at_1. cbn [bind]. change (98 =? 98) with true. cbv iota. rewrite zlen_app'. reflexivity.
Qed.

(** ** Repetitions *)
Definition quant (lo : Z) (hi : option Z) : str :=
  match hi with
  | Some h => if (lo =? 0) && (h =? 1) then lit "?" else if lo =? h then lit "{" ++ dec lo ++ lit "}" else lit "{" ++ dec lo ++ lit "," ++ dec h ++ lit "}"
  | None => if lo =? 0 then lit "*" else if lo =? 1 then lit "+" else lit "{" ++ dec lo ++ lit ",}"
  end.
Lemma digits_app ds c rest : Forall digit ds -> is_digit c = false -> digits (ds ++ c :: rest) = (ds, c :: rest).
Proof using All.
  intros H Hc. induction H as [|d ds Hd _ IH]; cbn [app digits]; [rewrite Hc; reflexivity|].
  replace (is_digit d) with true by (unfold is_digit, digit in *; lia). rewrite IH. reflexivity.
Qed.
Lemma to_int_undec ds a : fold_left (fun n c => 10 * n + (c - 48)) ds a = undec a ds.
Proof using All. revert a. induction ds as [|d ds IH]; intros a; cbn [fold_left undec]; auto. Qed.
Lemma skip_pre {A} (pre rest : list A) : skipn (Z.to_nat (zlen pre)) (pre ++ rest) = rest.
Proof using All. unfold zlen. rewrite Nat2Z.id, skipn_app, skipn_all, Nat.sub_diag. reflexivity. Qed.
Lemma parseRepeat_one pre lo post : 0 <= lo -> parseRepeat (pre ++ dec lo ++ 125 :: post) (zlen pre) = Ok (lo, Some lo, zlen pre + zlen (dec lo) + 1).
Proof using All.
  intros H. destruct (dec_spec lo H) as (D1 & D2 & D3). unfold parseRepeat. rewrite skip_pre, digits_app by (auto; reflexivity).
  destruct (dec lo) as [|d ds] eqn:E; [congruence|]. rewrite <- E in *. unfold to_int. rewrite !to_int_undec, D2. reflexivity.
Qed.
Lemma parseRepeat_two pre lo h post : 0 <= lo -> 0 <= h -> parseRepeat (pre ++ dec lo ++ 44 :: dec h ++ 125 :: post) (zlen pre) = Ok (lo, Some h, zlen pre + zlen (dec lo) + 1 + zlen (dec h) + 1).
Proof using All.
  intros H Hh. destruct (dec_spec lo H) as (D1 & D2 & D3). destruct (dec_spec h Hh) as (E1 & E2 & E3). unfold parseRepeat. rewrite skip_pre, digits_app by (auto; reflexivity).
  destruct (dec lo) as [|d ds] eqn:E; [congruence|]. rewrite <- E in *. rewrite digits_app by (auto; reflexivity).
  destruct (dec h) as [|d' ds'] eqn:E'; [congruence|]. rewrite <- E' in *. unfold to_int. rewrite !to_int_undec, D2, E2. reflexivity.
Qed.
Lemma parseRepeat_open pre lo post : 0 <= lo -> parseRepeat (pre ++ dec lo ++ 44 :: 125 :: post) (zlen pre) = Ok (lo, None, zlen pre + zlen (dec lo) + 1 + 0 + 1).
Proof using All.
  intros H. destruct (dec_spec lo H) as (D1 & D2 & D3). unfold parseRepeat. rewrite skip_pre, digits_app by (auto; reflexivity).
  destruct (dec lo) as [|d ds] eqn:E; [congruence|]. rewrite <- E in *. cbn [digits]. change (is_digit 125) with false. cbv iota. unfold to_int. rewrite !to_int_undec, D2. reflexivity.
Qed.
Definition raw_shape (r : regex) : Prop := match r with ROr _ | RRepeat _ _ _ => False | _ => True end.
Lemma raw_make a lo hi : raw_shape a -> bounds_ok lo hi -> ~ (lo = 1 /\ hi = Some 1) -> mk_repeat same_items a lo hi = Ok (RRepeat a lo hi).
Proof using All.
  intros S B N. assert (H : mk_repeat_raw a lo hi = Ok (RRepeat a lo hi)).
  { unfold mk_repeat_raw. destruct B as [B1 B2]. replace (0 <=? lo) with true by lia. cbn [assert_ bind]. destruct hi as [h|]; [|reflexivity].
    destruct ((h <? lo) || (h =? 0) || (lo =? h) && (h =? 1)) eqn:E; [|reflexivity]. exfalso. assert (lo = 1 -> h <> 1) by (intros -> ->; apply N; auto). lia. }
  destruct a; cbn in S; try tauto; exact H.
Qed.
Lemma brace_ok fuel pre rest until r a p q : mk_repeat same_items a (fst p) (snd p) = Ok q ->
  parseRepeat ((pre ++ [123]) ++ rest) (zlen (pre ++ [123])) = Ok (fst p, snd p, until) ->
  forall u, ploop (S fuel) (pre ++ 123 :: rest) u (zlen pre) r (Some a) = ploop fuel (pre ++ 123 :: rest) u until r (Some q).
Proof using All.
  intros M P u. rewrite ploop_S. change ((123 =? 124) || (123 =? 41)) with false. rewrite andb_false_r. change (is_command 123) with true. cbv iota.
  change (123 =? 91) with false. change (123 =? 40) with false. change (123 =? 46) with false. change (123 =? 94) with false. change (123 =? 36) with false. change (123 =? 123) with true. cbv iota.
  replace (zlen pre + 1) with (zlen (pre ++ [123])) by (rewrite zlen_app'; reflexivity).
  replace (pre ++ 123 :: rest) with ((pre ++ [123]) ++ rest) by (rewrite <- app_assoc; reflexivity). rewrite P. cbn [bind]. rewrite M. reflexivity.
Qed.
Lemma sign_ok fuel pre rest r a c p q : mk_repeat same_items a (fst p) (snd p) = Ok q -> c = 42 \/ c = 63 \/ c = 43 -> char_to_repeat c = Some p ->
  forall u, ploop (S fuel) (pre ++ c :: rest) u (zlen pre) r (Some a) = ploop fuel (pre ++ c :: rest) u (zlen pre + 1) r (Some q).
Proof using All.
  intros M C P u. rewrite ploop_S. destruct p as [lo hi]. rewrite P.
  destruct C as [->|[->| ->]]; (match goal with |- context [u && ?b] => change b with false end; rewrite andb_false_r; match goal with |- context [is_command ?c] => change (is_command c) with true end; cbv iota; cbn [Z.eqb Pos.eqb]; cbn [fst snd] in M; rewrite M; reflexivity).
Qed.
Lemma quant_ok fuel pre post until r a lo hi : raw_shape a -> bounds_ok lo hi -> ~ (lo = 1 /\ hi = Some 1) ->
  ploop (S fuel) (pre ++ quant lo hi ++ post) until (zlen pre) r (Some a) = ploop fuel (pre ++ quant lo hi ++ post) until (zlen (pre ++ quant lo hi)) r (Some (RRepeat a lo hi)).
Proof using All.
  intros S B N. pose proof (raw_make a lo hi S B N) as M. destruct B as [B1 B2].
  assert (P1 : zlen (pre ++ [123]) = zlen pre + 1) by (rewrite zlen_app'; reflexivity).
  unfold quant. destruct hi as [h|].
  - destruct ((lo =? 0) && (h =? 1)) eqn:E1; [|destruct (lo =? h) eqn:E2].
    + assert (lo = 0 /\ h = 1) as [-> ->] by lia. change (lit "?" ++ post) with (63 :: post). rewrite (sign_ok fuel pre post r a 63 (0, Some 1) _ M) by auto. rewrite zlen_app'. reflexivity.
    + assert (h = lo) by lia. subst h. change (lit "{") with [123]. change (lit "}") with [125]. rewrite <- !app_assoc. cbn [app].
      rewrite (brace_ok fuel pre (dec lo ++ 125 :: post) (zlen (pre ++ [123]) + zlen (dec lo) + 1) r a (lo, Some lo) _ M) by (apply parseRepeat_one; lia).
      f_equal. rewrite P1. rewrite zlen_app', zlen_cons', zlen_app'. change (zlen [125]) with 1. lia.
    + change (lit "{") with [123]. change (lit "}") with [125]. change (lit ",") with [44]. rewrite <- !app_assoc. cbn [app].
      rewrite (brace_ok fuel pre (dec lo ++ 44 :: dec h ++ 125 :: post) (zlen (pre ++ [123]) + zlen (dec lo) + 1 + zlen (dec h) + 1) r a (lo, Some h) _ M) by (apply parseRepeat_two; lia).
      f_equal. rewrite P1. rewrite zlen_app', zlen_cons', zlen_app', zlen_cons', zlen_app'. change (zlen [125]) with 1. lia.
  - destruct (lo =? 0) eqn:E1; [|destruct (lo =? 1) eqn:E2].
    + assert (lo = 0) by lia. subst lo. change (lit "*" ++ post) with (42 :: post). rewrite (sign_ok fuel pre post r a 42 (0, None) _ M) by auto. rewrite zlen_app'. reflexivity.
    + assert (lo = 1) by lia. subst lo. change (lit "+" ++ post) with (43 :: post). rewrite (sign_ok fuel pre post r a 43 (1, None) _ M) by auto. rewrite zlen_app'. reflexivity.
    + change (lit "{") with [123]. change (lit ",}") with [44; 125]. rewrite <- !app_assoc. cbn [app].
      rewrite (brace_ok fuel pre (dec lo ++ 44 :: 125 :: post) (zlen (pre ++ [123]) + zlen (dec lo) + 1 + 0 + 1) r a (lo, None) _ M) by (apply parseRepeat_open; lia).
      f_equal. rewrite P1. rewrite zlen_app', zlen_cons', zlen_app'. change (zlen [44; 125]) with 2. lia.
Qed.
Lemma quant_nonempty lo hi : 1 <= zlen (quant lo hi).
Proof using All.
  assert (P : forall c (s : str), 1 <= zlen (c :: s)) by (intros; rewrite zlen_cons'; pose proof (zlen_pos s); lia).
  unfold quant. destruct hi as [h|].
  - destruct ((lo =? 0) && (h =? 1)); [apply P|]. destruct (lo =? h); apply P.
  - destruct (lo =? 0); [apply P|]. destruct (lo =? 1); apply P.
Qed.
(** The text [s] of a simple regex, read in one go *)
Definition reads_atom (s : str) (S : span) : Prop := forall pre post text until fuel r last, text = pre ++ s ++ post -> enough fuel text (zlen pre) 2 ->
  exists fuel' a, ploop fuel text until (zlen pre) r last = ploop fuel' text until (zlen (pre ++ s)) (add_last r last) (Some a) /\ enough fuel' text (zlen (pre ++ s)) 2 /\
    wf a /\ raw_shape a /\ same (D a) S.
Lemma reads_repeat s S lo hi : reads_atom s S -> bounds_ok lo hi -> ~ (lo = 1 /\ hi = Some 1) -> reads (s ++ quant lo hi) (s_repeat S lo hi).
Proof using All.
  intros H B N pre post text until fuel r last E F Wr Wl.
  destruct (H pre (quant lo hi ++ post) text until fuel r last) as (f1 & a & A1 & A2 & A3 & A4 & A5); [rewrite E, <- app_assoc; reflexivity| exact F|].
  assert (E' : text = (pre ++ s) ++ quant lo hi ++ post) by (rewrite E, <- !app_assoc; reflexivity).
  pose proof (quant_nonempty lo hi) as Q. pose proof (zlen_pos post).
  destruct f1 as [|f1]; [unfold enough in A2; rewrite E', (zlen_app' (pre ++ s)), (zlen_app' (quant lo hi) post) in A2; lia|].
  exists f1, (add_last r last), (Some (RRepeat a lo hi)). split; [rewrite A1; rewrite app_assoc, E'; apply quant_ok; assumption|].
  split; [unfold enough in *; rewrite (app_assoc pre s), (zlen_app' (pre ++ s)); lia|]. split; [apply add_last_wf; assumption|].
  split; [exact (conj A3 B)|]. cbn [add_last]. apply (same_trans _ _ _ (and_sem e _ _)). apply seq_same; [apply same_refl|]. cbn [denote]. apply repeat_same, A5.
Qed.
Lemma atom_step s a S : (1 <= length s)%nat -> wf a -> raw_shape a -> same (D a) S ->
  (forall pre post fuel until r last, ploop (Datatypes.S fuel) (pre ++ s ++ post) until (zlen pre) r last = ploop fuel (pre ++ s ++ post) until (zlen (pre ++ s)) (add_last r last) (Some a)) -> reads_atom s S.
Proof using All.
  intros Ls W R Sa H pre post text until fuel r last -> F.
  assert (Lt : zlen pre < zlen (pre ++ s ++ post)) by (rewrite !zlen_app'; unfold zlen; lia).
  destruct fuel as [|fuel]; [unfold enough in F; lia|]. rewrite H. exists fuel, a. split; [reflexivity|].
  split; [unfold enough in *; rewrite (zlen_app' pre s); rewrite !zlen_app' in *; unfold zlen in *; lia|]. auto.
Qed.
Definition str_of (u : str) : regex := match u with [] => REmpty | _ => RString u end.
Lemma string_run t : forall u pre post text until fuel r last, text = pre ++ escapeRegex t ++ post -> enough fuel text (zlen pre) 2 -> add_last r last = str_of u ->
  exists fuel' r' last', ploop fuel text until (zlen pre) r last = ploop fuel' text until (zlen (pre ++ escapeRegex t)) r' last' /\ enough fuel' text (zlen (pre ++ escapeRegex t)) 2 /\
    add_last r' last' = str_of (u ++ t).
Proof using All.
  induction t as [|c t IH]; intros u pre post text until fuel r last E F A.
  - exists fuel, r, last. cbn [escapeRegex map List.concat]. rewrite !app_nil_r. auto.
  - unfold escapeRegex in *. cbn [map List.concat] in *. rewrite <- app_assoc in E. pose proof (escape_len c) as L. pose proof (zlen_pos (List.concat (map escape_char t) ++ post)).
    destruct fuel as [|fuel]; [unfold enough in F; rewrite E, !(zlen_app' pre), !(zlen_app' (escape_char c)) in F; unfold zlen in *; lia|].
    pose proof (escape_step c pre (List.concat (map escape_char t) ++ post) fuel until r last) as St. rewrite <- E in St.
    destruct (IH (u ++ [c]) (pre ++ escape_char c) post text until fuel (add_last r last) (Some (RString [c]))) as (f & r' & l' & B1 & B2 & B3).
    { rewrite E, <- app_assoc. reflexivity. } { unfold enough in *. rewrite zlen_app'. unfold zlen in *. lia. }
    { cbn [add_last]. rewrite A. destruct u; reflexivity. }
    exists f, r', l'. rewrite app_assoc. split; [rewrite St; exact B1|]. split; [exact B2|]. rewrite B3. rewrite <- app_assoc. reflexivity.
Qed.
Lemma atom_dot : reads_atom (lit ".") (D RDot).
Proof using All.
  apply (atom_step _ RDot); [cbn; lia| exact I| exact I| apply same_refl|].
  intros pre post fuel until r last. change (lit "." ++ post) with (46 :: post). rewrite ploop_S. change ((46 =? 124) || (46 =? 41)) with false. rewrite andb_false_r.
  cbn -[parse_loop zlen]. rewrite (zlen_app' pre). reflexivity.
Qed.
Lemma atom_char c : reads_atom (escape_char c) (D (RString [c])).
Proof using All.
  apply (atom_step _ (RString [c])); [apply escape_len| discriminate| exact I| apply same_refl|]. intros. apply escape_step.
Qed.
Lemma atom_string t : t <> [] -> reads_atom ([40] ++ escapeRegex t ++ [41]) (D (RString t)).
Proof using All.
  intros N pre post text until fuel r last E F.
  destruct (group_ok false (escapeRegex t) pre post text fuel (no_q_escape t) E F) as (f1 & f2 & pre' & Ep & F1 & F2 & G). cbn [app] in Ep.
  exists f2, (RString t). split; [apply G|split; [exact F2| split; [exact N| split; [exact I| apply same_refl]]]].
  assert (E' : text = pre' ++ escapeRegex t ++ 41 :: post) by (rewrite E, Ep; cbn [app]; rewrite <- !app_assoc; reflexivity).
  destruct f1 as [|f1]; [unfold enough in F1; rewrite E', (zlen_app' pre') in F1; pose proof (zlen_pos (escapeRegex t ++ 41 :: post)); lia|].
  rewrite or_loop_S. replace (zlen text =? zlen pre') with false by (rewrite E', (zlen_app' pre'), zlen_app', zlen_cons'; pose proof (zlen_pos (escapeRegex t)); pose proof (zlen_pos post); lia).
  destruct (string_run t [] pre' (41 :: post) text true f1 REmpty None E') as (f & r' & l' & B1 & B2 & B3); [unfold enough in *; lia| reflexivity|].
  rewrite B1. assert (E2 : text = (pre' ++ escapeRegex t) ++ 41 :: post) by (rewrite E', <- app_assoc; reflexivity).
  destruct f as [|f]; [unfold enough in B2; rewrite E2, (zlen_app' (pre' ++ escapeRegex t) (41 :: post)), zlen_cons' in B2; pose proof (zlen_pos post); lia|].
  rewrite E2. rewrite ploop_S. change ((41 =? 124) || (41 =? 41)) with true. cbn [andb bind]. rewrite B3. cbn [app].
  replace (zlen ((pre' ++ escapeRegex t) ++ 41 :: post) <=? zlen (pre' ++ escapeRegex t)) with false by (rewrite (zlen_app' (pre' ++ escapeRegex t)), zlen_cons'; pose proof (zlen_pos post); lia).
  rewrite char_is_mid. change (41 =? 41) with true. cbv iota. destruct t; [congruence| reflexivity].
Qed.
Lemma atom_range l : Forall plain_item l -> l <> [] -> reads_atom (range_str l false) (D (RRange l false)).
Proof using All.
  intros P N. rewrite range_str_plain by exact P. intros pre post text until fuel r last -> F.
  destruct (parseRange_ok (pre ++ [91]) post l P N) as (m & R1 & R2 & R3 & R4).
  destruct (mk_range_spec m R2 R3) as (Wm & u & Eu & U).
  assert (Lt : zlen pre < zlen (pre ++ ([91] ++ List.concat (map item_str l) ++ [93]) ++ post)) by (rewrite zlen_app'; cbn [app]; rewrite zlen_cons'; pose proof (zlen_pos ((List.concat (map item_str l) ++ [93]) ++ post)); lia).
  destruct fuel as [|fuel]; [unfold enough in F; lia|].
  exists fuel, (mk_range m false).
  assert (Li : zlen (pre ++ [91]) + zlen (List.concat (map item_str l)) + 1 = zlen (pre ++ [91] ++ List.concat (map item_str l) ++ [93])).
  { rewrite !zlen_app'. change (zlen [91]) with 1. change (zlen [93]) with 1. lia. }
  split.
  - cbn [app]. rewrite ploop_S. change (91 =? 124) with false. change (91 =? 41) with false. rewrite andb_false_r. change (is_command 91) with true. cbv iota. change (91 =? 91) with true. cbv iota.
    assert (Es : pre ++ 91 :: (List.concat (map item_str l) ++ [93]) ++ post = (pre ++ [91]) ++ List.concat (map item_str l) ++ 93 :: post) by (rewrite <- !app_assoc; reflexivity).
    rewrite Es. replace (zlen pre + 1) with (zlen (pre ++ [91])) by (rewrite zlen_app'; reflexivity). rewrite R1. cbn [bind fst snd]. rewrite Li. reflexivity.
  - split; [unfold enough in *; rewrite (zlen_app' pre ([91] ++ _)), !zlen_app' in *; change (zlen [91]) with 1 in *; change (zlen [93]) with 1 in *; pose proof (zlen_pos (List.concat (map item_str l))); lia|].
    split; [exact Wm|]. split; [rewrite Eu; exact I|]. 
    rewrite Eu. cbn [denote]. apply char_same. intros c. rewrite U. apply R4.
Qed.
Lemma reads_all l : Forall (fun r => reads (rstr python r) (D r)) l -> reads (List.concat (map (rstr python) l)) (Dall e l).
Proof using All.
  induction 1 as [|x l H _ IH]; [apply reads_nil|]. cbn [map List.concat]. apply reads_app; assumption.
Qed.
Theorem reads_regex r : wf r -> readable r -> reads (rstr python r) (D r).
Proof using All.
  induction r as [| | | | |t|l ex|l IH|l IH|r lo hi IH] using regex_ind'; intros W R.
  - apply reads_nil.
  - apply reads_word.
  - apply (reads_char 94); auto.
  - apply (reads_char 36); auto.
  - apply (reads_char 46); auto.
  - apply reads_string.
  - destruct W as (-> & N & V). apply reads_range; assumption.
  - cbn in R. rewrite readable_all in R. apply wf_And in W. destruct W as [_ W]. apply reads_all. rewrite Forall_forall in *. intros x Hx. apply IH; auto. apply W, Hx.
  - apply reads_or; auto. cbn in R. rewrite readable_all in R. apply wf_Or in W. destruct W as [_ W]. rewrite Forall_forall in *. intros x Hx. apply IH; auto.
  - destruct R as [S N]. destruct W as (W & B).
    destruct r as [| | | | |t|l ex|l|l|r0 lo0 hi0]; cbn [simple] in S; try tauto; cbn [rstr denote].
    + apply (reads_repeat (lit ".")); auto. apply atom_dot.
    + destruct (1 <? zlen t) eqn:E.
      * apply (reads_repeat (lit "(" ++ escapeRegex t ++ lit ")")); auto. apply atom_string. exact W.
      * destruct t as [|c [|c' t]]; [cbn in W; congruence| |unfold zlen in E; cbn [length] in E; lia].
        apply (reads_repeat (escapeRegex [c])); auto. unfold escapeRegex. cbn [map List.concat]. rewrite app_nil_r. apply atom_char.
    + destruct W as (-> & Nl & V). apply (reads_repeat (range_str l false)); auto. apply atom_range; assumption.
Qed.
Theorem parse_text r fuel : wf r -> readable r -> 4 * zlen (rstr python r) + 2 <= Z.of_nat fuel ->
  exists r', parse same_items fuel (rstr python r) = Ok r' /\ wf r' /\ same (D r') (D r).
Proof using All.
  intros W R F. pose proof (reads_regex r W R) as H. unfold parse. destruct (zlen (rstr python r) =? 0) eqn:E0.
  - assert (E : rstr python r = []) by (destruct (rstr python r); [reflexivity| rewrite zlen_cons' in E0; pose proof (zlen_pos s); lia]).
    rewrite E in *. exists REmpty. split; [reflexivity|]. split; [exact I|].
    destruct (H [] [] [] false 2%nat REmpty None eq_refl) as (f & r' & l' & A1 & A2 & A3 & A4 & A5); [unfold enough; cbn; lia| exact I| exact I|].
    cbn [app] in *. destruct f as [|f]; [unfold enough in A2; cbn in A2; lia|]. cbn [parse_loop] in A1. change (zlen (@nil Z)) with 0 in A1. cbn in A1. injection A1 as A1. rewrite <- A1 in A5.
    apply (same_trans _ _ _ A5), seq_empty_l.
  - destruct (H [] [] (rstr python r) false fuel REmpty None) as (f & r' & l' & A1 & A2 & A3 & A4 & A5); [cbn [app]; rewrite app_nil_r; reflexivity| unfold enough; change (zlen (@nil Z)) with 0; lia| exact I| exact I|].
    cbn [app] in *. change (zlen (@nil Z)) with 0 in *. rewrite A1. destruct f as [|f]; [unfold enough in A2; lia|]. cbn [parse_loop]. rewrite Z.ltb_irrefl. cbn [bind snd fst].
    rewrite Z.eqb_refl. cbn [assert_ bind]. exists (add_last r' l'). split; [reflexivity|]. split; [apply add_last_wf; assumption|]. apply (same_trans _ _ _ A5), seq_empty_l.
Qed.
(** A string is read back as it is *)
Theorem parse_string t fuel : 4 * zlen (escapeRegex t) + 2 <= Z.of_nat fuel -> parse same_items fuel (escapeRegex t) = Ok (str_of t).
Proof using All.
  intros F. destruct t as [|c t]; [reflexivity|]. unfold parse. set (t' := c :: t) in *.
  assert (L : 1 <= zlen (escapeRegex t')).
  { unfold escapeRegex, t'. cbn [map List.concat]. rewrite zlen_app'. pose proof (escape_len c). pose proof (zlen_pos (List.concat (map escape_char t))). unfold zlen in *. lia. }
  replace (zlen (escapeRegex t') =? 0) with false by lia.
  destruct (string_run t' [] [] [] (escapeRegex t') false fuel REmpty None) as (f & r' & l' & B1 & B2 & B3); [cbn [app]; rewrite app_nil_r; reflexivity| unfold enough; change (zlen (@nil Z)) with 0; lia| reflexivity|].
  cbn [app] in *. change (zlen (@nil Z)) with 0 in *. rewrite B1. destruct f as [|f]; [unfold enough in B2; lia|]. cbn [parse_loop]. rewrite Z.ltb_irrefl. cbn [bind snd fst].
  rewrite Z.eqb_refl. cbn [assert_ bind]. rewrite B3. reflexivity.
Qed.
End RoundTrip.

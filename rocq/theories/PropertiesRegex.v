(** C33, C34, C53, C54: the regexes of hachoir.regex. *)
From Coq Require Import String.
From Verif Require Import Base DictModel DictProofs Lit BitsModel FieldModel RegexModel RegexSpec RegexTextModel RegexProofs RegexProofs2 RegexProofs3 RegexProofs4 RegexProofs5 RegexLeaves RegexTextProofs PatternModel PatternProofs.
Open Scope Z_scope.
Ltac Zify.zify_post_hook ::= Z.div_mod_to_equations.

(** [same_items] is the comparison of two lists of range items: RegexRangeItem has
    no __eq__, so it is whatever identity gives; it never holds of different lists. *)
Definition sound (same_items : list item -> list item -> bool) : Prop := forall l m, same_items l m = true -> l = m.
Definition by_value (l m : list item) : bool := (fix go l m := match l, m with [], [] => true | a :: l, b :: m => (cmin a =? cmin b) && (cmax a =? cmax b) && go l m | _, _ => false end) l m.
Lemma by_value_sound : sound by_value.
Proof.
  intros l. induction l as [|[a b] l IH]; intros [|[c d] m] H; try discriminate; [reflexivity|]. cbn in H. apply andb_prop in H. destruct H as [H1 H2]. apply andb_prop in H1. destruct H1 as [H0 H1].
  cbn in H0, H1. f_equal; [f_equal; lia| apply IH, H2].
Qed.
(** An engine for one text: a dot is any character but a newline, the tests are
    those of the text alone *)
Definition plain (t : str) : engine :=
  {| text := t; at_word := fun _ => True; at_start := fun i => i = 0%nat; at_end := fun i => i = length t; dot := fun c => c <> 10 |}.

(** ** C33: the simplifications keep the matched texts *)
(** Any expression made of strings, ranges of characters, dots, tests, &, | and
    repetitions whose counts multiply without gap builds a regex that matches
    what the expression means, or is refused with ValueError. Missing from the
    full property: excluded ranges, the repetitions named by [exact_repeats] and
    dots in texts with newlines; the refutations below show that they are wrong. *)
Theorem C33_language_partial same_items e x : sound same_items -> (forall c, In c (text e) -> dot e c) \/ x_no_dot x -> proper x -> exact_repeats same_items x ->
  (exists r, build same_items x = Ok r /\ same (denote e r) (meaning e x)) \/ build same_items x = Err ValueError.
Proof.
  intros S D P X. destruct (build_sem' same_items e x S D P X) as [(r & E & _ & H)|E]; [left; exists r; auto| right; exact E].
Qed.
Print Assumptions C33_language_partial.
(** Without repetition nothing is refused. *)
Theorem C33_total same_items x : sound same_items -> proper x -> no_repeat x -> exists r, build same_items x = Ok r.
Proof. intros S P N. destruct (build_total same_items x S P N) as (r & E & _). exists r. exact E. Qed.
Print Assumptions C33_total.

(** (chat|chien|ch[ai]t)+ and what is built from it *)
Definition x_example : expr := XRepeat (XOr (XOr (XString (lit "chat")) (XString (lit "chien"))) (XAnd (XString (lit "ch")) (XAnd (XRange (lit "ai")) (XString (lit "t"))))) 1 None.
Example C33_example : proper x_example /\ x_no_dot x_example /\ exact_repeats by_value x_example /\
  match build by_value x_example with Ok r => rstr false r | Err _ => [] end = lit "(ch(at|ien|[ai]t))+".
Proof.
  split; [cbn; unfold bounds_ok; intuition (discriminate || lia)|]. split; [cbn; tauto|]. split; [|vm_compute; reflexivity].
  cbn [exact_repeats x_example]. split; [tauto|]. intros r H. vm_compute in H. injection H as <-. exact I.
Qed.

Lemma not_same same_items l m : sound same_items -> l <> m -> same_items l m = false.
Proof. intros S N. apply not_true_is_false. intros H. apply N, S, H. Qed.
(** The union of two excluded ranges is the exclusion of both: [^ab]|[^ac] gives [^a-c]. *)
Theorem C33_excluded_refuted same_items : sound same_items ->
  bar same_items (createRange (lit "ab") true) (createRange (lit "ac") true) = Ok (createRange (lit "abc") true) /\
  denote (plain (lit "b")) (createRange (lit "ac") true) 0%nat 1%nat /\ ~ denote (plain (lit "b")) (createRange (lit "abc") true) 0%nat 1%nat.
Proof.
  intros S. split.
  - pose proof (not_same same_items [{| cmin := 97; cmax := 98 |}] [{| cmin := 97; cmax := 97 |}; {| cmin := 99; cmax := 99 |}] S ltac:(discriminate)) as N.
    vm_compute. vm_compute in N. rewrite N. reflexivity.
  - split.
    + exists 98. split; [reflexivity|]. split; [|reflexivity]. change (createRange (lit "ac") true) with (RRange [{| cmin := 97; cmax := 97 |}; {| cmin := 99; cmax := 99 |}] true). cbv iota.
      intros (i & [<-|[<-|[]]] & H); cbn in H; lia.
    + change (createRange (lit "abc") true) with (RRange [{| cmin := 97; cmax := 99 |}] true). intros (c & N & H & _). injection N as <-. apply H. eexists. split; [left; reflexivity|]. cbn. lia.
Qed.
Print Assumptions C33_excluded_refuted.
(** A dot absorbs a newline it does not match: .|\n gives . *)
Theorem C33_dot_refuted same_items :
  bar same_items RDot (RString [10]) = Ok RDot /\ denote (plain [10]) (RString [10]) 0%nat 1%nat /\ ~ denote (plain [10]) RDot 0%nat 1%nat.
Proof.
  split; [reflexivity|]. split; [split; reflexivity|]. intros (c & N & H & _). injection N as <-. apply H. reflexivity.
Qed.
Print Assumptions C33_dot_refuted.
(** Repetitions of repetitions: (a{2})* gives a*, which also matches "a". *)
Theorem C33_repeat_refuted same_items :
  build same_items (XRepeat (XRepeat (XString (lit "a")) 2 (Some 2)) 0 None) = Ok (RRepeat (RString (lit "a")) 0 None) /\
  denote (plain (lit "a")) (RRepeat (RString (lit "a")) 0 None) 0%nat 1%nat /\
  ~ meaning (plain (lit "a")) (XRepeat (XRepeat (XString (lit "a")) 2 (Some 2)) 0 None) 0%nat 1%nat.
Proof.
  split; [reflexivity|]. split.
  - exists 1%nat. split; [lia|]. split; [exact I|]. exists 1%nat. split; [split; reflexivity| reflexivity].
  - intros (n & _ & _ & H). 
    assert (P : forall n i j, s_power n (s_string (plain (lit "a")) (lit "a")) i j -> j = (i + n)%nat).
    { clear. induction n as [|n IH]; intros i j H; [unfold s_power, s_empty in H; lia|]. destruct H as (k & [-> _] & H). apply IH in H. change (length (lit "a")) with 1%nat in H. lia. }
    assert (Q : forall n i j, s_power n (s_repeat (s_string (plain (lit "a")) (lit "a")) 2 (Some 2)) i j -> j = (i + 2 * n)%nat).
    { clear - P. induction n as [|n IH]; intros i j H; [unfold s_power, s_empty in H; lia|]. destruct H as (k & (m & M1 & M2 & H1) & H). apply IH in H. apply P in H1. lia. }
    apply Q in H. lia.
Qed.
Print Assumptions C33_repeat_refuted.
(** (a{2,}|b)+ gives (aa|b)+, which does not match "aaa". *)
Theorem C33_repeat_or_refuted same_items :
  build same_items (XRepeat (XOr (XRepeat (XString (lit "a")) 2 None) (XString (lit "b"))) 1 None) = Ok (RRepeat (ROr [RRepeat (RString (lit "a")) 2 (Some 2); RString (lit "b")]) 1 None) /\
  meaning (plain (lit "aaa")) (XRepeat (XOr (XRepeat (XString (lit "a")) 2 None) (XString (lit "b"))) 1 None) 0%nat 3%nat /\
  ~ denote (plain (lit "aaa")) (RRepeat (ROr [RRepeat (RString (lit "a")) 2 (Some 2); RString (lit "b")]) 1 None) 0%nat 3%nat.
Proof.
  split; [reflexivity|]. split.
  - exists 1%nat. split; [lia|]. split; [exact I|]. exists 3%nat. split; [|reflexivity]. left. exists 3%nat. split; [lia|]. split; [exact I|].
    exists 1%nat. split; [split; reflexivity|]. exists 2%nat. split; [split; reflexivity|]. exists 3%nat. split; [split; reflexivity| reflexivity].
  - intros (n & _ & _ & H).
    assert (P : forall n i j, s_power n (s_string (plain (lit "aaa")) (lit "a")) i j -> j = (i + n)%nat).
    { clear. induction n as [|n IH]; intros i j H; [unfold s_power, s_empty in H; lia|]. destruct H as (k & [-> _] & H). apply IH in H. change (length (lit "a")) with 1%nat in H. lia. }
    assert (Q : forall n i j, s_power n (denote (plain (lit "aaa")) (ROr [RRepeat (RString (lit "a")) 2 (Some 2); RString (lit "b")])) i j -> j = (i + 2 * n)%nat).
    { clear - P. induction n as [|n IH]; intros i j H; [unfold s_power, s_empty in H; lia|]. destruct H as (k & [(m & M1 & M2 & H1)|[[Ek E]|[]]] & H); apply IH in H.
      - apply P in H1. lia.
      - exfalso. clear - E. assert (G : In (nth 0 (lit "b") 0) (lit "aaa")).
        { assert (I1 : In 98 (firstn 1 (skipn i (lit "aaa")))) by (change (firstn 1 (skipn i (lit "aaa")) = [98]) in E; rewrite E; left; reflexivity).
          rewrite <- (firstn_skipn i (lit "aaa")). apply in_or_app. right. rewrite <- (firstn_skipn 1 (skipn i (lit "aaa"))). apply in_or_app. left. exact I1. }
        cbn in G. intuition lia. }
    apply Q in H. lia.
Qed.
Print Assumptions C33_repeat_or_refuted.
(** (a?|b)* is refused although it is a proper expression, and (a{1,2}){0,0}
    becomes a* instead of being refused. *)
Theorem C33_refused_refuted same_items :
  proper (XRepeat (XOr (XRepeat (XString (lit "a")) 0 (Some 1)) (XString (lit "b"))) 0 None) /\
  build same_items (XRepeat (XOr (XRepeat (XString (lit "a")) 0 (Some 1)) (XString (lit "b"))) 0 None) = Err ValueError /\
  build same_items (XRepeat (XRepeat (XString (lit "a")) 1 (Some 2)) 0 (Some 0)) = Ok (RRepeat (RString (lit "a")) 0 None).
Proof. split; [cbn; unfold bounds_ok; intuition lia|]. split; reflexivity. Qed.
Print Assumptions C33_refused_refuted.
(** a & b may change the operand a: after x = .a and y = x & "b", x is .ab; and
    x & x reads the items it is replacing: a.b & itself gives a.ba.ba... *)
Theorem C33_operand_refuted :
  and_ (RAnd [RDot; RString (lit "a")]) (RString (lit "b")) = RAnd [RDot; RString (lit "ab")] /\
  and_effect (RAnd [RDot; RString (lit "a")]) (RString (lit "b")) = RAnd [RDot; RString (lit "ab")] /\
  (let x := [RString (lit "a"); RDot; RString (lit "b")] in
   rstr false (and_ (RAnd x) (RAnd x)) = lit "a.ba.b" /\
   rstr false (RAnd (and_alias 10 0 true x x)) = lit "a.ba.ba").
Proof. split; [reflexivity|]. split; [reflexivity|]. split; reflexivity. Qed.
Print Assumptions C33_operand_refuted.

(** ** C34: the bounds of the length *)
Theorem C34_bounds e r i j : well_built r -> denote e r i j ->
  (i <= j)%nat /\
  (exists m, minLength r = Ok (Some m) /\ 0 <= m <= Z.of_nat j - Z.of_nat i) /\
  (forall m, maxLength r = Ok (Some m) -> Z.of_nat j - Z.of_nat i <= m).
Proof.
  intros W H. destruct (length_within e r W i j H) as (A & B & C). destruct (minLength_total r W) as (m & E & M). split; [exact A|]. split; [|exact C]. exists m. split; [exact E|]. specialize (B m E). lia.
Qed.
Print Assumptions C34_bounds.
(** The bounds are reached, by texts that match wherever they are. *)
Theorem C34_reached r : well_built r -> literal r ->
  (forall m, minLength r = Ok (Some m) -> exists t, zlen t = m /\ matched_everywhere r t) /\
  (forall m, maxLength r = Ok (Some m) -> exists t, zlen t = m /\ matched_everywhere r t).
Proof. exact (length_tight r). Qed.
Print Assumptions C34_reached.
(** maxLength gives a bound, None or, in some cases, a TypeError. *)
Theorem C34_max r : well_built r -> (exists m, maxLength r = Ok (Some m) /\ 0 <= m) \/ maxLength r = Ok None \/ maxLength r = Err TypeError.
Proof.
  intros W. destruct (maxLength_errors r W) as [([m|] & E)|E]; auto. left. exists m. split; [exact E| apply (maxLength_nonneg r W m E)].
Qed.
Print Assumptions C34_max.
(** (a* )? has no longest match; asking raises TypeError instead of giving None. *)
Theorem C34_raises_refuted same_items :
  exists r, build same_items (XRepeat (XRepeat (XString (lit "a")) 0 None) 0 (Some 1)) = Ok r /\ well_built r /\ rstr false r = lit "a*?" /\ maxLength r = Err TypeError.
Proof. exists (RRepeat (RRepeat (RString (lit "a")) 0 None) 0 (Some 1)). split; [reflexivity|]. split; [cbn; unfold bounds_ok; intuition lia|]. split; reflexivity. Qed.
Print Assumptions C34_raises_refuted.
Example C34_example : let r := RAnd [ROr [RString (lit "abc"); RString (lit "x")]; RRepeat RDot 2 (Some 4)] in
  well_built r /\ literal r /\ minLength r = Ok (Some 3) /\ maxLength r = Ok (Some 7) /\ denote (plain (lit "abcdefg")) r 0%nat 7%nat.
Proof.
  cbv zeta. split; [cbn; unfold bounds_ok; intuition (try discriminate; lia)|]. split; [cbn; tauto|]. split; [reflexivity|]. split; [reflexivity|].
  exists 3%nat. split; [left; split; reflexivity|]. exists 7%nat. split; [|reflexivity]. exists 4%nat. split; [lia|]. split; [lia|].
  assert (D : forall i c, nth_error (lit "abcdefg") i = Some c -> c <> 10 -> denote (plain (lit "abcdefg")) RDot i (S i)) by (intros i c N P; exists c; auto).
  exists 4%nat. split; [apply (D _ 100); [reflexivity| lia]|]. exists 5%nat. split; [apply (D _ 101); [reflexivity| lia]|]. exists 6%nat. split; [apply (D _ 102); [reflexivity| lia]|]. exists 7%nat. split; [apply (D _ 103); [reflexivity| lia]|]. reflexivity.
Qed.

(** ** C53: the text of a regex, parsed again *)
(** parse(str(r)), with or without python=True, matches what r matches. Missing:
    repetitions of alternatives, sequences and repetitions, and ranges with one of \ - ] ^. *)
Theorem C53_round_trip_partial same_items e python r fuel : sound same_items -> (forall c, In c (text e) -> dot e c) -> wf r -> readable r ->
  4 * zlen (rstr python r) + 2 <= Z.of_nat fuel ->
  exists r', parse same_items fuel (rstr python r) = Ok r' /\ same (denote e r') (denote e r).
Proof.
  intros S D W R F. destruct (parse_text same_items S e D python r fuel W R F) as (r' & E & _ & H). exists r'. auto.
Qed.
Print Assumptions C53_round_trip_partial.
(** parse(escapeRegex(t)) is the string t: escaping protects every character. *)
Theorem C53_escape same_items t fuel : sound same_items -> 4 * zlen (escapeRegex t) + 2 <= Z.of_nat fuel -> parse same_items fuel (escapeRegex t) = Ok (createString t).
Proof. intros S F. apply (parse_string same_items S (plain []) (fun c H => match H with end) false t fuel F). Qed.
Print Assumptions C53_escape.
Definition r_example : regex := RAnd [RStart; ROr [RString (lit "a.b"); RString (lit "(")]; RRepeat (RString (lit "xy")) 2 (Some 31); RRange [{| cmin := 97; cmax := 122 |}; {| cmin := 48; cmax := 49 |}] false].
Example C53_example : wf r_example /\ readable r_example /\ rstr true r_example = lit "^(?:a\.b|\()(xy){2,31}[a-z01]" /\
  match parse by_value 200 (rstr true r_example) with Ok r => rstr true r | Err _ => [] end = lit "^(?:a\.b|\()(xy){2,31}[01a-z]".
Proof.
  split; [|split; [|split; vm_compute; reflexivity]].
  - cbn. repeat (split || lia || constructor || congruence || discriminate || (unfold item_valid; cbn; lia)).
  - cbn. repeat (split || constructor || (unfold plain_item, item_valid, plain_char; cbn; lia) || (intros [X Y]; congruence) || exact I).
Qed.
(** Ranges that are not escaped: [^a] for a range of ^ and a, [\d] for \ and d,
    [,-a] for a comma, a dash and a. *)
Theorem C53_range_refuted :
  rstr false (createRange (lit "a^") false) = lit "[^a]" /\
  match parseRange (lit "[^a]") 1 with Ok (RRange _ ex, _) => ex | _ => false end = true /\
  rstr false (createRange (lit "\d") false) = lit "[\d]" /\
  parseRange (lit "[\d]") 1 = Ok (createRange (lit "d") false, 4) /\
  rstr false (RRange [{| cmin := 43; cmax := 44 |}; {| cmin := 45; cmax := 45 |}; {| cmin := 97; cmax := 97 |}] false) = lit "[+,a-]".
Proof. split; [reflexivity|]. split; [reflexivity|]. split; [reflexivity|]. split; reflexivity. Qed.
Print Assumptions C53_range_refuted.
(** A repetition of a repetition is not bracketed: RegexRepeat(a{2}, 0, 1) is
    "a{2}?", which Python's re module reads as a lazy a{2}. *)
Theorem C53_repeat_refuted same_items :
  exists r, build same_items (XRepeat (XRepeat (XString (lit "a")) 2 (Some 2)) 0 (Some 1)) = Ok r /\ rstr true r = lit "a{2}?".
Proof. exists (RRepeat (RRepeat (RString (lit "a")) 2 (Some 2)) 0 (Some 1)). split; reflexivity. Qed.
Print Assumptions C53_repeat_refuted.

(** An alternative that ends the text is read for ever: _parse answers index 0 at
    the end of the text, so parse("(a|") starts again, whatever the number of turns. *)
Theorem C53_terminates_refuted same_items fuel : sound same_items -> parse same_items fuel (lit "(a|") = Err OutOfFuel.
Proof.
  intros S. set (T := lit "(a|").
  assert (A : forall f, parse_loop same_items f T true 1 REmpty None = Err OutOfFuel \/ parse_loop same_items f T true 1 REmpty None = Ok (RString (lit "a"), 2)).
  { intros [|[|f]]; [left; reflexivity|left; reflexivity|right; reflexivity]. }
  assert (B : forall (acc : option regex) new, opt_wf acc -> wf new -> exists r, match acc with Some r => bar same_items r new | None => Ok new end = Ok r /\ wf r).
  { intros [a|] new Wa Wn; [|exists new; auto]. destruct (bar_sem same_items S (plain []) (fun c H => match H with end) a new Wa Wn) as (r & E & W & _). exists r. auto. }
  assert (L : forall f acc, opt_wf acc -> or_loop same_items f T 1 acc = Err OutOfFuel /\ or_loop same_items f T 3 acc = Err OutOfFuel).
  { induction f as [|f IH]; intros acc W; [split; reflexivity|]. split.
    - rewrite (or_loop_S same_items S (plain []) (fun c H => match H with end) false). change (zlen T =? 1) with false. cbv iota. destruct (A f) as [->| ->]; cbn [bind]; [reflexivity|].
      destruct (B acc (RString (lit "a")) W) as (r & E & Wr); [discriminate|]. rewrite E. cbn [bind]. change (zlen T <=? 2) with false. change (char_is T 2 41) with false. cbv iota. change (2 + 1) with 3. apply (IH (Some r)). exact Wr.
    - rewrite (or_loop_S same_items S (plain []) (fun c H => match H with end) false). change (zlen T =? 3) with true. cbv iota. cbn [bind].
      destruct (B acc REmpty W) as (r & E & Wr); [exact I|]. rewrite E. cbn [bind]. change (zlen T <=? 0) with false. change (char_is T 0 41) with false. cbv iota. change (0 + 1) with 1. apply (IH (Some r)). exact Wr. }
  assert (P : forall f, parse_or same_items f T 1 = Err OutOfFuel).
  { intros [|f]; [reflexivity|]. rewrite (parse_or_S same_items S (plain []) (fun c H => match H with end) false). change (char_is T 1 63) with false. cbn [andb]. change (char_at T 1) with (Ok 97). cbn [bind]. change (97 =? 63) with false. cbv iota. apply (L f None I). }
  unfold parse. change (zlen T =? 0) with false. cbv iota. destruct fuel as [|fuel]; [reflexivity|].
  change T with (@nil Z ++ 40 :: lit "a|"). change 0 with (zlen (@nil Z)) at 1. rewrite (ploop_S same_items S (plain []) (fun c H => match H with end) false).
  cbn [andb]. change (is_command 40) with true. cbv iota. change (40 =? 91) with false. change (40 =? 40) with true. cbv iota. change (@nil Z ++ 40 :: lit "a|") with T. change (zlen (@nil Z) + 1) with 1. rewrite P. reflexivity.
Qed.
Print Assumptions C53_terminates_refuted.

(** ** C54: many patterns at once *)
(** After any sequence of addString and addRegex calls that is accepted, commit
    gives a regex that matches a part of a text exactly when one of the patterns
    does, and a max_length no match exceeds. *)
Theorem C54_union same_items e calls ps : sound same_items -> Forall call_ok calls -> add_all no_patterns calls = Ok ps ->
  (forall c, In c (text e) -> dot e c) \/ (forall r, In (CRegex r) calls -> no_dot r) -> calls <> [] ->
  exists r n, commit same_items ps = Ok (r, n) /\
    (forall i j, denote e r i j <-> (exists t, In (CString t) calls /\ s_string e t i j) \/ (exists q, In (CRegex q) calls /\ denote e q i j)) /\
    (forall i j, denote e r i j -> (i <= j)%nat /\ Z.of_nat j - Z.of_nat i <= n).
Proof.
  intros S C A D N. destruct (add_all_kept same_items S calls no_patterns ps C) as (K & B1 & B2); [split; constructor| exact A|].
  assert (D' : (forall c, In c (text e) -> dot e c) \/ Forall no_dot (p_regexes ps)).
  { destruct D as [D|D]; [left; exact D| right]. apply Forall_forall. intros x Hx. apply D. apply B2 in Hx. destruct Hx as [[]|Hx]; exact Hx. }
  destruct (commit_ok same_items S e ps K D') as (r & n & E & W & M & _). exists r, n. split; [exact E|].
  assert (Ne : p_strings ps <> [] \/ p_regexes ps <> []).
  { destruct calls as [|[t|q] calls]; [congruence|left|right]; intros Em.
    - assert (X : In t (p_strings ps)) by (apply B1; right; left; reflexivity). rewrite Em in X. exact X.
    - assert (X : In q (p_regexes ps)) by (apply B2; right; left; reflexivity). rewrite Em in X. exact X. }
  split.
  - intros i j. rewrite (M Ne i j). unfold string_match, regex_match. cbn [no_patterns p_strings p_regexes] in *.
    split; (intros [(x & X & Y)|(x & X & Y)]; [left|right]; exists x; (split; [|exact Y])); [apply B1 in X; destruct X as [[]|X]; exact X|apply B2 in X; destruct X as [[]|X]; exact X|apply B1; right; exact X|apply B2; right; exact X].
  - intros i j H. apply (match_length same_items S e ps r n i j K D' E H).
Qed.
Print Assumptions C54_union.
(** Each match of that regex is given to one of the patterns: getPattern does not
    raise KeyError, and gives the string that was found or a regex that matches at
    the start of it. [matches] is the match method of compiled patterns. *)
Theorem C54_pattern same_items matches e calls ps r n i j : sound same_items -> Forall call_ok calls -> add_all no_patterns calls = Ok ps ->
  (forall c, In c (text e) -> dot e c) \/ (forall r, In (CRegex r) calls -> no_dot r) -> (forall r, In (CRegex r) calls -> no_test r) -> calls <> [] ->
  (forall q s, matches q s = true <-> exists e' k, text e' = s /\ (forall c, dot e' c <-> dot e c) /\ denote e' q 0%nat k) ->
  commit same_items ps = Ok (r, n) -> denote e r i j ->
  (exists t, getPattern matches ps (part e i j) = Ok (PString t) /\ t = part e i j /\ In (CString t) calls) \/
  (exists q, getPattern matches ps (part e i j) = Ok (PRegex q) /\ In (CRegex q) calls /\ matches q (part e i j) = true).
Proof.
  intros S C A D T N Hm E H. destruct (add_all_kept same_items S calls no_patterns ps C) as (K & B1 & B2); [split; constructor| exact A|].
  assert (D' : (forall c, In c (text e) -> dot e c) \/ Forall no_dot (p_regexes ps)).
  { destruct D as [D|D]; [left; exact D| right]. apply Forall_forall. intros x Hx. apply D. apply B2 in Hx. destruct Hx as [[]|Hx]; exact Hx. }
  assert (T' : Forall no_test (p_regexes ps)) by (apply Forall_forall; intros x Hx; apply T; apply B2 in Hx; destruct Hx as [[]|Hx]; exact Hx).
  assert (Ne : p_strings ps <> [] \/ p_regexes ps <> []).
  { destruct calls as [|[t|q] calls]; [congruence|left|right]; intros Em.
    - assert (X : In t (p_strings ps)) by (apply B1; right; left; reflexivity). rewrite Em in X. exact X.
    - assert (X : In q (p_regexes ps)) by (apply B2; right; left; reflexivity). rewrite Em in X. exact X. }
  destruct (getPattern_ok same_items S matches e ps r n i j K T' D' Hm Ne E H) as [(t & X & Y & Z)|(q & X & Y & Z)]; [left; exists t|right; exists q]; (split; [exact X|]).
  - split; [exact Y|]. apply B1 in Z. destruct Z as [[]|Z]; exact Z.
  - split; [|exact Z]. apply B2 in Y. destruct Y as [[]|Y]; exact Y.
Qed.
Print Assumptions C54_pattern.
(** Without pattern, the regex is empty and max_length is 0: search gives nothing. *)
Theorem C54_none same_items : commit same_items no_patterns = Ok (REmpty, 0). Proof. reflexivity. Qed.
Print Assumptions C54_none.
(** A regex without longest match is refused. *)
Theorem C54_refused ps r : maxLength r = Ok None -> addRegex ps r = Err ValueError.
Proof. intros H. unfold addRegex. rewrite H. reflexivity. Qed.
Print Assumptions C54_refused.
Definition c_example : list pcall := [CString (lit "a"); CString (lit "b"); CString (lit "a"); CRegex (RAnd [RRange [{| cmin := 99; cmax := 100 |}] false; RString (lit "e")])].
Example C54_example : Forall call_ok c_example /\ (forall r, In (CRegex r) c_example -> no_dot r /\ no_test r) /\
  match (do ps <- add_all no_patterns c_example; commit by_value ps) with Ok (r, n) => Ok (rstr true r, n) | Err x => Err x end = Ok (lit "(?:[ab]|[cd]e)", 2).
Proof.
  split; [|split; [|vm_compute; reflexivity]].
  - repeat constructor; cbn; try lia; try congruence; try discriminate.
  - intros r [X|[X|[X|[X|[]]]]]; try discriminate X. injection X as <-. cbn. tauto.
Qed.
(** The item given for a match may be one that matches only its beginning: with
    the regexes "a" and "ab", a match "ab" is given to "a". *)
Theorem C54_prefix_refuted (matches : regex -> str -> bool) : matches (RString (lit "a")) (lit "ab") = true ->
  getPattern matches {| p_strings := []; p_regexes := [RString (lit "a"); RString (lit "ab")] |} (lit "ab") = Ok (PRegex (RString (lit "a"))).
Proof. intros H. unfold getPattern. cbn [p_strings existsb p_regexes find]. rewrite H. reflexivity. Qed.
Print Assumptions C54_prefix_refuted.

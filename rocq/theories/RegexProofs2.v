(** Union of regexes. *)
From Verif Require Import Base DictModel RegexModel RegexSpec RegexProofs.
Ltac Zify.zify_post_hook ::= Z.div_mod_to_equations.

(** ** Ranges *)
Lemma in_ranges_app l m c : in_ranges (l ++ m) c <-> in_ranges l c \/ in_ranges m c.
Proof.
  unfold in_ranges. split.
  - intros (i & A & B). apply in_app_iff in A. destruct A; [left|right]; eauto.
  - intros [(i & A & B)|(i & A & B)]; exists i; (split; [apply in_app_iff; auto| exact B]).
Qed.
Lemma in_ranges_cons i l c : in_ranges (i :: l) c <-> cmin i <= c <= cmax i \/ in_ranges l c.
Proof.
  unfold in_ranges. split.
  - intros (x & [<-|A] & B); [left; exact B| right; eauto].
  - intros [B|(x & A & B)]; [exists i; split; [left; reflexivity| exact B] | exists x; split; [right; exact A| exact B]].
Qed.
Lemma in_ranges_nil c : in_ranges [] c <-> False. Proof. split; [intros (i & [] & _)| tauto]. Qed.
Lemma in_ranges_one i c : in_ranges [i] c <-> cmin i <= c <= cmax i. Proof. rewrite in_ranges_cons, in_ranges_nil. tauto. Qed.

Lemma range_hit_spec ranges : forall before b, item_valid b -> Forall item_valid (before ++ ranges) ->
  match range_hit before ranges b with
  | None => forall c, cmin b <= c <= cmax b -> in_ranges ranges c
  | Some None => True
  | Some (Some (l, n)) => item_valid n /\ Forall item_valid l /\ S (length l) = length (before ++ ranges) /\
      forall c, in_ranges (n :: l) c <-> in_ranges (b :: before ++ ranges) c
  end.
Proof.
  induction ranges as [|a after IH]; intros before b Vb V; cbn [range_hit]; [exact I|].
  pose proof V as V'. apply Forall_app in V'. destruct V' as [V1 V2]. inversion V2 as [|? ? Va V3]; subst. unfold item_valid in Va, Vb.
  assert (R : forall n, (forall c, cmin n <= c <= cmax n <-> cmin a <= c <= cmax a \/ cmin b <= c <= cmax b) ->
     forall c, in_ranges (n :: rev before ++ after) c <-> in_ranges (b :: before ++ a :: after) c).
  { intros n Hn c. rewrite !in_ranges_cons, !in_ranges_app, in_ranges_cons, (Hn c).
    assert (B : in_ranges (rev before) c <-> in_ranges before c) by (unfold in_ranges; split; intros (i & A & B); exists i; rewrite <- in_rev in *; auto).
    rewrite B. tauto. }
  assert (VV : Forall item_valid (rev before ++ after)) by (apply Forall_app; split; [apply Forall_rev; exact V1| exact V3]).
  assert (L : S (length (rev before ++ after)) = length (before ++ a :: after)) by (rewrite !app_length, rev_length; cbn; lia).
  destruct (item_in a b) eqn:E1.
  { unfold item_in in E1. repeat split; auto; try apply R; intros; lia. }
  destruct (item_in b a) eqn:E2.
  { unfold item_in in E2. intros c Hc. apply in_ranges_cons. left. lia. }
  destruct (cmax b + 1 =? cmin a) eqn:E3.
  { unfold item_valid. cbn [cmin cmax]. split; [lia|]. split; [exact VV|]. split; [exact L|]. apply R. intros c. cbn [cmin cmax]. lia. }
  destruct (cmax a + 1 =? cmin b) eqn:E4.
  { unfold item_valid. cbn [cmin cmax]. split; [lia|]. split; [exact VV|]. split; [exact L|]. apply R. intros c. cbn [cmin cmax]. lia. }
  specialize (IH (a :: before) b Vb).
  assert (V4 : Forall item_valid ((a :: before) ++ after)) by (constructor; [exact Va| apply Forall_app; auto]).
  specialize (IH V4). destruct (range_hit (a :: before) after b) as [[[l n]|]|].
  - destruct IH as (N & F & Le & C). repeat split; auto; [cbn in Le; rewrite app_length in *; cbn; lia| |].
    + intros Hc. apply C in Hc. revert Hc. rewrite !in_ranges_cons, !in_ranges_app, in_ranges_cons. cbn. rewrite in_ranges_cons. tauto.
    + intros Hc. apply C. revert Hc. rewrite !in_ranges_cons, !in_ranges_app, in_ranges_cons. cbn. rewrite in_ranges_cons. tauto.
  - exact I.
  - intros c Hc. apply in_ranges_cons. right. apply IH. exact Hc.
Qed.
Lemma range_add_spec fuel : forall ranges b, (length ranges <= fuel)%nat -> item_valid b -> Forall item_valid ranges ->
  Forall item_valid (range_add fuel ranges b) /\ forall c, in_ranges (range_add fuel ranges b) c <-> in_ranges ranges c \/ cmin b <= c <= cmax b.
Proof.
  induction fuel as [|fuel IH]; intros ranges b L Vb V; cbn [range_add].
  - split; [apply Forall_app; auto|]. intros c. rewrite in_ranges_app, in_ranges_one. reflexivity.
  - pose proof (range_hit_spec ranges [] b Vb V) as S. destruct (range_hit [] ranges b) as [[[l n]|]|].
    + destruct S as (N & F & Le & C). cbn in Le. destruct (IH l n ltac:(lia) N F) as [I1 I2]. split; [exact I1|].
      intros c. rewrite I2. specialize (C c). cbn in C. rewrite !in_ranges_cons in C. tauto.
    + split; [apply Forall_app; auto|]. intros c. rewrite in_ranges_app, in_ranges_one. reflexivity.
    + split; [exact V|]. intros c. specialize (S c). tauto.
Qed.
Lemma rangeAdd_spec ranges b : item_valid b -> Forall item_valid ranges ->
  Forall item_valid (rangeAdd ranges b) /\ forall c, in_ranges (rangeAdd ranges b) c <-> in_ranges ranges c \/ cmin b <= c <= cmax b.
Proof. intros. apply range_add_spec; auto. Qed.
Lemma fold_rangeAdd l : forall r, Forall item_valid l -> Forall item_valid r ->
  Forall item_valid (fold_left rangeAdd l r) /\ forall c, in_ranges (fold_left rangeAdd l r) c <-> in_ranges r c \/ in_ranges l c.
Proof.
  induction l as [|i l IH]; intros r Vl Vr; cbn [fold_left].
  - split; [exact Vr|]. intros c. rewrite in_ranges_nil. tauto.
  - inversion Vl as [|? ? Vi Vl']; subst. destruct (rangeAdd_spec r i Vi Vr) as [A B]. destruct (IH _ Vl' A) as [C D].
    split; [exact C|]. intros c. rewrite D, B, in_ranges_cons. tauto.
Qed.
Lemma insert_item_in i l : forall x, In x (insert_item i l) <-> x = i \/ In x l.
Proof.
  induction l as [|j l IH]; intros x; cbn [insert_item].
  - cbn. intuition.
  - destruct (cmin i <? cmin j); cbn [In]; [intuition|]. rewrite IH. intuition.
Qed.
Lemma sort_items_in l : forall x, In x (sort_items l) <-> In x l.
Proof.
  unfold sort_items. enough (K : forall l acc x, In x (fold_left (fun acc i => insert_item i acc) l acc) <-> In x acc \/ In x l).
  { intros x. rewrite K. cbn. tauto. }
  clear l. induction l as [|i l IH]; intros acc x; cbn [fold_left In]; [tauto|]. rewrite IH, insert_item_in. intuition.
Qed.
Lemma mk_range_spec l : Forall item_valid l -> l <> [] ->
  wf (mk_range l false) /\ exists m, mk_range l false = RRange m false /\ forall c, in_ranges m c <-> in_ranges l c.
Proof.
  intros V NE. destruct (fold_rangeAdd l [] V (Forall_nil _)) as [A B]. unfold mk_range. split.
  - split; [reflexivity|]. split.
    { intros E. destruct l as [|i l]; [congruence|]. inversion V as [|? ? Vi ?]; subst. unfold item_valid in Vi.
      destruct (proj2 (B (cmin i))) as (x & X & _); [right; apply in_ranges_cons; lia|]. apply sort_items_in in X. rewrite E in X. exact X. }
    apply Forall_forall. intros x Hx. rewrite sort_items_in in Hx. rewrite Forall_forall in A. exact (A x Hx).
  - eexists. split; [reflexivity|]. intros c. specialize (B c). rewrite in_ranges_nil in B.
    assert (K : forall m, in_ranges (sort_items m) c <-> in_ranges m c) by (intros m; unfold in_ranges; split; intros (i & X & Y); exists i; rewrite sort_items_in in *; auto).
    rewrite K. tauto.
Qed.
Lemma map_range_char chars c : in_ranges (map range_char chars) c <-> In c chars.
Proof.
  induction chars as [|x l IH]; cbn [map]; [rewrite in_ranges_nil; reflexivity|]. rewrite in_ranges_cons, IH. cbn [range_char cmin cmax In].
  split; intros [H|H]; auto; left; lia.
Qed.
Lemma createRange_sem e chars : chars <> [] -> wf (createRange chars false) /\ same (denote e (createRange chars false)) (s_char e (fun c => In c chars)).
Proof.
  intros NE. assert (V : Forall item_valid (map range_char chars)) by (apply Forall_forall; intros x Hx; apply in_map_iff in Hx; destruct Hx as (y & <- & _); unfold item_valid; cbn; lia).
  destruct (mk_range_spec _ V ltac:(destruct chars; [congruence| discriminate])) as (W & m & E & C). unfold createRange. split; [exact W|]. rewrite E. cbn [denote].
  intros i j. unfold s_char. split; intros (c & A & B & J); exists c; (split; [exact A|]); (split; [|exact J]).
  - apply map_range_char, C, B.
  - apply C, map_range_char, B.
Qed.
Lemma createRange_range chars : exists m, createRange chars false = RRange m false. Proof. eexists. reflexivity. Qed.
Lemma char_same e (P Q : Z -> Prop) : (forall c, P c <-> Q c) -> same (s_char e P) (s_char e Q).
Proof. intros H i j. unfold s_char. split; intros (c & A & B & J); exists c; (split; [exact A|]); (split; [apply H, B| exact J]). Qed.
Lemma char_alt e (P Q : Z -> Prop) : same (s_char e (fun c => P c \/ Q c)) (s_alt (s_char e P) (s_char e Q)).
Proof.
  intros i j. unfold s_alt, s_char. split.
  - intros (c & A & [B|B] & J); [left|right]; eauto.
  - intros [(c & A & B & J)|(c & A & B & J)]; exists c; auto.
Qed.

(** ** Strings *)
Lemma createString_sem e t : wf (createString t) /\ same (denote e (createString t)) (s_string e t).
Proof.
  destruct t as [|c t]; cbn [createString].
  - split; [exact I|]. apply same_sym, string_nil.
  - split; [cbn; discriminate| apply same_refl].
Qed.
Lemma createString_weight t : (weight (createString t) <= 8 + 16 * length t)%nat.
Proof. destruct t; cbn [createString weight length]; lia. Qed.
Lemma common_length_le a : forall b, (common_length a b <= length a)%nat /\ (common_length a b <= length b)%nat /\ firstn (common_length a b) a = firstn (common_length a b) b.
Proof.
  induction a as [|x a IH]; intros [|y b]; cbn [common_length]; try (cbn; repeat split; lia).
  destruct (x =? y) eqn:E; [|cbn; repeat split; lia]. apply Z.eqb_eq in E. subst. destruct (IH b) as (A & B & C). cbn [length firstn]. rewrite C. repeat split; lia.
Qed.
Lemma single_two c d : single (createRange [c; d] false) = true -> c = d.
Proof.
  intros S. assert (V : Forall item_valid (map range_char [c; d])) by (repeat constructor; unfold item_valid; cbn; lia).
  destruct (mk_range_spec _ V ltac:(discriminate)) as (W & m & E & C). unfold createRange in S. rewrite E in S. cbn in S.
  destruct m as [|i [|j m]]; try discriminate.
  assert (Hc : in_ranges [i] c) by (apply C, map_range_char; cbn; auto). assert (Hd : in_ranges [i] d) by (apply C, map_range_char; cbn; auto).
  rewrite in_ranges_one in *. lia.
Qed.
Lemma findPrefix_spec e a b p x y : wf a -> wf b -> findPrefix a b = Some (p, x, y) ->
  item_ok p /\ wf x /\ wf y /\ (8 <= weight p)%nat /\ (weight p + weight x + weight y + 8 <= weight a + weight b)%nat /\
  (weight x + 16 <= weight a)%nat /\ (weight y + 16 <= weight b)%nat /\
  ((exists c d, a = RString [c] /\ b = RString [d] /\ p = createRange [c; d] false /\ x = REmpty /\ y = REmpty /\
     same (denote e p) (s_alt (denote e a) (denote e b))) \/
   (same (s_seq (denote e p) (denote e x)) (denote e a) /\ same (s_seq (denote e p) (denote e y)) (denote e b))).
Proof.
  intros Wa Wb H. destruct a as [| | | | |ta| | | |]; try discriminate H. destruct b as [| | | | |tb| | | |]; try discriminate H.
  cbn [wf] in Wa, Wb.
  assert (S : (exists c d, ta = [c] /\ tb = [d]) \/ (exists n, n <> 0%nat /\ n = common_length ta tb /\
     findPrefix (RString ta) (RString tb) = Some (RString (firstn n ta), createString (skipn n ta), createString (skipn n tb)))).
  { cbn [findPrefix] in *. destruct ta as [|c ta]; [congruence|]. destruct tb as [|d tb]; [congruence|].
    destruct ta as [|c' ta]; [destruct tb as [|d' tb]; [left; exists c, d; auto|]|]; right.
    all: match type of H with (if Nat.eqb ?n 0 then _ else _) = _ => exists n; destruct (Nat.eqb n 0) eqn:E0 end; try discriminate H.
    all: apply Nat.eqb_neq in E0; repeat split; auto. }
  destruct S as [(c & d & -> & ->)|(n & N & En & F)].
  - cbn [findPrefix] in H. injection H as <- <- <-.
    destruct (createRange_sem e [c; d] ltac:(discriminate)) as [W S]. destruct (createRange_range [c; d]) as [m Em].
    split; [split; [exact W| rewrite Em; reflexivity]|]. split; [exact I|]. split; [exact I|].
    assert (E8 : weight (createRange [c; d] false) = 8%nat) by (rewrite Em; reflexivity). rewrite E8.
    split; [lia|]. split; [cbn; lia|]. split; [cbn; lia|]. split; [cbn; lia|].
    left. exists c, d. repeat (split; [reflexivity|]).
    apply (same_trans _ _ _ S). apply (same_trans _ (s_char e (fun x => x = c \/ x = d))); [apply char_same; intros z; cbn; intuition|].
    apply (same_trans _ _ _ (char_alt e _ _)). apply alt_same; apply same_sym, string_cons.
  - rewrite F in H. injection H as <- <- <-. destruct (common_length_le ta tb) as (L1 & L2 & L3). rewrite <- En in L1, L2, L3.
    destruct (createString_sem e (skipn n ta)) as [W1 S1]. destruct (createString_sem e (skipn n tb)) as [W2 S2].
    pose proof (createString_weight (skipn n ta)) as B1. pose proof (createString_weight (skipn n tb)) as B2. rewrite skipn_length in B1, B2.
    assert (Lf : length (firstn n ta) = n) by (rewrite firstn_length; lia).
    split. { split; [|reflexivity]. cbn [wf]. intros E. apply (f_equal (@length _)) in E. rewrite Lf in E. cbn in E. lia. }
    split; [exact W1|]. split; [exact W2|]. cbn [weight]. rewrite Lf. split; [lia|]. split; [lia|]. split; [lia|]. split; [lia|].
    right. split.
    + apply (same_trans _ (s_seq (s_string e (firstn n ta)) (s_string e (skipn n ta)))); [apply seq_same; [apply same_refl| exact S1]|].
      apply (same_trans _ (s_string e (firstn n ta ++ skipn n ta))); [apply same_sym, string_app|]. rewrite firstn_skipn. apply same_refl.
    + cbn [denote]. rewrite L3. apply (same_trans _ (s_seq (s_string e (firstn n tb)) (s_string e (skipn n tb)))); [apply seq_same; [apply same_refl| exact S2]|].
      apply (same_trans _ (s_string e (firstn n tb ++ skipn n tb))); [apply same_sym, string_app|]. rewrite firstn_skipn. apply same_refl.
Qed.

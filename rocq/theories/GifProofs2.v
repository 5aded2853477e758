(** More proofs about GIF: the usual writer, the table that is full, reset
    codes where the width grows, and the text of chains. *)
From Coq Require Import String.
From Verif Require Import Base BaseProofs BitsSpec BitsProofs DeflateModel DeflateSpec DeflateProofs DictModel DictProofs FieldModel FieldNames Lit ToolsModel MetaProofs4 GifModel GifSpec GifProofs.
Open Scope Z_scope.
Ltac Zify.zify_post_hook ::= Z.div_mod_to_equations.

(** ** The usual writer *)
Section G.
Context (sb : Z).
Definition pixels_ok (l : list Z) : Prop := Forall (fun p => 0 <= p < 2 ^ sb) l.
Lemma code_of_names table w c : pixels_ok w -> code_of sb table w = Some c -> names sb table c w.
Proof using.
  intros V H. unfold code_of in H.
  assert (GO : forall t k c, (fix go (t : list (list Z)) (k : Z) := match t with [] => None | x :: t => if list_eq_dec Z.eq_dec x w then Some k else go t (k + 1) end) t k = Some c ->
     exists j, nth_error t j = Some w /\ c = k + Z.of_nat j).
  { induction t as [|x t IH]; intros k c0 Hg; [discriminate|]. destruct (list_eq_dec Z.eq_dec x w) as [->|].
    - injection Hg as <-. exists O. split; [reflexivity|lia].
    - destruct (IH _ _ Hg) as (j & A & B). exists (S j). split; [exact A|lia]. }
  assert (D : (exists p, w = [p] /\ c = p) \/ exists j, nth_error table j = Some w /\ c = first_free sb + Z.of_nat j).
  { destruct w as [|p [|q w]].
    - right. apply GO, H.
    - left. injection H as <-. eauto.
    - right. apply GO, H. }
  destruct D as [(p & -> & ->)|(j & A & ->)]; [|constructor; exact A]. constructor. inversion V; assumption.
Qed.
Lemma greedy_lzw pixels : forall table w c, pixels_ok (w ++ pixels) -> names sb table c w -> lzw sb table (w ++ pixels) (greedy sb table w c pixels).
Proof using.
  induction pixels as [|p rest IH]; intros table w c V H; cbn [greedy]; [rewrite app_nil_r; constructor; exact H|].
  assert (V' : pixels_ok ((w ++ [p]) ++ rest)) by (rewrite <- app_assoc; exact V).
  assert (Vp : 0 <= p < 2 ^ sb) by (apply Forall_app in V as [_ V]; inversion V; assumption).
  assert (Vr : pixels_ok ([p] ++ rest)) by (apply Forall_app in V as [_ V]; exact V).
  destruct (code_of sb table (w ++ [p])) as [c'|] eqn:E.
  - replace (w ++ p :: rest) with ((w ++ [p]) ++ rest) by (rewrite <- app_assoc; reflexivity). apply IH; [exact V'|]. apply code_of_names; [|exact E]. apply Forall_app in V' as [V' _]. exact V'.
  - destruct (first_free sb + zlen table <? 4096) eqn:F.
    + apply lzw_step; [exact H|lia|]. apply (IH (table ++ [w ++ [p]]) [p] p); [exact Vr|constructor; exact Vp].
    + apply lzw_full; [exact H|lia|]. apply (IH table [p] p); [exact Vr|constructor; exact Vp].
Qed.
Lemma greedy_writes p rest : pixels_ok (p :: rest) -> writes sb (p :: rest) (greedy sb [] [p] p rest).
Proof using. intros V. right. apply (greedy_lzw rest [] [p] p V). constructor. inversion V; assumption. Qed.
End G.

(** ** Where the width grows *)
Lemma read_le_grow m c b rest : 0 <= m -> 0 <= c < 2 ^ m -> read_le (m + 1) (le_digits m c ++ b :: rest) = Ok (c + b2z b * 2 ^ m, rest).
Proof.
  intros Hm Hc. replace (le_digits m c ++ b :: rest) with ((le_digits m c ++ [b]) ++ rest) by (rewrite <- app_assoc; reflexivity).
  assert (L : List.length (le_digits m c ++ [b]) = Z.to_nat (m + 1)) by (pose proof (le_digits_length m c Hm) as Q; unfold zlen in Q; rewrite app_length; cbn; lia).
  unfold read_le. rewrite zlen_app. replace (zlen (le_digits m c ++ [b])) with (m + 1) by (unfold zlen; lia). pose proof (zlen_nonneg rest). replace (m + 1 + zlen rest <? m + 1) with false by lia.
  rewrite <- L, firstn_app, Nat.sub_diag, firstn_all, skipn_app, Nat.sub_diag, skipn_all. cbn [firstn skipn app]. rewrite app_nil_r.
  rewrite val_le_app, (le_digits_val m Hm c Hc), le_digits_length by exact Hm. cbn [val_le fold_right]. do 2 f_equal. lia.
Qed.
Section E.
Context (sb : Z) (Hsb : 2 <= sb).
Lemma grow_facts m n : 0 <= m -> 0 <= n -> 2 ^ sb + 1 + n = 2 ^ m -> sb < m /\ 0 < n.
Proof using Hsb.
  intros Hm Hn E. pose proof (pow_ge4 sb Hsb). split.
  - apply (Z.pow_lt_mono_r_iff 2); lia.
  - destruct (Z.eq_dec n 0) as [->|]; [|lia]. exfalso. assert (sb < m) by (apply (Z.pow_lt_mono_r_iff 2); lia). assert (2 ^ (sb + 1) <= 2 ^ m) by (apply Z.pow_le_mono_r; lia).
    rewrite Z.pow_add_r in * by lia. change (2 ^ 1) with 2 in *. lia.
Qed.
(** The code after those of a group that fills the codes of [m] bits is read on
    [m + 1] bits, and one with its last bit set is not in the dictionary. *)
Lemma grow_step s m n c rest fuel : 0 <= m -> 0 <= n -> 2 ^ sb + 1 + n = 2 ^ m -> after sb n s -> 0 <= c < 2 ^ m ->
  exists f s', gif_loop (S fuel) sb s (le_digits m c ++ true :: rest) = yields f (gif_loop fuel sb s' rest) /\
    g_size f = m + 1 /\ g_value f = c + 2 ^ m /\ exists w, g_note f = GGuessed w.
Proof using Hsb.
  intros Hm Hn E A Hc. pose proof (pow_ge4 sb Hsb). destruct (grow_facts m n Hm Hn E) as [Lm Pn].
  pose proof (after_width sb Hsb n s Hn A) as W. rewrite E, Z.log2_pow2 in W by lia.
  assert (D : 2 ^ (sb + 1) <= 2 ^ m) by (apply Z.pow_le_mono_r; lia). rewrite Z.pow_add_r in D by lia. change (2 ^ 1) with 2 in D.
  destruct A as [(-> & _)|(_ & table & w & F & Z')]; [lia|].
  cbn [gif_loop]. cbv zeta. rewrite W, read_le_grow by lia. cbn [b2z]. rewrite Z.mul_1_l.
  replace (c + 2 ^ m =? 2 ^ sb) with false by lia. replace (c + 2 ^ m =? 2 ^ sb + 1) with false by lia. replace (c + 2 ^ m <? 2 ^ sb) with false by lia.
  unfold gif_compressed. rewrite (f_dict _ _ _ _ F), (proj2 (nth_error_None table _)) by (unfold first_free, zlen in *; lia).
  rewrite (f_obuf _ _ _ _ F). pose proof (f_nonempty _ _ _ _ F) as NE. destruct w as [|h w]; [congruence|]. cbn [bind app]. rewrite py_nth_head. cbn [bind].
  eexists _, _. split; [reflexivity|]. cbn [g_size g_value g_note]. repeat split; try lia. eexists; reflexivity.
Qed.
(** A reset code at that place is read on [m] bits if the next bit is 0. *)
Lemma grow_reset s m n rest fuel : 0 <= m -> 0 <= n -> 2 ^ sb + 1 + n = 2 ^ m -> after sb n s ->
  exists f s', gif_loop (S fuel) sb s (le_digits m (clear_code sb) ++ false :: rest) = yields f (gif_loop fuel sb s' (false :: rest)) /\
    g_size f = m /\ g_value f = clear_code sb /\ g_note f = GReset /\ fresh sb s' /\ s_output s' = s_output s.
Proof using Hsb.
  intros Hm Hn E A. pose proof (pow_ge4 sb Hsb). destruct (grow_facts m n Hm Hn E) as [Lm Pn].
  pose proof (after_width sb Hsb n s Hn A) as W. rewrite E, Z.log2_pow2 in W by lia.
  assert (D : 2 ^ sb < 2 ^ m) by (apply Z.pow_lt_mono_r; lia).
  destruct A as [(-> & _)|(_ & table & w & F & Z')]; [lia|].
  cbn [gif_loop]. cbv zeta. unfold clear_code. rewrite W, read_le_grow by lia. cbn [b2z]. rewrite Z.mul_0_l, Z.add_0_r, Z.eqb_refl.
  unfold reset_width. rewrite (f_next _ _ _ _ F). replace (m + 1 - 1) with m by lia. replace (first_free sb + zlen table) with (2 ^ m) by (unfold first_free; lia). rewrite Z.eqb_refl.
  rewrite read_le_ok by lia. eexists _, (gif_reset sb s). split; [reflexivity|]. cbn [g_size g_value g_note]. repeat split.
  cbn. auto.
Qed.
End E.

(** ** The text of a chain *)
Lemma digits_no_star l : Forall digit l -> existsb (Z.eqb 42) l = false.
Proof. induction 1 as [|d l Hd H IH]; [reflexivity|]. cbn [existsb]. rewrite IH. unfold digit in Hd. replace (42 =? d) with false by lia. reflexivity. Qed.
Lemma dec_no_star v : 0 <= v -> existsb (Z.eqb 42) (dec v) = false.
Proof. intros H. apply digits_no_star, dec_spec, H. Qed.
Lemma comma_no_star l : Forall (fun v => 0 <= v) l -> existsb (Z.eqb 42) (comma l) = false.
Proof.
  induction 1 as [|v l Hv H IH]; [reflexivity|]. cbn [comma]. destruct l as [|v' l]; [apply dec_no_star, Hv|].
  rewrite !existsb_app, IH, dec_no_star by exact Hv. reflexivity.
Qed.
Lemma comma_snoc l v : l <> [] -> comma (l ++ [v]) = comma l ++ lit ", " ++ dec v.
Proof.
  induction l as [|x l IH]; intros H; [congruence|]. destruct l as [|y l]; [reflexivity|].
  change (comma ((x :: y :: l) ++ [v])) with (dec x ++ lit ", " ++ comma ((y :: l) ++ [v])). rewrite IH by discriminate.
  change (comma (x :: y :: l)) with (dec x ++ lit ", " ++ comma (y :: l)). rewrite !app_assoc_reverse. reflexivity.
Qed.
Definition seg_ok (s : segment) : Prop :=
  match s with SList l => l <> [] /\ Forall (fun v => 0 <= v) l | SRun v n => 0 <= v /\ 2 <= n end.
Lemma strip_brackets t : py_slice (lit "[" ++ t ++ lit "]") 1 (-1) = t.
Proof.
  assert (L : zlen (lit "[" ++ t ++ lit "]") = zlen t + 2) by (rewrite !zlen_app; change (zlen (lit "[")) with 1; change (zlen (lit "]")) with 1; lia).
  pose proof (zlen_nonneg t).
  rewrite (py_slice_sub _ _ _ 1 (1 + zlen t)); [|rewrite L; unfold py_norm; match goal with |- (if ?b then _ else _) = _ => destruct b eqn:Eb end; lia|rewrite L; unfold py_norm; match goal with |- (if ?b then _ else _) = _ => destruct b eqn:Eb end; lia].
  change (lit "[" ++ t ++ lit "]") with (91 :: t ++ [93]). change (Z.to_nat 1) with 1%nat. cbn [skipn]. replace (Z.to_nat (1 + zlen t - 1)) with (List.length t) by (unfold zlen; lia).
  rewrite firstn_app, Nat.sub_diag, firstn_all. cbn. apply app_nil_r.
Qed.
Lemma exists_last_or_nil {A} (l : list A) : l = [] \/ exists b x, l = b ++ [x].
Proof. destruct l as [|a l] using rev_ind; [left; reflexivity|right; eauto]. Qed.
(** add_rle adds a run to the segments. *)
Lemma add_rle_segments segs v n : Forall seg_ok segs -> 0 <= v -> 1 <= n -> exists segs',
  add_rle v n (map segment_text segs) = map segment_text segs' /\ Forall seg_ok segs' /\ segs' <> [] /\
  List.concat (map segment_value segs') = List.concat (map segment_value segs) ++ repeat v (Z.to_nat n).
Proof.
  intros H Hv Hn. unfold add_rle. destruct (1 <? n) eqn:E.
  { exists (segs ++ [SRun v n]). rewrite map_app. split; [reflexivity|]. split; [apply Forall_app; split; [exact H|constructor; [cbn; lia|constructor]]|]. split; [destruct segs; discriminate|].
    rewrite map_app, concat_app. cbn [map List.concat segment_value]. rewrite app_nil_r. reflexivity. }
  replace n with 1 by lia. change (Z.to_nat 1) with 1%nat. cbn [repeat].
  assert (NEW : exists segs', map segment_text segs ++ [lit "[" ++ dec v ++ lit "]"] = map segment_text segs' /\ Forall seg_ok segs' /\ segs' <> [] /\
     List.concat (map segment_value segs') = List.concat (map segment_value segs) ++ [v]).
  { exists (segs ++ [SList [v]]). rewrite map_app. split; [reflexivity|]. split; [apply Forall_app; split; [exact H|constructor; [split; [discriminate|auto]|constructor]]|]. split; [destruct segs; discriminate|].
    rewrite map_app, concat_app. reflexivity. }
  destruct (exists_last_or_nil segs) as [-> |(before & sg & ->)]; [exact NEW|].
  rewrite map_app, rev_app_distr. cbn [map rev app]. rewrite map_app in NEW. cbn [map] in NEW.
  apply Forall_app in H as [H1 H2]. inversion H2 as [|x y H3 _]; subst. destruct sg as [l|v' n'].
  - destruct H3 as [Hl Hp]. replace (existsb (Z.eqb 42) (segment_text (SList l))) with false.
    2:{ cbn [segment_text]. rewrite !existsb_app, comma_no_star by exact Hp. reflexivity. }
    rewrite rev_involutive. exists (before ++ [SList (l ++ [v])]). cbn [segment_text]. rewrite strip_brackets, map_app. cbn [map segment_text]. rewrite comma_snoc by exact Hl. split.
    { do 2 f_equal. rewrite !app_assoc_reverse. reflexivity. }
    split; [apply Forall_app; split; [exact H1|constructor; [split; [destruct l; discriminate|apply Forall_app; auto]|constructor]]|]. split; [destruct before; discriminate|].
    rewrite !map_app, !concat_app. cbn [map List.concat segment_value]. rewrite !app_nil_r, app_assoc_reverse. reflexivity.
  - replace (existsb (Z.eqb 42) (segment_text (SRun v' n'))) with true; [exact NEW|].
    symmetry. cbn [segment_text]. rewrite !existsb_app. change (existsb (Z.eqb 42) (lit "]*")) with true. rewrite Bool.orb_true_l, !Bool.orb_true_r. reflexivity.
Qed.
Lemma rle_loop_segments chain : forall v n segs, Forall (fun v => 0 <= v) chain -> 0 <= v -> 1 <= n -> Forall seg_ok segs -> exists segs',
  rle_loop chain v n (map segment_text segs) = map segment_text segs' /\ Forall seg_ok segs' /\ segs' <> [] /\
  List.concat (map segment_value segs') = List.concat (map segment_value segs) ++ repeat v (Z.to_nat n) ++ chain.
Proof.
  induction chain as [|e chain IH]; intros v n segs Hc Hv Hn Hs; cbn [rle_loop].
  - rewrite app_nil_r. apply add_rle_segments; assumption.
  - inversion Hc as [|x y He Hc']; subst. destruct (e =? v) eqn:E.
    + replace e with v by lia. destruct (IH v (n + 1) segs Hc' Hv ltac:(lia) Hs) as (segs' & A & B & C & D). exists segs'. split; [exact A|]. split; [exact B|]. split; [exact C|]. rewrite D. f_equal.
      replace (Z.to_nat (n + 1)) with (Z.to_nat n + 1)%nat by lia. rewrite repeat_app, app_assoc_reverse. reflexivity.
    + destruct (add_rle_segments segs v n Hs Hv Hn) as (s1 & A1 & B1 & C1 & D1). rewrite A1.
      destruct (IH e 1 s1 Hc' He ltac:(lia) B1) as (segs' & A & B & C & D). exists segs'. split; [exact A|]. split; [exact B|]. split; [exact C|].
      rewrite D, D1, app_assoc_reverse. reflexivity.
Qed.
Lemma join_plus_text segs : join_plus (map segment_text segs) = plus_text segs.
Proof. induction segs as [|s segs IH]; [reflexivity|]. cbn [map join_plus plus_text]. destruct segs as [|s' segs]; [reflexivity|]. rewrite <- IH. reflexivity. Qed.
Lemma rle_repr_segments chain : chain <> [] -> Forall (fun v => 0 <= v) chain -> exists segs,
  rle_repr chain = plus_text segs /\ Forall seg_ok segs /\ segs <> [] /\ List.concat (map segment_value segs) = chain.
Proof.
  intros H F. destruct chain as [|v chain]; [congruence|]. inversion F as [|x y Hv Hc]; subst. unfold rle_repr.
  destruct (rle_loop_segments chain v 1 [] Hc Hv ltac:(lia) ltac:(constructor)) as (segs & A & B & C & D). cbn [map] in A. exists segs. rewrite A, join_plus_text. auto.
Qed.
(** ** Reading the text back *)
Lemma read_digits ds : Forall digit ds -> forall r, ds <> [] ->
  fold_left read_char ds r = {| r_done := r_done r; r_list := r_list r; r_number := Some (undec (match r_number r with Some v => v | None => 0 end) ds); r_star := r_star r |}.
Proof.
  induction 1 as [|d ds Hd H IH]; intros r Hne; [congruence|]. unfold digit in Hd. cbn [fold_left undec].
  assert (E : read_char r d = {| r_done := r_done r; r_list := r_list r; r_number := Some (10 * match r_number r with Some v => v | None => 0 end + (d - 48)); r_star := r_star r |}).
  { unfold read_char. replace (d =? 91) with false by lia. replace ((d =? 44) || (d =? 93)) with false by lia. replace (d =? 42) with false by lia. replace (d =? 43) with false by lia.
    replace ((48 <=? d) && (d <=? 57)) with true by lia. reflexivity. }
  rewrite E. destruct ds as [|d' ds]; [reflexivity|]. rewrite IH by discriminate. reflexivity.
Qed.
Lemma read_dec v r : 0 <= v -> r_number r = None -> fold_left read_char (dec v) r = {| r_done := r_done r; r_list := r_list r; r_number := Some v; r_star := r_star r |}.
Proof. intros H N. destruct (dec_spec v H) as (D & U & E). rewrite read_digits by assumption. rewrite N, U. reflexivity. Qed.
Lemma read_comma l : Forall (fun v => 0 <= v) l -> l <> [] -> forall r, r_number r = None -> r_star r = false ->
  read_char (fold_left read_char (comma l) r) 93 = {| r_done := r_done r; r_list := r_list r ++ l; r_number := None; r_star := false |}.
Proof.
  induction 1 as [|v l Hv H IH]; intros Hne r N S; [congruence|]. cbn [comma]. destruct l as [|v' l].
  - rewrite read_dec by assumption. reflexivity.
  - rewrite !fold_left_app, read_dec by assumption. change (lit ", ") with [44; 32]. cbn [fold_left].
    set (r' := read_char (read_char _ 44) 32). assert (E : r' = {| r_done := r_done r; r_list := r_list r ++ [v]; r_number := None; r_star := false |}) by reflexivity.
    clearbody r'. subst r'. rewrite IH by (discriminate || reflexivity). cbn [r_done r_list]. rewrite app_assoc_reverse. reflexivity.
Qed.
Lemma repeat_one v n : repeat_list [v] n = repeat v n.
Proof. induction n; cbn; congruence. Qed.
Lemma read_segment s d : seg_ok s -> exists r, fold_left read_char (segment_text s) {| r_done := d; r_list := []; r_number := None; r_star := false |} = r /\
  close_list r = d ++ segment_value s.
Proof.
  intros H. eexists. split; [reflexivity|]. destruct s as [l|v n]; cbn [segment_text segment_value].
  - destruct H as [Hl Hp]. change (lit "[") with [91]. change (lit "]") with [93]. rewrite !fold_left_app. cbn [fold_left].
    rewrite (read_comma l Hp Hl) by reflexivity. reflexivity.
  - destruct H as [Hv Hn]. change (lit "[") with [91]. change (lit "]*") with [93; 42]. rewrite !fold_left_app. cbn [fold_left].
    rewrite (read_dec v) by (assumption || reflexivity). rewrite read_dec by (lia || reflexivity). unfold close_list. cbn. rewrite repeat_one. reflexivity.
Qed.
Lemma read_plus segs : Forall seg_ok segs -> segs <> [] -> forall d,
  close_list (fold_left read_char (plus_text segs) {| r_done := d; r_list := []; r_number := None; r_star := false |}) = d ++ List.concat (map segment_value segs).
Proof.
  induction 1 as [|s segs Hs H IH]; intros Hne d; [congruence|]. destruct (read_segment s d Hs) as (r & A & B). cbn [plus_text]. destruct segs as [|s' segs].
  - cbn [map List.concat]. rewrite app_nil_r, A. exact B.
  - rewrite !fold_left_app, A. change (lit " + ") with [32; 43; 32]. cbn [fold_left].
    set (r' := read_char (read_char (read_char r 32) 43) 32). assert (E : r' = {| r_done := close_list r; r_list := []; r_number := None; r_star := false |}) by reflexivity.
    clearbody r'. subst r'. rewrite IH by discriminate. rewrite B, app_assoc_reverse. reflexivity.
Qed.
Lemma rle_repr_eval chain : Forall (fun v => 0 <= v) chain -> eval_lists (rle_repr chain) = chain.
Proof.
  intros F. destruct chain as [|v chain]; [reflexivity|]. destruct (rle_repr_segments (v :: chain) ltac:(discriminate) F) as (segs & A & B & C & D).
  unfold eval_lists. rewrite A, (read_plus segs B C), D. reflexivity.
Qed.

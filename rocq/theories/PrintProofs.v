From Coq Require Import String.
From Verif Require Import Base BaseProofs DictModel Lit PrintModel PrintSpec.
Ltac Zify.zify_post_hook ::= Z.div_mod_to_equations.

Ltac norm_lit := repeat match goal with |- context [lit ?s] => let l := eval vm_compute in (lit s) in change (lit s) with l end.
Ltac each := norm_lit; repeat apply Forall_cons; try apply Forall_nil; cbv beta.
(** ** Hexadecimal digits *)
Lemma hexd_value d : 0 <= d < 16 -> hex_value (hexd d) = Some d.
Proof.
  intros H. unfold hexd, hex_value. destruct (d <? 10) eqn:E.
  - replace ((48 <=? 48 + d) && (48 + d <=? 57)) with true by lia. f_equal. lia.
  - replace ((48 <=? 87 + d) && (87 + d <=? 57)) with false by lia. replace ((97 <=? 87 + d) && (87 + d <=? 102)) with true by lia. f_equal. lia.
Qed.
Lemma hexn_length n : forall c, length (hexn n c) = n.
Proof. induction n as [|n IH]; intros c; [reflexivity|]. cbn [hexn]. rewrite app_length, IH. cbn. lia. Qed.
Lemma hexn_number n : forall c, 0 <= c < 16 ^ Z.of_nat n -> hex_number (hexn n c) c.
Proof.
  induction n as [|n IH]; intros c H; cbn [hexn]; [change (16 ^ Z.of_nat 0) with 1 in H; replace c with 0 by lia; constructor|].
  rewrite Nat2Z.inj_succ, Z.pow_succ_r in H by lia. assert (E : c = 16 * (c / 16) + c mod 16) by lia. rewrite E at 3.
  constructor; [apply IH; lia|apply hexd_value; lia].
Qed.
Lemma hexd_printable d : 0 <= d < 16 -> ascii_printable (hexd d) /\ hexd d <> 92.
Proof. intros H. unfold hexd, ascii_printable. destruct (d <? 10) eqn:E; lia. Qed.
Lemma hexn_printable n : forall c, Forall (fun x => ascii_printable x /\ x <> 92) (hexn n c).
Proof. induction n as [|n IH]; intros c; cbn [hexn]; [constructor|]. apply Forall_app. split; [apply IH|]. constructor; [apply hexd_printable; lia|constructor]. Qed.

(** ** One escape *)
(** [esc e c]: e is how c is written. *)
Inductive esc : str -> Z -> Prop :=
| e_char c : c <> 92 -> esc [c] c
| e_a : esc [92; 97] 7 | e_b : esc [92; 98] 8 | e_t : esc [92; 116] 9 | e_n : esc [92; 110] 10 | e_r : esc [92; 114] 13
| e_q q : q = 34 \/ q = 39 -> esc [92; q] q
| e_x h c : length h = 2%nat -> hex_number h c -> Forall (fun x => ascii_printable x /\ x <> 92) h -> esc (92 :: 120 :: h) c
| e_u h c : length h = 4%nat -> hex_number h c -> Forall (fun x => ascii_printable x /\ x <> 92) h -> esc (92 :: 117 :: h) c
| e_U h c : length h = 8%nat -> hex_number h c -> Forall (fun x => ascii_printable x /\ x <> 92) h -> esc (92 :: 85 :: h) c.
Lemma esc_literal e c t v : esc e c -> literal t v -> literal (e ++ t) (c :: v).
Proof. intros H Ht. destruct H; cbn [app]; constructor; assumption. Qed.
(** A text made of escapes *)
Inductive escs : str -> str -> Prop :=
| es_nil : escs [] []
| es_cons e c t v : esc e c -> escs t v -> escs (e ++ t) (c :: v).
Lemma escs_literal t v : escs t v -> literal t v.
Proof. induction 1; [constructor|]. apply esc_literal; assumption. Qed.
Lemma escs_app t v t' v' : escs t v -> escs t' v' -> escs (t ++ t') (v ++ v').
Proof. induction 1; intros H'; [exact H'|]. rewrite <- app_assoc. cbn [app]. constructor; auto. Qed.

(** smart_sub of a text of escapes *)
Definition smart_hit (data : str) : bool :=
  match data with
  | c :: x :: z :: d :: t' => (c =? 92) && (x =? 120) && (z =? 48) && octal d && ends_octal t'
  | _ => false
  end.
Lemma smart_miss fuel c t : smart_hit (c :: t) = false -> smart_sub (S fuel) (c :: t) = c :: smart_sub fuel t.
Proof. intros H. cbn [smart_sub]. destruct t as [|x [|z [|d t']]]; try reflexivity. cbn [smart_hit] in H. rewrite H. reflexivity. Qed.
Lemma smart_nb fuel c t : c <> 92 -> smart_sub (S fuel) (c :: t) = c :: smart_sub fuel t.
Proof. intros H. apply smart_miss. destruct t as [|x [|z [|d t']]]; try reflexivity. cbn [smart_hit]. replace (c =? 92) with false by lia. reflexivity. Qed.
Lemma smart_run l : forall fuel t, Forall (fun x => x <> 92) l -> (length l <= fuel)%nat -> smart_sub fuel (l ++ t) = l ++ smart_sub (fuel - length l) t.
Proof.
  induction l as [|c l IH]; intros fuel t H Hf; [rewrite Nat.sub_0_r; reflexivity|]. inversion H; subst. destruct fuel as [|fuel]; [cbn in Hf; lia|].
  cbn [app length Nat.sub]. rewrite smart_nb by assumption. rewrite IH by (try assumption; cbn in Hf; lia). reflexivity.
Qed.
Lemma smart_other fuel x t : x <> 120 -> x <> 92 -> smart_sub (S (S fuel)) (92 :: x :: t) = 92 :: x :: smart_sub fuel t.
Proof.
  intros H H'. rewrite smart_miss; [rewrite smart_nb by assumption; reflexivity|]. destruct t as [|z [|d t']]; try reflexivity.
  cbn [smart_hit]. replace (x =? 120) with false by lia. rewrite andb_false_r. reflexivity.
Qed.
Lemma smart_sub_mono : forall f g data, (length data <= f)%nat -> (length data <= g)%nat -> smart_sub f data = smart_sub g data.
Proof.
  induction f as [|f IH]; intros g [|c t] Hf Hg; cbn [length] in *; try lia; try (destruct g; reflexivity).
  destruct g as [|g]; [lia|]. destruct (smart_hit (c :: t)) eqn:E.
  - destruct t as [|x [|z [|d t']]]; try discriminate. cbn [smart_hit] in E. cbn [smart_sub]. rewrite E. cbn [length] in *. rewrite (IH g) by lia. reflexivity.
  - rewrite !smart_miss by assumption. rewrite (IH g) by lia. reflexivity.
Qed.
Lemma hex2_octal z d c : hex_number [z; d] c -> z = 48 -> octal d = true -> c = d - 48.
Proof.
  intros H -> Hd. inversion H as [|l v c0 d0 Hl Hv E1 E2]; subst. change [48; d] with ([48] ++ [d]) in E1. apply app_inj_tail in E1. destruct E1 as [-> ->].
  inversion Hl as [|l' v' c' d' Hl' Hv' E1 E2]; subst. change [48] with ([] ++ [48]) in E1. apply app_inj_tail in E1. destruct E1 as [-> ->].
  inversion Hl'; subst; [|destruct l; discriminate]. unfold hex_value in Hv'. cbn in Hv'. injection Hv' as <-.
  unfold octal in Hd. unfold hex_value in Hv. replace ((48 <=? d) && (d <=? 57)) with true in Hv by lia. injection Hv as <-. lia.
Qed.
Lemma octal_digit c : octal c = true <-> oct_digit c.
Proof. unfold octal, oct_digit. lia. Qed.
Lemma smart_head t v fuel : escs t v -> (length t <= fuel)%nat -> forall c u, smart_sub fuel t = c :: u -> exists u', t = c :: u'.
Proof.
  intros H Hf c u. destruct fuel as [|fuel]; [destruct t; [discriminate|cbn in Hf; lia]|]. destruct t as [|c0 t]; [discriminate|].
  destruct (smart_hit (c0 :: t)) eqn:E.
  - destruct t as [|x [|z [|d t']]]; try discriminate. cbn [smart_hit] in E. cbn [smart_sub]. rewrite E. intros H0. injection H0 as <- _. exists (x :: z :: d :: t'). f_equal. lia.
  - rewrite smart_miss by assumption. intros H0. injection H0 as <- _. eauto.
Qed.
Lemma smart_literal t v : escs t v -> forall fuel, (length t <= fuel)%nat -> literal (smart_sub fuel t) v.
Proof.
  induction 1 as [|e c t v He Ht IH]; intros fuel Hf; [destruct fuel; constructor|]. rewrite app_length in Hf.
  assert (Hrest : forall k, (length t <= k)%nat -> literal (smart_sub k t) v) by (intros; apply IH; assumption).
  assert (Hh : forall x h k, x <> 120 -> x <> 92 -> Forall (fun x => ascii_printable x /\ x <> 92) h -> (2 + length h + length t <= k)%nat ->
     smart_sub k (92 :: x :: h ++ t) = 92 :: x :: h ++ smart_sub (k - 2 - length h) t).
  { intros x h k Hx Hx' Hfh Hk. destruct k as [|[|k]]; try lia. rewrite smart_other by assumption. rewrite smart_run; [cbn [Nat.sub]; rewrite ?Nat.sub_0_r; reflexivity| |lia].
    eapply Forall_impl; [|exact Hfh]. intros y [_ Hy]. exact Hy. }
  destruct He; cbn [app length] in *.
  - destruct fuel as [|fuel]; [lia|]. rewrite smart_nb by assumption. constructor; [assumption|]. apply Hrest. lia.
  - destruct fuel as [|[|fuel]]; try lia. rewrite smart_other by lia. constructor. apply Hrest. lia.
  - destruct fuel as [|[|fuel]]; try lia. rewrite smart_other by lia. constructor. apply Hrest. lia.
  - destruct fuel as [|[|fuel]]; try lia. rewrite smart_other by lia. constructor. apply Hrest. lia.
  - destruct fuel as [|[|fuel]]; try lia. rewrite smart_other by lia. constructor. apply Hrest. lia.
  - destruct fuel as [|[|fuel]]; try lia. rewrite smart_other by lia. constructor. apply Hrest. lia.
  - destruct fuel as [|[|fuel]]; try lia. rewrite smart_other by lia. apply l_quote; [assumption|]. apply Hrest. lia.
  - destruct h as [|z [|d [|]]]; try discriminate. cbn [app length] in *. destruct fuel as [|fuel]; [lia|].
    destruct (smart_hit (92 :: 120 :: z :: d :: t)) eqn:E.
    + cbn [smart_sub]. cbn [smart_hit] in E. rewrite E. rewrite !andb_true_iff in E. destruct E as [[[_ Ez] Eo] Ee].
      rewrite (hex2_octal z d c) by (try assumption; lia). apply l_oct; [apply octal_digit; assumption| |apply Hrest; lia].
      intros c' u Ec Hc'. destruct (smart_head _ _ _ Ht (ltac:(lia) : (length t <= fuel)%nat) _ _ Ec) as [u' ->]. cbn [ends_octal] in Ee. apply octal_digit in Hc'. rewrite Hc' in Ee. discriminate.
    + rewrite smart_miss by assumption. inversion H1 as [|? ? [_ Hz] Hd']; subst. inversion Hd' as [|? ? [_ Hd2] _]; subst.
      destruct fuel as [|[|[|fuel]]]; try lia. rewrite (smart_nb _ 120) by lia. rewrite (smart_nb _ z) by assumption. rewrite (smart_nb _ d) by assumption.
      apply (l_x [z; d]); [reflexivity|assumption|]. apply Hrest. lia.
  - rewrite Hh by (try assumption; lia). apply l_u; [assumption|assumption|]. apply Hrest. lia.
  - rewrite Hh by (try assumption; lia). apply l_U; [assumption|assumption|]. apply Hrest. lia.
Qed.

(** ** makePrintable *)
Lemma controlchar_esc c : 0 <= c < 128 -> esc (controlchar c) c.
Proof.
  intros H. unfold controlchar. destruct (c =? 10) eqn:E1; [assert (c = 10) as -> by lia; constructor|]. destruct (c =? 13) eqn:E2; [assert (c = 13) as -> by lia; constructor|].
  destruct (c =? 9) eqn:E3; [assert (c = 9) as -> by lia; constructor|]. destruct (c =? 7) eqn:E4; [assert (c = 7) as -> by lia; constructor|].
  destruct (c =? 8) eqn:E5; [assert (c = 8) as -> by lia; constructor|]. change (lit "\x") with [92; 120]. cbn [app].
  apply e_x; [reflexivity|apply hexn_number; change (16 ^ Z.of_nat 2) with 256; lia|apply hexn_printable].
Qed.
Lemma backslashreplace_esc c : is_char c -> esc (backslashreplace c) c.
Proof.
  intros H. unfold is_char in H. unfold backslashreplace. destruct (c <? 256) eqn:E1; [|destruct (c <? 65536) eqn:E2].
  - change (lit "\x") with [92; 120]. cbn [app]. apply e_x; [reflexivity|apply hexn_number; change (16 ^ Z.of_nat 2) with 256; lia|apply hexn_printable].
  - change (lit "\u") with [92; 117]. cbn [app]. apply e_u; [reflexivity|apply hexn_number; change (16 ^ Z.of_nat 4) with 65536; lia|apply hexn_printable].
  - change (lit "\U") with [92; 85]. cbn [app]. apply e_U; [reflexivity|apply hexn_number; change (16 ^ Z.of_nat 8) with 4294967296; lia|apply hexn_printable].
Qed.
(** The three passes over one character *)
Definition quoted (quote : option Z) (c : Z) : str :=
  match quote with Some q => if ((q =? 34) || (q =? 39)) && (c =? q) then [92; q] else [c] | None => [c] end.
Definition pass (cs : charset) (quote : option Z) (c : Z) : str := encode cs (flat_map (quoted quote) (if is_control c then controlchar c else [c])).
Lemma flat_map_flat_map {A B C} (f : A -> list B) (g : B -> list C) l : flat_map g (flat_map f l) = flat_map (fun x => flat_map g (f x)) l.
Proof. induction l as [|x l IH]; [reflexivity|]. cbn [flat_map]. rewrite flat_map_app, IH. reflexivity. Qed.
Lemma ascii_encode cs l : Forall (fun c => 0 <= c < 128) l -> encode cs l = l.
Proof.
  induction 1 as [|c l H _ IH]; [reflexivity|]. unfold encode in *. cbn [flat_map]. rewrite IH. replace (encodable cs c) with true; [reflexivity|]. destruct cs; cbn [encodable]; lia.
Qed.
Lemma quoted_none q l : Forall (fun c => c <> 34 /\ c <> 39) l -> flat_map (quoted q) l = l.
Proof.
  induction 1 as [|c l H _ IH]; [reflexivity|]. cbn [flat_map]. rewrite IH. unfold quoted. destruct q as [q|]; [|reflexivity].
  destruct (((q =? 34) || (q =? 39)) && (c =? q)) eqn:E; [exfalso; lia|reflexivity].
Qed.
Lemma hexn_safe n : forall c, Forall (fun x => 0 <= x < 128 /\ x <> 34 /\ x <> 39) (hexn n c).
Proof.
  induction n as [|n IH]; intros c; cbn [hexn]; [constructor|]. apply Forall_app. split; [apply IH|]. constructor; [|constructor]. unfold hexd. destruct (c mod 16 <? 10) eqn:E; lia.
Qed.
Lemma controlchar_safe c : Forall (fun x => 0 <= x < 128 /\ x <> 34 /\ x <> 39) (controlchar c).
Proof.
  unfold controlchar. destruct (c =? 10); [each; lia|]. destruct (c =? 13); [each; lia|]. destruct (c =? 9); [each; lia|].
  destruct (c =? 7); [each; lia|]. destruct (c =? 8); [each; lia|]. apply Forall_app. split; [each; lia|apply hexn_safe].
Qed.
Lemma pass_esc cs q c : is_char c -> c <> 92 -> esc (pass cs q c) c.
Proof.
  intros Hc Hb. unfold is_char in Hc. unfold pass, is_control. destruct ((c <? 32) || (c =? 127)) eqn:E.
  - rewrite quoted_none by (eapply Forall_impl; [|apply controlchar_safe]; cbn beta; tauto).
    rewrite ascii_encode by (eapply Forall_impl; [|apply controlchar_safe]; cbn beta; tauto). apply controlchar_esc. lia.
  - cbn [flat_map]. rewrite app_nil_r. unfold quoted. destruct q as [q|].
    + destruct (((q =? 34) || (q =? 39)) && (c =? q)) eqn:Eq.
      * rewrite ascii_encode by (each; lia). assert (c = q) as -> by lia. apply e_q. lia.
      * unfold encode. cbn [flat_map]. rewrite app_nil_r. destruct (encodable cs c); [constructor; assumption|apply backslashreplace_esc; exact Hc].
    + unfold encode. cbn [flat_map]. rewrite app_nil_r. destruct (encodable cs c); [constructor; assumption|apply backslashreplace_esc; exact Hc].
Qed.
Lemma passes_escs cs q data : Forall is_char data -> ~ In 92 data -> escs (flat_map (pass cs q) data) data.
Proof.
  induction 1 as [|c l Hc _ IH]; intros H; [constructor|]. cbn [flat_map]. constructor; [apply pass_esc; [assumption|intros ->; apply H; left; reflexivity]|].
  apply IH. intros Hi. apply H. right. exact Hi.
Qed.
Lemma encode_app cs a b : encode cs (a ++ b) = encode cs a ++ encode cs b.
Proof. apply flat_map_app. Qed.
Lemma passes_eq cs q data : encode cs (flat_map (quoted q) (escape_controls data)) = flat_map (pass cs q) data.
Proof. unfold escape_controls. rewrite flat_map_flat_map. unfold encode at 1. rewrite flat_map_flat_map. reflexivity. Qed.
Definition body (cs : charset) (q : option Z) (data : str) : str := flat_map (pass cs q) data.
Lemma quote_map q data : (if (q =? 34) || (q =? 39) then flat_map (fun c => if c =? q then [92; q] else [c]) data else data) = flat_map (quoted (Some q)) data.
Proof.
  destruct ((q =? 34) || (q =? 39)) eqn:E.
  - apply flat_map_ext. intros c. unfold quoted. rewrite E. reflexivity.
  - induction data as [|c l IH]; [reflexivity|]. cbn [flat_map]. rewrite <- IH. unfold quoted. rewrite E. reflexivity.
Qed.
Lemma flat_map_single (l : str) : flat_map (quoted None) l = l.
Proof. induction l as [|c l IH]; [reflexivity|]. cbn [flat_map quoted]. rewrite IH. reflexivity. Qed.
(** The text before the smart substitution *)
Definition surround (q : option Z) (t : str) : str := match q with Some q => [q] ++ t ++ [q] | None => t end.
Definition charset_of (b : bool) (cs : charset) : charset := if b then ASCII else cs.
Lemma makePrintable_eq b data cs q smart : data <> [] -> (forall c, q = Some c -> 32 <= c < 127) ->
  makePrintable b data cs q smart =
  (let t := surround q (body (charset_of b cs) q data) in if smart then smart_sub (length t) t else t).
Proof.
  intros Hd Hq. unfold makePrintable. destruct data as [|c0 d0]; [contradiction|]. fold (charset_of b cs). set (cs' := charset_of b cs). set (data := c0 :: d0) in *.
  assert (E : encode cs' (match q with Some q => let data := if (q =? 34) || (q =? 39) then flat_map (fun c => if c =? q then [92; q] else [c]) (escape_controls data) else escape_controls data in [q] ++ data ++ [q] | None => escape_controls data end) = surround q (body cs' q data)).
  { unfold body. rewrite <- passes_eq. destruct q as [q|]; cbn [surround].
    - cbv zeta. rewrite quote_map. rewrite !encode_app. assert (Eq : encode cs' [q] = [q]) by (apply ascii_encode; specialize (Hq q eq_refl); constructor; [lia|constructor]). rewrite Eq. reflexivity.
    - rewrite flat_map_single. reflexivity. }
  exact (f_equal (fun t : str => if smart then smart_sub (length t) t else t) E).
Qed.
(** Reading back *)
Lemma surround_escs q t v : (forall c, q = Some c -> c <> 92) -> escs t v -> escs (surround q t) (surround q v).
Proof.
  intros Hq H. destruct q as [q|]; cbn [surround]; [|exact H]. apply (escs_app [q] [q]).
  - apply (es_cons [q] q [] []); [constructor; apply Hq; reflexivity|constructor].
  - apply escs_app; [exact H|]. apply (es_cons [q] q [] []); [constructor; apply Hq; reflexivity|constructor].
Qed.
Lemma printable_literal b data cs q smart : data <> [] -> Forall is_char data -> ~ In 92 data -> (forall c, q = Some c -> ascii_printable c /\ c <> 92) ->
  literal (makePrintable b data cs q smart) (surround q data).
Proof.
  intros Hd Hc Hb Hq. rewrite makePrintable_eq; [|assumption|intros c E; apply Hq; assumption]. cbv zeta.
  assert (H : escs (surround q (body (charset_of b cs) q data)) (surround q data)) by (apply surround_escs; [intros c E; apply Hq, E|apply passes_escs; assumption]).
  destruct smart; [apply smart_literal; [exact H|lia]|apply escs_literal, H].
Qed.
(** With quotes, the text between them has no bare quote: the literal ends at
    the last character. *)
Lemma unicode_literal text : Forall is_char text -> ~ In 92 text -> literal (makeUnicode text) text.
Proof.
  intros Hc Hb. unfold makeUnicode. cbv zeta. apply smart_literal; [|lia].
  revert Hb. induction Hc as [|c l H _ IH]; intros Hb; [constructor|]. unfold escape_controls in *. cbn [flat_map]. constructor.
  - unfold is_control. destruct ((c <? 32) || (c =? 127)) eqn:E; [apply controlchar_esc; unfold is_char in H; lia|]. constructor. intros ->. apply Hb. left. reflexivity.
  - apply IH. intros Hi. apply Hb. right. exact Hi.
Qed.

(** ** Characters of the result *)
Definition fine (P : Z -> Prop) : Prop := P 92 /\ (forall c, 48 <= c <= 57 -> P c) /\ (forall c, 97 <= c <= 122 -> P c) /\ P 85 /\ P 34 /\ P 39.
Lemma smart_sub_in fuel : forall t, incl (smart_sub fuel t) t.
Proof.
  induction fuel as [|fuel IH]; intros t; [apply incl_refl|]. destruct t as [|c t]; [apply incl_refl|]. destruct (smart_hit (c :: t)) eqn:E.
  - destruct t as [|x [|z [|d t']]]; try discriminate. cbn [smart_hit] in E. cbn [smart_sub]. rewrite E. assert (c = 92) as -> by lia.
    intros y [<-|[<-|Hy]]; [left; reflexivity|right; right; right; left; reflexivity|]. do 4 right. apply IH, Hy.
  - rewrite smart_miss by assumption. intros y [<-|Hy]; [left; reflexivity|right; apply IH, Hy].
Qed.
Lemma smart_sub_forall (P : Z -> Prop) fuel t : Forall P t -> Forall P (smart_sub fuel t).
Proof. rewrite !Forall_forall. intros H x Hx. apply H. exact (smart_sub_in _ _ _ Hx). Qed.
Lemma hexn_fine (P : Z -> Prop) n : fine P -> forall c, Forall P (hexn n c).
Proof.
  intros (_ & H1 & H2 & _). induction n as [|n IH]; intros c; cbn [hexn]; [constructor|]. apply Forall_app. split; [apply IH|]. constructor; [|constructor].
  unfold hexd. destruct (c mod 16 <? 10) eqn:E; [apply H1|apply H2]; lia.
Qed.
Lemma controlchar_fine (P : Z -> Prop) c : fine P -> Forall P (controlchar c).
Proof.
  intros Hf. pose proof Hf as (H0 & H1 & H2 & _). unfold controlchar. destruct (c =? 10); [each; [assumption|apply H2; lia]|].
  destruct (c =? 13); [each; [assumption|apply H2; lia]|]. destruct (c =? 9); [each; [assumption|apply H2; lia]|].
  destruct (c =? 7); [each; [assumption|apply H2; lia]|]. destruct (c =? 8); [each; [assumption|apply H2; lia]|].
  apply Forall_app. split; [each; [assumption|apply H2; lia]|apply hexn_fine; assumption].
Qed.
Lemma backslashreplace_fine (P : Z -> Prop) c : fine P -> Forall P (backslashreplace c).
Proof.
  intros Hf. pose proof Hf as (H0 & H1 & H2 & H3 & _). unfold backslashreplace. destruct (c <? 256); [|destruct (c <? 65536)];
  (apply Forall_app; split; [each; (assumption || (apply H2; lia))|apply hexn_fine; assumption]).
Qed.
Lemma encode_fine (P : Z -> Prop) cs l : fine P -> (forall c, In c l -> encodable cs c = true -> P c) -> Forall P (encode cs l).
Proof.
  intros Hf. induction l as [|c l IH]; intros H; [constructor|]. unfold encode in *. cbn [flat_map]. apply Forall_app. split; [|apply IH; intros x Hx; apply H; right; exact Hx].
  destruct (encodable cs c) eqn:E; [constructor; [apply H; [left; reflexivity|exact E]|constructor]|apply backslashreplace_fine, Hf].
Qed.
Lemma escape_in c data : In c (escape_controls data) -> (In c data /\ is_control c = false) \/ (exists d, In c (controlchar d)).
Proof.
  unfold escape_controls. intros H. apply in_flat_map in H. destruct H as (d & Hd & H). destruct (is_control d) eqn:E; [right; eauto|]. left. destruct H as [<-|[]]. split; assumption.
Qed.
Lemma quoted_in q c l : In c (flat_map (quoted q) l) -> In c l \/ c = 92.
Proof.
  intros H. apply in_flat_map in H. destruct H as (d & Hd & H). unfold quoted in H. destruct q as [q|]; [|destruct H as [<-|[]]; left; exact Hd].
  destruct (((q =? 34) || (q =? 39)) && (d =? q)) eqn:E; [|destruct H as [<-|[]]; left; exact Hd].
  destruct H as [<-|[<-|[]]]; [right; reflexivity|left]. replace q with d by lia. exact Hd.
Qed.
Lemma printable_fine (P : Z -> Prop) b data cs q smart : fine P -> (forall c, In c data -> is_control c = false -> encodable (charset_of b cs) c = true -> P c) ->
  (forall c, q = Some c -> 32 <= c < 127 /\ P c) -> P 32 -> Forall P (lit "(empty)") -> Forall P (makePrintable b data cs q smart).
Proof.
  intros Hf H Hq H32 He. destruct data as [|c0 d0].
  - assert (E : forall t, Forall P (encode cs t) -> Forall P (if smart then smart_sub (length (encode cs t)) (encode cs t) else encode cs t)) by (intros t Ht; destruct smart; [apply smart_sub_forall|]; exact Ht).
    unfold makePrintable. apply E. destruct q; [|constructor]. rewrite ascii_encode by (each; lia). exact He.
  - set (data := c0 :: d0) in *. rewrite makePrintable_eq; [|discriminate|intros c E; apply Hq, E]. cbv zeta.
    assert (Hs : Forall P (surround q (body (charset_of b cs) q data))).
    { assert (Hb : Forall P (body (charset_of b cs) q data)).
      { unfold body. rewrite <- passes_eq. apply encode_fine; [exact Hf|]. intros c Hc Ee. apply quoted_in in Hc. destruct Hc as [Hc| ->]; [|exact (proj1 Hf)].
        apply escape_in in Hc. destruct Hc as [[Hc Hn]|[d Hd]]; [apply H; assumption|]. pose proof (controlchar_fine P d Hf) as Hcc. rewrite Forall_forall in Hcc. apply Hcc, Hd. }
      destruct q as [q|]; cbn [surround]; [|exact Hb]. destruct (Hq q eq_refl) as [_ Pq]. apply Forall_app. split; [each; exact Pq|]. apply Forall_app. split; [exact Hb|each; exact Pq]. }
    destruct smart; [apply smart_sub_forall, Hs|exact Hs].
Qed.
Lemma printable_no_control b data cs q smart : Forall is_char data -> (forall c, q = Some c -> ascii_printable c) ->
  Forall (fun c => ~ control c) (makePrintable b data cs q smart) /\
  Forall (fun c => encodable cs c = true) (makePrintable b data cs q smart) /\
  (b = true \/ cs = ASCII -> Forall ascii_printable (makePrintable b data cs q smart)).
Proof.
  intros Hc Hq. rewrite Forall_forall in Hc. unfold ascii_printable, control, is_char, is_control in *. split; [|split].
  - apply printable_fine; unfold is_control; cbv beta; [unfold fine; cbv beta; repeat split; intros; lia|intros c Hi; specialize (Hc c Hi); intros; lia|intros c E; specialize (Hq c E); lia|lia|each; lia].
  - assert (A : forall c, 0 <= c < 128 -> encodable cs c = true) by (intros c Hr; destruct cs; cbn [encodable]; lia).
    apply printable_fine; unfold is_control; cbv beta; [unfold fine; cbv beta; repeat split; intros; apply A; lia| |intros c E; specialize (Hq c E); split; [lia|apply A; lia]|apply A; lia|each; apply A; lia].
    intros c Hi Hn Hen. destruct b; cbn [charset_of] in Hen; [apply A; specialize (Hc c Hi); cbn [encodable] in Hen; lia|exact Hen].
  - intros Hb. assert (E : charset_of b cs = ASCII) by (destruct Hb as [->| ->]; [reflexivity|destruct b; reflexivity]).
    apply printable_fine; unfold is_control; cbv beta; [unfold fine; cbv beta; repeat split; intros; lia| |intros c E'; specialize (Hq c E'); lia|lia|each; lia].
    intros c Hi Hn Hen. rewrite E in Hen. cbn [encodable] in Hen. specialize (Hc c Hi). lia.
Qed.

(** ** The denotation is unique *)
Lemma hex_unique l v v' : hex_number l v -> hex_number l v' -> v = v'.
Proof.
  intros H. revert v'. induction H as [|l v c d H IH Hd]; intros v' H'.
  - inversion H'; subst; [reflexivity|destruct l; discriminate].
  - inversion H' as [E|l' w c' d' Hl Hc E1 E2]; [symmetry in E; apply app_eq_nil in E; destruct E; discriminate|]. apply app_inj_tail in E1. destruct E1 as [-> ->]. rewrite (IH _ Hl). congruence.
Qed.
Lemma app_len_inj {A} (a b c d : list A) : length a = length c -> a ++ b = c ++ d -> a = c /\ b = d.
Proof.
  revert c. induction a as [|x a IH]; intros [|y c] Hl H; try discriminate; [split; [reflexivity|exact H]|]. cbn [app] in H. injection H as -> H. injection Hl as Hl. destruct (IH c Hl H) as [-> ->]. split; reflexivity.
Qed.
Lemma literal_unique t v v' : literal t v -> literal t v' -> v = v'.
Proof.
  intros H. revert v'. induction H; intros v' H'; inversion H'; subst; try congruence; try (unfold oct_digit in *; exfalso; lia);
  try (f_equal; auto; fail);
  (match goal with E : _ ++ _ = _ ++ _ |- _ => apply app_len_inj in E; [|congruence]; destruct E as [-> ->] end; f_equal; (eapply hex_unique; eassumption) || auto).
Qed.
Lemma backslash_witness : exists a b, a <> b /\ Forall is_char a /\ Forall is_char b /\ makePrintable false a UTF8 None true = makePrintable false b UTF8 None true.
Proof.
  exists [10], [92; 110]. split; [discriminate|]. split; [constructor; [unfold is_char; lia|constructor]|]. split; [repeat apply Forall_cons; try apply Forall_nil; unfold is_char; lia|].
  vm_compute. reflexivity.
Qed.
Lemma c1_witness : exists c, 128 <= c < 160 /\ makePrintable false [c] LATIN1 None true = [c] /\ makePrintable false [c] UTF8 None true = [c].
Proof. exists 155. split; [lia|]. split; vm_compute; reflexivity. Qed.

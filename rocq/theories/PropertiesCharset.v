(** C60: the charset guessed for a byte string. *)
From Verif Require Import Base BaseProofs BitsModel BitsSpec StreamModel ToolsModel TextModel TextSpec TextProofs.
Ltac Zify.zify_post_hook ::= Z.div_mod_to_equations.

Lemma utf8_char_bytes c b : unicode c -> In b (utf8_char c) -> 0 <= b < 0xF8.
Proof.
  intros [H1 H2]. unfold utf8_char. destruct (c <? 128) eqn:E1; [intros [<-|[]]; lia|].
  destruct (c <? 0x800) eqn:E2; [intros [<-|[<-|[]]]; lia|].
  destruct (c <? 0x10000) eqn:E3; [intros [<-|[<-|[<-|[]]]]; lia|].
  intros [<-|[<-|[<-|[<-|[]]]]]; lia.
Qed.
Lemma utf8_bytes text b : Forall unicode text -> In b (encode UTF8 text) -> 0 <= b < 0xF8.
Proof.
  intros H Hb. cbn [encode] in Hb. apply in_flat_map in Hb. destruct Hb as (c & Hc & Hb). rewrite Forall_forall in H. apply (utf8_char_bytes c); auto.
Qed.
Lemma utf8_ascii text : Forall unicode text -> (Forall (fun b => b < 128) (encode UTF8 text) <-> Forall (fun c => c < 128) text).
Proof.
  intros H. cbn [encode]. induction H as [|c text Hc H IH]; cbn [flat_map]; [split; constructor|].
  rewrite Forall_app, Forall_cons_iff, IH. apply and_iff_compat_r. destruct Hc as [Hc _]. unfold utf8_char.
  destruct (c <? 128) eqn:E1; [split; [inversion 1; lia|intros; repeat constructor; lia]|].
  split; [|intros; exfalso; cbn beta in *; lia]. destruct (c <? 0x800) eqn:E2; [|destruct (c <? 0x10000) eqn:E3]; intros K; apply Forall_inv in K; cbn beta in K; lia.
Qed.
Lemma forallb_ascii data : forallb (fun b => b <? 128) data = true <-> Forall (fun b => b < 128) data.
Proof. rewrite forallb_forall, Forall_forall. split; intros H x Hx; specialize (H x Hx); cbn beta in *; lia. Qed.

(** A text is ASCII when all its bytes are below 128, and only then. *)
Theorem C60_ascii : forall utf8_ok data default, default <> ASCII -> (guessBytesCharset utf8_ok data default = ASCII <-> Forall (fun b => b < 128) data).
Proof.
  intros ok data default Hd. unfold guessBytesCharset. split.
  - destruct (find _ UTF_BOMS) as [[bom cs]|] eqn:E1.
    { apply find_some in E1. destruct E1 as [[E1|[E1|[E1|[]]]] _]; injection E1 as <- <-; discriminate. }
    destruct (forallb _ data) eqn:E2; [intros _; apply forallb_ascii; assumption|].
    destruct (ok data); [discriminate|]. cbv zeta. destruct (find _ CHARSET_CHARACTERS) as [[x cs]|] eqn:E3; [|congruence].
    apply find_some in E3. destruct E3 as [[E3|[E3|[E3|[E3|[]]]]] _]; injection E3 as <- <-; discriminate.
  - intros H. destruct (find _ UTF_BOMS) as [[bom cs]|] eqn:E1.
    { exfalso. apply find_some in E1. destruct E1 as [E1 E2]. cbn [fst] in E2. destruct data as [|b data]; [destruct E1 as [E1|[E1|[E1|[]]]]; injection E1 as <- <-; discriminate|].
      inversion H as [|x l Hb Hl]; subst. destruct E1 as [E1|[E1|[E1|[]]]]; injection E1 as <- <-; cbn [is_prefix] in E2; apply andb_prop in E2; destruct E2 as [E2 _]; apply Z.eqb_eq in E2; lia. }
    apply forallb_ascii in H. rewrite H. reflexivity.
Qed.
Print Assumptions C60_ascii.
(** A Unicode text encoded in UTF-8, with or without byte-order mark, is recognised. *)
Theorem C60_utf8 : forall utf8_ok text default, utf8_codec utf8_ok -> Forall unicode text -> Exists (fun c => 128 <= c) text ->
  guessBytesCharset utf8_ok (encode UTF8 text) default = UTF8.
Proof.
  intros ok text default Hok Ht He. unfold guessBytesCharset.
  assert (B := fun b => utf8_bytes text b Ht).
  assert (N : forallb (fun b => b <? 128) (encode UTF8 text) = false).
  { destruct (forallb _ _) eqn:E; [|reflexivity]. exfalso. apply forallb_ascii in E. apply (utf8_ascii text Ht) in E.
    rewrite Exists_exists in He. destruct He as (c & Hc & K). rewrite Forall_forall in E. specialize (E c Hc). cbn beta in *. lia. }
  rewrite N. assert (O : ok (encode UTF8 text) = true) by (apply Hok; eauto). rewrite O.
  destruct (find _ UTF_BOMS) as [[bom cs]|] eqn:E1; [|reflexivity].
  apply find_some in E1. destruct E1 as [E1 E2]. cbn [fst] in E2. destruct (encode UTF8 text) as [|b data] eqn:Ed; [discriminate|].
  destruct E1 as [E1|[E1|[E1|[]]]]; injection E1 as <- <-; [reflexivity|exfalso..]; cbn [is_prefix] in E2; apply andb_prop in E2; destruct E2 as [E2 _]; apply Z.eqb_eq in E2;
    specialize (B b (or_introl eq_refl)); lia.
Qed.
Print Assumptions C60_utf8.
Example C60_utf8_ex : encode UTF8 [97; 0xE9; 0x20AC; 0x1F600] = [97; 0xC3; 0xA9; 0xE2; 0x82; 0xAC; 0xF0; 0x9F; 0x98; 0x80] /\
  Forall unicode [97; 0xE9; 0x20AC; 0x1F600] /\ Exists (fun c => 128 <= c) [97; 0xE9; 0x20AC; 0x1F600].
Proof. split; [reflexivity|]. split; [repeat constructor; unfold unicode; lia|]. right. left. lia. Qed.
(** Everything that is valid UTF-8 is taken for ASCII or UTF-8; everything else is not
    unless it starts with the mark. *)
Theorem C60_valid : forall utf8_ok data default, utf8_codec utf8_ok -> default <> UTF8 -> default <> ASCII -> (forall l, data <> 0xEF :: 0xBB :: 0xBF :: l) ->
  ((exists text, Forall unicode text /\ data = encode UTF8 text) <-> (guessBytesCharset utf8_ok data default = ASCII /\ Forall (fun b => 0 <= b) data \/ guessBytesCharset utf8_ok data default = UTF8)).
Proof.
  intros ok data default Hok Hd1 Hd2 Hb. split.
  - intros (text & Ht & ->). destruct (Forall_Exists_dec (fun c => c < 128) (fun c => Z_lt_dec c 128) text) as [F|F].
    + left. split; [apply C60_ascii; [assumption|]; apply utf8_ascii; assumption|]. apply Forall_forall. intros b K. apply (utf8_bytes text) in K; [lia|assumption].
    + right. apply C60_utf8; [assumption..|]. eapply Exists_impl; [|exact F]. cbn beta. lia.
  - intros [[H P]|H].
    + apply C60_ascii in H; [|assumption]. exists data. split.
      * apply Forall_forall. intros c Hc. rewrite Forall_forall in H, P. specialize (H c Hc). specialize (P c Hc). cbn beta in *. unfold unicode. lia.
      * cbn [encode]. clear - H. induction H as [|c l Hc H IH]; [reflexivity|]. cbn [flat_map]. unfold utf8_char at 1. replace (c <? 128) with true by lia. cbn [app]. congruence.
    + apply Hok. unfold guessBytesCharset in H. destruct (find _ UTF_BOMS) as [[bom cs]|] eqn:E1.
      { exfalso. apply find_some in E1. destruct E1 as [E1 E2]. cbn [fst] in E2. destruct E1 as [E1|[E1|[E1|[]]]]; injection E1 as <- <-; try discriminate.
        destruct data as [|a [|b [|c l]]]; cbn [is_prefix] in E2; rewrite ?andb_false_r in E2; try discriminate.
        rewrite !andb_true_iff, !Z.eqb_eq in E2. destruct E2 as (Q1 & Q2 & Q3 & _). subst. apply (Hb l). reflexivity. }
      destruct (forallb _ data); [discriminate|]. destruct (ok data); [reflexivity|]. cbv zeta in H.
      destruct (find _ CHARSET_CHARACTERS) as [[x cs]|] eqn:E3; [|congruence].
      apply find_some in E3. destruct E3 as [[E3|[E3|[E3|[E3|[]]]]] _]; injection E3 as <- <-; discriminate.
Qed.
Print Assumptions C60_valid.
Example C60_valid_ex : forall l, [0xE9; 0x6C; 0xE9] <> 0xEF :: 0xBB :: 0xBF :: l.
Proof. discriminate. Qed.
(** The byte-order marks of UTF-16. *)
Theorem C60_utf16 : forall utf8_ok data default, guessBytesCharset utf8_ok (0xFF :: 0xFE :: data) default = UTF16LE /\ guessBytesCharset utf8_ok (0xFE :: 0xFF :: data) default = UTF16BE.
Proof. intros. split; reflexivity. Qed.
Print Assumptions C60_utf16.

(** A French text in ISO-8859-1 whose letters outside of ASCII are those of the
    list, and where no two of the two signs follow each other, is recognised. *)
Definition signs (b : Z) : Prop := b = 0xA9 \/ b = 0xAE.
Definition french (b : Z) : Prop := 0 <= b < 128 \/ signs b \/ In b [0xE9; 0xEA; 0xE8; 0xE0; 0xE7].
Lemma french_not_utf8 : forall text, Forall unicode text -> Forall french (encode UTF8 text) -> Exists (fun b => 128 <= b) (encode UTF8 text) ->
  exists l a b m, encode UTF8 text = l ++ a :: b :: m /\ signs a /\ signs b.
Proof.
  intros text H F E. cbn [encode] in *. induction H as [|c text Hc H IH]; cbn [flat_map] in *; [inversion E|].
  apply Forall_app in F. destruct F as [F1 F2]. destruct Hc as [Hc _]. unfold utf8_char in F1, E |- *.
  destruct (c <? 128) eqn:E1.
  - apply Exists_app in E. destruct E as [E|E]; [inversion E as [? ? K|? ? K]; subst; [lia|inversion K]|]. destruct (IH F2 E) as (l & a & b & m & E0 & A & B).
    exists (c :: l), a, b, m. split; [|auto]. cbn [app]. f_equal. exact E0.
  - unfold french, signs in F1. destruct (c <? 0x800) eqn:E2.
    { exfalso. apply Forall_inv in F1. cbn [In] in F1. clear IH F2 E. lia. }
    destruct (c <? 0x10000) eqn:E3.
    + assert (K1 := Forall_inv F1). assert (F1' := Forall_inv_tail F1). assert (K2 := Forall_inv F1'). assert (F1'' := Forall_inv_tail F1'). assert (K3 := Forall_inv F1''). cbn [In] in K1, K2, K3.
      exists [0xE0 + c / 4096], (0x80 + c / 64 mod 64), (0x80 + c mod 64), (flat_map utf8_char text). split; [reflexivity|].
      unfold signs. clear IH F2 E F1 F1' F1''. split; lia.
    + exfalso. apply Forall_inv in F1. cbn [In] in F1. clear IH F2 E. lia.
Qed.
Theorem C60_latin1 : forall utf8_ok data default, utf8_codec utf8_ok -> Forall french data -> Exists (fun b => 128 <= b) data ->
  (forall l a b m, data = l ++ a :: b :: m -> ~ (signs a /\ signs b)) -> guessBytesCharset utf8_ok data default = Latin1.
Proof.
  intros ok data default Hok F E N. unfold guessBytesCharset.
  destruct (find _ UTF_BOMS) as [[bom cs]|] eqn:E1.
  { exfalso. apply find_some in E1. destruct E1 as [E1 E2]. cbn [fst] in E2. destruct data as [|b data]; [inversion E|].
    inversion F as [|x l Hb Hl]; subst. destruct E1 as [E1|[E1|[E1|[]]]]; injection E1 as <- <-; cbn [is_prefix] in E2; apply andb_prop in E2; destruct E2 as [E2 _]; apply Z.eqb_eq in E2;
      unfold french, signs in Hb; cbn [In] in Hb; lia. }
  destruct (forallb _ data) eqn:E2.
  { exfalso. apply forallb_ascii in E2. rewrite Exists_exists in E. destruct E as (b & Hb & K). rewrite Forall_forall in E2. specialize (E2 b Hb). cbn beta in *. lia. }
  destruct (ok data) eqn:E3.
  { exfalso. apply Hok in E3. destruct E3 as (text & Ht & ->). destruct (french_not_utf8 text Ht F E) as (l & a & b & m & E0 & A & B). exact (N l a b m E0 (conj A B)). }
  cbv zeta. unfold CHARSET_CHARACTERS. cbn [find fst].
  replace (forallb _ (filter _ data)) with true; [reflexivity|]. symmetry. apply forallb_forall. intros b Hb. apply filter_In in Hb. destruct Hb as [Hb Hb'].
  rewrite Forall_forall in F. specialize (F b Hb). apply existsb_exists. exists b. split; [|apply Z.eqb_refl]. unfold french, signs in F. cbn [In] in F |- *. lia.
Qed.
Print Assumptions C60_latin1.
(** "éléphant" *)
Example C60_latin1_ex : Forall french [0xE9; 108; 0xE9; 112] /\ Exists (fun b => 128 <= b) [0xE9; 108; 0xE9; 112].
Proof. split; [repeat constructor; unfold french; cbn [In]; lia|left; lia]. Qed.
(** Without that hypothesis it is false: "é©®" in ISO-8859-1 is also a valid UTF-8 text of one letter. *)
Theorem C60_latin1_refuted : forall utf8_ok default, utf8_codec utf8_ok ->
  Forall french [0xE9; 0xA9; 0xAE] /\ guessBytesCharset utf8_ok [0xE9; 0xA9; 0xAE] default = UTF8.
Proof.
  intros ok default Hok. split; [repeat constructor; unfold french, signs; cbn [In]; lia|].
  exact (C60_utf8 ok [0x9A6E] default Hok ltac:(repeat constructor; unfold unicode; lia) ltac:(left; lia)).
Qed.
Print Assumptions C60_latin1_refuted.
(** Other answers: the bytes outside of ASCII are all of the list of the charset, and
    no list before it has them all. *)
Theorem C60_other : forall utf8_ok data default cs, guessBytesCharset utf8_ok data default = cs -> cs <> default ->
  cs = ASCII \/ cs = UTF8 \/ cs = UTF16LE \/ cs = UTF16BE \/
  exists before l after, CHARSET_CHARACTERS = before ++ (l, cs) :: after /\ utf8_ok data = false /\
    (forall b, In b data -> 128 <= b -> In b l) /\ forall c, In c before -> exists b, In b data /\ 128 <= b /\ ~ In b (fst c).
Proof.
  intros ok data default cs H Hd. unfold guessBytesCharset in H.
  destruct (find _ UTF_BOMS) as [[bom c]|] eqn:E1.
  { apply find_some in E1. destruct E1 as [[E1|[E1|[E1|[]]]] _]; injection E1 as <- <-; subst; auto. }
  destruct (forallb _ data); [auto|]. destruct (ok data) eqn:E2; [auto|]. right. right. right. right. cbv zeta in H.
  revert H. generalize CHARSET_CHARACTERS. intros L. induction L as [|[l c] L IH]; cbn [find fst]; [congruence|].
  destruct (forallb _ (filter _ data)) eqn:E3.
  - intros <-. exists [], l, L. repeat split; [|intros x []]. intros b Hb K. rewrite forallb_forall in E3. specialize (E3 b).
    assert (In b (filter (fun b => 128 <=? b) data)) as I by (apply filter_In; split; [assumption|lia]). apply E3 in I. apply existsb_exists in I. destruct I as (y & Hy & Ey). apply Z.eqb_eq in Ey. subst. assumption.
  - intros H. destruct (IH H) as (before & l0 & after & -> & _ & P1 & P2). exists ((l, c) :: before), l0, after. repeat split; auto.
    intros x [<-|Hx]; [|auto]. cbn [fst].
    assert (X : existsb (fun b => negb (existsb (Z.eqb b) l)) (filter (fun b => 128 <=? b) data) = true).
    { clear - E3. induction (filter _ data) as [|b k IH]; [discriminate|]. cbn [forallb existsb] in *. destruct (existsb (Z.eqb b) l); [cbn [negb andb orb] in *; auto|reflexivity]. }
    apply existsb_exists in X. destruct X as (b & Hb & K). apply filter_In in Hb. destruct Hb as [Hb Hb']. exists b. repeat split; [assumption|lia|].
    intros I. apply negb_true_iff in K. assert (existsb (Z.eqb b) l = true) by (apply existsb_exists; exists b; split; [assumption|apply Z.eqb_refl]). congruence.
Qed.
Print Assumptions C60_other.
Example C60_other_ex : guessBytesCharset (fun _ => false) [49; 0xA4] UnknownCharset = Latin9 /\ guessBytesCharset (fun _ => false) [0xA8; 0x20] UnknownCharset = MacRoman.
Proof. split; reflexivity. Qed.
(** A byte-order mark of UTF-32 is taken for one of UTF-16. *)
Theorem C60_utf32_refuted : forall utf8_ok text default, guessBytesCharset utf8_ok (encode UTF32LE (0xFEFF :: text)) default = UTF16LE.
Proof. reflexivity. Qed.
Print Assumptions C60_utf32_refuted.

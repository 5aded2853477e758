(** Proofs about string fields. *)
From Verif Require Import Base BaseProofs BitsModel BitsSpec StreamModel StreamSpec StreamProofs StreamProofs2 ToolsModel ToolsProofs TextModel TextSpec.
Ltac Zify.zify_post_hook ::= Z.div_mod_to_equations.

(** The charset is not one of those that need a byte-order mark. *)
Definition no_bom (cs : option charset) : Prop :=
  cs <> Some UTF16 /\ cs <> Some UTF32 /\ cs <> Some UnknownCharset.

Lemma suffix_nonempty f cs e term : suffix_str f cs e = Some (Ok term) -> 1 <= zlen term.
Proof.
  unfold suffix_str, suffix_format. intros H.
  destruct f; try discriminate; destruct e; try discriminate; injection H as <-;
    match goal with |- context [if ?b =? 8 then _ else _] => destruct (b =? 8); [cbn; lia|destruct (b =? 16); cbn; lia] end.
Qed.

Definition suffix_layout (length w : Z) (cs : option charset) : layout :=
  {| l_size := (length + w) * 8; l_content_offset := 0; l_content_size := length; l_charset := cs |}.

(** What the constructor does for a format with a suffix. *)
Lemma layout_suffix_gen read data e s f cs term :
  serves read data -> data <> [] -> 0 <= s -> no_bom cs -> suffix_str f cs e = Some (Ok term) ->
  (exists i, first_occurrence term data s (zlen data) i /\
     string_layout read (8 * zlen data) e (8 * s) f cs None =
       Ok (suffix_layout (if 1 <? zlen term then alignValue (i - s) (zlen term) else i - s) (zlen term) cs)) \/
  ((forall i, ~ first_occurrence term data s (zlen data) i) /\
   string_layout read (8 * zlen data) e (8 * s) f cs None = Err ParserError).
Proof.
  intros Hr Hd Hs (B1 & B2 & B3) Hf.
  pose proof (suffix_nonempty _ _ _ _ Hf) as Hw.
  assert (Hn : term <> []) by (intros ->; cbn in Hw; lia).
  assert (Htail : forall l : layout, match cs with
      | Some c =>
          match utf_charset c with
          | Some (bomsize, Some None) =>
              let nbytes := bomsize / 8 in
              do bom <- readBytes read (8 * s) nbytes;
              match utf_bom bomsize bom with
              | None => Err ParserError
              | Some c' => Ok {| l_size := l_size l; l_content_offset := l_content_offset l + nbytes;
                                 l_content_size := l_content_size l - nbytes; l_charset := Some c' |}
              end
          | _ => Ok l
          end
      | None => Ok l
      end = Ok l).
  { intros l. destruct cs as [[]|]; try reflexivity; congruence. }
  destruct (searchBytesLength_correct read data term false s None Hr Hd Hn Hs) as [(i & E & Hi)|[E Hi]];
    cbn [search_limit] in Hi.
  - left. exists i. split; [exact Hi|].
    unfold string_layout. rewrite Hf. cbn [bind]. rewrite E. cbn [bind]. rewrite Htail. rewrite Z.add_0_r.
    destruct cs as [[]|]; try reflexivity; congruence.
  - right. split; [exact Hi|]. unfold string_layout. rewrite Hf. cbn [bind]. rewrite E. cbn [bind].
    destruct cs as [[]|]; try reflexivity; congruence.
Qed.

Lemma terminated_occurs data term s n : 0 <= s -> terminated data term s n -> occurs_at term data (s + zlen term * n).
Proof. intros Hs (H1 & H2 & H3 & _). pose proof (zlen_nonneg term). split; [nia|]. split; [lia|assumption]. Qed.
(** Occurring is decidable. *)
Lemma occurs_dec term data i : {occurs_at term data i} + {~ occurs_at term data i}.
Proof.
  unfold occurs_at. destruct (Z_le_dec 0 i); [|right; tauto]. destruct (Z_le_dec (i + zlen term) (zlen data)); [|right; tauto].
  destruct (list_eq_dec Z.eq_dec (sub data i (zlen term)) term); [left; auto|right; tauto].
Qed.
Lemma occurs_first data term s upto i : s <= i -> i + zlen term <= upto -> occurs_at term data i ->
  exists j, j <= i /\ first_occurrence term data s upto j.
Proof.
  intros H1 H2 H3.
  assert (G : forall k : nat, (exists j, s <= j < s + Z.of_nat k /\ occurs_at term data j /\ forall j', s <= j' < j -> ~ occurs_at term data j') \/
     forall j, s <= j < s + Z.of_nat k -> ~ occurs_at term data j).
  { induction k as [|k [(j & G1 & G2)|IH]].
    - right. intros j Hj. lia.
    - left. exists j. split; [lia|assumption].
    - destruct (occurs_dec term data (s + Z.of_nat k)) as [Ho|Ho].
      + left. exists (s + Z.of_nat k). split; [lia|]. split; [assumption|]. exact IH.
      + right. intros j Hj. destruct (Z.eq_dec j (s + Z.of_nat k)) as [->|]; [assumption|]. apply IH. lia. }
  destruct (G (Z.to_nat (i - s + 1))) as [(j & G1 & G2 & G3)|G1].
  - exists j. split; [lia|]. split; [lia|]. split; [lia|]. split; assumption.
  - exfalso. apply (G1 i); [lia|assumption].
Qed.
Lemma first_det term data s upto i j : first_occurrence term data s upto i -> first_occurrence term data s upto j -> i = j.
Proof.
  intros (A1 & A2 & A3 & A4) (B1 & B2 & B3 & B4).
  destruct (Z.lt_trichotomy i j) as [H|[H|H]]; [exfalso; apply (B4 i); [lia|assumption]|assumption|exfalso; apply (A4 j); [lia|assumption]].
Qed.

Lemma align_last w n x : 1 <= w -> w * n - w < x <= w * n -> alignValue x w = w * n.
Proof.
  intros Hw Hx. destruct (alignValue_spec x w Hw) as (H1 & H2 & H3).
  specialize (H3 (w * n) ltac:(lia) ltac:(rewrite Z.mul_comm; apply Z.mod_mul; lia)).
  apply Z.mod_divide in H2; [|lia]. destruct H2 as [q Hq]. assert (q = n) by nia. nia.
Qed.

Lemma layout_suffix_iff read data e s f cs term n :
  serves read data -> 0 <= s -> no_bom cs -> suffix_str f cs e = Some (Ok term) -> terminated data term s n ->
  (string_layout read (8 * zlen data) e (8 * s) f cs None = Ok (suffix_layout (zlen term * n) (zlen term) cs) <->
   ~ straddled data term s n).
Proof.
  intros Hr Hs Hb Hf Ht. pose proof (suffix_nonempty _ _ _ _ Hf) as Hw.
  pose proof (terminated_occurs _ _ _ _ Hs Ht) as Ho. destruct Ht as (T1 & T2 & T3 & T4).
  assert (Hd : data <> []) by (intros ->; rewrite (@zlen_nil Z) in T2; nia).
  assert (Hsn : s <= s + zlen term * n) by nia. assert (Hend : s + zlen term * n + zlen term <= zlen data) by lia.
  destruct (occurs_first data term s (zlen data) _ Hsn Hend Ho) as (i & Hi1 & Hi).
  destruct (layout_suffix_gen read data e s f cs term Hr Hd Hs Hb Hf) as [(i' & Hi' & E)|[Hno _]]; [|exfalso; exact (Hno i Hi)].
  rewrite (first_det _ _ _ _ _ _ Hi' Hi) in E. clear i' Hi'. rewrite E. clear E.
  assert (Hal : (if 1 <? zlen term then alignValue (i - s) (zlen term) else i - s) = alignValue (i - s) (zlen term)).
  { destruct (1 <? zlen term) eqn:E1; [reflexivity|]. replace (zlen term) with 1 by lia. unfold alignValue. rewrite Z.mod_1_r. reflexivity. }
  rewrite Hal. clear Hal. destruct Hi as (F1 & F2 & F3 & F4). split.
  - intros E (j & J1 & J2 & J3). injection E as E1 E2.
    assert (Hij : i <= j).
    { destruct (Z_le_dec i j); [assumption|]. exfalso. apply (F4 j); [lia|]. split; [lia|]. split; [lia|assumption]. }
    destruct (alignValue_spec (i - s) (zlen term) Hw) as (_ & _ & A3).
    specialize (A3 (zlen term * (n - 1)) ltac:(nia) ltac:(rewrite Z.mul_comm; apply Z.mod_mul; lia)). nia.
  - intros Hno. rewrite (align_last (zlen term) n); [reflexivity|lia|]. split; [|lia].
    destruct (Z_lt_dec (zlen term * n - zlen term) (i - s)); [assumption|]. exfalso. apply Hno. exists i. split; [lia|]. split; [lia|]. apply F3.
Qed.

(** One byte per character: nothing can straddle. *)
Lemma not_straddled_1 data term s n : zlen term = 1 -> terminated data term s n -> ~ straddled data term s n.
Proof.
  intros Hw (T1 & T2 & T3 & T4) (j & J1 & J2 & J3). rewrite Hw in *.
  apply (T4 (j - s)); [lia|]. replace (s + 1 * (j - s)) with j by lia. assumption.
Qed.

(** ** Texts *)
Lemma nth_flat {A} (f : A -> list Z) w l (d : A) : forall k r, (forall x, length (f x) = w) -> (k < length l)%nat -> (r < w)%nat ->
  nth (w * k + r) (flat_map f l) 0 = nth r (f (nth k l d)) 0.
Proof.
  induction l as [|x l IH]; intros k r Hf Hk Hr; cbn [length] in Hk; [lia|]. cbn [flat_map].
  destruct k as [|k].
  - rewrite Nat.mul_0_r, Nat.add_0_l, app_nth1 by (rewrite Hf; lia). reflexivity.
  - rewrite app_nth2 by (rewrite Hf; lia). rewrite Hf. replace (w * S k + r - w)%nat with (w * k + r)%nat by lia.
    rewrite IH by (auto; lia). reflexivity.
Qed.
Lemma length_flat {A} (f : A -> list Z) w l : (forall x, length (f x) = w) -> length (flat_map f l) = (w * length l)%nat.
Proof. intros Hf. induction l as [|x l IH]; cbn [flat_map length]; [lia|]. rewrite app_length, Hf, IH. lia. Qed.
Lemma sub_flat {A} (f : A -> list Z) w l (d : A) k : (forall x, length (f x) = w) -> (k < length l)%nat ->
  sub (flat_map f l) (Z.of_nat w * Z.of_nat k) (Z.of_nat w) = f (nth k l d).
Proof.
  intros Hf. revert k. induction l as [|x l IH]; intros k Hk; cbn [length] in Hk; [lia|]. cbn [flat_map].
  destruct k as [|k].
  - rewrite Z.mul_0_r. rewrite sub_app_l by (unfold zlen; rewrite ?Hf; lia).
    replace (Z.of_nat w) with (zlen (f x)) by (unfold zlen; rewrite Hf; reflexivity). apply sub_all.
  - rewrite sub_app_r by (unfold zlen; rewrite Hf; nia). unfold zlen. rewrite Hf.
    replace (Z.of_nat w * Z.of_nat (S k) - Z.of_nat w) with (Z.of_nat w * Z.of_nat k) by lia. rewrite IH by lia. reflexivity.
Qed.

(** A text given as a list of code units of constant width. *)
Lemma chunks_terminated {A} (f : A -> list Z) (units : list A) (t d : A) pre post :
  (forall x, length (f x) = length (f t)) -> (forall x, In x units -> f x <> f t) ->
  terminated (pre ++ flat_map f units ++ f t ++ post) (f t) (zlen pre) (zlen units).
Proof.
  intros Hl Hne. set (w := length (f t)).
  assert (Hz : zlen (flat_map f units) = zlen (f t) * zlen units) by (unfold zlen; rewrite (length_flat f w) by assumption; unfold w; lia).
  pose proof (zlen_nonneg units). pose proof (zlen_nonneg pre). pose proof (zlen_nonneg post). pose proof (zlen_nonneg (f t)).
  split; [assumption|]. split; [rewrite !zlen_app, Hz; lia|]. split.
  - rewrite sub_app_r by nia. replace (zlen pre + zlen (f t) * zlen units - zlen pre) with (zlen (f t) * zlen units) by lia.
    rewrite sub_app_r by lia. rewrite Hz, Z.sub_diag. rewrite sub_app_l by lia. apply sub_all.
  - intros k Hk. rewrite sub_app_r by nia. replace (zlen pre + zlen (f t) * k - zlen pre) with (zlen (f t) * k) by lia.
    rewrite sub_app_l by nia. replace k with (Z.of_nat (Z.to_nat k)) by lia.
    replace (zlen (f t)) with (Z.of_nat w) by reflexivity.
    rewrite (sub_flat f w units d) by (try assumption; unfold zlen in Hk; lia).
    apply Hne. apply nth_In. unfold zlen in Hk. lia.
Qed.

(** Where a terminator of zeros could straddle. *)
Lemma straddled_zero data w s n : 1 <= w -> 0 <= s -> terminated data (repeat 0 (Z.to_nat w)) s n -> straddled data (repeat 0 (Z.to_nat w)) s n ->
  exists k, 0 <= k /\ k + 1 < n /\ nth (Z.to_nat (s + w * (k + 1))) data 0 = 0 /\ nth (Z.to_nat (s + w * (k + 1) - 1)) data 0 = 0.
Proof.
  intros Hw Hs (T1 & T2 & T3 & T4) (j & J1 & J2 & J3). rewrite zlen_repeat, Z2Nat.id in * by lia.
  assert (Hna : (j - s) mod w <> 0).
  { intros E. apply Z.mod_divide in E; [|lia]. destruct E as [q Hq]. apply (T4 q); [nia|]. rewrite <- J3. f_equal. lia. }
  pose proof (Z.div_mod (j - s) w ltac:(lia)) as Hd. pose proof (Z.mod_pos_bound (j - s) w ltac:(lia)) as Hm.
  exists ((j - s) / w). assert (0 <= (j - s) / w) by (apply Z.div_pos; lia).
  split; [assumption|]. split; [nia|].
  assert (G : forall x, j <= x < j + w -> nth (Z.to_nat x) data 0 = 0).
  { intros x Hx. transitivity (nth (Z.to_nat (x - j)) (sub data j w) 0).
    - rewrite nth_sub by lia. f_equal. lia.
    - rewrite J3. apply nth_repeat. }
  split; apply G; nia.
Qed.

(** ** Round trip *)
Definition tchar (f : format) : Z := match f with FormatUnixLine => 10 | _ => 0 end.
Lemma value_content utf8_ok codec read data addr l text :
  serves read data -> 0 <= addr -> 0 <= l_content_offset l -> l_content_size l = zlen text ->
  sub data (addr + l_content_offset l) (zlen text) = text -> addr + l_content_offset l + zlen text <= zlen data ->
  string_value utf8_ok codec read (8 * addr) l None None = Ok (if zlen text =? 0 then [] else convertText utf8_ok codec (l_charset l) text).
Proof.
  intros Hr Ha Ho Hc Hsub Hin. unfold string_value. rewrite Hc. destruct (zlen text =? 0) eqn:E; [reflexivity|].
  pose proof (zlen_nonneg text). replace (8 * addr + l_content_offset l * 8) with (8 * (addr + l_content_offset l)) by lia.
  rewrite (readBytes_serves read data) by (try assumption; lia). cbn [bind]. rewrite Hsub. reflexivity.
Qed.

Lemma flat_map_ext_in {A} (f g : A -> list Z) l : (forall x, In x l -> f x = g x) -> flat_map f l = flat_map g l.
Proof. induction l as [|x l IH]; intros H; [reflexivity|]. cbn [flat_map]. rewrite H by (left; reflexivity). rewrite IH; [reflexivity|]. intros y Hy. apply H. right. assumption. Qed.
Lemma flat_map_single (l : list Z) : flat_map (fun b => [b]) l = l.
Proof. induction l as [|b l IH]; [reflexivity|]. cbn [flat_map]. rewrite IH. reflexivity. Qed.

Lemma utf8_bytes c t b : unicode c -> (t = 0 \/ t = 10) -> c <> t -> In b (utf8_char c) -> b <> t.
Proof.
  intros [H1 H2] Ht Hc Hb. unfold utf8_char in Hb.
  destruct (c <? 0x80) eqn:E1; [cbn in Hb; lia|].
  destruct (c <? 0x800) eqn:E2; [cbn [In] in Hb; lia|].
  destruct (c <? 0x10000) eqn:E3; cbn [In] in Hb; lia.
Qed.
Lemma utf16_unit c t u : unicode c -> (t = 0 \/ t = 10) -> c <> t -> In u (utf16_units c) -> u <> t /\ 0 <= u < 65536.
Proof.
  intros [H1 H2] Ht Hc Hu. unfold utf16_units in Hu.
  destruct (c <? 0x10000) eqn:E1; cbn [In] in Hu; lia.
Qed.

(** The code units of an encoding and how they become bytes. *)
Definition unit_bytes (cs : charset) : Z -> list Z :=
  match cs with UTF16LE => unit_le | UTF16BE => unit_be | UTF32LE => quad_le | UTF32BE => quad_be | _ => fun b => [b] end.
Definition units_of (cs : charset) (text : list Z) : list Z :=
  match cs with UTF8 => flat_map utf8_char text | UTF16LE | UTF16BE => flat_map utf16_units text | _ => text end.
Lemma encode_units cs text : encode cs text = flat_map (unit_bytes cs) (units_of cs text).
Proof. destruct cs; cbn [encode unit_bytes units_of]; try rewrite flat_map_single; reflexivity. Qed.
Lemma unit_bytes_inj cs x t : 0 <= x -> 0 <= t -> unit_bytes cs x = unit_bytes cs t -> x = t.
Proof.
  intros Hx Ht. destruct cs; cbn [unit_bytes]; unfold unit_le, unit_be, quad_le, quad_be; intros H; injection H; intros; lia.
Qed.
Lemma unit_bytes_len cs x y : length (unit_bytes cs x) = length (unit_bytes cs y).
Proof. destruct cs; reflexivity. Qed.
Lemma units_differ cs text t : Forall unicode text -> (t = 0 \/ t = 10) -> ~ In t text -> forall u, In u (units_of cs text) -> unit_bytes cs u <> unit_bytes cs t.
Proof.
  intros Hu Ht Hn u Hin E.
  assert (Hc : forall c, In c text -> unicode c /\ c <> t).
  { intros c Hc. split; [exact (proj1 (Forall_forall _ _) Hu c Hc)|]. intros ->. contradiction. }
  assert (G : 0 <= u /\ u <> t).
  { destruct cs; cbn [units_of] in Hin;
      try (destruct (Hc _ Hin) as [[G1 _] G2]; split; [lia|assumption]);
      apply in_flat_map in Hin; destruct Hin as (c & Hin & Hu'); destruct (Hc _ Hin) as [G1 G2].
    - split; [|eapply utf8_bytes; eassumption].
      destruct G1 as [G1 G3]. unfold utf8_char in Hu'.
      destruct (c <? 0x80) eqn:E1; [cbn in Hu'; lia|]. destruct (c <? 0x800) eqn:E2; [cbn [In] in Hu'; lia|].
      destruct (c <? 0x10000) eqn:E3; cbn [In] in Hu'; lia.
    - destruct (utf16_unit c t u G1 Ht G2 Hu'). split; [lia|assumption].
    - destruct (utf16_unit c t u G1 Ht G2 Hu'). split; [lia|assumption]. }
  destruct G as [G1 G2]. apply G2. eapply unit_bytes_inj; [exact G1|lia|exact E].
Qed.

(** The terminator of the format in the charset is the one that the field looks for. *)
Definition suffix_agrees (f : format) (cs : charset) (e : endian) : Prop :=
  match f with
  | FormatC => e <> MIDDLE_ENDIAN
  | FormatUnixLine =>
      match cs with
      | UTF16LE | UTF32LE => e = LITTLE_ENDIAN
      | UTF16BE | UTF32BE => e = BIG_ENDIAN
      | _ => e <> MIDDLE_ENDIAN
      end
  | _ => False
  end.
Lemma suffix_agrees_ok f cs e : no_bom (Some cs) -> suffix_agrees f cs e -> suffix_str f (Some cs) e = Some (Ok (unit_bytes cs (tchar f))).
Proof.
  intros (B1 & B2 & B3) H. destruct f; try contradiction; destruct cs; try congruence; destruct e; cbn [suffix_agrees] in H; try congruence; reflexivity.
Qed.

Lemma text_terminated f cs text pre post : Forall unicode text -> ~ In (tchar f) text ->
  terminated (pre ++ encode cs text ++ encode cs [tchar f] ++ post) (unit_bytes cs (tchar f)) (zlen pre) (zlen (units_of cs text)).
Proof.
  intros Hu Hn.
  assert (Ht : encode cs [tchar f] = unit_bytes cs (tchar f)) by (destruct f; destruct cs; reflexivity).
  rewrite Ht, encode_units. apply (chunks_terminated (unit_bytes cs) (units_of cs text) (tchar f) 0).
  - intros x. apply unit_bytes_len.
  - apply units_differ; [assumption|destruct f; cbn; auto|assumption].
Qed.
Lemma encode_len cs text : zlen (encode cs text) = zlen (unit_bytes cs 0) * zlen (units_of cs text).
Proof. rewrite encode_units. unfold zlen. rewrite (length_flat _ (length (unit_bytes cs 0))); [lia|intros; apply unit_bytes_len]. Qed.

Lemma text_field read f cs e text pre post :
  let data := pre ++ encode cs text ++ encode cs [tchar f] ++ post in
  serves read data -> no_bom (Some cs) -> suffix_agrees f cs e -> Forall unicode text -> ~ In (tchar f) text ->
  ~ straddled data (encode cs [tchar f]) (zlen pre) (zlen (units_of cs text)) ->
  string_layout read (8 * zlen data) e (8 * zlen pre) f (Some cs) None =
    Ok {| l_size := 8 * (zlen (encode cs text) + zlen (encode cs [tchar f])); l_content_offset := 0;
          l_content_size := zlen (encode cs text); l_charset := Some cs |}.
Proof.
  intros data Hr Hb Hf Hu Hn Hns.
  assert (Ht : encode cs [tchar f] = unit_bytes cs (tchar f)) by (destruct f; destruct cs; reflexivity).
  pose proof (text_terminated f cs text pre post Hu Hn) as HT. fold data in HT.
  pose proof (layout_suffix_iff read data e (zlen pre) f (Some cs) _ _ Hr (zlen_nonneg pre) Hb (suffix_agrees_ok f cs e Hb Hf) HT) as H.
  rewrite <- Ht in H. apply H in Hns. rewrite Hns. unfold suffix_layout. rewrite (encode_len cs text), Ht.
  assert (Hw : zlen (unit_bytes cs (tchar f)) = zlen (unit_bytes cs 0)) by (unfold zlen; f_equal; apply unit_bytes_len).
  rewrite Hw. do 2 f_equal. lia.
Qed.

Lemma text_value utf8_ok codec read cs text pre post l :
  let data := pre ++ encode cs text ++ post in
  serves read data -> codec cs (encode cs text) = inl text ->
  l_content_offset l = 0 -> l_content_size l = zlen (encode cs text) -> l_charset l = Some cs ->
  (zlen (encode cs text) = 0 -> text = []) ->
  string_value utf8_ok codec read (8 * zlen pre) l None None = Ok text.
Proof.
  intros data Hr Hc Ho Hs Hcs H0. pose proof (zlen_nonneg pre). pose proof (zlen_nonneg post). pose proof (zlen_nonneg (encode cs text)).
  rewrite (value_content utf8_ok codec read data (zlen pre) l (encode cs text)); try assumption.
  - destruct (zlen (encode cs text) =? 0) eqn:E; [rewrite H0 by lia; reflexivity|].
    rewrite Hcs. unfold convertText. rewrite Hc. reflexivity.
  - lia.
  - rewrite Ho. unfold data. rewrite sub_app_r by lia. replace (zlen pre + 0 - zlen pre) with 0 by lia. rewrite sub_app_l by lia. apply sub_all.
  - rewrite Ho. unfold data. rewrite !zlen_app. lia.
Qed.
Lemma encode_empty cs text : zlen (encode cs text) = 0 -> text = [].
Proof.
  intros H. apply zlen_0 in H. destruct text as [|c text]; [reflexivity|]. exfalso.
  assert (H8 : utf8_char c <> []).
  { unfold utf8_char. destruct (c <? 0x80); [discriminate|]. destruct (c <? 0x800); [discriminate|]. destruct (c <? 0x10000); discriminate. }
  assert (H16 : utf16_units c <> []) by (unfold utf16_units; destruct (c <? 0x10000); discriminate).
  destruct cs; cbn [encode flat_map] in H; try discriminate; try (apply app_eq_nil in H; destruct H as [H _]; contradiction);
    destruct (utf16_units c) as [|u us]; try contradiction; discriminate.
Qed.

(** Texts without a code unit multiple of 256 are never cut. *)
Lemma not_straddled_c cs text pre post : no_bom (Some cs) -> Forall unicode text -> ~ In 0 text ->
  (forall u, In u (units_of cs text) -> zlen (unit_bytes cs 0) = 1 \/ u mod 256 <> 0) ->
  ~ straddled (pre ++ encode cs text ++ encode cs [0] ++ post) (encode cs [0]) (zlen pre) (zlen (units_of cs text)).
Proof.
  intros Hb Hu Hn H256 Hst.
  pose proof (text_terminated FormatC cs text pre post Hu Hn) as HT. cbn [tchar] in HT.
  assert (Ht : encode cs [0] = unit_bytes cs 0) by (destruct cs; reflexivity). rewrite Ht in *.
  destruct (Z.eq_dec (zlen (unit_bytes cs 0)) 1) as [E1|E1].
  { revert Hst. apply not_straddled_1; assumption. }
  assert (Hz : unit_bytes cs 0 = repeat 0 (Z.to_nat (zlen (unit_bytes cs 0)))) by (destruct cs; reflexivity).
  assert (Hw : 1 <= zlen (unit_bytes cs 0)) by (destruct cs; cbn; lia).
  set (data := pre ++ encode cs text ++ unit_bytes cs 0 ++ post) in *. rewrite Hz in Hst, HT.
  destruct (straddled_zero _ (zlen (unit_bytes cs 0)) (zlen pre) (zlen (units_of cs text)) Hw (zlen_nonneg pre) HT Hst) as (k & K1 & K2 & K3 & K4).
  subst data. rewrite encode_units in K3, K4. pose proof (zlen_nonneg pre). set (W := length (unit_bytes cs 0)) in *.
  assert (HW : zlen (unit_bytes cs 0) = Z.of_nat W) by reflexivity. rewrite HW in *. clear HW.
  assert (Hl : length (flat_map (unit_bytes cs) (units_of cs text)) = (W * length (units_of cs text))%nat) by (apply length_flat; intros; apply unit_bytes_len).
  unfold zlen in *.
  assert (Hpos : forall i : Z, 0 <= i < Z.of_nat (W * length (units_of cs text)) -> forall p, p = Z.to_nat (Z.of_nat (length pre) + i) ->
     nth p (pre ++ flat_map (unit_bytes cs) (units_of cs text) ++ unit_bytes cs 0 ++ post) 0 = nth (Z.to_nat i) (flat_map (unit_bytes cs) (units_of cs text)) 0).
  { intros i Hi p ->. rewrite app_nth2 by lia. rewrite app_nth1 by (rewrite Hl; lia). f_equal. lia. }
  assert (N1 : (Z.to_nat k < length (units_of cs text))%nat) by lia.
  assert (N2 : (Z.to_nat (k + 1) < length (units_of cs text))%nat) by lia.
  rewrite (Hpos (Z.of_nat W * (k + 1))) in K3 by (try lia; nia).
  rewrite (Hpos (Z.of_nat W * (k + 1) - 1)) in K4 by (try lia; nia).
  replace (Z.to_nat (Z.of_nat W * (k + 1))) with (W * Z.to_nat (k + 1) + 0)%nat in K3 by nia.
  replace (Z.to_nat (Z.of_nat W * (k + 1) - 1)) with (W * Z.to_nat k + (W - 1))%nat in K4 by nia.
  rewrite (nth_flat (unit_bytes cs) W _ 0) in K3 by (try lia; intros; apply unit_bytes_len).
  rewrite (nth_flat (unit_bytes cs) W _ 0) in K4 by (try lia; intros; apply unit_bytes_len).
  assert (G1 := H256 _ (nth_In (units_of cs text) 0 N1)). assert (G2 := H256 _ (nth_In (units_of cs text) 0 N2)).
  destruct G1 as [G1|G1]; [lia|]. destruct G2 as [G2|G2]; [lia|].
  destruct cs; cbn in W; subst W; try lia; cbn [unit_bytes unit_le unit_be quad_le quad_be nth Nat.sub] in K3, K4; lia.
Qed.

(** ** Pascal strings *)
Lemma pascal_field read e f p (content pre post : list Z) prefix :
  let data := pre ++ prefix ++ content ++ post in
  serves read data -> is_bytes data -> pascal_format f = Some p -> zlen prefix = p -> bits_available data (8 * zlen pre) (p * 8) e = true ->
  bits_at data (8 * zlen pre) (p * 8) e = zlen content -> forall cs, no_bom cs ->
  string_layout read (8 * zlen data) e (8 * zlen pre) f cs None =
    Ok {| l_size := 8 * (p + zlen content); l_content_offset := p; l_content_size := zlen content; l_charset := cs |}.
Proof.
  intros data Hr Hd Hf Hp Hav Hv cs (B1 & B2 & B3). pose proof (zlen_nonneg pre).
  assert (Hp1 : 1 <= p) by (destruct f; cbn in Hf; try discriminate; injection Hf as <-; lia).
  assert (E : string_layout read (8 * zlen data) e (8 * zlen pre) f cs None =
    Ok {| l_size := (p + zlen content) * 8; l_content_offset := p; l_content_size := zlen content; l_charset := cs |}).
  { unfold string_layout.
    assert (Hs : suffix_str f cs e = None) by (destruct f; cbn in Hf; try discriminate; reflexivity).
    rewrite Hs, Hf. rewrite (readBits_serves read data) by (try assumption; lia). cbn [bind]. rewrite Hv.
    destruct cs as [[]|]; try congruence; reflexivity. }
  rewrite E. do 2 f_equal. lia.
Qed.

(** ** strip *)
Lemma lstrip_spec p text : exists before, text = before ++ lstrip p text /\ forallb p before = true /\ (forall c t, lstrip p text = c :: t -> p c = false).
Proof.
  induction text as [|c text (b & E & H1 & H2)]; cbn [lstrip]; [exists []; repeat split; discriminate|].
  destruct (p c) eqn:Ec.
  - exists (c :: b). cbn [app forallb]. rewrite Ec, <- E. repeat split; assumption.
  - exists []. repeat split. intros c' t E'. injection E' as <- <-. assumption.
Qed.
Lemma forallb_rev {A} (p : A -> bool) l : forallb p (rev l) = forallb p l.
Proof. induction l as [|x l IH]; [reflexivity|]. cbn [rev forallb]. rewrite forallb_app, IH. cbn [forallb]. rewrite andb_true_r. apply andb_comm. Qed.
Lemma strip_ok p text : stripped p text (strip p text).
Proof.
  destruct (lstrip_spec p text) as (b & E & H1 & H2). destruct (lstrip_spec p (rev (lstrip p text))) as (a & E' & H3 & H4).
  assert (E2 : lstrip p text = strip p text ++ rev a).
  { unfold strip. rewrite <- rev_app_distr, <- E', rev_involutive. reflexivity. }
  exists b, (rev a). split; [rewrite <- E2; exact E|]. split; [assumption|]. split; [rewrite forallb_rev; assumption|]. split.
  - intros c t Es. apply (H2 c (t ++ rev a)). rewrite E2, Es. reflexivity.
  - intros c t Es. apply (H4 c (rev t)). transitivity (rev (strip p text)); [unfold strip; rewrite rev_involutive; reflexivity|]. rewrite Es, rev_app_distr. reflexivity.
Qed.

(** ** Byte-order marks *)
Definition bom_choice (cs : charset) (cs' : charset) : Prop :=
  (cs = UTF16 /\ (cs' = UTF16LE \/ cs' = UTF16BE)) \/ (cs = UTF32 /\ (cs' = UTF32LE \/ cs' = UTF32BE)).
Lemma layout_eq (a b : layout) : l_size a = l_size b -> l_content_offset a = l_content_offset b ->
  l_content_size a = l_content_size b -> l_charset a = l_charset b -> a = b.
Proof. destruct a, b; cbn. intros; congruence. Qed.
Lemma bom_field read e cs cs' text pre post :
  let marked := 0xFEFF :: text in
  let data := pre ++ encode cs' marked ++ encode cs' [0] ++ post in
  bom_choice cs cs' -> serves read data -> e <> MIDDLE_ENDIAN -> Forall unicode text -> ~ In 0 text ->
  ~ straddled data (encode cs' [0]) (zlen pre) (zlen (units_of cs' marked)) ->
  string_layout read (8 * zlen data) e (8 * zlen pre) FormatC (Some cs) None =
    Ok {| l_size := 8 * (zlen (encode cs' marked) + zlen (encode cs' [0])); l_content_offset := zlen (encode cs' [0xFEFF]);
          l_content_size := zlen (encode cs' text); l_charset := Some cs' |}.
Proof.
  intros marked data Hbc Hr He Hu Hn Hns.
  assert (Hb : no_bom (Some cs')) by (destruct Hbc as [[-> [-> | ->]]|[-> [-> | ->]]]; (split; [discriminate|split; discriminate])).
  assert (Hum : Forall unicode marked) by (constructor; [unfold unicode; lia|assumption]).
  assert (Hnm : ~ In 0 marked) by (intros [E|E]; [discriminate|contradiction]).
  pose proof (text_field read FormatC cs' e marked pre post Hr Hb He Hum Hnm Hns) as H. cbn [tchar] in H. fold data in H.
  pose proof (zlen_nonneg pre). pose proof (zlen_nonneg post). pose proof (zlen_nonneg (encode cs' text)).
  assert (Hsplit : encode cs' marked = encode cs' [0xFEFF] ++ encode cs' text).
  { rewrite !encode_units. unfold marked. destruct Hbc as [[-> [-> | ->]]|[-> [-> | ->]]]; reflexivity. }
  assert (Hrd : readBytes read (8 * zlen pre) (zlen (encode cs' [0xFEFF])) = Ok (encode cs' [0xFEFF])).
  { assert (G1 : 1 <= zlen (encode cs' [0xFEFF])) by (destruct Hbc as [[-> [-> | ->]]|[-> [-> | ->]]]; cbn; lia).
    assert (Hz : zlen data = zlen pre + (zlen (encode cs' [0xFEFF]) + zlen (encode cs' text)) + zlen (encode cs' [0]) + zlen post).
    { unfold data. rewrite Hsplit, !zlen_app. lia. }
    pose proof (zlen_nonneg (encode cs' [0])).
    rewrite (readBytes_serves read data) by (try assumption; lia). f_equal. unfold data. rewrite Hsplit, <- !app_assoc.
    rewrite sub_app_r, Z.sub_diag by lia. rewrite sub_app_l by lia. apply sub_all. }
  assert (Hlen : zlen (encode cs' marked) = zlen (encode cs' [0xFEFF]) + zlen (encode cs' text)) by (rewrite Hsplit, zlen_app; lia).
  set (L := zlen (encode cs' marked)) in *. clearbody L. subst L.
  unfold string_layout in H |- *.
  destruct Hbc as [[-> [-> | ->]]|[-> [-> | ->]]];
  cbn [suffix_str suffix_format utf_charset Z.eqb Pos.eqb] in H |- *; destruct e; try congruence; cbn [bind] in H |- *;
  (match type of H with context [searchBytesLength ?a ?b ?c ?d ?x ?y] => destruct (searchBytesLength a b c d x y) as [[len|]|ex] end;
   cbn [bind] in H |- *; try discriminate;
   match type of Hrd with readBytes _ _ ?n = _ =>
     match goal with |- context [readBytes read (8 * zlen pre) ?m] => replace m with n by reflexivity end end;
   rewrite Hrd; cbn [bind];
   match goal with |- context [utf_bom ?a ?b] => let v := eval cbv in (utf_bom a b) in change (utf_bom a b) with v end;
   cbv iota; apply f_equal; apply layout_eq; cbn [l_size l_content_offset l_content_size l_charset];
   [exact (f_equal (fun r => match r with Ok l => l_size l | Err _ => 0 end) H)|reflexivity| |reflexivity];
   match goal with |- _ = ?t => match type of Hrd with readBytes _ _ ?m = _ => transitivity (m + t - m);
     [exact (f_equal (fun r => match r with Ok l => l_content_size l - m | Err _ => 0 end) H)|ring] end end).
Qed.
Lemma bom_value utf8_ok codec read cs' text pre post l :
  let marked := 0xFEFF :: text in
  let data := pre ++ encode cs' marked ++ encode cs' [0] ++ post in
  (cs' = UTF16LE \/ cs' = UTF16BE \/ cs' = UTF32LE \/ cs' = UTF32BE) -> serves read data -> codec cs' (encode cs' text) = inl text ->
  l_content_offset l = zlen (encode cs' [0xFEFF]) -> l_content_size l = zlen (encode cs' text) -> l_charset l = Some cs' ->
  string_value utf8_ok codec read (8 * zlen pre) l None None = Ok text.
Proof.
  intros marked data Hcs' Hr Hc Ho Hs Hcs.
  pose proof (zlen_nonneg pre). pose proof (zlen_nonneg post). pose proof (zlen_nonneg (encode cs' text)).
  pose proof (zlen_nonneg (encode cs' [0])). pose proof (zlen_nonneg (encode cs' [0xFEFF])).
  assert (Hsplit : encode cs' marked = encode cs' [0xFEFF] ++ encode cs' text).
  { rewrite !encode_units. unfold marked. destruct Hcs' as [->|[->|[->| ->]]]; reflexivity. }
  rewrite (value_content utf8_ok codec read data (zlen pre) l (encode cs' text)); try assumption.
  - destruct (zlen (encode cs' text) =? 0) eqn:E; [rewrite (encode_empty cs' text) by lia; reflexivity|].
    rewrite Hcs. unfold convertText. rewrite Hc. reflexivity.
  - lia.
  - rewrite Ho. unfold data. rewrite Hsplit, <- !app_assoc. rewrite sub_app_r by lia.
    replace (zlen pre + zlen (encode cs' [0xFEFF]) - zlen pre) with (zlen (encode cs' [0xFEFF])) by lia.
    rewrite sub_app_r, Z.sub_diag by lia. rewrite sub_app_l by lia. apply sub_all.
  - rewrite Ho. unfold data. rewrite Hsplit, !zlen_app. lia.
Qed.

(** Proofs about RIFF files. *)
From Coq Require Import String.
From Verif Require Import Base BaseProofs BitsModel DictModel DictProofs FieldModel NumSpec NumRead TlvModel TlvSpec TlvProofs RiffModel RiffSpec Lit.
Open Scope Z_scope.
Ltac Zify.zify_post_hook ::= Z.div_mod_to_equations.

Lemma alignValue_2 v : 0 <= v -> alignValue v 2 = v + (if Z.even v then 0 else 1).
Proof. intros H. unfold alignValue. pose proof (Zmod_even v). destruct (Z.even v); destruct (v mod 2 =? 0) eqn:E; cbn [negb]; lia. Qed.
Definition ck_gap (c : str * bool) : Z := if snd c then 64 else 56.

Section Read.
Context (read : read_fun) (data : list Z) (Hs : serves read data) (Hb : is_bytes data).

Lemma chunk_len c i b : chunk c i b -> 0 < zlen b /\ 64 <= 8 * zlen b.
Proof using. intros [tag x T _ _ _|tag x pad T _ _ _]; rewrite !zlen_app, T, zlen_uint; pose proof (zlen_nonneg x); try change (zlen [pad]) with 1; lia. Qed.
Lemma list_len c i c' h b t : list_chunk c i c' h b t -> 0 < zlen h /\ 64 <= 8 * zlen (h ++ b ++ t).
Proof using. intros [sub body T _ _]. rewrite !zlen_app, T, zlen_uint. change (zlen (lit "LIST")) with 4. change (zlen (@nil Z)) with 0. pose proof (zlen_nonneg body). lia. Qed.
Lemma chunk_hd c i b p stop : chunk c i b -> occurs_at b data p -> 8 * (p + zlen b) <= stop -> chunk_head read c stop (8 * p) = Ok (Head i (8 * zlen b) BRaw).
Proof using All.
  intros H O St. assert (X : exists tag x pad, b = tag ++ uint LITTLE_ENDIAN 4 (zlen x) ++ x ++ pad /\ zlen tag = 4 /\ tag <> lit "LIST" /\ zlen x < 2 ^ 32 /\
    zlen pad = (if Z.even (zlen x) then 0 else 1) /\ i = Ck (chunk_name (fst c) tag []) tag (zlen x) [] (Some x)).
  { destruct H as [tag x T N L E|tag x pad T N L E].
    - exists tag, x, []. rewrite app_nil_r, E. repeat split; auto.
    - exists tag, x, [pad]. rewrite E. repeat split; auto. }
  clear H. destruct X as (tag & x & pad & -> & T & N & L & Lp & ->). apply occ_app in O as [O1 O]. apply occ_app in O as [O2 O]. apply occ_app in O as [O3 _].
  rewrite !zlen_app, zlen_uint in *. rewrite T in *. pose proof (zlen_nonneg x). pose proof (zlen_nonneg pad). change (Z.of_nat 4) with 4 in *. set (size := zlen x) in *.
  unfold chunk_head. replace (stop <? 8 * p + 32) with false by lia. replace (stop <? 8 * p + 64) with false by lia. replace (8 * p + 32) with (8 * (p + 4)) by lia.
  rewrite (read_num read data Hs Hb LITTLE_ENDIAN 4 32 size (p + 4)) by (auto; try discriminate; lia). cbn [bind].
  pose proof (rb_occ read data Hs p tag O1) as R. rewrite T in R. rewrite R by (intros ->; discriminate). cbn [bind].
  replace (str_eqb tag (lit "LIST")) with false by (symmetry; apply not_true_iff_false; rewrite str_eqb_eq; exact N).
  rewrite alignValue_2 by lia. replace ((8 + (size + (if Z.even size then 0 else 1))) * 8) with (8 * (4 + (4 + (size + zlen pad)))) by (rewrite Lp; lia).
  destruct (size =? 0) eqn:S0.
  - replace x with (@nil Z) by (destruct x; [reflexivity|unfold size in S0; rewrite zlen_cons in S0; pose proof (zlen_nonneg x); lia]). cbn [bind]. reflexivity.
  - replace (stop <? 8 * p + 64 + size * 8) with false by (destruct (Z.even size); lia). replace (8 * p + 64) with (8 * (p + 4 + 4)) by lia.
    unfold size in *. rewrite (rb_occ read data Hs _ x O3) by (intros ->; discriminate). reflexivity.
Qed.
Lemma list_hd c i c' h b t p stop : list_chunk c i c' h b t -> occurs_at (h ++ b ++ t) data p -> 8 * (p + zlen (h ++ b ++ t)) <= stop ->
  exists slack, chunk_head read c stop (8 * p) = Ok (Head i (8 * zlen (h ++ b ++ t)) (BKids c' (8 * zlen h) slack)) /\ 8 * zlen t <= slack <= 8 * zlen t + ck_gap c'.
Proof using All.
  intros [sub body T L E] O St. exists 64. split; [|change (zlen (@nil Z)) with 0; cbn [ck_gap snd]; lia]. apply occ_app in O as [O _]. apply occ_app in O as [O1 O]. apply occ_app in O as [O2 O3].
  rewrite !zlen_app, zlen_uint in *. rewrite T in *. change (zlen (lit "LIST")) with 4 in *. change (zlen (@nil Z)) with 0 in *. change (Z.of_nat 4) with 4 in *. pose proof (zlen_nonneg body). set (n := zlen body) in *.
  unfold chunk_head. replace (stop <? 8 * p + 32) with false by lia. replace (stop <? 8 * p + 64) with false by lia. replace (8 * p + 32) with (8 * (p + 4)) by lia.
  rewrite (read_num read data Hs Hb LITTLE_ENDIAN 4 32 (4 + n) (p + 4)) by (auto; try discriminate; lia). cbn [bind].
  pose proof (rb_occ read data Hs p _ O1) as R. change (zlen (lit "LIST")) with 4 in R. rewrite R by discriminate. cbn [bind]. change (str_eqb (lit "LIST") (lit "LIST")) with true. cbv iota.
  rewrite alignValue_2 by lia. rewrite Z.even_add. rewrite E. change (Z.even 4) with true. cbn [Bool.eqb].
  replace ((8 + (4 + n + 0)) * 8) with (8 * (4 + (4 + 4) + (n + 0))) by lia. replace ((4 + n =? 0) || (8 * (4 + (4 + 4) + (n + 0)) <? 96)) with false by lia.
  replace (8 * p + 64) with (8 * (p + 4 + 4)) by lia. pose proof (rb_occ read data Hs _ _ O3) as R3. rewrite T in R3. rewrite R3 by (intros ->; discriminate). reflexivity.
Qed.
Lemma last_ck c b : last_chunk c b -> 0 < zlen b -> 64 <= 8 * zlen b -> ck_gap c < 8 * zlen b.
Proof using. unfold last_chunk, ck_gap. destruct (snd c); [intros H _ _; specialize (H eq_refl); lia|lia]. Qed.
Lemma gap_2 c : ck_gap c < 2 * 64.
Proof using. unfold ck_gap. destruct (snd c); lia. Qed.
Lemma chunks_read p l b ts type fuel m tail slack : chunks_at type p l b ts -> occurs_at b data p -> tail <= slack <= tail + 56 -> 0 <= tail -> zlen b <= Z.of_nat fuel -> zlen b < Z.of_nat m ->
  walk (parse (chunk_head read) fuel (type, false)) m slack (8 * (p + zlen b) + tail) (8 * p) = (ts, None).
Proof using All.
  intros H. exact (proj2 (complete chunk list_chunk last_chunk data (chunk_head read) ck_gap 64 chunk_len list_len last_ck gap_2 chunk_hd list_hd) (type, false) p l b ts H fuel m tail slack).
Qed.
Lemma list_read p l b ts type fuel m tail slack : laids chunk list_chunk last_chunk (type, true) p l b ts -> occurs_at b data p -> tail <= slack <= tail + 64 -> 0 <= tail -> zlen b <= Z.of_nat fuel -> zlen b < Z.of_nat m ->
  walk (parse (chunk_head read) fuel (type, true)) m slack (8 * (p + zlen b) + tail) (8 * p) = (ts, None).
Proof using All.
  intros H. exact (proj2 (complete chunk list_chunk last_chunk data (chunk_head read) ck_gap 64 chunk_len list_len last_ck gap_2 chunk_hd list_hd) (type, true) p l b ts H fuel m tail slack).
Qed.

(** ** Every file *)
Context (He : ends read data).
Lemma chunk_any c p m : 0 <= p -> m <= zlen data ->
  match chunk_head read c (8 * m) (8 * p) with
  | Ok h => p + 8 <= m /\ (exists k, h_size h = 8 * k /\ 1 <= k) /\ match h_body h with BRaw => True | BKids _ off slack => 0 <= slack <= 64 /\ exists j, off = 8 * j /\ 1 <= j end
  | Err e => e <> OutOfFuel
  end.
Proof using All.
  intros P M. unfold chunk_head. destruct (8 * m <? 8 * p + 32); [discriminate|]. destruct (8 * m <? 8 * p + 64) eqn:S; [discriminate|].
  destruct (bits_any read data Hs He (8 * p + 32) 32 LITTLE_ENDIAN Hb ltac:(discriminate) ltac:(lia) ltac:(lia)) as [(E & _ & B)|E]; rewrite E; cbn [bind]; [|discriminate].
  set (size := bits_at data (8 * p + 32) 32 LITTLE_ENDIAN) in *. clearbody size. rewrite (rb read data Hs He) by lia. destruct (p + 4 <=? zlen data); cbn [bind]; [|discriminate].
  rewrite alignValue_2 by lia. set (k := 8 + (size + (if Z.even size then 0 else 1))). assert (K : 8 <= k) by (unfold k; destruct (Z.even size); lia). clearbody k.
  destruct (str_eqb (sub data p 4) (lit "LIST")).
  - destruct ((size =? 0) || (k * 8 <? 96)); [discriminate|]. replace (8 * p + 64) with (8 * (p + 8)) by lia. rewrite (rb read data Hs He) by lia. destruct (p + 8 + 4 <=? zlen data); cbn [bind]; [|discriminate].
    cbn [h_size h_body]. split; [lia|]. split; [exists k; lia|]. split; [lia|]. exists 12. lia.
  - destruct (size =? 0) eqn:S0; cbn [bind].
    + cbn [h_size h_body]. split; [lia|]. split; [exists k; lia|exact I].
    + destruct (8 * m <? 8 * p + 64 + size * 8) eqn:S1; cbn [bind].
      * cbn [h_size h_body]. split; [lia|]. split; [exists k; lia|exact I].
      * replace (8 * p + 64) with (8 * (p + 8)) by lia. rewrite (rb read data Hs He) by lia. destruct (_ <=? _); cbn [bind]; [|discriminate].
        cbn [h_size h_body]. split; [lia|]. split; [exists k; lia|exact I].
Qed.
Lemma chunk_any' c p m : 0 <= p -> p < m -> m <= zlen data ->
  match chunk_head read c (8 * m) (8 * p) with
  | Ok h => (exists k, h_size h = 8 * k /\ 1 <= k) /\ match h_body h with BRaw => True | BKids _ off slack => 0 <= slack <= 64 /\ exists j, off = 8 * j /\ 1 <= j end
  | Err e => e <> OutOfFuel
  end.
Proof using All. intros P _ M. pose proof (chunk_any c p m P M) as H. destruct (chunk_head read c (8 * m) (8 * p)); [tauto|exact H]. Qed.
Lemma parse_chunk_any fuel c p m : 0 <= p -> m <= zlen data -> m - p < Z.of_nat fuel -> 1 <= Z.of_nat fuel -> any_tree 64 p m (parse (chunk_head read) fuel c (8 * m) (8 * p)).
Proof using All.
  intros P M F F1. destruct (Z.lt_ge_cases p m) as [L|L].
  - exact (parse_any data (chunk_head read) 64 chunk_any' fuel c p m P L M F).
  - destruct fuel as [|fuel]; [lia|]. cbn [parse]. pose proof (chunk_any c p m P M) as H. destruct (chunk_head read c (8 * m) (8 * p)); cbn [bind any_tree]; [lia|exact H].
Qed.
End Read.

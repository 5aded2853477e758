(** Proofs about the LZW decoder of GIF. *)
From Coq Require Import String.
From Verif Require Import Base BaseProofs BitsSpec BitsProofs DeflateModel DeflateSpec DeflateProofs DictModel FieldModel Lit GifModel GifSpec.
Open Scope Z_scope.
Ltac Zify.zify_post_hook ::= Z.div_mod_to_equations.

(** ** Any stream *)
(** The fields are read one after the other. *)
Inductive reads : list gfield -> list bool -> list bool -> Prop :=
| rd_nil bits : reads [] bits bits
| rd_cons f fs bits bits' rest : 1 <= g_size f -> read_le (g_size f) bits = Ok (g_value f, bits') -> reads fs bits' rest -> reads (f :: fs) bits rest.
Definition note_pixels (n : gnote) : list Z :=
  match n with GLiteral v => [v] | GFound c | GGuessed c => c | _ => [] end.
(** The decoded length that each field shows counts the pixels shown so far. *)
Fixpoint shown_lengths (n : Z) (fs : list gfield) : Prop :=
  match fs with [] => True | f :: fs => g_decoded f = n + zlen (note_pixels (g_note f)) /\ shown_lengths (n + zlen (note_pixels (g_note f))) fs end.
Definition state_ok (s : gstate) : Prop := 0 <= s_nbits s /\ 3 <= s_next s.

Lemma code_width_pos s : state_ok s -> 1 <= code_width s.
Proof.
  intros [A B]. unfold code_width. destruct (2 ^ s_nbits s <=? s_next s) eqn:E; [lia|].
  destruct (Z.eq_dec (s_nbits s) 0) as [e|e]; [rewrite e in E; change (2 ^ 0) with 1 in E; lia|lia].
Qed.
Lemma reset_width_pos n next : 3 <= next -> 1 <= n -> 1 <= reset_width n next.
Proof.
  intros A B. unfold reset_width. destruct (next =? 2 ^ (n - 1)) eqn:E; [|lia].
  destruct (Z.eq_dec n 1) as [->|]; [change (2 ^ (1 - 1)) with 1 in E; lia|lia].
Qed.
Lemma literal_out n v s : exists s', gif_literal n v s = (s', GLiteral v) /\ s_nbits s' = n /\ s_next s <= s_next s' /\ s_output s' = s_output s ++ [v].
Proof. unfold gif_literal. destruct (s_obuf s); eexists; (split; [reflexivity|]); cbn [s_nbits s_next s_output]; repeat split; lia. Qed.
Lemma compressed_out n v s s' note : gif_compressed n v s = Ok (s', note) ->
  s_nbits s' = n /\ s_next s' = s_next s + 1 /\ s_output s' = s_output s ++ note_pixels note.
Proof.
  unfold gif_compressed. intros H. destruct (dict_get (s_dict s) v) as [ch|].
  - cbn [bind] in H. destruct (py_nth ch 0); [|discriminate]. cbn [bind] in H. injection H as <- <-. auto.
  - destruct (s_obuf s) as [|h o]; [discriminate|]. cbn [bind] in H. destruct (py_nth ((h :: o) ++ [h]) 0); [|discriminate]. cbn [bind] in H. injection H as <- <-. auto.
Qed.
Lemma gif_loop_any sb : 0 <= sb -> forall fuel s bits fs out, state_ok s -> (List.length bits < fuel)%nat ->
  gif_loop fuel sb s bits = (fs, out) ->
  out <> Err OutOfFuel /\ shown_lengths (zlen (s_output s)) fs /\ (exists rest, reads fs bits rest) /\
  forall rest pixels, out = Ok (rest, pixels) ->
    reads fs bits rest /\ pixels = s_output s ++ List.concat (map (fun f => note_pixels (g_note f)) fs) /\ exists l f, fs = l ++ [f] /\ g_note f = GEnd.
Proof.
  intros Hsb. assert (P2 : 0 < 2 ^ sb) by (apply Z.pow_pos_nonneg; lia).
  induction fuel as [|fuel IH]; intros s bits fs out Hs Hf H; [lia|]. cbn [gif_loop] in H. cbv zeta in H.
  pose proof (code_width_pos s Hs) as W.
  assert (E1 : forall n b e, read_le n b = Err e -> e = ReadStreamError) by (intros n b e; unfold read_le; destruct (zlen b <? n); congruence).
  assert (FAIL : forall e : exn, e <> OutOfFuel -> ([] : list gfield, Err e : goutcome) = (fs, out) ->
    out <> Err OutOfFuel /\ shown_lengths (zlen (s_output s)) fs /\ (exists rest, reads fs bits rest) /\
    forall rest pixels, out = Ok (rest, pixels) ->
    reads fs bits rest /\ pixels = s_output s ++ List.concat (map (fun f => note_pixels (g_note f)) fs) /\ exists l f, fs = l ++ [f] /\ g_note f = GEnd).
  { intros e He Q. injection Q as <- <-. split; [congruence|]. split; [exact I|]. split; [exists bits; constructor|]. intros; discriminate. }
  destruct (read_le (code_width s) bits) as [[v rest]|e] eqn:R; [|apply (FAIL e); [rewrite (E1 _ _ _ R); discriminate|exact H]].
  assert (STEP : forall w v' rest' nt s' d, 1 <= w -> read_le w bits = Ok (v', rest') -> state_ok s' ->
    s_output s' = s_output s ++ note_pixels nt -> d = zlen (s_output s') ->
    yields {| g_size := w; g_value := v'; g_note := nt; g_decoded := d |} (gif_loop fuel sb s' rest') = (fs, out) ->
    out <> Err OutOfFuel /\ shown_lengths (zlen (s_output s)) fs /\ (exists rest, reads fs bits rest) /\
    forall rest pixels, out = Ok (rest, pixels) ->
    reads fs bits rest /\ pixels = s_output s ++ List.concat (map (fun f => note_pixels (g_note f)) fs) /\ exists l f, fs = l ++ [f] /\ g_note f = GEnd).
  { intros w v' rest' nt s' d Hw R' Hs' Ho -> Q. destruct (gif_loop fuel sb s' rest') as [fs' out'] eqn:L. unfold yields in Q. cbn [fst snd] in Q. injection Q as <- <-.
    assert (Hl : (List.length rest' < fuel)%nat). { pose proof (read_le_shorter w bits v' rest' ltac:(lia) R') as Hsh. unfold zlen in Hsh. lia. }
    destruct (IH s' rest' fs' out' Hs' Hl L) as (A & B & (r & C) & D).
    split; [exact A|]. split.
    { cbn [shown_lengths g_decoded g_note]. rewrite Ho, zlen_app in B |- *. split; [reflexivity|exact B]. }
    split; [exists r; econstructor; [exact Hw|exact R'|exact C]|].
    intros rest0 pixels Q. destruct (D rest0 pixels Q) as (D1 & D2 & l & f & D3 & D4). split; [econstructor; [exact Hw|exact R'|exact D1]|]. split.
    - cbn [map List.concat g_note]. rewrite D2, Ho, <- app_assoc. reflexivity.
    - subst fs'. eexists (_ :: l), f. split; [reflexivity|exact D4]. }
  destruct (v =? 2 ^ sb).
  - destruct (read_le (reset_width (code_width s) (s_next s)) bits) as [[v' rest']|e] eqn:R'; [|apply (FAIL e); [rewrite (E1 _ _ _ R'); discriminate|exact H]].
    refine (STEP _ _ _ _ (gif_reset sb s) _ _ R' _ _ _ H); cbn [gif_reset s_output].
    + apply reset_width_pos; [apply Hs|exact W].
    + unfold state_ok, gif_reset. cbn [s_nbits s_next]. lia.
    + cbn. symmetry. apply app_nil_r.
    + reflexivity.
  - destruct (v =? 2 ^ sb + 1).
    + injection H as <- <-. split; [congruence|]. split; [cbn; change (zlen (@nil Z)) with 0; split; [lia|exact I]|].
      assert (RD : reads [{| g_size := code_width s; g_value := v; g_note := GEnd; g_decoded := zlen (s_output s) |}] bits rest) by (econstructor; [exact W|exact R|constructor]).
      split; [exists rest; exact RD|]. intros r px Q. injection Q as <- <-. split; [exact RD|]. split; [cbn; symmetry; apply app_nil_r|]. eexists [], _. split; [reflexivity|reflexivity].
    + destruct (v <? 2 ^ sb).
      * destruct (literal_out (code_width s) v s) as (s' & L & A & B & C). rewrite L in H.
        refine (STEP _ _ _ _ s' _ W R _ _ _ H); [unfold state_ok; destruct Hs; lia|exact C|reflexivity].
      * destruct (gif_compressed (code_width s) v s) as [[s' note]|e] eqn:L.
        -- destruct (compressed_out _ _ _ _ _ L) as (A & B & C). refine (STEP _ _ _ _ s' _ W R _ _ _ H); [unfold state_ok; destruct Hs; lia|exact C|reflexivity].
        -- apply (FAIL e); [|exact H]. unfold gif_compressed in L. destruct (dict_get (s_dict s) v) as [ch|]; cbn [bind] in L.
           ++ unfold py_nth in L. destruct ch; cbn in L; try congruence; discriminate.
           ++ destruct (s_obuf s); cbn in L; [congruence|discriminate].
Qed.
Lemma reads_size fs : forall bits rest, reads fs bits rest -> zlen bits = fields_size fs + zlen rest.
Proof.
  induction fs as [|f fs IH]; intros bits rest H; inversion H as [b|f0 fs0 b b' r Hw R Hr]; subst; [cbn; lia|].
  pose proof (read_le_shorter (g_size f) _ _ _ ltac:(lia) R). specialize (IH _ _ Hr). cbn [fields_size fold_right]. unfold fields_size in IH. lia.
Qed.

(** ** Streams of a writer *)
Section W.
Context (sb : Z) (Hsb : 2 <= sb).
Lemma pow_ge4 : 4 <= 2 ^ sb. Proof using Hsb. change 4 with (2 ^ 2). apply Z.pow_le_mono_r; lia. Qed.
Lemma log2_base n : 0 <= n -> sb <= Z.log2 (2 ^ sb + 1 + n).
Proof using Hsb. intros. rewrite <- (Z.log2_pow2 sb) at 1 by lia. apply Z.log2_le_mono. lia. Qed.
Lemma width_room n : 0 <= n -> 2 ^ sb + 1 + n < 4096 -> width sb n = Z.log2 (2 ^ sb + 1 + n) + 1.
Proof using Hsb.
  intros A B. unfold width. pose proof pow_ge4. assert (Z.log2 (2 ^ sb + 1 + n) < 12) by (apply Z.log2_lt_pow2; [lia|change (2 ^ 12) with 4096; lia]). lia.
Qed.
Lemma width_bound n c : 0 <= n -> 2 ^ sb + 1 + n < 4096 -> 0 <= c <= 2 ^ sb + 1 + n -> 0 <= c < 2 ^ width sb n.
Proof using Hsb.
  intros A B C. rewrite width_room by assumption. split; [lia|]. pose proof pow_ge4. pose proof (Z.log2_spec (2 ^ sb + 1 + n) ltac:(lia)) as [_ S]. replace (Z.log2 (2 ^ sb + 1 + n) + 1) with (Z.succ (Z.log2 (2 ^ sb + 1 + n))) by lia. lia.
Qed.
(** The next width is right when the last one is at most one bit too short. *)
Definition near (nb cc : Z) : Prop := 1 <= nb /\ 2 ^ (nb - 1) <= cc <= 2 ^ nb.
Lemma near_width s n : 0 <= n -> near (s_nbits s) (s_next s) -> s_next s = 2 ^ sb + 1 + n -> code_width s = Z.log2 (2 ^ sb + 1 + n) + 1.
Proof using Hsb.
  intros A (B & C & D) E. unfold code_width. rewrite E in *. pose proof pow_ge4. destruct (2 ^ s_nbits s <=? 2 ^ sb + 1 + n) eqn:F.
  - replace (2 ^ sb + 1 + n) with (2 ^ s_nbits s) by lia. rewrite Z.log2_pow2 by lia. reflexivity.
  - assert (Z.log2 (2 ^ sb + 1 + n) = s_nbits s - 1); [|lia]. apply Z.log2_unique; [lia|]. replace (Z.succ (s_nbits s - 1)) with (s_nbits s) by lia. lia.
Qed.
Lemma near_next n : 0 <= n -> near (Z.log2 (2 ^ sb + 1 + n) + 1) (2 ^ sb + 1 + n + 1).
Proof using Hsb.
  intros A. pose proof pow_ge4. pose proof (Z.log2_spec (2 ^ sb + 1 + n) ltac:(lia)) as [S T]. pose proof (log2_base n A). unfold near.
  replace (Z.log2 (2 ^ sb + 1 + n) + 1 - 1) with (Z.log2 (2 ^ sb + 1 + n)) by lia. replace (Z.log2 (2 ^ sb + 1 + n) + 1) with (Z.succ (Z.log2 (2 ^ sb + 1 + n))) by lia. lia.
Qed.

(** The dictionary holds the strings [table]. *)
Definition holds (d : gdict) (table : list (list Z)) : Prop :=
  forall c, first_free sb <= c -> dict_get d c = nth_error table (Z.to_nat (c - first_free sb)).
Lemma holds_add d table w k : holds d table -> k = first_free sb + zlen table -> holds ((k, w) :: d) (table ++ [w]).
Proof using.
  intros H -> c Hc. unfold dict_get. cbn [find fst]. unfold zlen in *. destruct (first_free sb + Z.of_nat (List.length table) =? c) eqn:E.
  - replace (Z.to_nat (c - first_free sb)) with (List.length table) by lia. rewrite nth_error_app2, Nat.sub_diag by lia. reflexivity.
  - fold (dict_get d c). rewrite (H c Hc). destruct (Nat.lt_ge_cases (Z.to_nat (c - first_free sb)) (List.length table)).
    + rewrite nth_error_app1 by lia. reflexivity.
    + rewrite (proj2 (nth_error_None table _)) by lia. symmetry. apply nth_error_None. rewrite app_length. cbn. lia.
Qed.
(** The decoder lags behind the writer: its table misses the last string. *)
Record follows (s : gstate) (table : list (list Z)) (w : list Z) : Prop := {
  f_near : near (s_nbits s) (s_next s);
  f_next : s_next s = first_free sb + zlen table;
  f_dict : holds (s_dict s) table;
  f_obuf : s_obuf s = w;
  f_nonempty : w <> [];
  f_strings : Forall (fun x => x <> []) table }.

Definition all_codes_below (n : Z) : Z := 2 ^ sb + 1 + n.
Lemma names_bound table c w : names sb table c w -> 0 <= c <= 2 ^ sb + 1 + zlen table /\ c <> clear_code sb /\ c <> end_code sb /\ (c < 2 ^ sb \/ first_free sb <= c).
Proof using Hsb.
  pose proof pow_ge4 as P4. intros H; inversion H as [p Hp|k x Hk]; subst.
  - unfold clear_code, end_code. pose proof (zlen_nonneg table). lia.
  - assert (K : (k < List.length table)%nat) by (apply nth_error_Some; congruence). unfold clear_code, end_code, first_free, zlen in *. lia.
Qed.
Lemma names_nonempty table c w : Forall (fun x => x <> []) table -> names sb table c w -> w <> [].
Proof using. intros F H; inversion H as [p Hp|k x Hk]; subst; [discriminate|]. rewrite Forall_forall in F. apply F. eapply nth_error_In, Hk. Qed.

(** What a field says about the code [c] of a string [w]. *)
Definition field_for (width c : Z) (w : list Z) (f : gfield) : Prop := g_size f = width /\ g_value f = c /\ note_pixels (g_note f) = w.

Lemma names_inv table c w : names sb table c w -> (w = [c] /\ 0 <= c < 2 ^ sb) \/ (exists k, c = first_free sb + Z.of_nat k /\ nth_error table k = Some w).
Proof using. intros H; inversion H; subst; [left; auto|right; eauto]. Qed.
Lemma py_nth_head (h : Z) l : py_nth (h :: l) 0 = Ok h. Proof. reflexivity. Qed.

(** One code of the writer, not the first after a reset. *)
Lemma code_step s table w p c w' fuel bits n :
  follows s table w -> n = zlen table + 1 -> 2 ^ sb + 1 + n < 4096 ->
  names sb (table ++ [w ++ [p]]) c w' -> (exists q, w' = p :: q) ->
  exists f s', gif_loop (S fuel) sb s (le_digits (width sb n) c ++ bits) = yields f (gif_loop fuel sb s' bits) /\
    field_for (width sb n) c w' f /\ follows s' (table ++ [w ++ [p]]) w' /\ s_output s' = s_output s ++ w'.
Proof using Hsb.
  intros F Hn Hroom Hc [q Hq]. pose proof pow_ge4. pose proof (zlen_nonneg table).
  destruct (names_bound _ _ _ Hc) as (B & Bc & Be & Br). rewrite zlen_app in B. change (zlen [w ++ [p]]) with 1 in B.
  assert (CW : code_width s = width sb n).
  { rewrite width_room by lia. apply near_width; [lia|apply (f_near _ _ _ F)|]. rewrite (f_next _ _ _ F). unfold first_free. lia. }
  assert (RD : read_le (width sb n) (le_digits (width sb n) c ++ bits) = Ok (c, bits)).
  { apply read_le_ok; [rewrite width_room by lia; pose proof (Z.log2_nonneg (2 ^ sb + 1 + n)); lia|apply width_bound; lia]. }
  cbn [gif_loop]. cbv zeta. rewrite CW, RD. unfold clear_code, end_code in *.
  replace (c =? 2 ^ sb) with false by lia. replace (c =? 2 ^ sb + 1) with false by lia.
  assert (NE : w <> []) by apply (f_nonempty _ _ _ F). assert (OB : s_obuf s = w) by apply (f_obuf _ _ _ F).
  assert (FS : Forall (fun x => x <> []) (table ++ [w ++ [p]])) by (apply Forall_app; split; [apply (f_strings _ _ _ F)|constructor; [destruct w; discriminate|constructor]]).
  assert (NX : s_next s = first_free sb + zlen table) by apply (f_next _ _ _ F).
  assert (NR : near (width sb n) (s_next s + 1)).
  { rewrite width_room by lia. rewrite NX. replace (first_free sb + zlen table + 1) with (2 ^ sb + 1 + n + 1) by (unfold first_free; lia). apply near_next. lia. }
  assert (GO : forall note o, w' = note_pixels note -> o = w ++ [p] ->
    follows {| s_nbits := width sb n; s_dict := (s_next s, o) :: s_dict s; s_next := s_next s + 1; s_obuf := w'; s_output := s_output s ++ w' |} (table ++ [w ++ [p]]) w').
  { intros note o E1 ->. constructor; cbn [s_nbits s_next s_dict s_obuf].
    - exact NR.
    - rewrite zlen_app. change (zlen [w ++ [p]]) with 1. lia.
    - apply holds_add; [apply (f_dict _ _ _ F)|exact NX].
    - reflexivity.
    - rewrite Hq. discriminate.
    - exact FS. }
  subst w'. destruct (names_inv _ _ _ Hc) as [(Ew & Hp)|(k & -> & Hk)].
  - injection Ew as -> ->. replace (c <? 2 ^ sb) with true by lia. unfold gif_literal. rewrite OB.
    destruct w as [|h w0]; [congruence|]. eexists _, _. split; [reflexivity|]. split; [repeat split|]. split; [|reflexivity]. apply (GO (GLiteral c)); reflexivity.
  - replace (first_free sb + Z.of_nat k <? 2 ^ sb) with false by (unfold first_free in *; lia).
    unfold gif_compressed. rewrite OB, (f_dict _ _ _ F) by lia. replace (Z.to_nat (first_free sb + Z.of_nat k - first_free sb)) with k by lia.
    destruct (Nat.lt_ge_cases k (List.length table)) as [L|L].
    + rewrite nth_error_app1 in Hk by exact L. rewrite Hk. cbn [bind]. rewrite py_nth_head. cbn [bind].
      eexists _, _. split; [reflexivity|]. split; [repeat split|]. split; [|reflexivity]. apply (GO (GFound (p :: q))); reflexivity.
    + rewrite (proj2 (nth_error_None table k) L). rewrite nth_error_app2 in Hk by exact L.
      destruct (k - List.length table)%nat as [|j]; [|destruct j; discriminate]. cbn in Hk. injection Hk as Hq.
      destruct w as [|h w0]; [congruence|]. cbn [app] in Hq. injection Hq as -> <-. cbn [bind app]. rewrite py_nth_head. cbn [bind].
      eexists _, _. split; [reflexivity|]. split; [repeat split|]. split; [|reflexivity]. apply (GO (GGuessed (p :: w0 ++ [p]))); reflexivity.
Qed.

Lemma lzw_head table pixels codes : Forall (fun x => x <> []) table -> lzw sb table pixels codes -> pixels <> [].
Proof using. intros F H; inversion H; subst; try (eapply names_nonempty; eassumption); destruct w; discriminate. Qed.
Lemma lzw_codes_pos table pixels codes : lzw sb table pixels codes -> 1 <= zlen codes.
Proof using. intros H; inversion H as [|c w p rest l|c w p rest l]; subst; rewrite zlen_cons; [cbn; lia|pose proof (zlen_nonneg l); lia|pose proof (zlen_nonneg l); lia]. Qed.

(** All the codes of a group but the first. *)
Lemma codes_follow T pixels codes : lzw sb T pixels codes -> forall s table w p rest bits fuel n,
  T = table ++ [w ++ [p]] -> pixels = p :: rest -> follows s table w -> n = zlen table + 1 -> 2 ^ sb + 1 + n + zlen codes <= 4096 ->
  exists fs s' table' w', gif_loop (List.length codes + fuel) sb s (write_codes sb n codes ++ bits) = (fs ++ fst (gif_loop fuel sb s' bits), snd (gif_loop fuel sb s' bits)) /\
    follows s' table' w' /\ zlen table' + 1 = n + zlen codes /\ s_output s' = s_output s ++ pixels /\
    map g_value fs = codes /\ List.concat (map (fun f => note_pixels (g_note f)) fs) = pixels /\
    flat_map (fun f => le_digits (g_size f) (g_value f)) fs = write_codes sb n codes.
Proof using Hsb.
  induction 1 as [T c w' Hc|T c w' p' rest' codes Hc Hroom H IH|T c w' p' rest' codes Hc Hfull H IH]; intros s table w p rest bits fuel n ET EP F Hn Hle.
  - subst T w'. cbn [write_codes List.length Nat.add]. rewrite app_nil_r. change (zlen [c]) with 1 in *.
    destruct (code_step s table w p c (p :: rest) fuel bits n F Hn ltac:(lia) Hc ltac:(eauto)) as (f & s' & L & (Fs & Fv & Fn) & F' & O').
    exists [f], s', (table ++ [w ++ [p]]), (p :: rest). rewrite L. split; [reflexivity|]. split; [exact F'|]. split; [rewrite zlen_app; change (zlen [w ++ [p]]) with 1; lia|].
    split; [exact O'|]. cbn [map List.concat flat_map]. rewrite Fs, Fv, Fn, !app_nil_r. auto.
  - subst T. assert (NE : w' <> []).
    { eapply names_nonempty; [|exact Hc]. apply Forall_app. split; [apply (f_strings _ _ _ F)|]. constructor; [destruct w; discriminate|constructor]. }
    destruct w' as [|p0 q]; [congruence|]. cbn [app] in EP. injection EP as -> <-.
    rewrite zlen_cons in *. pose proof (zlen_nonneg codes).
    assert (P : 1 <= zlen codes) by (exact (lzw_codes_pos _ _ _ H)).
    destruct (code_step s table w p c (p :: q) (List.length codes + fuel) (write_codes sb (n + 1) codes ++ bits) n F Hn ltac:(lia) Hc ltac:(eauto)) as (f & s' & L & (Fs & Fv & Fn) & F' & O').
    destruct (IH s' (table ++ [w ++ [p]]) (p :: q) p' rest' bits fuel (n + 1) eq_refl eq_refl F' ltac:(rewrite zlen_app; change (zlen [w ++ [p]]) with 1; lia) ltac:(lia))
      as (fs & s'' & table' & w'' & L' & F'' & Z' & O'' & V & P' & Q).
    exists (f :: fs), s'', table', w''. cbn [write_codes List.length Nat.add]. rewrite <- app_assoc, L, L'. split; [reflexivity|]. split; [exact F''|]. split; [lia|].
    split; [rewrite O'', O', <- app_assoc; reflexivity|]. cbn [map List.concat flat_map]. rewrite Fs, Fv, Fn, V, P', Q. auto.
  - exfalso. subst T. rewrite zlen_app in Hfull. change (zlen [w ++ [p]]) with 1 in Hfull. rewrite zlen_cons in Hle. pose proof (lzw_codes_pos _ _ _ H). unfold first_free in Hfull. lia.
Qed.

(** The state after a reset, or at the start. *)
Definition fresh (s : gstate) : Prop := (s_nbits s = sb \/ s_nbits s = sb + 1) /\ s_next s = first_free sb /\ s_dict s = [] /\ s_obuf s = [].
Lemma log2_fresh : Z.log2 (2 ^ sb + 1 + 0) = sb.
Proof using Hsb. pose proof pow_ge4. apply Z.log2_unique; [lia|]. replace (Z.succ sb) with (sb + 1) by lia. rewrite Z.pow_add_r by lia. change (2 ^ 1) with 2. lia. Qed.
Lemma fresh_width s : fresh s -> code_width s = sb + 1.
Proof using Hsb.
  intros (A & B & _ & _). pose proof pow_ge4. unfold code_width. rewrite B. unfold first_free.
  assert (2 ^ (sb + 1) = 2 * 2 ^ sb) by (rewrite Z.pow_add_r by lia; change (2 ^ 1) with 2; lia).
  destruct A as [-> | ->]; [replace (2 ^ sb <=? 2 ^ sb + 2) with true by lia; reflexivity|].
  replace (2 ^ (sb + 1) <=? 2 ^ sb + 2) with false by lia. reflexivity.
Qed.
(** The decoder after the [n] codes of a group. *)
Definition after (n : Z) (s : gstate) : Prop := (n = 0 /\ fresh s) \/ (0 < n /\ exists table w, follows s table w /\ zlen table + 1 = n).
Lemma after_width n s : 0 <= n -> after n s -> code_width s = Z.log2 (2 ^ sb + 1 + n) + 1.
Proof using Hsb.
  intros Hn [(-> & F)|(P & table & w & F & E)]; [rewrite log2_fresh; apply fresh_width, F|].
  apply near_width; [lia|apply (f_near _ _ _ F)|rewrite (f_next _ _ _ F); unfold first_free; lia].
Qed.
(** A group of codes, from a fresh state. *)
Lemma group_lemma pixels codes s bits fuel : writes sb pixels codes -> 2 ^ sb + 1 + zlen codes <= 4096 -> fresh s ->
  exists fs s', gif_loop (List.length codes + fuel) sb s (write_codes sb 0 codes ++ bits) = (fs ++ fst (gif_loop fuel sb s' bits), snd (gif_loop fuel sb s' bits)) /\
    after (zlen codes) s' /\ s_output s' = s_output s ++ pixels /\
    map g_value fs = codes /\ List.concat (map (fun f => note_pixels (g_note f)) fs) = pixels /\
    flat_map (fun f => le_digits (g_size f) (g_value f)) fs = write_codes sb 0 codes.
Proof using Hsb.
  intros [(-> & ->)|H] Hr Hf.
  { exists [], s. cbn [write_codes List.length Nat.add app]. split; [destruct (gif_loop fuel sb s bits); reflexivity|]. split; [left; split; [reflexivity|exact Hf]|]. rewrite app_nil_r. auto. }
  pose proof pow_ge4. destruct Hf as (A & B & C & D). pose proof (fresh_width s (conj A (conj B (conj C D)))) as W.
  assert (W0 : width sb 0 = sb + 1). { pose proof (lzw_codes_pos _ _ _ H). rewrite width_room by lia. rewrite log2_fresh. reflexivity. }
  assert (FIRST : forall c w fuel bits, names sb [] c w -> exists f s', gif_loop (S fuel) sb s (le_digits (width sb 0) c ++ bits) = yields f (gif_loop fuel sb s' bits) /\
     field_for (width sb 0) c w f /\ follows s' [] w /\ s_output s' = s_output s ++ w).
  { clear H Hr. intros c w fu bs H. inversion H as [p Hp|k x Hk]; [|destruct k; discriminate]. subst p w.
    assert (RD : read_le (width sb 0) (le_digits (width sb 0) c ++ bs) = Ok (c, bs)).
    { apply read_le_ok; [lia|]. rewrite W0. rewrite Z.pow_add_r by lia. change (2 ^ 1) with 2. lia. }
    cbn [gif_loop]. cbv zeta. rewrite W, <- W0, RD.
    replace (c =? 2 ^ sb) with false by lia. replace (c =? 2 ^ sb + 1) with false by lia. replace (c <? 2 ^ sb) with true by lia.
    unfold gif_literal. rewrite D. eexists _, _. split; [reflexivity|]. split; [repeat split|]. split; [|reflexivity].
    constructor; cbn [s_nbits s_next s_dict s_obuf].
    - rewrite W0, B. unfold near, first_free. replace (sb + 1 - 1) with sb by lia. rewrite Z.pow_add_r by lia. change (2 ^ 1) with 2. lia.
    - rewrite B. change (zlen (@nil (list Z))) with 0. lia.
    - rewrite C. intros k Hk. cbn. symmetry. destruct (Z.to_nat (k - first_free sb)); reflexivity.
    - reflexivity.
    - discriminate.
    - constructor. }
  inversion H as [c w Hc|c w p rest codes' Hc Hroom H'|c w p rest codes' Hc Hfull H']; subst pixels codes.
  - destruct (FIRST c w fuel bits Hc) as (f & s' & L & (Fs & Fv & Fn) & F' & O'). exists [f], s'. cbn [write_codes List.length Nat.add]. rewrite app_nil_r, L. split; [reflexivity|].
    split; [right; change (zlen [c]) with 1; split; [lia|]; exists [], w; split; [exact F'|reflexivity]|].
    split; [exact O'|]. cbn [map List.concat flat_map]. rewrite Fs, Fv, Fn, !app_nil_r. auto.
  - rewrite zlen_cons in *. destruct (FIRST c w (List.length codes' + fuel)%nat (write_codes sb 1 codes' ++ bits) Hc) as (f & s' & L & (Fs & Fv & Fn) & F' & O').
    destruct (codes_follow _ _ _ H' s' [] w p rest bits fuel 1 eq_refl eq_refl F' eq_refl ltac:(lia)) as (fs & s'' & table' & w'' & L' & F'' & Z' & O'' & V & P' & Q).
    exists (f :: fs), s''. cbn [write_codes List.length Nat.add]. rewrite <- app_assoc. change (0 + 1) with 1. rewrite L, L'. split; [reflexivity|].
    split; [right; pose proof (zlen_nonneg codes'); split; [lia|]; exists table', w''; split; [exact F''|lia]|].
    split; [rewrite O'', O', <- app_assoc; reflexivity|]. cbn [map List.concat flat_map]. rewrite Fs, Fv, Fn, V, P', Q. auto.
  - exfalso. change (zlen (@nil (list Z))) with 0 in Hfull. unfold first_free in Hfull. rewrite zlen_cons in Hr. pose proof (lzw_codes_pos _ _ _ H'). lia.
Qed.
(** A reset code on the current width, where the width did not just grow. *)
Lemma reset_step s n bits fuel : 0 <= n -> after n s -> 2 ^ sb + 1 + n < 4096 -> (forall m, 0 <= m -> 2 ^ sb + 1 + n <> 2 ^ m) ->
  exists f s', gif_loop (S fuel) sb s (le_digits (width sb n) (clear_code sb) ++ bits) = yields f (gif_loop fuel sb s' bits) /\
    field_for (width sb n) (clear_code sb) [] f /\ g_note f = GReset /\ fresh s' /\ s_output s' = s_output s.
Proof using Hsb.
  intros Hn A Hr Hp. pose proof pow_ge4. pose proof (log2_base n Hn) as LB.
  assert (CW : code_width s = width sb n) by (rewrite width_room by lia; apply after_width; assumption).
  assert (RD : read_le (width sb n) (le_digits (width sb n) (clear_code sb) ++ bits) = Ok (clear_code sb, bits)).
  { apply read_le_ok; [rewrite width_room by lia; lia|apply width_bound; unfold clear_code; lia]. }
  assert (RW : reset_width (width sb n) (s_next s) = width sb n).
  { unfold reset_width. rewrite width_room by lia. replace (Z.log2 (2 ^ sb + 1 + n) + 1 - 1) with (Z.log2 (2 ^ sb + 1 + n)) by lia.
    destruct A as [(-> & F)|(P & table & w & F & E)].
    - rewrite log2_fresh. destruct F as (_ & -> & _). unfold first_free. replace (2 ^ sb + 2 =? 2 ^ sb) with false by lia. reflexivity.
    - rewrite (f_next _ _ _ F). replace (first_free sb + zlen table) with (2 ^ sb + 1 + n) by (unfold first_free; lia). specialize (Hp (Z.log2 (2 ^ sb + 1 + n)) ltac:(lia)). replace (2 ^ sb + 1 + n =? 2 ^ Z.log2 (2 ^ sb + 1 + n)) with false by lia. reflexivity. }
  cbn [gif_loop]. cbv zeta. rewrite CW, RD. unfold clear_code in *. rewrite Z.eqb_refl, RW, RD.
  eexists _, (gif_reset sb s). split; [reflexivity|]. split; [repeat split|]. split; [reflexivity|]. split; [|reflexivity].
  unfold fresh, gif_reset, first_free. cbn. auto.
Qed.
Lemma end_step s n bits fuel : 0 <= n -> after n s -> 2 ^ sb + 1 + n < 4096 ->
  exists f, gif_loop (S fuel) sb s (le_digits (width sb n) (end_code sb) ++ bits) = ([f], Ok (bits, s_output s)) /\
    field_for (width sb n) (end_code sb) [] f /\ g_note f = GEnd.
Proof using Hsb.
  intros Hn A Hr. pose proof pow_ge4. pose proof (log2_base n Hn) as LB.
  assert (CW : code_width s = width sb n) by (rewrite width_room by lia; apply after_width; assumption).
  assert (RD : read_le (width sb n) (le_digits (width sb n) (end_code sb) ++ bits) = Ok (end_code sb, bits)).
  { apply read_le_ok; [rewrite width_room by lia; lia|apply width_bound; unfold end_code; lia]. }
  cbn [gif_loop]. cbv zeta. rewrite CW, RD. unfold end_code in *. replace (2 ^ sb + 1 =? 2 ^ sb) with false by lia. rewrite Z.eqb_refl.
  eexists. split; [reflexivity|]. split; [repeat split|reflexivity].
Qed.
Lemma write_codes_app n a b : write_codes sb n (a ++ b) = write_codes sb n a ++ write_codes sb (n + zlen a) b.
Proof using.
  revert n. induction a as [|c a IH]; intros n; cbn [app write_codes]; [change (zlen (@nil Z)) with 0; f_equal; lia|].
  rewrite IH, zlen_cons, app_assoc. do 2 f_equal. lia.
Qed.
Lemma gif_groups groups : forall last pixels lastpixels s pad fuel,
  Forall2 (fun px codes => writes sb px codes /\ has_room sb codes /\ forall m, 0 <= m -> 2 ^ sb + 1 + zlen codes <> 2 ^ m) pixels groups ->
  writes sb lastpixels last -> has_room sb last -> fresh s ->
  let codes := flat_map (fun g => g ++ [clear_code sb]) groups ++ last ++ [end_code sb] in
  (List.length codes <= fuel)%nat ->
  exists fs, gif_loop fuel sb s (image_bits sb groups last ++ pad) = (fs, Ok (pad, s_output s ++ List.concat pixels ++ lastpixels)) /\
    map g_value fs = codes /\ List.concat (map (fun f => note_pixels (g_note f)) fs) = List.concat pixels ++ lastpixels /\
    flat_map (fun f => le_digits (g_size f) (g_value f)) fs = image_bits sb groups last.
Proof using Hsb.
  induction groups as [|g groups IH]; intros last pixels lastpixels s pad fuel G L R Hf codes Hfu; inversion G as [|x g0 l gs H1 H3]; subst.
  - unfold codes, image_bits in *. cbn [flat_map app List.concat] in *. rewrite write_codes_app, <- app_assoc. rewrite app_length in Hfu. cbn [List.length] in Hfu.
    replace fuel with (List.length last + S (fuel - List.length last - 1))%nat by lia.
    destruct (group_lemma lastpixels last s (write_codes sb (0 + zlen last) [end_code sb] ++ pad) (S (fuel - List.length last - 1)) L ltac:(unfold has_room in R; lia) Hf) as (fs & s' & Q & A & O & V & P & B).
    destruct (end_step s' (zlen last) pad (fuel - List.length last - 1) (zlen_nonneg _) A R) as (f & Q' & (Fs & Fv & Fn) & N).
    cbn [write_codes] in Q. rewrite app_nil_r in Q. change (0 + zlen last) with (zlen last) in Q. cbn [write_codes]. rewrite app_nil_r. change (0 + zlen last) with (zlen last). rewrite Q, Q'. cbn [fst snd].
    exists (fs ++ [f]). split; [rewrite O; reflexivity|]. rewrite !map_app, concat_app, flat_map_app. cbn [map List.concat flat_map]. rewrite V, P, B, Fs, Fv, Fn, !app_nil_r. auto.
  - destruct H1 as (Wr & Ro & Po). unfold codes, image_bits in *. cbn [flat_map List.concat] in *. rewrite write_codes_app in *. rewrite <- !app_assoc in *. rewrite !app_length in Hfu. cbn [List.length] in Hfu.
    replace fuel with (List.length g + S (fuel - List.length g - 1))%nat by lia.
    destruct (group_lemma x g s (write_codes sb (0 + zlen g) [clear_code sb] ++ flat_map (fun c => write_codes sb 0 (c ++ [clear_code sb])) groups ++ write_codes sb 0 (last ++ [end_code sb]) ++ pad)
      (S (fuel - List.length g - 1)) Wr ltac:(unfold has_room in Ro; lia) Hf) as (fs & s' & Q & A & O & V & P & B).
    cbn [write_codes] in *. change (0 + zlen g) with (zlen g) in *. rewrite app_nil_r in *.
    destruct (reset_step s' (zlen g) (flat_map (fun c => write_codes sb 0 (c ++ [clear_code sb])) groups ++ write_codes sb 0 (last ++ [end_code sb]) ++ pad) (fuel - List.length g - 1) (zlen_nonneg _) A Ro Po)
      as (f & s'' & Q' & (Fs & Fv & Fn) & N & F' & O').
    destruct (IH last l lastpixels s'' pad (fuel - List.length g - 1)%nat H3 L R F') as (fs' & Q'' & V' & P' & B').
    { rewrite !app_length. cbn [List.length] in *. lia. }
    rewrite <- app_assoc in Q''. rewrite Q, Q', Q''. unfold yields. cbn [fst snd]. exists (fs ++ f :: fs'). split; [rewrite O', O; repeat rewrite <- app_assoc; reflexivity|].
    rewrite !map_app, concat_app, flat_map_app. cbn [map List.concat flat_map]. rewrite V, V', P, P', B, B', Fs, Fv, Fn. split; [reflexivity|]. split; reflexivity.
Qed.
End W.

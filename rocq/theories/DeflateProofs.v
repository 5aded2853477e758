From Verif Require Import Base BaseProofs BitsSpec ToolsModel ToolsProofs HuffModel HuffSpec HuffProofs DeflateModel DeflateSpec.
Ltac Zify.zify_post_hook ::= Z.div_mod_to_equations.

(** ** extend_data *)
Lemma nth_firstn {A} n k (l : list A) d : nth k (firstn n l) d = if (k <? n)%nat then nth k l d else d.
Proof.
  revert k l. induction n as [|n IH]; intros k l; [destruct k; reflexivity|]. destruct l as [|x l]; [rewrite firstn_nil; destruct k as [|k]; cbn [nth]; [reflexivity|destruct (S k <? S n)%nat; reflexivity]|].
  destruct k as [|k]; [reflexivity|]. cbn [firstn nth]. rewrite IH. reflexivity.
Qed.
Lemma nth_skipn {A} n k (l : list A) d : nth k (skipn n l) d = nth (n + k) l d.
Proof. revert l. induction n as [|n IH]; intros l; [reflexivity|]. destruct l as [|x l]; [destruct k; reflexivity|]. cbn [skipn Nat.add nth]. apply IH. Qed.
Lemma times_length {A} (l : list A) n : zlen (times l n) = zlen l * Z.of_nat n.
Proof. induction n as [|n IH]; cbn [times]; [rewrite zlen_nil; lia|]. rewrite zlen_app, IH. lia. Qed.
Lemma times_nth (l : list Z) n : forall j, 0 <= j < zlen l * Z.of_nat n -> nth (Z.to_nat j) (times l n) 0 = nth (Z.to_nat (j mod zlen l)) l 0.
Proof.
  induction n as [|n IH]; intros j Hj; [lia|]. cbn [times]. destruct (Z_lt_dec j (zlen l)) as [H|H].
  - rewrite app_nth1 by (unfold zlen in H; lia). rewrite Z.mod_small by lia. reflexivity.
  - rewrite app_nth2 by (unfold zlen in H; lia). pose proof (zlen_nonneg l). 
    replace (Z.to_nat j - length l)%nat with (Z.to_nat (j - zlen l)) by (unfold zlen; lia). rewrite IH by lia.
    replace (j mod zlen l) with ((j - zlen l) mod zlen l); [reflexivity|].
    replace (j - zlen l) with (j + (-1) * zlen l) by lia. apply Z_mod_plus_full.
Qed.
Lemma py_slice_neg {A} (l : list A) a b : 0 < a <= zlen l -> 0 < b <= a -> py_slice l (- a) (- b) = sub l (zlen l - a) (a - b).
Proof. intros Ha Hb. unfold py_slice, py_norm. replace (- a <? 0) with true by lia. replace (- b <? 0) with true by lia. f_equal; lia. Qed.
Lemma py_from_neg {A} (l : list A) a : 0 < a <= zlen l -> py_from l (- a) = sub l (zlen l - a) a.
Proof. intros Ha. unfold py_from, py_slice, py_norm. replace (- a <? 0) with true by lia. replace (zlen l <? 0) with false by lia. f_equal; lia. Qed.
Lemma extend_data_ok data length offset : 1 <= offset <= zlen data -> 0 <= length -> copied data length offset (extend_data data length offset).
Proof.
  intros Ho Hl. unfold extend_data. destruct (offset <=? length) eqn:E.
  - rewrite py_from_neg by lia. set (D := sub data (zlen data - offset) offset).
    assert (HD : zlen D = offset) by (apply zlen_sub_exact; lia).
    set (k := Z.to_nat (alignValue length offset / offset)).
    assert (Hk : length <= offset * Z.of_nat k).
    { destruct (alignValue_spec length offset) as (H1 & H2 & _); [lia|]. unfold k. rewrite Z2Nat.id by (apply Z.div_pos; lia).
      pose proof (Z.div_mod (alignValue length offset) offset). lia. }
    assert (HT : zlen (times D k) = offset * Z.of_nat k) by (rewrite times_length, HD; reflexivity).
    assert (EU : py_upto (times D k) length = firstn (Z.to_nat length) (times D k)).
    { unfold py_upto. rewrite py_slice_nonneg by lia. unfold sub. cbn [skipn]. rewrite Z.sub_0_r. reflexivity. }
    rewrite EU. 
    assert (Elen : zlen (firstn (Z.to_nat length) (times D k)) = length) by (unfold zlen in *; rewrite firstn_length; lia).
    split; [rewrite zlen_app; lia|]. split; [rewrite firstn_app, firstn_all, Nat.sub_diag; cbn [firstn]; apply app_nil_r|].
    intros i Hi. rewrite zlen_app, Elen in Hi.
    assert (Hj : forall j, 0 <= j < length -> nth (Z.to_nat (zlen data + j)) (data ++ firstn (Z.to_nat length) (times D k)) 0 = nth (Z.to_nat (j mod offset)) D 0).
    { intros j Hj. rewrite app_nth2 by (unfold zlen; lia). replace (Z.to_nat (zlen data + j) - Datatypes.length data)%nat with (Z.to_nat j) by (unfold zlen; lia).
      rewrite nth_firstn. replace (Z.to_nat j <? Z.to_nat length)%nat with true by lia.
      rewrite times_nth by (rewrite HD; lia). rewrite HD. reflexivity. }
    replace i with (zlen data + (i - zlen data)) at 1 by lia. rewrite Hj by lia. destruct (Z_lt_dec (i - zlen data) offset) as [Hlt|Hge].
    + rewrite Z.mod_small by lia. rewrite app_nth1 by (unfold zlen in *; lia). unfold D. unfold sub.
      rewrite nth_firstn. replace (Z.to_nat (i - zlen data) <? Z.to_nat offset)%nat with true by lia.
      rewrite nth_skipn. f_equal. lia.
    + replace (i - offset) with (zlen data + (i - zlen data - offset)) by lia. rewrite Hj by lia. f_equal. f_equal.
      replace (i - zlen data - offset) with (i - zlen data + (-1) * offset) by lia. symmetry. apply Z_mod_plus_full.
  - replace (- offset + length) with (- (offset - length)) by lia. rewrite py_slice_neg by lia.
    replace (offset - (offset - length)) with length by lia.
    assert (Elen : zlen (sub data (zlen data - offset) length) = length) by (apply zlen_sub_exact; lia).
    split; [rewrite zlen_app; lia|]. split; [rewrite firstn_app, firstn_all, Nat.sub_diag; cbn [firstn]; apply app_nil_r|].
    intros i Hi. rewrite zlen_app, Elen in Hi. rewrite app_nth2 by (unfold zlen in *; lia). rewrite app_nth1 by (unfold zlen in *; lia).
    unfold sub. rewrite nth_firstn. replace (Z.to_nat i - Datatypes.length data <? Z.to_nat length)%nat with true by (unfold zlen in *; lia).
    rewrite nth_skipn. f_equal. unfold zlen in *. lia.
Qed.
Lemma copied_det data n offset r r' : 1 <= offset <= zlen data -> copied data n offset r -> copied data n offset r' -> r = r'.
Proof.
  intros Ho (H1 & H2 & H3) (H1' & H2' & H3').
  assert (Hn : forall k, (k < length r)%nat -> nth k r 0 = nth k r' 0).
  { induction k as [k IH] using lt_wf_ind. intros Hk. destruct (Z_lt_dec (Z.of_nat k) (zlen data)) as [H|H].
    - assert (E : forall q, firstn (length data) q = data -> nth k q 0 = nth k data 0).
      { intros q Hq. pose proof (nth_firstn (length data) k q 0) as En. rewrite Hq in En. unfold zlen in H.
        replace (k <? length data)%nat with true in En by lia. symmetry. exact En. }
      rewrite (E r H2), (E r' H2'). reflexivity.
    - specialize (H3 (Z.of_nat k)). specialize (H3' (Z.of_nat k)). unfold zlen in *. rewrite Nat2Z.id in *.
      rewrite H3, H3' by lia. apply IH; lia. }
  apply nth_ext with (d := 0) (d' := 0); [unfold zlen in *; lia|assumption].
Qed.

(** ** Reading bits *)
Lemma le_digits_length n v : 0 <= n -> zlen (le_digits n v) = n.
Proof. intros H. unfold le_digits, zlen. rewrite map_length, seq_length. lia. Qed.
Lemma le_digits_val n : 0 <= n -> forall v, 0 <= v < 2 ^ n -> val_le (le_digits n v) = v.
Proof.
  intros Hn. pattern n. apply natlike_ind; [| |assumption]; clear n Hn.
  - intros v Hv. rewrite Z.pow_0_r in Hv. unfold val_le. cbn. lia.
  - intros n Hn IH v Hv. unfold Z.succ in *. rewrite Z.pow_add_r in Hv by lia. unfold le_digits. replace (Z.to_nat (n + 1)) with (S (Z.to_nat n)) by lia. cbn [seq map].
    rewrite <- seq_shift, map_map. cbn [val_le fold_right].
    assert (E : map (fun k => Z.testbit v (Z.of_nat (S k))) (seq 0 (Z.to_nat n)) = le_digits n (v / 2)).
    { unfold le_digits. apply map_ext. intros k. change 2 with (2 ^ 1). rewrite Z.div_pow2_bits by lia. f_equal. lia. }
    rewrite E. fold (val_le (le_digits n (v / 2))). rewrite IH by (split; [apply Z.div_pos; lia|apply Z.div_lt_upper_bound; lia]).
    rewrite Z.bit0_odd. pose proof (Zmod_odd v). unfold b2z. destruct (Z.odd v); lia.
Qed.
Lemma read_le_ok n v rest : 0 <= n -> 0 <= v < 2 ^ n -> read_le n (le_digits n v ++ rest) = Ok (v, rest).
Proof.
  intros Hn Hv. unfold read_le. pose proof (le_digits_length n v Hn) as E. rewrite zlen_app. pose proof (zlen_nonneg rest).
  replace (zlen (le_digits n v) + zlen rest <? n) with false by lia.
  replace (Z.to_nat n) with (length (le_digits n v)) by (unfold zlen in E; lia).
  rewrite firstn_app, firstn_all, Nat.sub_diag. cbn [firstn]. rewrite app_nil_r, le_digits_val by assumption.
  rewrite skipn_app, skipn_all, Nat.sub_diag. reflexivity.
Qed.
Lemma read_le_skip pad rest : exists v, read_le (zlen pad) (pad ++ rest) = Ok (v, rest).
Proof.
  unfold read_le. rewrite zlen_app. pose proof (zlen_nonneg rest). replace (zlen pad + zlen rest <? zlen pad) with false by lia.
  eexists. f_equal. f_equal. unfold zlen. rewrite Nat2Z.id, skipn_app, skipn_all, Nat.sub_diag. reflexivity.
Qed.
Lemma read_le_shorter n bits v rest : 0 <= n -> read_le n bits = Ok (v, rest) -> zlen rest = zlen bits - n.
Proof.
  intros Hn. unfold read_le. destruct (zlen bits <? n) eqn:E; [discriminate|]. intros H. injection H as <- <-. unfold zlen in *. rewrite skipn_length. lia.
Qed.

(** ** Huffman codes *)
Definition good (lengths : list Z) : Prop := Forall (fun x => 0 <= x) lengths /\ Forall (fun x => x <= 257) lengths /\ kraft lengths.
Definition tree_for (lengths : list Z) (t : htree) : Prop := exists t', build_tree lengths = Ok t' /\ forall k, tree_get t k = tree_get t' k.
Lemma huff_read_ext t t' : (forall k, tree_get t k = tree_get t' k) -> forall bits size value, huff_read t size value bits = huff_read t' size value bits.
Proof. intros E. induction bits as [|b bits IH]; intros; cbn [huff_read]; rewrite E; [reflexivity|]. rewrite IH. reflexivity. Qed.
Lemma codeword_read lengths t s b rest : good lengths -> tree_for lengths t -> codeword lengths s b ->
  huffman_code t (b ++ rest) = Ok (s, len_of lengths s, rest).
Proof.
  intros (H1 & H2 & H3) (t' & Hb & Ht) (c & Hc & ->). unfold huffman_code. rewrite (huff_read_ext t t') by assumption.
  apply (huff_read_ok lengths t' s c rest); try assumption.
  - apply code_bound; assumption.
  - apply len_le; [assumption|]. destruct Hc. assumption.
Qed.
Lemma codeword_length lengths s b : codeword lengths s b -> 1 <= zlen b.
Proof. intros (c & [Hp _] & ->). rewrite digits_length by lia. lia. Qed.
Lemma codeword_det lengths s b b' : codeword lengths s b -> codeword lengths s b' -> b = b'.
Proof. intros (c & Hc & ->) (c' & Hc' & ->). rewrite (canonical_det _ _ _ _ Hc Hc'). reflexivity. Qed.

(** ** Tables *)
Lemma length_table s : 257 <= s <= 285 -> exists m, symbol_info LENGTH_SYMBOLS 257 s = Ok (len_base s, m, len_extra s).
Proof.
  intros H.
  assert (Hall : forallb (fun k => match symbol_info LENGTH_SYMBOLS 257 (257 + Z.of_nat k) with
    | Ok (a, _, e) => (a =? len_base (257 + Z.of_nat k)) && (e =? len_extra (257 + Z.of_nat k)) | Err _ => false end) (seq 0 29) = true) by reflexivity.
  rewrite forallb_forall in Hall. specialize (Hall (Z.to_nat (s - 257))). replace (257 + Z.of_nat (Z.to_nat (s - 257))) with s in Hall by lia.
  specialize (Hall ltac:(apply in_seq; lia)). destruct (symbol_info LENGTH_SYMBOLS 257 s) as [[[a m] e]|]; [|discriminate]. exists m. repeat f_equal; lia.
Qed.
Lemma distance_table s : 0 <= s <= 29 -> exists m, symbol_info DISTANCE_SYMBOLS 0 s = Ok (dist_base s, m, dist_extra s).
Proof.
  intros H.
  assert (Hall : forallb (fun k => match symbol_info DISTANCE_SYMBOLS 0 (Z.of_nat k) with
    | Ok (a, _, e) => (a =? dist_base (Z.of_nat k)) && (e =? dist_extra (Z.of_nat k)) | Err _ => false end) (seq 0 30) = true) by reflexivity.
  rewrite forallb_forall in Hall. specialize (Hall (Z.to_nat s)). replace (Z.of_nat (Z.to_nat s)) with s in Hall by lia.
  specialize (Hall ltac:(apply in_seq; lia)). destruct (symbol_info DISTANCE_SYMBOLS 0 s) as [[[a m] e]|]; [|discriminate]. exists m. repeat f_equal; lia.
Qed.
Lemma read_extra_ok low m e x rest : 0 <= e -> 0 <= x < 2 ^ e -> read_extra (low, m, e) (le_digits e x ++ rest) = Ok (low + x, rest).
Proof.
  intros He Hx. unfold read_extra. destruct (Z.eqb_spec e 0) as [->|Hne].
  - rewrite Z.pow_0_r in Hx. replace x with 0 by lia. rewrite Z.add_0_r. reflexivity.
  - rewrite read_le_ok by assumption. cbn [bind]. rewrite Z.add_comm. reflexivity.
Qed.
Lemma len_extra_nonneg s : 257 <= s -> 0 <= len_extra s.
Proof. unfold len_extra. intros H. destruct ((s <? 265) || (s =? 285)) eqn:E; lia. Qed.
Lemma dist_extra_nonneg s : 0 <= s -> 0 <= dist_extra s.
Proof. unfold dist_extra. intros H. destruct (s <? 4) eqn:E; lia. Qed.
Lemma dist_base_pos d : 0 <= d -> 1 <= dist_base d.
Proof. intros H. unfold dist_base. destruct (d <? 4) eqn:E; [lia|]. pose proof (Z.pow_nonneg 2 (d / 2 - 1)). assert (0 <= d mod 2) by lia. nia. Qed.
Lemma len_base_pos s : 257 <= s <= 285 -> 3 <= len_base s.
Proof. intros H. unfold len_base. destruct (s <? 265) eqn:E; [lia|]. destruct (s =? 285); [lia|]. pose proof (Z.pow_nonneg 2 ((s - 261) / 4)). assert (0 <= (s - 261) mod 4) by lia. nia. Qed.

(** ** Symbols *)
Lemma symbols_ok ll dl tl td : good ll -> good dl -> tree_for ll tl -> tree_for dl td ->
  forall ts bs, tokens_bits ll dl ts bs -> forall out out' rest fuel, (length ts < fuel)%nat -> expands out ts out' ->
  read_symbols fuel tl td out (bs ++ rest) = Ok (out', rest).
Proof.
  intros Hl Hd Htl Htd. induction 1 as [bits Hc|t ts b bs Ht Hts IH]; intros out out' rest fuel Hf Hex.
  - destruct fuel as [|fuel]; [cbn in Hf; lia|]. cbn [read_symbols]. rewrite (codeword_read ll tl 256 bits rest Hl Htl Hc). cbn [bind].
    inversion Hex; subst. reflexivity.
  - destruct fuel as [|fuel]; [lia|]. cbn [length] in Hf. cbn [read_symbols]. rewrite <- app_assoc.
    destruct Ht as [b bits Hb Hc|s x d y b1 b2 Hs Hx Hdd Hy Hc1 Hc2].
    + rewrite (codeword_read ll tl b bits _ Hl Htl Hc). cbn [bind]. replace (b <? 256) with true by lia. inversion Hex; subst.
      apply IH; [lia|assumption].
    + rewrite <- !app_assoc. rewrite (codeword_read ll tl s b1 _ Hl Htl Hc1). cbn [bind].
      replace (s <? 256) with false by lia. replace (s =? 256) with false by lia.
      destruct (length_table s Hs) as [m ->]. cbn [bind]. rewrite read_extra_ok by (assumption || apply len_extra_nonneg; lia). cbn [bind].
      rewrite (codeword_read dl td d b2 _ Hd Htd Hc2). cbn [bind].
      destruct (distance_table d Hdd) as [m' ->]. cbn [bind]. rewrite read_extra_ok by (assumption || apply dist_extra_nonneg; lia). cbn [bind].
      inversion Hex as [| |out0 len dist mid ts0 out0' Hdist Hcop Hrest]; subst.
      assert (Hpos : 0 <= len_base s + x) by (pose proof (len_base_pos s Hs); lia).
      rewrite (copied_det out _ _ _ mid Hdist (extend_data_ok out _ _ Hdist Hpos) Hcop).
      apply IH; [lia|assumption].
Qed.
Lemma token_bits_length ll dl t b : token_bits ll dl t b -> 1 <= zlen b.
Proof. intros [b' bits _ Hc|s x d y b1 b2 _ _ _ _ Hc _]; apply codeword_length in Hc; [assumption|]. rewrite zlen_app. pose proof (zlen_nonneg (le_digits (len_extra s) x ++ b2 ++ le_digits (dist_extra d) y)). lia. Qed.
Lemma tokens_bits_length ll dl ts bs : tokens_bits ll dl ts bs -> (length ts < length bs)%nat.
Proof.
  induction 1 as [bits Hc|t ts b bs Ht Hts IH]; [apply codeword_length in Hc; unfold zlen in Hc; cbn; lia|].
  apply token_bits_length in Ht. rewrite app_length. unfold zlen in Ht. cbn [length]. lia.
Qed.

(** ** Code lengths *)
Lemma cl_bits_cons cl order : flat_map (fun i => le_digits 3 (len_of cl i)) order = flat_map (fun i => le_digits 3 (len_of cl i)) order.
Proof. reflexivity. Qed.
Lemma read_clens_ok cl : Forall (fun n => 0 <= n <= 7) cl -> forall order acc rest, NoDup order -> Forall (fun i => 0 <= i < 19) order -> zlen acc = 19 ->
  exists acc', read_clens order acc (flat_map (fun i => le_digits 3 (len_of cl i)) order ++ rest) = Ok (acc', rest) /\ zlen acc' = 19 /\
  forall i, 0 <= i < 19 -> get acc' i = if in_dec Z.eq_dec i order then len_of cl i else get acc i.
Proof.
  intros Hcl. induction order as [|o order IH]; intros acc rest Hnd Hr Hacc; cbn [read_clens flat_map].
  - exists acc. split; [reflexivity|]. split; [assumption|]. intros i Hi. destruct (in_dec Z.eq_dec i []) as [[]|]. reflexivity.
  - inversion Hnd as [|? ? Hno Hnd']; subst. inversion Hr as [|? ? Ho Hr']; subst.
    assert (Hlen : 0 <= len_of cl o < 2 ^ 3).
    { unfold len_of. destruct (o <? 0); [lia|]. destruct (Nat.lt_ge_cases (Z.to_nat o) (length cl)) as [H|H].
      - rewrite Forall_forall in Hcl. specialize (Hcl _ (nth_In cl 0 H)). lia.
      - rewrite nth_overflow by lia. lia. }
    rewrite <- app_assoc, read_le_ok by (assumption || lia). cbn [bind].
    destruct (IH (upd acc (Z.to_nat o) (len_of cl o)) rest Hnd' Hr') as (acc' & E1 & E2 & E3); [rewrite zlen_upd; assumption|].
    exists acc'. split; [exact E1|]. split; [exact E2|]. intros i Hi. rewrite E3 by assumption. rewrite get_upd by lia.
    destruct (in_dec Z.eq_dec i order) as [Hin|Hin]; destruct (in_dec Z.eq_dec i (o :: order)) as [Hin'|Hin']; try reflexivity.
    + exfalso. apply Hin'. right. assumption.
    + destruct Hin' as [->|Hin']; [rewrite Z.eqb_refl; reflexivity|contradiction].
    + replace (i =? o) with false; [reflexivity|]. symmetry. apply Z.eqb_neq. intros ->. apply Hin'. left. reflexivity.
Qed.
Lemma list_get_ext (l m : list Z) : zlen l = zlen m -> (forall i, 0 <= i < zlen l -> get l i = get m i) -> l = m.
Proof.
  unfold get, zlen. intros H E. apply nth_ext with (d := 0) (d' := 0); [lia|]. intros n Hn. specialize (E (Z.of_nat n)). rewrite Nat2Z.id in E. apply E. lia.
Qed.
Lemma cl_order_perm i : 0 <= i < 19 -> In i cl_order.
Proof.
  intros H. assert (Hall : forallb (fun k => if in_dec Z.eq_dec (Z.of_nat k) cl_order then true else false) (seq 0 19) = true) by reflexivity.
  rewrite forallb_forall in Hall. specialize (Hall (Z.to_nat i) ltac:(apply in_seq; lia)). rewrite Z2Nat.id in Hall by lia.
  destruct (in_dec Z.eq_dec i cl_order); [assumption|discriminate].
Qed.
Lemma order_range i : In i CODE_LENGTH_ORDER -> 0 <= i < 19.
Proof. cbn. lia. Qed.
Lemma order_nodup : NoDup CODE_LENGTH_ORDER.
Proof. unfold CODE_LENGTH_ORDER. repeat constructor; cbn; lia. Qed.
Lemma NoDup_firstn {A} n (l : list A) : NoDup l -> NoDup (firstn n l).
Proof.
  revert n. induction l as [|x l IH]; intros n H; [rewrite firstn_nil; constructor|]. destruct n; [constructor|]. inversion H; subst. cbn [firstn]. constructor; [|auto].
  intros Hin. assert (In x l) by (rewrite <- (firstn_skipn n l); apply in_or_app; left; assumption). contradiction.
Qed.
Lemma firstn_in {A} n (l : list A) x : In x (firstn n l) -> In x l.
Proof. intros H. rewrite <- (firstn_skipn n l). apply in_or_app. left. assumption. Qed.
Lemma clens_lemma cl nc rest : zlen cl = 19 -> Forall (fun n => 0 <= n <= 7) cl -> (forall i, In i (skipn nc cl_order) -> len_of cl i = 0) ->
  read_clens (firstn nc CODE_LENGTH_ORDER) (repeat 0 19) (cl_bits cl nc ++ rest) = Ok (cl, rest).
Proof.
  intros Hlen Hcl Hz. unfold cl_bits. change cl_order with CODE_LENGTH_ORDER in *.
  destruct (read_clens_ok cl Hcl (firstn nc CODE_LENGTH_ORDER) (repeat 0 19) rest) as (acc & E1 & E2 & E3).
  - apply NoDup_firstn, order_nodup.
  - apply Forall_forall. intros i Hi. apply order_range. eapply firstn_in; eassumption.
  - reflexivity.
  - rewrite E1. do 2 f_equal. apply list_get_ext; [congruence|]. intros i Hi. rewrite E2 in Hi. rewrite E3 by assumption.
    rewrite get_repeat. assert (Eg : get cl i = len_of cl i) by (unfold get; apply nth_len; lia). rewrite Eg.
    destruct (in_dec Z.eq_dec i (firstn nc CODE_LENGTH_ORDER)) as [|Hn]; [reflexivity|]. symmetry. apply Hz.
    pose proof (cl_order_perm i Hi) as Hin. change cl_order with CODE_LENGTH_ORDER in Hin. rewrite <- (firstn_skipn nc CODE_LENGTH_ORDER) in Hin.
    apply in_app_or in Hin. destruct Hin; [contradiction|assumption].
Qed.
Lemma run_values_app rs : forall before rs', run_values before (rs ++ rs') = run_values (run_values before rs) rs'.
Proof. induction rs as [|r rs IH]; intros; [reflexivity|]. destruct r; cbn [app run_values]; apply IH. Qed.
Lemma run_values_prefix rs : forall before, exists more, run_values before rs = before ++ more /\
  (rs <> [] -> (exists cl b, runs_bits cl rs b) -> more <> []).
Proof.
  induction rs as [|r rs IH]; intros before; [exists []; split; [symmetry; apply app_nil_r|congruence]|].
  destruct r as [v|n|n]; cbn [run_values].
  - destruct (IH (before ++ [v])) as (more & E & _). exists ([v] ++ more). rewrite E, app_assoc. split; [reflexivity|]. discriminate.
  - destruct (IH (before ++ repeat (last before 0) (Z.to_nat n))) as (more & E & _). exists (repeat (last before 0) (Z.to_nat n) ++ more). rewrite E, app_assoc. split; [reflexivity|].
    intros _ (cl & b & Hb). inversion Hb as [|? ? ? ? Hr]; subst. inversion Hr; subst. destruct (Z.to_nat n) eqn:En; [lia|]. discriminate.
  - destruct (IH (before ++ repeat 0 (Z.to_nat n))) as (more & E & _). exists (repeat 0 (Z.to_nat n) ++ more). rewrite E, app_assoc. split; [reflexivity|].
    intros _ (cl & b & Hb). inversion Hb as [|? ? ? ? Hr]; subst. destruct (Z.to_nat n) eqn:En; [inversion Hr; subst; lia|]. discriminate.
Qed.
Lemma last_repeat {A} (x d : A) n l : (0 < n)%nat -> last (l ++ repeat x n) d = x.
Proof. intros H. destruct n as [|n]; [lia|]. change (S n) with (1 + n)%nat. rewrite Nat.add_comm, repeat_app, app_assoc. cbn [repeat]. apply last_last. Qed.
(** The loop on code lengths.  [all] is everything read so far, [acc] the part
    of the current table. *)
Lemma lengths_ok cl t : good cl -> tree_for cl t -> forall rs bs, runs_bits cl rs bs ->
  forall ok all acc final numcodes prev rest fuel, (length rs <= fuel)%nat -> repeats_ok ok rs ->
  (ok = true -> prev = Some (last all 0)) ->
  run_values all rs = all ++ final -> zlen acc + zlen final = numcodes ->
  exists prev', read_lengths fuel t numcodes prev acc (bs ++ rest) = Ok (acc ++ final, prev', rest) /\
   (forall rs', repeats_ok ok (rs ++ rs') -> exists ok', repeats_ok ok' rs' /\ (ok' = true -> prev' = Some (last (all ++ final) 0))).
Proof.
  intros Hcl Ht. induction 1 as [|r rs b bs Hr Hrs IH]; intros ok all acc final numcodes prev rest fuel Hf Hok Hprev Hrv Hnum.
  - cbn [run_values] in Hrv. assert (final = []) by (apply (app_inv_head all); rewrite app_nil_r; auto). subst final. rewrite (@zlen_nil Z) in Hnum.
    exists prev. cbn [app]. rewrite !app_nil_r. split.
    + destruct fuel; cbn [read_lengths]; replace (zlen acc <? numcodes) with false by lia; reflexivity.
    + intros rs' H. exists ok. split; assumption.
  - destruct fuel as [|fuel]; [cbn in Hf; lia|]. cbn [length] in Hf. cbn [read_lengths].
    (* what this run adds *)
    assert (Hstep : forall add ok' prev1, run_values (all ++ add) rs = all ++ final -> repeats_ok ok' rs -> add <> [] ->
      (ok' = true -> prev1 = Some (last (all ++ add) 0)) ->
      (forall rs', repeats_ok ok (r :: rs ++ rs') -> repeats_ok ok' (rs ++ rs')) ->
      zlen acc < numcodes /\ exists prev', read_lengths fuel t numcodes prev1 (acc ++ add) (bs ++ rest) = Ok (acc ++ final, prev', rest) /\
      (forall rs', repeats_ok ok (r :: rs ++ rs') -> exists ok', repeats_ok ok' rs' /\ (ok' = true -> prev' = Some (last (all ++ final) 0)))).
    { intros add ok' prev1 E1 E2 E3 E4 E5. destruct (run_values_prefix rs (all ++ add)) as (more & Em & _).
      assert (final = add ++ more) by (apply (app_inv_head all); rewrite <- E1, Em, app_assoc; reflexivity). subst final.
      assert (0 < zlen add) by (destruct add; [congruence|rewrite zlen_cons; pose proof (zlen_nonneg add); lia]).
      rewrite zlen_app in Hnum. pose proof (zlen_nonneg more). split; [lia|].
      destruct (IH ok' (all ++ add) (acc ++ add) more numcodes prev1 rest fuel) as (prev' & F1 & F2); try assumption; try lia.
      - rewrite zlen_app. lia.
      - exists prev'. rewrite app_assoc. split; [exact F1|]. intros rs' H'. destruct (F2 rs' (E5 rs' H')) as (ok'' & G1 & G2). exists ok''. split; [assumption|].
        rewrite app_assoc. assumption. }
    rewrite <- app_assoc. destruct Hr as [v b Hv Hc|n b Hn Hc|n b Hn Hc|n b Hn Hc]; cbn [run_values repeats_ok] in *.
    + destruct (Hstep [v] true (Some v)) as [Hlt (prev' & E & F)]; try assumption; try discriminate.
      { intros _. rewrite last_last. reflexivity. }
      { intros rs' H. exact H. }
      replace (zlen acc <? numcodes) with true by lia. rewrite (codeword_read cl t v b _ Hcl Ht Hc). cbn [bind].
      replace (v <? 16) with true by lia. exists prev'. split; assumption.
    + destruct Hok as [Hok1 Hok2]. specialize (Hprev Hok1). subst prev.
      destruct (Hstep (repeat (last all 0) (Z.to_nat n)) true (Some (last all 0))) as [Hlt (prev' & E & F)]; try assumption.
      { destruct (Z.to_nat n) eqn:En; [lia|discriminate]. }
      { intros _. rewrite last_repeat by lia. reflexivity. }
      { intros rs' [_ H]. exact H. }
      replace (zlen acc <? numcodes) with true by lia. rewrite <- app_assoc. rewrite (codeword_read cl t 16 b _ Hcl Ht Hc). cbn [bind].
      replace (16 <? 16) with false by lia. replace (16 =? 16) with true by lia. cbn [bind].
      rewrite read_le_ok by (change (2 ^ 2) with 4; lia). cbn [bind]. replace (n - 3 + 3) with n by lia. exists prev'. split; assumption.
    + destruct (Hstep (repeat 0 (Z.to_nat n)) false prev) as [Hlt (prev' & E & F)]; try assumption; try discriminate.
      { destruct (Z.to_nat n) eqn:En; [lia|discriminate]. }
      { intros rs' H. exact H. }
      replace (zlen acc <? numcodes) with true by lia. rewrite <- app_assoc. rewrite (codeword_read cl t 17 b _ Hcl Ht Hc). cbn [bind].
      replace (17 <? 16) with false by lia. replace (17 =? 16) with false by lia. replace (17 =? 17) with true by lia. cbn [bind].
      rewrite read_le_ok by (change (2 ^ 3) with 8; lia). cbn [bind]. replace (n - 3 + 3) with n by lia. exists prev'. split; assumption.
    + destruct (Hstep (repeat 0 (Z.to_nat n)) false prev) as [Hlt (prev' & E & F)]; try assumption; try discriminate.
      { destruct (Z.to_nat n) eqn:En; [lia|discriminate]. }
      { intros rs' H. exact H. }
      replace (zlen acc <? numcodes) with true by lia. rewrite <- app_assoc. rewrite (codeword_read cl t 18 b _ Hcl Ht Hc). cbn [bind].
      replace (18 <? 16) with false by lia. replace (18 =? 16) with false by lia. replace (18 =? 17) with false by lia. replace (18 =? 18) with true by lia. cbn [bind].
      rewrite read_le_ok by (change (2 ^ 7) with 128; lia). cbn [bind]. replace (n - 11 + 11) with n by lia. exists prev'. split; assumption.
Qed.

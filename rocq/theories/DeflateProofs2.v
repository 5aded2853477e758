From Verif Require Import Base BaseProofs BitsSpec ToolsModel ToolsProofs HuffModel HuffSpec HuffProofs DeflateModel DeflateSpec DeflateProofs.
Ltac Zify.zify_post_hook ::= Z.div_mod_to_equations.

(** ** The fixed codes *)
Definition agree (t t' : htree) : bool :=
  forallb (fun e => match tree_get t' (fst e) with Some v => v =? snd e | None => false end) t.
Lemma agree_get t t' k v : agree t t' = true -> tree_get t k = Some v -> tree_get t' k = Some v.
Proof.
  unfold agree. rewrite forallb_forall. intros H E. apply tree_get_in in E. specialize (H _ E). cbn [fst snd] in H.
  destruct (tree_get t' k); [f_equal; lia|discriminate].
Qed.
Lemma agree_both t t' k : agree t t' = true -> agree t' t = true -> tree_get t k = tree_get t' k.
Proof.
  intros H H'. destruct (tree_get t k) as [v|] eqn:E.
  - symmetry. eapply agree_get; eassumption.
  - destruct (tree_get t' k) as [v|] eqn:E'; [|reflexivity]. rewrite (agree_get _ _ _ _ H' E') in E. discriminate.
Qed.
Lemma build_ne lengths : (0 <? zlen lengths) = true -> build_tree lengths = Ok (assign 0 lengths (next_code lengths) []).
Proof. destruct lengths; [discriminate|]. reflexivity. Qed.
Lemma fixed_length_ok : tree_for fixed_ll fixed_length_tree.
Proof.
  exists (assign 0 fixed_ll (next_code fixed_ll) []). split; [apply build_ne; vm_compute; reflexivity|]. intros k.
  apply agree_both; vm_compute; reflexivity.
Qed.
Lemma fixed_distance_ok : tree_for fixed_dl fixed_distance_tree.
Proof.
  exists (assign 0 fixed_dl (next_code fixed_dl) []). split; [apply build_ne; vm_compute; reflexivity|]. intros k.
  apply agree_both; vm_compute; reflexivity.
Qed.
Lemma Forall_dec_b (P : Z -> Prop) (p : Z -> bool) l : (forall x, p x = true -> P x) -> forallb p l = true -> Forall P l.
Proof. intros H. rewrite forallb_forall, Forall_forall. auto. Qed.
Lemma fixed_ll_good : good fixed_ll.
Proof.
  split; [apply (Forall_dec_b _ (fun x => 0 <=? x)); [intros; lia|vm_compute; reflexivity]|].
  split; [apply (Forall_dec_b _ (fun x => x <=? 257)); [intros; lia|vm_compute; reflexivity]|].
  exists 9. split; [lia|]. split; [apply (Forall_dec_b _ (fun x => (0 <=? x) && (x <=? 9))); [intros; lia|vm_compute; reflexivity]|].
  vm_compute. discriminate.
Qed.
Lemma fixed_dl_good : good fixed_dl.
Proof.
  split; [apply (Forall_dec_b _ (fun x => 0 <=? x)); [intros; lia|vm_compute; reflexivity]|].
  split; [apply (Forall_dec_b _ (fun x => x <=? 257)); [intros; lia|vm_compute; reflexivity]|].
  exists 9. split; [lia|]. split; [apply (Forall_dec_b _ (fun x => (0 <=? x) && (x <=? 9))); [intros; lia|vm_compute; reflexivity]|].
  vm_compute. discriminate.
Qed.
Lemma good_of lengths top : 0 <= top <= 257 -> Forall (fun n => 0 <= n <= top) lengths -> kraft lengths -> good lengths.
Proof. intros Ht H Hk. split; [|split; [|assumption]]; (eapply Forall_impl; [|exact H]); cbn; lia. Qed.
Lemma tree_for_build lengths : lengths <> [] -> exists t, build_tree lengths = Ok t /\ tree_for lengths t.
Proof. intros H. destruct lengths; [congruence|]. eexists. split; [reflexivity|]. eexists. split; reflexivity. Qed.

(** ** Blocks *)
Lemma runs_bits_length cl rs bs : runs_bits cl rs bs -> (length rs <= length bs)%nat.
Proof.
  induction 1 as [|r rs b bs Hr Hrs IH]; [cbn; lia|]. rewrite app_length. cbn [length].
  assert (1 <= zlen b); [|unfold zlen in *; lia].
  destruct Hr as [v b Hv Hc|n b Hn Hc|n b Hn Hc|n b Hn Hc]; apply codeword_length in Hc; rewrite ?zlen_app, ?le_digits_length by lia; lia.
Qed.
Lemma runs_bits_split cl r1 : forall r2 bs, runs_bits cl (r1 ++ r2) bs -> exists b1 b2, bs = b1 ++ b2 /\ runs_bits cl r1 b1 /\ runs_bits cl r2 b2.
Proof.
  induction r1 as [|r r1 IH]; intros r2 bs H; cbn [app] in H; [exists [], bs; repeat split; [constructor|assumption]|].
  inversion H as [|? ? b bs' Hr Hrs]; subst. destruct (IH _ _ Hrs) as (b1 & b2 & -> & H1 & H2). exists (b ++ b1), b2. split; [apply app_assoc|]. split; [constructor; assumption|assumption].
Qed.
Lemma padding_unique p q : 0 <= q < 8 -> (p + q) mod 8 = 0 -> paddingSize p 8 = q.
Proof. intros H1 H2. unfold paddingSize. destruct (p mod 8 =? 0) eqn:E; cbn [negb]; lia. Qed.
Lemma block_ok total pos final b bits rest out out' : block_bits pos final b bits -> block_plain b -> block_expands out b out' ->
  total = pos + zlen bits + zlen rest -> read_block total out (bits ++ rest) = Ok (final, out', rest).
Proof.
  intros Hb Hp He Htot. destruct Hb as [data pad Hd Hpad Hpad8|ts bs Hts|ll dl cl rs ts nc b1 bs Hll Hdl Hcl Hnc Fcl Fll Fdl Kcl Kll Kdl Hz Hrv Hrb Hts];
    unfold read_block; rewrite <- !app_assoc, read_le_ok by (destruct final; cbn; lia); cbn [bind];
    (rewrite read_le_ok by (change (2 ^ 2) with 4; lia)); cbn [bind];
    replace (negb (bit_of final =? 0)) with final by (destruct final; reflexivity).
  - cbn [block_plain] in Hp. subst data. change (0 =? 0) with true. cbv iota. rewrite (@zlen_nil Z) in *. change (bits_le []) with (@nil bool) in *.
    inversion He; subst out'. rewrite app_nil_r.
    assert (E : paddingSize (total - zlen (pad ++ le_digits 16 0 ++ le_digits 16 (65535 - 0) ++ [] ++ rest)) 8 = zlen pad).
    { apply padding_unique; [pose proof (zlen_nonneg pad); lia|]. rewrite Htot. rewrite !zlen_app, !le_digits_length by lia. rewrite <- Hpad. f_equal. lia. }
    rewrite E. destruct (read_le_skip pad (le_digits 16 0 ++ le_digits 16 (65535 - 0) ++ [] ++ rest)) as [v ->]. cbn [bind].
    rewrite read_le_ok by (change (2 ^ 16) with 65536; lia). cbn [bind]. rewrite read_le_ok by (change (2 ^ 16) with 65536; lia). cbn [bind].
    change (negb (0 =? 65535 - (65535 - 0))) with false. cbv iota.
    change (0 * 8) with (zlen (@nil bool)). destruct (read_le_skip [] rest) as [w ->]. reflexivity.
  - change (1 =? 0) with false. change (1 =? 1) with true. cbv iota. inversion He; subst.
    rewrite (symbols_ok fixed_ll fixed_dl _ _ fixed_ll_good fixed_dl_good fixed_length_ok fixed_distance_ok ts bs Hts out out' rest).
    + reflexivity.
    + apply tokens_bits_length in Hts. rewrite app_length. lia.
    + assumption.
  - change (2 =? 0) with false. change (2 =? 1) with false. change (2 =? 2) with true. cbv iota. inversion He; subst.
    rewrite read_le_ok by (change (2 ^ 5) with 32; lia). cbn [bind]. rewrite read_le_ok by (change (2 ^ 5) with 32; lia). cbn [bind].
    rewrite read_le_ok by (change (2 ^ 4) with 16; lia). cbn [bind]. replace (Z.to_nat (Z.of_nat nc - 4 + 4)) with nc by lia.
    rewrite clens_lemma by assumption. cbn [bind].
    destruct (tree_for_build cl) as (tc & -> & Htc); [intros ->; rewrite (@zlen_nil Z) in Hcl; lia|]. cbn [bind].
    destruct Hp as [Hrep (r1 & r2 & -> & Hr1)]. destruct (runs_bits_split cl r1 r2 b1 Hrb) as (c1 & c2 & -> & Hc1 & Hc2). rewrite <- app_assoc.
    assert (Gcl : good cl) by (apply (good_of cl 7); [lia|assumption..]).
    assert (Hrep1 : repeats_ok false r1).
    { clear -Hrep. revert Hrep. generalize false. induction r1 as [|r r1 IH]; intros ok H; [exact I|]. destruct r; cbn [app repeats_ok] in *; [eauto| |eauto]. destruct H. split; eauto. }
    destruct (lengths_ok cl tc Gcl Htc r1 c1 Hc1 false [] [] ll (zlen ll - 257 + 257) None (c2 ++ bs ++ rest) (S (length (c1 ++ c2 ++ bs ++ rest)))) as (prev & E1 & F1).
    + apply runs_bits_length in Hc1. rewrite app_length. lia.
    + exact Hrep1.
    + discriminate.
    + exact Hr1.
    + rewrite (@zlen_nil Z). lia.
    + rewrite E1. cbn [bind app]. destruct (F1 r2 Hrep) as (ok' & Hok' & Hprev').
      destruct (lengths_ok cl tc Gcl Htc r2 c2 Hc2 ok' ll [] dl (zlen dl - 1 + 1) prev (bs ++ rest) (S (length (c2 ++ bs ++ rest)))) as (prev2 & E2 & _).
      * apply runs_bits_length in Hc2. rewrite app_length. lia.
      * exact Hok'.
      * exact Hprev'.
      * rewrite run_values_app, Hr1 in Hrv. exact Hrv.
      * rewrite (@zlen_nil Z). lia.
      * rewrite E2. cbn [bind app].
        destruct (tree_for_build ll) as (tl & -> & Htl); [intros ->; rewrite (@zlen_nil Z) in Hll; lia|]. cbn [bind].
        destruct (tree_for_build dl) as (td & -> & Htd); [intros ->; rewrite (@zlen_nil Z) in Hdl; lia|]. cbn [bind].
        rewrite (symbols_ok ll dl tl td (good_of ll 15 ltac:(lia) Fll Kll) (good_of dl 15 ltac:(lia) Fdl Kdl) Htl Htd ts bs Hts out out' rest).
        -- reflexivity.
        -- apply tokens_bits_length in Hts. rewrite app_length. lia.
        -- assumption.
Qed.
Lemma block_bits_length pos final b bits : block_bits pos final b bits -> 3 <= zlen bits.
Proof. destruct 1; rewrite !zlen_app, !le_digits_length by lia; repeat match goal with |- context [zlen ?l] => lazymatch l with _ ++ _ => fail | _ => idtac end; pose proof (zlen_nonneg l); generalize dependent (zlen l); intros end; lia. Qed.
Lemma stream_ok total pos bs bits : stream_bits pos bs bits -> forall out out' pad rest fuel, Forall block_plain bs -> stream_expands out bs out' ->
  total = pos + zlen bits + zlen pad + zlen rest -> zlen pad < 8 -> (pos + zlen bits + zlen pad) mod 8 = 0 -> (length bs <= fuel)%nat ->
  read_blocks fuel total out (bits ++ pad ++ rest) = Ok (out', rest).
Proof.
  induction 1 as [pos b bits Hb|pos b bs bits bits' Hb Hbs IH]; intros out out' pad rest fuel Hpl He Htot Hpad Halign Hf.
  - destruct fuel as [|fuel]; [cbn in Hf; lia|]. cbn [read_blocks]. inversion Hpl; subst. inversion He as [|? ? ? mid ? Hbe Hrest]; subst. inversion Hrest; subst.
    rewrite (block_ok _ pos true b bits (pad ++ rest) out out' Hb H1 Hbe) by (rewrite zlen_app; lia). cbn [bind].
    assert (E : paddingSize (pos + zlen bits + zlen pad + zlen rest - zlen (pad ++ rest)) 8 = zlen pad).
    { apply padding_unique; [pose proof (zlen_nonneg pad); lia|]. rewrite <- Halign. f_equal. rewrite zlen_app. lia. }
    rewrite E. destruct (read_le_skip pad rest) as [v ->]. reflexivity.
  - destruct fuel as [|fuel]; [cbn in Hf; lia|]. cbn [read_blocks length] in *. inversion Hpl; subst. inversion He as [|? ? ? mid ? Hbe Hrest]; subst.
    rewrite <- app_assoc. rewrite (block_ok _ pos false b bits (bits' ++ pad ++ rest) out mid Hb H1 Hbe) by (rewrite !zlen_app; lia). cbn [bind].
    rewrite zlen_app in *. apply IH; try assumption; lia.
Qed.
Lemma stream_bits_length pos bs bits : stream_bits pos bs bits -> (length bs <= length bits)%nat.
Proof.
  induction 1 as [pos b bits Hb|pos b bs bits bits' Hb Hbs IH]; apply block_bits_length in Hb; unfold zlen in Hb; rewrite ?app_length; cbn [length]; lia.
Qed.
Lemma bits_le_length data : zlen (bits_le data) = 8 * zlen data.
Proof. unfold bits_le. induction data as [|b data IH]; [reflexivity|]. cbn [flat_map]. rewrite zlen_app, zlen_map, IH, (zlen_cons b). change (zlen [0; 1; 2; 3; 4; 5; 6; 7]) with 8. lia. Qed.
Lemma inflate_lemma data bs bits pad rest out : bits_le data = bits ++ pad ++ bits_le rest -> stream_bits 0 bs bits -> zlen pad < 8 ->
  Forall block_plain bs -> stream_expands [] bs out -> inflate data = Ok (out, bits_le rest).
Proof.
  intros Ed Hs Hpad Hpl He. unfold inflate. rewrite Ed.
  assert (Hlen : 8 * zlen data = zlen bits + (zlen pad + 8 * zlen rest)) by (rewrite <- !bits_le_length, Ed, !zlen_app; reflexivity).
  apply (stream_ok _ 0 bs bits Hs [] out pad (bits_le rest)); try assumption.
  - rewrite !zlen_app. lia.
  - apply Z.mod_divide; [lia|]. exists (zlen data - zlen rest). lia.
  - apply stream_bits_length in Hs. rewrite app_length. lia.
Qed.

(** ** The decoder always ends *)
Lemma build_size lengths t k v : Forall (fun x => 0 <= x) lengths -> build_tree lengths = Ok t -> tree_get t k = Some v -> 1 <= fst k /\ 0 <= v.
Proof.
  intros Hl Hb. destruct k as [ln c]. rewrite (tree_lemma lengths t ln c v Hl Hb). intros [<- [Hp _]]. cbn [fst]. split; [lia|]. apply len_of_range in Hp. lia.
Qed.
Definition proper_tree (t : htree) : Prop := forall k v, tree_get t k = Some v -> 1 <= fst k /\ 0 <= v.
Lemma huff_shorter t bits s n rest : proper_tree t -> huffman_code t bits = Ok (s, n, rest) -> (length rest < length bits)%nat /\ 0 <= s.
Proof.
  intros Ht H. apply huff_read_consumes in H. destruct H as (used & -> & E & G). apply Ht in G. cbn [fst] in G. rewrite app_length.
  unfold zlen in E. split; lia.
Qed.
Lemma huff_no_fuel t : forall bits size value, huff_read t size value bits <> Err OutOfFuel.
Proof. induction bits as [|b bits IH]; intros size value; cbn [huff_read]; destruct (tree_get t (size, value)); try discriminate; destruct (256 <? size); try discriminate. apply IH. Qed.
Lemma bind_fuel {A B} (m : res A) (f : A -> res B) : m <> Err OutOfFuel -> (forall a, m = Ok a -> f a <> Err OutOfFuel) -> bind m f <> Err OutOfFuel.
Proof. intros H1 H2. destruct m as [a|e]; cbn [bind]; [apply H2; reflexivity|congruence]. Qed.
Lemma read_le_no_fuel n bits : read_le n bits <> Err OutOfFuel.
Proof. unfold read_le. destruct (zlen bits <? n); discriminate. Qed.
Lemma info_no_fuel table f s : symbol_info table f s <> Err OutOfFuel.
Proof. unfold symbol_info. destruct (s <? f); [discriminate|]. destruct (nth_error table (Z.to_nat (s - f))); discriminate. Qed.
Lemma read_le_len n bits v rest : read_le n bits = Ok (v, rest) -> (length rest <= length bits)%nat.
Proof. unfold read_le. destruct (zlen bits <? n); [discriminate|]. intros H. injection H as <- <-. rewrite skipn_length. lia. Qed.
Lemma extra_no_fuel i bits : read_extra i bits <> Err OutOfFuel.
Proof. destruct i as [[a m] e]. unfold read_extra. destruct (e =? 0); [discriminate|]. apply bind_fuel; [apply read_le_no_fuel|]. intros [x b] _. discriminate. Qed.
Lemma extra_len i bits v rest : read_extra i bits = Ok (v, rest) -> (length rest <= length bits)%nat.
Proof.
  destruct i as [[a m] e]. unfold read_extra. destruct (e =? 0); [intros H; injection H as <- <-; lia|].
  destruct (read_le e bits) as [[x b]|] eqn:E; cbn [bind]; [|discriminate]. intros H. injection H as <- <-. eapply read_le_len; eassumption.
Qed.
Lemma symbols_no_fuel tl td : proper_tree tl -> proper_tree td -> forall fuel out bits, (length bits < fuel)%nat -> read_symbols fuel tl td out bits <> Err OutOfFuel.
Proof.
  intros Hl Hd. induction fuel as [|fuel IH]; intros out bits Hf; [lia|]. cbn [read_symbols].
  apply bind_fuel; [apply huff_no_fuel|]. intros [[v n] b1] E1. apply huff_shorter in E1; [|assumption].
  destruct (v <? 256); [apply IH; lia|]. destruct (v =? 256); [discriminate|].
  apply bind_fuel; [apply info_no_fuel|]. intros i1 _. apply bind_fuel; [apply extra_no_fuel|]. intros [len b2] E2. apply extra_len in E2.
  apply bind_fuel; [apply huff_no_fuel|]. intros [[v2 n2] b3] E3. apply huff_shorter in E3; [|assumption].
  apply bind_fuel; [apply info_no_fuel|]. intros i2 _. apply bind_fuel; [apply extra_no_fuel|]. intros [dist b4] E4. apply extra_len in E4. apply IH. lia.
Qed.
Lemma symbols_len tl td : proper_tree tl -> proper_tree td -> forall fuel out bits out' rest, read_symbols fuel tl td out bits = Ok (out', rest) -> (length rest < length bits)%nat.
Proof.
  intros Hl Hd. induction fuel as [|fuel IH]; intros out bits out' rest; cbn [read_symbols]; [discriminate|].
  destruct (huffman_code tl bits) as [[[v n] b1]|] eqn:E1; cbn [bind]; [|discriminate]. apply huff_shorter in E1; [|assumption].
  destruct (v <? 256); [intros H; apply IH in H; lia|]. destruct (v =? 256); [intros H; injection H as <- <-; lia|].
  destruct (symbol_info LENGTH_SYMBOLS 257 v) as [i1|]; cbn [bind]; [|discriminate]. destruct (read_extra i1 b1) as [[len b2]|] eqn:E2; cbn [bind]; [|discriminate]. apply extra_len in E2.
  destruct (huffman_code td b2) as [[[v2 n2] b3]|] eqn:E3; cbn [bind]; [|discriminate]. apply huff_shorter in E3; [|assumption].
  destruct (symbol_info DISTANCE_SYMBOLS 0 v2) as [i2|]; cbn [bind]; [|discriminate]. destruct (read_extra i2 b3) as [[dist b4]|] eqn:E4; cbn [bind]; [|discriminate]. apply extra_len in E4.
  intros H. apply IH in H. lia.
Qed.
Lemma val_le_nonneg bs : 0 <= val_le bs.
Proof. unfold val_le. induction bs as [|b bs IH]; cbn [fold_right]; [lia|]. destruct b; cbn [b2z]; lia. Qed.
Lemma read_le_nonneg n bits v rest : read_le n bits = Ok (v, rest) -> 0 <= v.
Proof. unfold read_le. destruct (zlen bits <? n); [discriminate|]. intros H. injection H as <- <-. apply val_le_nonneg. Qed.
Lemma lengths_no_fuel t : proper_tree t -> forall fuel num prev acc bits, (length bits < fuel)%nat -> read_lengths fuel t num prev acc bits <> Err OutOfFuel.
Proof.
  intros Ht. induction fuel as [|fuel IH]; intros num prev acc bits Hf; [lia|]. cbn [read_lengths]. destruct (zlen acc <? num); [|discriminate].
  apply bind_fuel; [apply huff_no_fuel|]. intros [[v n] b1] E1. apply huff_shorter in E1; [|assumption]. destruct (v <? 16); [apply IH; lia|].
  apply bind_fuel; [destruct (v =? 16); [destruct prev; discriminate|]; destruct (v =? 17); [discriminate|]; destruct (v =? 18); discriminate|].
  intros [[r low] ex] _. apply bind_fuel; [apply read_le_no_fuel|]. intros [x b2] E2. apply read_le_len in E2. apply IH. lia.
Qed.
Lemma lengths_inv t : proper_tree t -> forall fuel num prev acc bits ls prev' rest, Forall (fun x => 0 <= x) acc -> (forall p, prev = Some p -> 0 <= p) ->
  read_lengths fuel t num prev acc bits = Ok (ls, prev', rest) -> Forall (fun x => 0 <= x) ls /\ (forall p, prev' = Some p -> 0 <= p) /\ (length rest <= length bits)%nat.
Proof.
  intros Ht. induction fuel as [|fuel IH]; intros num prev acc bits ls prev' rest Ha Hp; cbn [read_lengths]; destruct (zlen acc <? num); try discriminate.
  1,3: intros H; injection H as <- <- <-; auto.
  destruct (huffman_code t bits) as [[[v n] b1]|] eqn:E1; cbn [bind]; [|discriminate]. apply huff_shorter in E1; [|assumption]. destruct (v <? 16).
  - intros H. apply IH in H; [|apply Forall_app; split; [assumption|repeat constructor; lia]|intros p E; injection E as <-; lia]. destruct H as (G1 & G2 & G3). split; [assumption|split; [assumption|lia]].
  - destruct (if v =? 16 then match prev with Some p => Ok (p, 3, 2) | None => Err UnboundLocalError end else if v =? 17 then Ok (0, 3, 3) else if v =? 18 then Ok (0, 11, 7) else Err KeyError) as [[[r low] ex]|] eqn:Er; cbn [bind]; [|discriminate].
    assert (Hr : 0 <= r). { destruct (v =? 16); [destruct prev as [p|]; [injection Er as <- <- <-; auto|discriminate]|]. destruct (v =? 17); [injection Er as <- <- <-; lia|]. destruct (v =? 18); [injection Er as <- <- <-; lia|discriminate]. }
    destruct (read_le ex b1) as [[x b2]|] eqn:E2; cbn [bind]; [|discriminate]. apply read_le_len in E2.
    intros H. apply IH in H; [|apply Forall_app; split; [assumption|apply Forall_forall; intros y Hy; apply repeat_spec in Hy; lia]|assumption]. destruct H as (G1 & G2 & G3). split; [assumption|split; [assumption|lia]].
Qed.
Lemma clens_no_fuel : forall order acc bits, read_clens order acc bits <> Err OutOfFuel.
Proof. induction order as [|i order IH]; intros acc bits; cbn [read_clens]; [discriminate|]. apply bind_fuel; [apply read_le_no_fuel|]. intros [v b] _. apply IH. Qed.
Lemma Forall_upd (P : Z -> Prop) l : forall i v, Forall P l -> P v -> Forall P (upd l i v).
Proof. induction l as [|x l IH]; intros [|i] v H Hv; cbn [upd]; inversion H; subst; constructor; auto. Qed.
Lemma clens_inv : forall order acc bits ls rest, Forall (fun x => 0 <= x) acc -> read_clens order acc bits = Ok (ls, rest) -> Forall (fun x => 0 <= x) ls /\ (length rest <= length bits)%nat.
Proof.
  induction order as [|i order IH]; intros acc bits ls rest Ha; cbn [read_clens]; [intros H; injection H as <- <-; auto|].
  destruct (read_le 3 bits) as [[v b]|] eqn:E; cbn [bind]; [|discriminate]. pose proof (read_le_nonneg _ _ _ _ E). apply read_le_len in E. intros G.
  apply IH in G; [|apply Forall_upd; assumption]. destruct G. split; [assumption|lia].
Qed.
Lemma build_no_fuel l : build_tree l <> Err OutOfFuel.
Proof. destruct l; discriminate. Qed.
Lemma proper_build lengths t : Forall (fun x => 0 <= x) lengths -> build_tree lengths = Ok t -> proper_tree t.
Proof. intros H1 H2 k v. eapply build_size; eassumption. Qed.
Lemma proper_for lengths t : Forall (fun x => 0 <= x) lengths -> tree_for lengths t -> proper_tree t.
Proof. intros H (t' & Hb & Ht) k v. rewrite Ht. eapply build_size; eassumption. Qed.
Lemma proper_fixed_l : proper_tree fixed_length_tree.
Proof. apply (proper_for fixed_ll); [apply fixed_ll_good|apply fixed_length_ok]. Qed.
Lemma proper_fixed_d : proper_tree fixed_distance_tree.
Proof. apply (proper_for fixed_dl); [apply fixed_dl_good|apply fixed_distance_ok]. Qed.
Lemma block_no_fuel total out bits : read_block total out bits <> Err OutOfFuel.
Proof.
  unfold read_block. apply bind_fuel; [apply read_le_no_fuel|]. intros [f b0] _. apply bind_fuel; [apply read_le_no_fuel|]. intros [k b1] _.
  destruct (k =? 0).
  - apply bind_fuel; [apply read_le_no_fuel|]. intros [p b2] _. apply bind_fuel; [apply read_le_no_fuel|]. intros [len b3] _. apply bind_fuel; [apply read_le_no_fuel|]. intros [nlen b4] _.
    destruct (negb (len =? 65535 - nlen)); [discriminate|]. apply bind_fuel; [apply read_le_no_fuel|]. intros [d b5] _. discriminate.
  - destruct (k =? 1).
    + apply bind_fuel; [apply symbols_no_fuel; [apply proper_fixed_l|apply proper_fixed_d|lia]|]. intros [o b2] _. discriminate.
    + destruct (k =? 2); [|discriminate]. apply bind_fuel; [apply read_le_no_fuel|]. intros [nl b2] _. apply bind_fuel; [apply read_le_no_fuel|]. intros [nd b3] _.
      apply bind_fuel; [apply read_le_no_fuel|]. intros [nc b4] _. apply bind_fuel; [apply clens_no_fuel|]. intros [cl b5] E5.
      apply clens_inv in E5; [|apply Forall_forall; intros x Hx; apply repeat_spec in Hx; lia]. destruct E5 as [Hcl _].
      apply bind_fuel; [apply build_no_fuel|]. intros tc Htc. pose proof (proper_build _ _ Hcl Htc) as Pc.
      apply bind_fuel; [apply lengths_no_fuel; [assumption|lia]|]. intros [[ll prev] b6] E6. apply lengths_inv in E6; [|assumption|constructor|discriminate]. destruct E6 as (Hll & Hprev & _).
      apply bind_fuel; [apply lengths_no_fuel; [assumption|lia]|]. intros [[dl prev2] b7] E7. apply lengths_inv in E7; [|assumption|constructor|assumption]. destruct E7 as (Hdl & _ & _).
      apply bind_fuel; [apply build_no_fuel|]. intros tl Htl. apply bind_fuel; [apply build_no_fuel|]. intros td Htd.
      apply bind_fuel; [apply symbols_no_fuel; [exact (proper_build _ _ Hll Htl)|exact (proper_build _ _ Hdl Htd)|lia]|]. intros [o b8] _. discriminate.
Qed.
Lemma block_shorter total out bits final out' rest : read_block total out bits = Ok (final, out', rest) -> (length rest < length bits)%nat.
Proof.
  unfold read_block. destruct (read_le 1 bits) as [[f b0]|] eqn:E0; cbn [bind]; [|discriminate]. apply read_le_shorter in E0; [|lia]. assert (E0' : (length b0 < length bits)%nat) by (unfold zlen in E0; lia). clear E0.
  destruct (read_le 2 b0) as [[k b1]|] eqn:E1; cbn [bind]; [|discriminate]. apply read_le_len in E1. destruct (k =? 0).
  - destruct (read_le (paddingSize (total - zlen b1) 8) b1) as [[p b2]|] eqn:E2; cbn [bind]; [|discriminate]. apply read_le_len in E2.
    destruct (read_le 16 b2) as [[len b3]|] eqn:E3; cbn [bind]; [|discriminate]. apply read_le_len in E3.
    destruct (read_le 16 b3) as [[nlen b4]|] eqn:E4; cbn [bind]; [|discriminate]. apply read_le_len in E4. destruct (negb (len =? 65535 - nlen)); [discriminate|].
    destruct (read_le (len * 8) b4) as [[d b5]|] eqn:E5; cbn [bind]; [|discriminate]. apply read_le_len in E5. intros H. injection H as <- <- <-. lia.
  - destruct (k =? 1).
    + destruct (read_symbols (S (length b1)) fixed_length_tree fixed_distance_tree out b1) as [[o b2]|] eqn:E2; cbn [bind]; [|discriminate].
      apply symbols_len in E2; [|apply proper_fixed_l|apply proper_fixed_d]. intros H. injection H as <- <- <-. lia.
    + destruct (k =? 2); [|discriminate]. destruct (read_le 5 b1) as [[nl b2]|] eqn:E2; cbn [bind]; [|discriminate]. apply read_le_len in E2.
      destruct (read_le 5 b2) as [[nd b3]|] eqn:E3; cbn [bind]; [|discriminate]. apply read_le_len in E3.
      destruct (read_le 4 b3) as [[nc b4]|] eqn:E4; cbn [bind]; [|discriminate]. apply read_le_len in E4.
      destruct (read_clens (firstn (Z.to_nat (nc + 4)) CODE_LENGTH_ORDER) (repeat 0 19) b4) as [[cl b5]|] eqn:E5; cbn [bind]; [|discriminate].
      apply clens_inv in E5; [|apply Forall_forall; intros x Hx; apply repeat_spec in Hx; lia]. destruct E5 as [Hcl E5].
      destruct (build_tree cl) as [tc|] eqn:Htc; cbn [bind]; [|discriminate]. pose proof (proper_build _ _ Hcl Htc) as Pc.
      destruct (read_lengths (S (length b5)) tc (nl + 257) None [] b5) as [[[ll prev] b6]|] eqn:E6; cbn [bind]; [|discriminate]. apply lengths_inv in E6; [|assumption|constructor|discriminate]. destruct E6 as (Hll & Hprev & E6).
      destruct (read_lengths (S (length b6)) tc (nd + 1) prev [] b6) as [[[dl prev2] b7]|] eqn:E7; cbn [bind]; [|discriminate]. apply lengths_inv in E7; [|assumption|constructor|assumption]. destruct E7 as (Hdl & _ & E7).
      destruct (build_tree ll) as [tl|] eqn:Htl; cbn [bind]; [|discriminate]. destruct (build_tree dl) as [td|] eqn:Htd; cbn [bind]; [|discriminate].
      destruct (read_symbols (S (length b7)) tl td out b7) as [[o b8]|] eqn:E8; cbn [bind]; [|discriminate].
      apply symbols_len in E8; [|exact (proper_build _ _ Hll Htl)|exact (proper_build _ _ Hdl Htd)]. intros H. injection H as <- <- <-. lia.
Qed.
Lemma blocks_no_fuel total : forall fuel out bits, (length bits < fuel)%nat -> read_blocks fuel total out bits <> Err OutOfFuel.
Proof.
  induction fuel as [|fuel IH]; intros out bits Hf; [lia|]. cbn [read_blocks]. apply bind_fuel; [apply block_no_fuel|].
  intros [[final o] b] E. apply block_shorter in E. destruct final; [|apply IH; lia].
  apply bind_fuel; [apply read_le_no_fuel|]. intros [p b2] _. discriminate.
Qed.
Lemma inflate_no_fuel data : inflate data <> Err OutOfFuel.
Proof. unfold inflate. apply blocks_no_fuel. lia. Qed.

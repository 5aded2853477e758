(** Properties C35 (Huffman codes), C36 (LZ77 copies), C37 (DEFLATE tables) and
    C51 (the DEFLATE decoder). *)
From Verif Require Import Base BaseProofs BitsSpec HuffModel HuffSpec HuffProofs DeflateModel DeflateSpec DeflateProofs DeflateProofs2.

(** ** C35 *)
(** The dictionary holds, for each symbol of non-zero length, its canonical
    code of that length, and nothing else. *)
Theorem C35_canonical : forall lengths t ln c i, Forall (fun x => 0 <= x) lengths -> build_tree lengths = Ok t ->
  (tree_get t (ln, c) = Some i <-> len_of lengths i = ln /\ canonical lengths i c).
Proof. exact tree_lemma. Qed.
Print Assumptions C35_canonical.
(** Every symbol of non-zero length has exactly one code. *)
Theorem C35_every_symbol : forall lengths i, Forall (fun x => 0 <= x) lengths -> 0 < len_of lengths i ->
  exists c, canonical lengths i c /\ forall d, canonical lengths i d -> d = c.
Proof.
  intros lengths i Hl Hi. exists (code_of lengths i). split; [exact (code_of_canonical lengths i Hl Hi)|].
  intros d Hd. exact (canonical_det lengths i d _ Hd (code_of_canonical lengths i Hl Hi)).
Qed.
Print Assumptions C35_every_symbol.
(** Under Kraft's inequality a code fits in its length... *)
Theorem C35_code_fits : forall lengths i c, kraft lengths -> canonical lengths i c -> 0 <= c < 2 ^ len_of lengths i.
Proof. exact code_bound. Qed.
Print Assumptions C35_code_fits.
(** ... and no code is a prefix of another. *)
Theorem C35_prefix_free : forall lengths i j c d, Forall (fun x => 0 <= x) lengths -> kraft lengths ->
  canonical lengths i c -> canonical lengths j d -> i <> j ->
  ~ prefix_of (digits (len_of lengths j) d) (digits (len_of lengths i) c).
Proof. exact prefix_free_lemma. Qed.
Print Assumptions C35_prefix_free.
(** Reading the code of a symbol gives the symbol and what follows the code. *)
Theorem C35_decode : forall lengths t i c rest, Forall (fun x => 0 <= x <= 257) lengths -> kraft lengths -> build_tree lengths = Ok t ->
  canonical lengths i c -> huffman_code t (digits (len_of lengths i) c ++ rest) = Ok (i, len_of lengths i, rest).
Proof.
  intros lengths t i c rest Hl Hk Hb Hc. apply huff_read_ok; try assumption.
  - eapply Forall_impl; [|exact Hl]. cbn. lia.
  - apply code_bound; assumption.
  - apply len_le; [eapply Forall_impl; [|exact Hl]; cbn; lia|]. destruct Hc; assumption.
Qed.
Print Assumptions C35_decode.
(** Conversely, whatever is read, the answer is a symbol of the dictionary and
    the bits consumed are its code. *)
Theorem C35_decode_sound : forall lengths t bits s n rest, Forall (fun x => 0 <= x) lengths -> build_tree lengths = Ok t ->
  huffman_code t bits = Ok (s, n, rest) ->
  exists used, bits = used ++ rest /\ zlen used = n /\ len_of lengths s = n /\ canonical lengths s (val_be used).
Proof.
  intros lengths t bits s n rest Hl Hb H. apply huff_read_consumes in H. destruct H as (used & -> & E & G).
  apply (tree_lemma lengths t _ _ s Hl Hb) in G. destruct G as [G1 G2]. rewrite Z.mul_0_l, Z.add_0_l in G2.
  exists used. split; [reflexivity|]. split; [lia|]. split; assumption.
Qed.
Print Assumptions C35_decode_sound.
(** The hard-coded trees of the fixed codes are the canonical ones. *)
Theorem C35_fixed : tree_for fixed_ll fixed_length_tree /\ tree_for fixed_dl fixed_distance_tree.
Proof. split; [exact fixed_length_ok|exact fixed_distance_ok]. Qed.
Print Assumptions C35_fixed.
(** The example of RFC 1951: ABCDEFGH with lengths 3,3,3,3,3,2,4,4. *)
Example C35_ex : exists t, build_tree [3; 3; 3; 3; 3; 2; 4; 4] = Ok t /\
  map (fun k => tree_get t k) [(3, 2); (3, 3); (3, 4); (3, 5); (3, 6); (2, 0); (4, 14); (4, 15)] = map Some [0; 1; 2; 3; 4; 5; 6; 7].
Proof. eexists. split; reflexivity. Qed.
Example C35_ex_kraft : kraft [3; 3; 3; 3; 3; 2; 4; 4].
Proof. exists 4. split; [lia|]. split; [repeat constructor; lia|]. cbv. discriminate. Qed.
Example C35_ex_canonical : canonical [3; 3; 3; 3; 3; 2; 4; 4] 6 14.
Proof. change 14 with (code_of [3; 3; 3; 3; 3; 2; 4; 4] 6). apply code_of_canonical; [repeat constructor; lia|reflexivity]. Qed.
(** An empty list of lengths is refused with ValueError (max of nothing). *)
Theorem C35_empty : build_tree [] = Err ValueError.
Proof. reflexivity. Qed.
Print Assumptions C35_empty.

(** ** C36 *)
Theorem C36_copy_partial : forall data length offset, 1 <= offset <= zlen data -> 0 <= length ->
  copied data length offset (extend_data data length offset).
Proof. exact extend_data_ok. Qed.
Print Assumptions C36_copy_partial.
(** [copied] determines the result. *)
Theorem C36_unique : forall data n offset r r', 1 <= offset <= zlen data -> copied data n offset r -> copied data n offset r' -> r = r'.
Proof. exact copied_det. Qed.
Print Assumptions C36_unique.
Example C36_ex : extend_data [1; 2; 3] 7 2 = [1; 2; 3; 2; 3; 2; 3; 2; 3; 2] /\ extend_data [1; 2; 3] 2 3 = [1; 2; 3; 1; 2].
Proof. split; reflexivity. Qed.
(** An offset beyond the data is not refused: fewer bytes are appended. *)
Theorem C36_offset_refuted : exists data length offset, 1 <= offset /\ 0 <= length /\
  ~ zlen (extend_data data length offset) = zlen data + length.
Proof. exists [1], 5, 3. split; [lia|]. split; [lia|]. cbv. discriminate. Qed.
Print Assumptions C36_offset_refuted.

(** ** C37 *)
(** The tables of the code are the ones of RFC 1951... *)
Theorem C37_tables :
  (forall s, 257 <= s <= 285 -> exists m, symbol_info LENGTH_SYMBOLS 257 s = Ok (len_base s, m, len_extra s)) /\
  (forall d, 0 <= d <= 29 -> exists m, symbol_info DISTANCE_SYMBOLS 0 d = Ok (dist_base d, m, dist_extra d)) /\
  (forall s, ~ 257 <= s <= 285 -> symbol_info LENGTH_SYMBOLS 257 s = Err KeyError) /\
  (forall d, ~ 0 <= d <= 29 -> symbol_info DISTANCE_SYMBOLS 0 d = Err KeyError).
Proof.
  split; [exact length_table|]. split; [exact distance_table|].
  split; intros s Hs; unfold symbol_info.
  - destruct (s <? 257) eqn:E; [reflexivity|]. destruct (nth_error LENGTH_SYMBOLS (Z.to_nat (s - 257))) eqn:En; [|reflexivity].
    assert (H : (Z.to_nat (s - 257) < length LENGTH_SYMBOLS)%nat) by (apply nth_error_Some; congruence). cbn [length LENGTH_SYMBOLS] in H. lia.
  - destruct (s <? 0) eqn:E; [reflexivity|]. destruct (nth_error DISTANCE_SYMBOLS (Z.to_nat (s - 0))) eqn:En; [|reflexivity].
    assert (H : (Z.to_nat (s - 0) < length DISTANCE_SYMBOLS)%nat) by (apply nth_error_Some; congruence). cbn [length DISTANCE_SYMBOLS] in H. lia.
Qed.
Print Assumptions C37_tables.
(** ... and the announced ranges cover 3..258 and 1..32768 without gap or
    overlap: consecutive entries are adjacent, and each has the number of
    values its extra bits allow (symbol 284 announces one value less). *)
Fixpoint adjacent (from : Z) (table : list (Z * Z * Z)) (upto : Z) : Prop :=
  match table with
  | [] => from = upto
  | (a, b, e) :: table => a = from /\ a <= b < a + 2 ^ e /\ adjacent (b + 1) table upto
  end.
Theorem C37_cover : adjacent 3 LENGTH_SYMBOLS 259 /\ adjacent 1 DISTANCE_SYMBOLS 32769.
Proof. cbv [adjacent LENGTH_SYMBOLS DISTANCE_SYMBOLS]. split; repeat (split; [lia|]); lia. Qed.
Print Assumptions C37_cover.
(** So every length and every distance can be written with exactly one entry. *)
Lemma adjacent_in table : forall from upto v, adjacent from table upto -> from <= v < upto ->
  exists i a b e, nth_error table i = Some (a, b, e) /\ a <= v <= b /\
    forall j a' b' e', nth_error table j = Some (a', b', e') -> a' <= v <= b' -> j = i.
Proof.
  assert (Hlow : forall table from upto, adjacent from table upto -> forall j a b e, nth_error table j = Some (a, b, e) -> from <= a).
  { clear. induction table as [|[[a b] e] table IH]; intros from upto H j a' b' e' Hj; [destruct j; discriminate|]. destruct H as (H1 & H2 & H3).
    destruct j as [|j]; cbn [nth_error] in Hj; [injection Hj as <- <- <-; lia|]. specialize (IH _ _ H3 _ _ _ _ Hj). lia. }
  induction table as [|[[a b] e] table IH]; intros from upto v H Hv; cbn [adjacent] in H; [lia|]. destruct H as (H1 & H2 & H3).
  destruct (Z_le_dec v b) as [Hb|Hb].
  - exists O, a, b, e. split; [reflexivity|]. split; [lia|]. intros [|j] a' b' e' Hj Hr; [reflexivity|]. cbn [nth_error] in Hj.
    specialize (Hlow _ _ _ H3 _ _ _ _ Hj). lia.
  - destruct (IH (b + 1) upto v H3) as (i & a' & b' & e' & G1 & G2 & G3); [lia|]. exists (S i), a', b', e'. split; [exact G1|]. split; [exact G2|].
    intros [|j] a2 b2 e2 Hj Hr; cbn [nth_error] in Hj; [injection Hj as <- <- <-; lia|]. f_equal. eapply G3; eassumption.
Qed.
Theorem C37_unique : forall v,
  (3 <= v <= 258 -> exists i a b e, nth_error LENGTH_SYMBOLS i = Some (a, b, e) /\ a <= v <= b /\
     forall j a' b' e', nth_error LENGTH_SYMBOLS j = Some (a', b', e') -> a' <= v <= b' -> j = i) /\
  (1 <= v <= 32768 -> exists i a b e, nth_error DISTANCE_SYMBOLS i = Some (a, b, e) /\ a <= v <= b /\
     forall j a' b' e', nth_error DISTANCE_SYMBOLS j = Some (a', b', e') -> a' <= v <= b' -> j = i).
Proof. intros v. split; intros Hv; (eapply adjacent_in; [apply C37_cover|lia]). Qed.
Print Assumptions C37_unique.

(** ** C51 *)
(** Decoding a DEFLATE stream written by any writer: whatever blocks, codes,
    tokens and runs were chosen, the decoder gives the data they denote and
    stops at the next byte boundary.  Partial: [block_plain]. *)
Theorem C51_inflate_partial : forall data bs bits pad rest out,
  bits_le data = bits ++ pad ++ bits_le rest -> stream_bits 0 bs bits -> zlen pad < 8 ->
  Forall block_plain bs -> stream_expands [] bs out -> inflate data = Ok (out, bits_le rest).
Proof. exact inflate_lemma. Qed.
Print Assumptions C51_inflate_partial.
(** Decoding ends on every input. *)
Theorem C51_ends : forall data, inflate data <> Err OutOfFuel.
Proof. exact inflate_no_fuel. Qed.
Print Assumptions C51_ends.

(** A stream with its own codes: A B, copy 3 from 1, copy 4 from 5 (not used) *)
Definition cw (l : list Z) (s : Z) : list bool := digits (len_of l s) (code_of l s).
Lemma cw_ok l s : forallb (fun x => 0 <=? x) l = true -> (0 <? len_of l s) = true -> codeword l s (cw l s).
Proof.
  intros H1 H2. exists (code_of l s). split; [|reflexivity]. apply code_of_canonical; [|lia].
  apply (Forall_dec_b _ (fun x => 0 <=? x)); [intros; lia|assumption].
Qed.
Definition kraftb (l : list Z) : bool := forallb (fun x => (0 <=? x) && (x <=? 15)) l && (zsum (map (space 15) l) <=? 2 ^ 15).
Lemma kraftb_ok l : kraftb l = true -> kraft l.
Proof.
  unfold kraftb. intros H. apply andb_true_iff in H. destruct H as [H1 H2]. exists 15. split; [lia|]. split; [|lia].
  apply (Forall_dec_b _ (fun x => (0 <=? x) && (x <=? 15))); [intros; lia|assumption].
Qed.
Ltac fa p := apply (Forall_dec_b _ p); [intros; lia|vm_compute; reflexivity].
Ltac code := apply cw_ok; vm_compute; reflexivity.
Definition ex_ll := repeat 0 65 ++ [2; 2] ++ repeat 0 189 ++ [2; 0; 2].
Definition ex_dl := [1; 0; 0; 0; 1].
Definition ex_cl := upd (upd (upd (upd (upd (repeat 0 19) 0 3) 1 3) 2 2) 17 2) 18 2.
Definition ex_rs := [RZero 65; RLen 2; RLen 2; RZero 138; RZero 51; RLen 2; RLen 0; RLen 2; RLen 1; RZero 3; RLen 1].
Definition ex_rb := (cw ex_cl 18 ++ le_digits 7 (65 - 11)) ++ cw ex_cl 2 ++ cw ex_cl 2 ++ (cw ex_cl 18 ++ le_digits 7 (138 - 11)) ++
  (cw ex_cl 18 ++ le_digits 7 (51 - 11)) ++ cw ex_cl 2 ++ cw ex_cl 0 ++ cw ex_cl 2 ++ cw ex_cl 1 ++ (cw ex_cl 17 ++ le_digits 3 (3 - 3)) ++ cw ex_cl 1 ++ [].
Definition ex_ts := [TLit 65; TLit 66; TCopy (len_base 258 + 0) (dist_base 0 + 0); TCopy (len_base 258 + 0) (dist_base 4 + 0)].
Definition ex_tb := cw ex_ll 65 ++ cw ex_ll 66 ++ (cw ex_ll 258 ++ le_digits (len_extra 258) 0 ++ cw ex_dl 0 ++ le_digits (dist_extra 0) 0) ++
  (cw ex_ll 258 ++ le_digits (len_extra 258) 0 ++ cw ex_dl 4 ++ le_digits (dist_extra 4) 0) ++ cw ex_ll 256.
Definition ex_block := BDynamic ex_ll ex_dl ex_cl ex_rs ex_ts.
Definition header (nl nd nc : Z) : list bool := le_digits 1 1 ++ le_digits 2 2 ++ le_digits 5 nl ++ le_digits 5 nd ++ le_digits 4 nc.
Definition ex_bits := le_digits 1 (bit_of true) ++ le_digits 2 2 ++ le_digits 5 (zlen ex_ll - 257) ++ le_digits 5 (zlen ex_dl - 1) ++
       le_digits 4 (Z.of_nat 18 - 4) ++ cl_bits ex_cl 18 ++ ex_rb ++ ex_tb.
Example C51_ex_bits : stream_bits 0 [ex_block] ex_bits.
Proof.
  apply sb_last. apply bb_dynamic.
  - vm_compute. split; discriminate.
  - vm_compute. split; discriminate.
  - reflexivity.
  - lia.
  - fa (fun x => (0 <=? x) && (x <=? 7)).
  - fa (fun x => (0 <=? x) && (x <=? 15)).
  - fa (fun x => (0 <=? x) && (x <=? 15)).
  - apply kraftb_ok; vm_compute; reflexivity.
  - apply kraftb_ok; vm_compute; reflexivity.
  - apply kraftb_ok; vm_compute; reflexivity.
  - intros i Hi. cbn [skipn cl_order] in Hi. destruct Hi as [<-|[]]. reflexivity.
  - vm_compute. reflexivity.
  - unfold ex_rs, ex_rb. repeat (apply rs_cons; [|]); try apply rs_nil; first [apply rb_zero7; [lia|code]|apply rb_len; [lia|code]|apply rb_zero3; [lia|code]].
  - unfold ex_ts, ex_tb. repeat (apply ts_cons; [|]); try (apply ts_end; code);
      first [apply tb_lit; [lia|code]|apply tb_copy; [lia|vm_compute; split; [discriminate|reflexivity]|lia|vm_compute; split; [discriminate|reflexivity]|code|code]].
Qed.
Definition ex_data := [21; 196; 33; 13; 0; 0; 0; 128; 176; 108; 208; 63; 20; 227; 226; 184; 11].
Example C51_ex_data : bits_le ex_data = ex_bits ++ [false; false; false] ++ bits_le [].
Proof. vm_compute. reflexivity. Qed.
Example C51_ex_run : inflate ex_data = Ok ([65; 66; 66; 66; 66; 66; 66; 66; 66; 66], []).
Proof. vm_compute. reflexivity. Qed.
Example C51_ex_plain : block_plain ex_block.
Proof.
  split; [exact I|]. exists [RZero 65; RLen 2; RLen 2; RZero 138; RZero 51; RLen 2; RLen 0; RLen 2], [RLen 1; RZero 3; RLen 1].
  split; [reflexivity|]. vm_compute. reflexivity.
Qed.
Example C51_ex_expands : expands [65; 66] [TCopy 4 1; TCopy 4 5] [65; 66; 66; 66; 66; 66; 66; 66; 66; 66].
Proof.
  eapply ex_copy with (mid := extend_data [65; 66] 4 1); [cbn; lia|apply extend_data_ok; [cbn; lia|lia]|].
  eapply ex_copy with (mid := extend_data (extend_data [65; 66] 4 1) 4 5); [vm_compute; split; discriminate|apply extend_data_ok; [vm_compute; split; discriminate|lia]|].
  apply ex_nil.
Qed.

(** The full statement is false of the code, in three ways.  1. The data of
    stored blocks is dropped. *)
Theorem C51_stored_refuted : exists data bs bits out, bits_le data = bits ++ [] ++ bits_le [] /\ stream_bits 0 bs bits /\
  stream_expands [] bs out /\ inflate data = Ok ([], []) /\ out <> [].
Proof.
  exists [1; 1; 0; 254; 255; 65], [BStored [65]],
    (le_digits 1 (bit_of true) ++ le_digits 2 0 ++ [false; false; false; false; false] ++ le_digits 16 (zlen [65]) ++ le_digits 16 (65535 - zlen [65]) ++ bits_le [65]), [65].
  split; [vm_compute; reflexivity|]. split; [apply sb_last, bb_stored; [cbn; lia|reflexivity|cbn; lia]|].
  split; [eapply se_cons; [apply be_stored|apply se_nil]|]. split; [vm_compute; reflexivity|discriminate].
Qed.
Print Assumptions C51_stored_refuted.
(** 2. A run of code lengths may go from the literal lengths to the distance
    lengths (RFC 1951, 3.2.7); the decoder then reads the distance lengths
    again. *)
Definition cross_ll := repeat 0 256 ++ [1; 0].
Definition cross_dl := [0; 0].
Definition cross_cl := upd (upd (upd (repeat 0 19) 1 2) 17 2) 18 1.
Definition cross_rs := [RZero 138; RZero 118; RLen 1; RZero 3].
Definition cross_rb := (cw cross_cl 18 ++ le_digits 7 (138 - 11)) ++ (cw cross_cl 18 ++ le_digits 7 (118 - 11)) ++ cw cross_cl 1 ++ (cw cross_cl 17 ++ le_digits 3 (3 - 3)) ++ [].
Theorem C51_crossing_refuted : exists data bs bits pad out, bits_le data = bits ++ pad ++ bits_le [] /\ stream_bits 0 bs bits /\ zlen pad < 8 /\
  stream_expands [] bs out /\ inflate data <> Ok (out, []) /\
  (forall ll dl cl rs ts, In (BDynamic ll dl cl rs ts) bs -> repeats_ok false rs).
Proof.
  exists [13; 193; 161; 0; 0; 0; 0; 0; 32; 127; 235; 6], [BDynamic cross_ll cross_dl cross_cl cross_rs []],
    (le_digits 1 (bit_of true) ++ le_digits 2 2 ++ le_digits 5 (zlen cross_ll - 257) ++ le_digits 5 (zlen cross_dl - 1) ++
       le_digits 4 (Z.of_nat 18 - 4) ++ cl_bits cross_cl 18 ++ cross_rb ++ cw cross_ll 256), [false], [].
  split; [vm_compute; reflexivity|]. split; [|split; [cbn; lia|split; [|split]]].
  - apply sb_last. apply bb_dynamic.
    + vm_compute. split; discriminate.
    + vm_compute. split; discriminate.
    + reflexivity.
    + lia.
    + fa (fun x => (0 <=? x) && (x <=? 7)).
    + fa (fun x => (0 <=? x) && (x <=? 15)).
    + fa (fun x => (0 <=? x) && (x <=? 15)).
    + apply kraftb_ok; vm_compute; reflexivity.
    + apply kraftb_ok; vm_compute; reflexivity.
    + apply kraftb_ok; vm_compute; reflexivity.
    + intros i Hi. cbn [skipn cl_order] in Hi. destruct Hi as [<-|[]]. reflexivity.
    + vm_compute. reflexivity.
    + unfold cross_rs, cross_rb. repeat (apply rs_cons; [|]); try apply rs_nil; first [apply rb_zero7; [lia|code]|apply rb_len; [lia|code]|apply rb_zero3; [lia|code]].
    + apply ts_end. code.
  - eapply se_cons; [apply be_dynamic, ex_nil|apply se_nil].
  - vm_compute. discriminate.
  - intros ll dl cl rs ts [E|[]]. injection E as <- <- <- <- <-. exact I.
Qed.
Print Assumptions C51_crossing_refuted.
(** 3. After a run of zeros, "repeat the previous length" repeats the last
    non-run length instead of zero. *)
Definition rep_ll := 1 :: repeat 0 255 ++ [1].
Definition rep_dl := [0; 0; 0].
Definition rep_cl := upd (upd (upd (upd (repeat 0 19) 1 3) 16 3) 17 2) 18 1.
Definition rep_r1 := [RLen 1; RZero 138; RPrev 6; RZero 111; RLen 1].
Definition rep_rs := rep_r1 ++ [RZero 3].
Definition rep_rb := cw rep_cl 1 ++ (cw rep_cl 18 ++ le_digits 7 (138 - 11)) ++ (cw rep_cl 16 ++ le_digits 2 (6 - 3)) ++
  (cw rep_cl 18 ++ le_digits 7 (111 - 11)) ++ cw rep_cl 1 ++ (cw rep_cl 17 ++ le_digits 3 (3 - 3)) ++ [].
Theorem C51_repeat_refuted : exists data bs bits pad out, bits_le data = bits ++ pad ++ bits_le [] /\ stream_bits 0 bs bits /\ zlen pad < 8 /\
  stream_expands [] bs out /\ inflate data <> Ok (out, []) /\
  (forall ll dl cl rs ts, In (BDynamic ll dl cl rs ts) bs -> exists r1 r2, rs = r1 ++ r2 /\ run_values [] r1 = ll).
Proof.
  exists [5; 194; 167; 0; 0; 0; 0; 0; 176; 249; 127; 228; 5; 1], [BDynamic rep_ll rep_dl rep_cl rep_rs [TLit 0]],
    (le_digits 1 (bit_of true) ++ le_digits 2 2 ++ le_digits 5 (zlen rep_ll - 257) ++ le_digits 5 (zlen rep_dl - 1) ++
       le_digits 4 (Z.of_nat 18 - 4) ++ cl_bits rep_cl 18 ++ rep_rb ++ (cw rep_ll 0 ++ cw rep_ll 256)), (repeat false 7), [0].
  split; [vm_compute; reflexivity|]. split; [|split; [cbn; lia|split; [|split]]].
  - apply sb_last. apply bb_dynamic.
    + vm_compute. split; discriminate.
    + vm_compute. split; discriminate.
    + reflexivity.
    + lia.
    + fa (fun x => (0 <=? x) && (x <=? 7)).
    + fa (fun x => (0 <=? x) && (x <=? 15)).
    + fa (fun x => (0 <=? x) && (x <=? 15)).
    + apply kraftb_ok; vm_compute; reflexivity.
    + apply kraftb_ok; vm_compute; reflexivity.
    + apply kraftb_ok; vm_compute; reflexivity.
    + intros i Hi. cbn [skipn cl_order] in Hi. destruct Hi as [<-|[]]. reflexivity.
    + vm_compute. reflexivity.
    + unfold rep_rs, rep_r1, rep_rb. cbn [app]. repeat (apply rs_cons; [|]); try apply rs_nil; first [apply rb_zero7; [lia|code]|apply rb_len; [lia|code]|apply rb_zero3; [lia|code]|apply rb_prev; [lia|code]].
    + apply ts_cons; [apply tb_lit; [lia|code]|apply ts_end; code].
  - eapply se_cons; [apply be_dynamic, ex_lit, ex_nil|apply se_nil].
  - vm_compute. discriminate.
  - intros ll dl cl rs ts [E|[]]. injection E as <- <- <- <- <-. exists rep_r1, [RZero 3]. split; [reflexivity|]. vm_compute. reflexivity.
Qed.
Print Assumptions C51_repeat_refuted.

(** C48 and C57: the LZW codes of GIF images, and the text of their chains. *)
From Coq Require Import String.
From Verif Require Import Base BaseProofs BitsSpec BitsProofs DeflateModel DeflateSpec DeflateProofs DictModel FieldModel Lit ToolsModel GifModel GifSpec GifProofs GifProofs2.
Open Scope Z_scope.
Ltac Zify.zify_post_hook ::= Z.div_mod_to_equations.

Definition padding_field (f : gfield) : Prop := g_note f = GPadding.
Lemma fresh_start sb : fresh sb (gif_start sb).
Proof. unfold fresh, gif_start, first_free. cbn. auto. Qed.
Lemma flat_sizes fs : Forall (fun f => 0 <= g_size f) fs -> zlen (flat_map (fun f => le_digits (g_size f) (g_value f)) fs) = fields_size fs.
Proof.
  induction 1 as [|f fs H F IH]; [reflexivity|]. cbn [flat_map fields_size fold_right]. rewrite zlen_app, IH, le_digits_length by exact H. reflexivity.
Qed.
Lemma reads_pos fs bits rest : reads fs bits rest -> Forall (fun f => 0 <= g_size f) fs.
Proof. induction 1; constructor; [lia|assumption]. Qed.
Lemma write_codes_len sb n codes : 0 <= sb -> 0 <= n -> (List.length codes <= List.length (write_codes sb n codes))%nat.
Proof.
  intros Hsb. revert n. induction codes as [|c codes IH]; intros n Hn; cbn [write_codes List.length]; [lia|]. rewrite app_length. specialize (IH (n + 1) ltac:(lia)).
  assert (1 <= width sb n) by (unfold width; pose proof (Z.log2_nonneg (2 ^ sb + 1 + n)); lia). pose proof (le_digits_length (width sb n) c ltac:(lia)) as L. unfold zlen in L. lia.
Qed.
Lemma image_bits_len sb groups last : 0 <= sb ->
  (List.length (flat_map (fun g => g ++ [clear_code sb]) groups ++ last ++ [end_code sb]) <= List.length (image_bits sb groups last))%nat.
Proof.
  intros Hsb. unfold image_bits. rewrite !app_length. pose proof (write_codes_len sb 0 (last ++ [end_code sb]) Hsb ltac:(lia)) as L. rewrite app_length in L.
  assert ((List.length (flat_map (fun g => g ++ [clear_code sb]) groups) <= List.length (flat_map (fun codes => write_codes sb 0 (codes ++ [clear_code sb])) groups))%nat); [|cbn [List.length] in *; lia].
  clear L. induction groups as [|g groups IH]; [cbn; lia|]. cbn [flat_map]. rewrite !app_length in *. pose proof (write_codes_len sb 0 (g ++ [clear_code sb]) Hsb ltac:(lia)) as L. rewrite app_length in L. cbn [List.length] in *. lia.
Qed.

(** ** C48 *)
(** On any stream the decoder stops, its fields are the consecutive codes of the
    stream, the decoded lengths shown are right, and when it does not fail the
    pixels are those shown and the last field before the padding is an end
    code; the fields then end on a byte boundary. *)
Theorem C48_any : forall sb data, 0 <= sb ->
  snd (gif_block sb data) <> Err OutOfFuel /\
  exists codes padding, fst (gif_block sb data) = codes ++ padding /\ Forall (fun f => g_note f = GPadding) padding /\
    shown_lengths 0 codes /\ (exists rest, reads codes (bits_le data) rest) /\
    forall pixels, snd (gif_block sb data) = Ok pixels ->
      pixels = List.concat (map (fun f => note_pixels (g_note f)) codes) /\
      (exists before f, codes = before ++ [f] /\ g_note f = GEnd) /\
      fields_size (codes ++ padding) mod 8 = 0 /\ fields_size (codes ++ padding) <= 8 * zlen data /\ fields_size padding < 8.
Proof.
  intros sb data Hsb. unfold gif_block. cbv zeta. destruct (gif_loop (S (List.length (bits_le data))) sb (gif_start sb) (bits_le data)) as [fs out] eqn:E.
  assert (P2 : 0 < 2 ^ sb) by (apply Z.pow_pos_nonneg; lia).
  destruct (gif_loop_any sb Hsb (S (List.length (bits_le data))) (gif_start sb) (bits_le data) fs out) as (A & B & C & D); [unfold state_ok, gif_start; cbn [s_nbits s_next]; lia|lia|exact E|].
  cbn [gif_start s_output] in B, D. change (zlen (@nil Z)) with 0 in B.
  destruct out as [[rest pixels]|e].
  - destruct (D rest pixels eq_refl) as (D1 & D2 & l & f & D3 & D4). pose proof (reads_size _ _ _ D1) as Z1. rewrite zlen_bits_le in Z1.
    set (pad := paddingSize (fields_size fs) 8) in *.
    assert (PAD : 0 <= pad < 8 /\ (fields_size fs + pad) mod 8 = 0).
    { unfold pad, paddingSize. destruct (negb (fields_size fs mod 8 =? 0)) eqn:Ep; lia. }
    cbn [snd fst]. split; [congruence|]. exists fs, (if pad =? 0 then [] else [{| g_size := pad; g_value := 0; g_note := GPadding; g_decoded := zlen pixels |}]).
    split; [reflexivity|]. split; [destruct (pad =? 0); repeat constructor|]. split; [exact B|]. split; [exact C|].
    intros px Q. injection Q as <-. split; [exact D2|]. split; [exists l, f; auto|].
    assert (S : fields_size (if pad =? 0 then [] else [{| g_size := pad; g_value := 0; g_note := GPadding; g_decoded := zlen pixels |}]) = pad) by (destruct (pad =? 0) eqn:Ep; cbn; lia).
    assert (SA : forall a b, fields_size (a ++ b) = fields_size a + fields_size b) by (intros a b; induction a as [|x a IHa]; cbn [app fields_size fold_right]; [reflexivity|unfold fields_size in *; rewrite IHa; lia]).
    rewrite SA, S. pose proof (zlen_nonneg rest). lia.
  - cbn [snd fst]. split; [intros Q; injection Q as ->; congruence|]. exists fs, []. rewrite app_nil_r. split; [reflexivity|]. split; [constructor|]. split; [exact B|]. split; [exact C|]. intros; discriminate.
Qed.
Print Assumptions C48_any.

(** The decoder gets back the pixels of any LZW writer that resets its table
    before it is full, and never when the next free code is a power of two: one
    field for each code with its width, and the padding. *)
Theorem C48_decode : forall sb groups last pixels lastpixels data pad, 2 <= sb ->
  Forall2 (fun px codes => writes sb px codes /\ has_room sb codes /\ forall m, 0 <= m -> 2 ^ sb + 1 + zlen codes <> 2 ^ m) pixels groups ->
  writes sb lastpixels last -> has_room sb last ->
  bits_le data = image_bits sb groups last ++ pad -> zlen pad < 8 ->
  snd (gif_block sb data) = Ok (List.concat pixels ++ lastpixels) /\
  exists codes padding, fst (gif_block sb data) = codes ++ padding /\
    map g_value codes = flat_map (fun g => g ++ [clear_code sb]) groups ++ last ++ [end_code sb] /\
    flat_map (fun f => le_digits (g_size f) (g_value f)) codes = image_bits sb groups last /\
    List.concat (map (fun f => note_pixels (g_note f)) codes) = List.concat pixels ++ lastpixels /\
    fields_size padding = zlen pad /\ (forall f, In f padding -> g_note f = GPadding).
Proof.
  intros sb groups last pixels lastpixels data pad Hsb G L R E Hpad. unfold gif_block. cbv zeta. rewrite E.
  destruct (gif_groups sb Hsb groups last pixels lastpixels (gif_start sb) pad (S (List.length (image_bits sb groups last ++ pad))) G L R (fresh_start sb)) as (fs & Q & V & P & B).
  { rewrite (app_length (image_bits sb groups last) pad). pose proof (image_bits_len sb groups last ltac:(lia)). lia. }
  pose proof (pow_ge4 sb Hsb).
  assert (RD : exists rest, reads fs (image_bits sb groups last ++ pad) rest).
  { eapply (gif_loop_any sb ltac:(lia) _ (gif_start sb)); [unfold state_ok, gif_start; cbn [s_nbits s_next]; lia| |exact Q]. lia. }
  destruct RD as [rest RD]. pose proof (flat_sizes fs (reads_pos _ _ _ RD)) as Sz. rewrite B in Sz.
  rewrite Q. cbn [snd fst gif_start s_output app]. split; [reflexivity|].
  assert (LP : paddingSize (fields_size fs) 8 = zlen pad).
  { rewrite <- Sz. pose proof (zlen_nonneg pad). assert (Q8 : zlen (image_bits sb groups last) + zlen pad = 8 * zlen data) by (rewrite <- zlen_app, <- E; apply zlen_bits_le).
    unfold paddingSize. destruct (negb (zlen (image_bits sb groups last) mod 8 =? 0)) eqn:Ep; lia. }
  exists fs. eexists. split; [reflexivity|]. split; [exact V|]. split; [exact B|]. split; [exact P|]. rewrite LP. split.
  - destruct (zlen pad =? 0) eqn:Ep; cbn [fields_size fold_right g_size]; lia.
  - intros f Hf. destruct (zlen pad =? 0); [destruct Hf|]. destruct Hf as [<-|[]]. reflexivity.
Qed.
Print Assumptions C48_decode.
(** In particular the usual writer, which takes the longest string it knows. *)
Theorem C48_greedy : forall sb p rest data pad, 2 <= sb -> Forall (fun p => 0 <= p < 2 ^ sb) (p :: rest) ->
  has_room sb (greedy sb [] [p] p rest) ->
  bits_le data = image_bits sb [[]] (greedy sb [] [p] p rest) ++ pad -> zlen pad < 8 ->
  snd (gif_block sb data) = Ok (p :: rest).
Proof.
  intros sb p rest data pad Hsb V R E Hp. pose proof (pow_ge4 sb Hsb).
  refine (proj1 (C48_decode sb [[]] _ [[]] (p :: rest) data pad Hsb _ (greedy_writes sb p rest V) R E Hp)).
  constructor; [|constructor]. split; [left; auto|].
  unfold has_room in *. pose proof (zlen_nonneg (greedy sb [] [p] p rest)). change (zlen (@nil Z)) with 0 in *. split; [lia|].
  intros m Hm Q. destruct (grow_facts sb Hsb m 0 Hm ltac:(lia) Q) as [_ F]. lia.
Qed.
Print Assumptions C48_greedy.
(** Twelve pixels of a 4 colour image: seven codes, and the dictionary entry that
    is used before it is complete. *)
Example C48_greedy_ex :
  let codes := greedy 2 [] [1] 1 [1; 1; 1; 1; 2; 2; 2; 1; 1; 2; 3] in
  codes = [1; 6; 6; 2; 9; 8; 3] /\
  (exists pad data, bits_le data = image_bits 2 [[]] codes ++ pad /\ zlen pad < 8 /\ snd (gif_block 2 data) = Ok [1; 1; 1; 1; 1; 2; 2; 2; 1; 1; 2; 3]).
Proof.
  split; [vm_compute; reflexivity|]. exists [], [140; 45; 137; 83]. split; [vm_compute; reflexivity|]. split; [vm_compute; reflexivity|]. vm_compute. reflexivity.
Qed.

(** GIF codes have at most 12 bits and a full table is just used as it is.  The
    decoder goes on to 13 bits: if the first code after the table filled up is
    followed by a 1 bit, that bit is taken as part of the code. *)
Theorem C48_full_refuted : forall sb pixels codes c rest data, 2 <= sb ->
  writes sb pixels codes -> 2 ^ sb + 1 + zlen codes = 4096 -> 0 <= c < 4096 ->
  bits_le data = write_codes sb 0 (codes ++ [c]) ++ true :: rest ->
  width sb (zlen codes) = 12 /\
  exists before f after, fst (gif_block sb data) = before ++ f :: after /\ map g_value before = codes /\
    g_size f = 13 /\ g_value f = c + 4096.
Proof.
  intros sb pixels codes c rest data Hsb W Hn Hc E. assert (W12 : width sb (zlen codes) = 12) by (unfold width; rewrite Hn; reflexivity). split; [exact W12|].
  rewrite write_codes_app in E. cbn [write_codes] in E. change (0 + zlen codes) with (zlen codes) in E. rewrite W12, app_nil_r in E. rewrite <- app_assoc in E.
  set (L := List.length (bits_le data)) in *. assert (LE : (List.length codes <= L)%nat).
  { unfold L. rewrite E, app_length. pose proof (write_codes_len sb 0 codes ltac:(lia) ltac:(lia)). lia. }
  destruct (group_lemma sb Hsb pixels codes (gif_start sb) (le_digits 12 c ++ true :: rest) (S (L - List.length codes)) W ltac:(lia) (fresh_start sb)) as (fs & s' & Q & A & O & V & P & B).
  destruct (grow_step sb Hsb s' 12 (zlen codes) c rest (L - List.length codes) ltac:(lia) (zlen_nonneg _) Hn A Hc) as (f & s'' & Q' & F1 & F2 & _).
  unfold gif_block. cbv zeta. fold L. rewrite E. replace (S L) with (List.length codes + S (L - List.length codes))%nat by lia. rewrite Q, Q'. unfold yields. cbn [fst snd].
  destruct (gif_loop (L - List.length codes) sb s'' rest) as [fs' out]. cbn [fst snd]. destruct out as [[r px]|e]; cbn [fst].
  - exists fs, f. eexists. split; [rewrite <- app_assoc; reflexivity|]. auto.
  - exists fs, f. eexists. split; [reflexivity|]. auto.
Qed.
Print Assumptions C48_full_refuted.
(** Such streams exist: an image of 4091 pixels written pixel by pixel. *)
Lemma literal_lzw sb p n : 0 <= p < 2 ^ sb -> forall table, first_free sb + zlen table + Z.of_nat n <= 4096 -> lzw sb table (repeat p (S n)) (repeat p (S n)).
Proof.
  intros Hp. induction n as [|n IH]; intros table Ht.
  - apply lzw_last. constructor. exact Hp.
  - change (repeat p (S (S n))) with ([p] ++ p :: repeat p n) at 1. change (repeat p (S (S n))) with (p :: repeat p (S n)) at 1. apply lzw_step; [constructor; exact Hp|lia|].
    change (p :: repeat p n) with (repeat p (S n)). apply IH. rewrite zlen_app. change (zlen [[p] ++ [p]]) with 1. lia.
Qed.
Example C48_full_ex : let codes := repeat 1 (S (Z.to_nat 4090)) in writes 2 codes codes /\ 2 ^ 2 + 1 + zlen codes = 4096.
Proof.
  split.
  - right. apply literal_lzw; [lia|]. unfold first_free. change (zlen (@nil (list Z))) with 0. lia.
  - unfold zlen. rewrite repeat_length. lia.
Qed.

(** When the next free code is a power of two, the width has just grown and a
    reset code is ambiguous.  One written on the new width is taken to be one bit
    shorter, so that the codes after it are shifted. *)
Theorem C48_reset_refuted : forall sb m pixels codes rest data, 2 <= sb -> m < 12 ->
  writes sb pixels codes -> 2 ^ sb + 1 + zlen codes = 2 ^ m ->
  bits_le data = write_codes sb 0 (codes ++ [clear_code sb]) ++ rest ->
  width sb (zlen codes) = m + 1 /\
  exists before f after, fst (gif_block sb data) = before ++ f :: after /\ map g_value before = codes /\
    g_note f = GReset /\ g_size f = m.
Proof.
  intros sb m pixels codes rest data Hsb Hm W Hn E. pose proof (pow_ge4 sb Hsb). pose proof (zlen_nonneg codes) as Nn.
  assert (M0 : 0 <= m) by (destruct (Z.lt_ge_cases m 0) as [Q|Q]; [rewrite (Z.pow_neg_r 2 m Q) in Hn; lia|exact Q]).
  destruct (grow_facts sb Hsb m (zlen codes) M0 Nn Hn) as [Lm Pn].
  assert (Wm : width sb (zlen codes) = m + 1) by (unfold width; rewrite Hn, Z.log2_pow2 by lia; lia). split; [exact Wm|].
  assert (R4 : 2 ^ m <= 2 ^ 12) by (apply Z.pow_le_mono_r; lia). change (2 ^ 12) with 4096 in R4.
  rewrite write_codes_app in E. cbn [write_codes] in E. change (0 + zlen codes) with (zlen codes) in E. rewrite Wm, app_nil_r in E. rewrite <- app_assoc in E.
  assert (C0 : 0 <= clear_code sb < 2 ^ m) by (unfold clear_code; split; [lia|apply Z.pow_lt_mono_r; lia]).
  assert (SPLIT : le_digits (m + 1) (clear_code sb) = le_digits m (clear_code sb) ++ [false]).
  { unfold le_digits. replace (Z.to_nat (m + 1)) with (Z.to_nat m + 1)%nat by lia. rewrite seq_app, map_app. f_equal. cbn [seq map Nat.add]. f_equal.
    unfold clear_code. rewrite Z.pow2_bits_false by lia. reflexivity. }
  rewrite SPLIT, <- app_assoc in E. cbn [app] in E.
  set (L := List.length (bits_le data)) in *. assert (LE : (List.length codes <= L)%nat).
  { unfold L. rewrite E, app_length. pose proof (write_codes_len sb 0 codes ltac:(lia) ltac:(lia)). lia. }
  destruct (group_lemma sb Hsb pixels codes (gif_start sb) (le_digits m (clear_code sb) ++ false :: rest) (S (L - List.length codes)) W ltac:(lia) (fresh_start sb)) as (fs & s' & Q & A & O & V & P & B).
  destruct (grow_reset sb Hsb s' m (zlen codes) rest (L - List.length codes) M0 Nn Hn A) as (f & s'' & Q' & F1 & _ & F3 & _ & _).
  unfold gif_block. cbv zeta. fold L. rewrite E. replace (S L) with (List.length codes + S (L - List.length codes))%nat by lia. rewrite Q, Q'. unfold yields. cbn [fst snd].
  destruct (gif_loop (L - List.length codes) sb s'' (false :: rest)) as [fs' out]. cbn [fst snd]. destruct out as [[r px]|e]; cbn [fst].
  - exists fs, f. eexists. split; [rewrite <- app_assoc; reflexivity|]. auto.
  - exists fs, f. eexists. split; [reflexivity|]. auto.
Qed.
Print Assumptions C48_reset_refuted.
(** A 4 colour image of five pixels, with a reset after the first three codes:
    the last two pixels are read as garbage. *)
Example C48_reset_ex : writes 2 [1; 2; 3] [1; 2; 3] /\ 2 ^ 2 + 1 + zlen [1; 2; 3] = 2 ^ 3 /\
  exists data, bits_le data = image_bits 2 [[1; 2; 3]] [1; 1] ++ [false; false] /\ snd (gif_block 2 data) <> Ok [1; 2; 3; 1; 1].
Proof.
  split; [right; apply (lzw_step 2 [] 1 [1] 2 [3] [2; 3]); [constructor; lia|vm_compute; reflexivity|]; apply (lzw_step 2 _ 2 [2] 3 [] [3]); [constructor; lia|vm_compute; reflexivity|]; constructor; constructor; lia|].
  split; [reflexivity|]. exists [209; 40; 41]. split; [vm_compute; reflexivity|]. vm_compute. discriminate.
Qed.
(** One written on the old width, which is what the comment in the code expects,
    is understood if the bit after it is 0; if it is 1, the code is taken for a
    compression code and the table is not reset. *)
Theorem C48_old_reset : forall sb m pixels codes rest data, 2 <= sb -> m <= 12 ->
  writes sb pixels codes -> 2 ^ sb + 1 + zlen codes = 2 ^ m -> forall b : bool,
  bits_le data = write_codes sb 0 codes ++ le_digits m (clear_code sb) ++ b :: rest ->
  exists before f after, fst (gif_block sb data) = before ++ f :: after /\ map g_value before = codes /\
    (if b then g_size f = m + 1 /\ exists w, g_note f = GGuessed w
     else g_size f = m /\ g_value f = clear_code sb /\ g_note f = GReset).
Proof.
  intros sb m pixels codes rest data Hsb Hm W Hn b E. pose proof (pow_ge4 sb Hsb). pose proof (zlen_nonneg codes) as Nn.
  assert (M0 : 0 <= m) by (destruct (Z.lt_ge_cases m 0) as [Q|Q]; [rewrite (Z.pow_neg_r 2 m Q) in Hn; lia|exact Q]).
  destruct (grow_facts sb Hsb m (zlen codes) M0 Nn Hn) as [Lm Pn].
  assert (R4 : 2 ^ m <= 2 ^ 12) by (apply Z.pow_le_mono_r; lia). change (2 ^ 12) with 4096 in R4.
  assert (C0 : 0 <= clear_code sb < 2 ^ m) by (unfold clear_code; split; [lia|apply Z.pow_lt_mono_r; lia]).
  set (L := List.length (bits_le data)) in *. assert (LE : (List.length codes <= L)%nat).
  { unfold L. rewrite E, app_length. pose proof (write_codes_len sb 0 codes ltac:(lia) ltac:(lia)). lia. }
  destruct (group_lemma sb Hsb pixels codes (gif_start sb) (le_digits m (clear_code sb) ++ b :: rest) (S (L - List.length codes)) W ltac:(lia) (fresh_start sb)) as (fs & s' & Q & A & O & V & P & B).
  assert (ST : exists f r, gif_loop (S (L - List.length codes)) sb s' (le_digits m (clear_code sb) ++ b :: rest) = yields f r /\
    (if b then g_size f = m + 1 /\ exists w, g_note f = GGuessed w else g_size f = m /\ g_value f = clear_code sb /\ g_note f = GReset)).
  { destruct b.
    - destruct (grow_step sb Hsb s' m (zlen codes) (clear_code sb) rest (L - List.length codes) M0 Nn Hn A C0) as (f & s'' & Q' & F1 & _ & F3). eauto.
    - destruct (grow_reset sb Hsb s' m (zlen codes) rest (L - List.length codes) M0 Nn Hn A) as (f & s'' & Q' & F1 & F2 & F3 & _ & _). eauto 6. }
  destruct ST as (f & r & Q' & F).
  unfold gif_block. cbv zeta. fold L. rewrite E. replace (S L) with (List.length codes + S (L - List.length codes))%nat by lia. rewrite Q, Q'. unfold yields. cbn [fst snd].
  destruct r as [fs' out]. cbn [fst snd]. destruct out as [[r px]|e]; cbn [fst].
  - exists fs, f. eexists. split; [rewrite <- app_assoc; reflexivity|]. auto.
  - exists fs, f. eexists. split; [reflexivity|]. auto.
Qed.
Print Assumptions C48_old_reset.

(** ** C57 *)
(** The text of a chain evaluates to the chain. *)
Theorem C57_eval : forall chain, Forall (fun v => 0 <= v) chain -> eval_lists (rle_repr chain) = chain.
Proof. exact rle_repr_eval. Qed.
Print Assumptions C57_eval.
(** So different chains have different texts. *)
Theorem C57_injective : forall a b, Forall (fun v => 0 <= v) a -> Forall (fun v => 0 <= v) b -> rle_repr a = rle_repr b -> a = b.
Proof. intros a b Ha Hb E. rewrite <- (rle_repr_eval a Ha), <- (rle_repr_eval b Hb), E. reflexivity. Qed.
Print Assumptions C57_injective.
Example C57_ex : rle_repr [20; 16; 16; 16; 16; 16; 18; 18; 65] = lit "[20] + [16]*5 + [18]*2 + [65]" /\ rle_repr [1; 2; 3; 3; 4; 5] = lit "[1, 2] + [3]*2 + [4, 5]".
Proof. split; vm_compute; reflexivity. Qed.

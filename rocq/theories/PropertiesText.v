(** Property C30: string fields. *)
From Verif Require Import Base BaseProofs BitsModel BitsSpec StreamModel StreamSpec StreamProofs StreamProofs2 ToolsModel TextModel TextSpec TextProofs.

(** ** C30 *)
(** One byte per character (or UTF-8): the field ends exactly at the first
    terminator. *)
Theorem C30_bytes : forall read data e s f cs term n,
  serves read data -> 0 <= s -> no_bom cs -> suffix_str f cs e = Some (Ok term) -> zlen term = 1 -> terminated data term s n ->
  string_layout read (8 * zlen data) e (8 * s) f cs None =
    Ok {| l_size := (n + 1) * 8; l_content_offset := 0; l_content_size := n; l_charset := cs |}.
Proof.
  intros read data e s f cs term n Hr Hs Hb Hf H1 Ht.
  pose proof (proj2 (layout_suffix_iff read data e s f cs term n Hr Hs Hb Hf Ht) (not_straddled_1 _ _ _ _ H1 Ht)) as H.
  rewrite H1 in H. rewrite H. unfold suffix_layout. rewrite Z.mul_1_l. reflexivity.
Qed.
Print Assumptions C30_bytes.
(** No terminator: the field is refused. *)
Theorem C30_unterminated : forall read data e s f cs term,
  serves read data -> data <> [] -> 0 <= s -> no_bom cs -> suffix_str f cs e = Some (Ok term) ->
  (forall i, s <= i -> ~ occurs_at term data i) ->
  string_layout read (8 * zlen data) e (8 * s) f cs None = Err ParserError.
Proof.
  intros read data e s f cs term Hr Hd Hs Hb Hf Hno.
  destruct (layout_suffix_gen read data e s f cs term Hr Hd Hs Hb Hf) as [(i & (F1 & _ & F3 & _) & _)|[_ E]]; [|exact E].
  exfalso. exact (Hno i F1 F3).
Qed.
Print Assumptions C30_unterminated.
(** Any width: the field ends at the first character equal to the terminator
    if and only if no two characters before it contain the bytes of the
    terminator across their boundary. *)
Theorem C30_wide_partial : forall read data e s f cs term n,
  serves read data -> 0 <= s -> no_bom cs -> suffix_str f cs e = Some (Ok term) -> terminated data term s n ->
  (string_layout read (8 * zlen data) e (8 * s) f cs None =
     Ok {| l_size := (zlen term * n + zlen term) * 8; l_content_offset := 0; l_content_size := zlen term * n; l_charset := cs |} <->
   ~ straddled data term s n).
Proof. exact layout_suffix_iff. Qed.
Print Assumptions C30_wide_partial.
(** Round trip: a text encoded in the charset of the field and followed by the
    terminator is parsed to exactly its bytes, and its value is the text. *)
Theorem C30_text_partial : forall utf8_ok codec read f cs e text pre post,
  let data := pre ++ encode cs text ++ encode cs [tchar f] ++ post in
  serves read data -> no_bom (Some cs) -> suffix_agrees f cs e -> Forall unicode text -> ~ In (tchar f) text ->
  ~ straddled data (encode cs [tchar f]) (zlen pre) (zlen (units_of cs text)) ->
  codec cs (encode cs text) = inl text ->
  exists l, string_layout read (8 * zlen data) e (8 * zlen pre) f (Some cs) None = Ok l /\
    l_size l = 8 * (zlen (encode cs text) + zlen (encode cs [tchar f])) /\
    string_value utf8_ok codec read (8 * zlen pre) l None None = Ok text.
Proof.
  intros utf8_ok codec read f cs e text pre post data Hr Hb Hf Hu Hn Hns Hc. eexists.
  split; [exact (text_field read f cs e text pre post Hr Hb Hf Hu Hn Hns)|]. split; [reflexivity|].
  eapply text_value; [exact Hr|exact Hc|reflexivity|reflexivity|reflexivity|apply encode_empty].
Qed.
Print Assumptions C30_text_partial.
(** The hypothesis holds for every 8-bit or UTF-8 text, and for every C string
    in UTF-16 or UTF-32 none of whose code units is a multiple of 256. *)
Theorem C30_text : forall utf8_ok codec read cs e text pre post,
  let data := pre ++ encode cs text ++ encode cs [0] ++ post in
  serves read data -> no_bom (Some cs) -> e <> MIDDLE_ENDIAN -> Forall unicode text -> ~ In 0 text ->
  (forall u, In u (units_of cs text) -> zlen (encode cs [0]) = 1 \/ u mod 256 <> 0) ->
  codec cs (encode cs text) = inl text ->
  exists l, string_layout read (8 * zlen data) e (8 * zlen pre) FormatC (Some cs) None = Ok l /\
    l_size l = 8 * (zlen (encode cs text) + zlen (encode cs [0])) /\
    string_value utf8_ok codec read (8 * zlen pre) l None None = Ok text.
Proof.
  intros utf8_ok codec read cs e text pre post data Hr Hb He Hu Hn H256 Hc.
  apply (C30_text_partial utf8_ok codec read FormatC cs e text pre post Hr Hb He Hu Hn); [|exact Hc].
  apply not_straddled_c; try assumption. intros u Hin. destruct (H256 u Hin) as [H|H]; [left|right; exact H].
  rewrite <- H. destruct cs; reflexivity.
Qed.
Print Assumptions C30_text.
(** With a byte-order mark: the mark gives the charset and is not part of the value. *)
Theorem C30_bom_partial : forall utf8_ok codec read e cs cs' text pre post,
  let data := pre ++ encode cs' (0xFEFF :: text) ++ encode cs' [0] ++ post in
  bom_choice cs cs' -> serves read data -> e <> MIDDLE_ENDIAN -> Forall unicode text -> ~ In 0 text ->
  ~ straddled data (encode cs' [0]) (zlen pre) (zlen (units_of cs' (0xFEFF :: text))) ->
  codec cs' (encode cs' text) = inl text ->
  exists l, string_layout read (8 * zlen data) e (8 * zlen pre) FormatC (Some cs) None = Ok l /\
    l_size l = 8 * (zlen (encode cs' (0xFEFF :: text)) + zlen (encode cs' [0])) /\
    string_value utf8_ok codec read (8 * zlen pre) l None None = Ok text.
Proof.
  intros utf8_ok codec read e cs cs' text pre post data Hbc Hr He Hu Hn Hns Hc. eexists.
  split; [exact (bom_field read e cs cs' text pre post Hbc Hr He Hu Hn Hns)|]. split; [reflexivity|].
  eapply bom_value; [|exact Hr|exact Hc|reflexivity|reflexivity|reflexivity].
  destruct Hbc as [[_ [->| ->]]|[_ [->| ->]]]; auto.
Qed.
Print Assumptions C30_bom_partial.
(** Pascal strings: the prefix gives the number of bytes. *)
Theorem C30_pascal : forall read e f p (content pre post prefix : list Z) cs,
  let data := pre ++ prefix ++ content ++ post in
  serves read data -> is_bytes data -> pascal_format f = Some p -> zlen prefix = p -> bits_available data (8 * zlen pre) (p * 8) e = true ->
  bits_at data (8 * zlen pre) (p * 8) e = zlen content -> no_bom cs ->
  string_layout read (8 * zlen data) e (8 * zlen pre) f cs None =
    Ok {| l_size := 8 * (p + zlen content); l_content_offset := p; l_content_size := zlen content; l_charset := cs |}.
Proof. intros read e f p content pre post prefix cs data H1 H2 H3 H4 H5 H6 H7. exact (pascal_field read e f p content pre post prefix H1 H2 H3 H4 H5 H6 cs H7). Qed.
Print Assumptions C30_pascal.
(** Removing characters at both ends. *)
Theorem C30_strip : forall p text, stripped p text (strip p text).
Proof. exact strip_ok. Qed.
Print Assumptions C30_strip.

Definition ex_codec : codec_fun := fun cs b => inl (if list_eq_dec Z.eq_dec b [0x48; 0; 0xE9; 0; 0x34; 0xD8; 0x1E; 0xDD] then [0x48; 0xE9; 0x1D11E] else b).
Definition ex_text := [7; 7] ++ encode UTF16LE [0x48; 0xE9; 0x1D11E] ++ encode UTF16LE [0] ++ [9].
(** "H", e acute and a clef (a surrogate pair) in UTF-16. *)
Example C30_ex : ex_text = [7; 7; 0x48; 0; 0xE9; 0; 0x34; 0xD8; 0x1E; 0xDD; 0; 0; 9] /\
  ex_codec UTF16LE (encode UTF16LE [0x48; 0xE9; 0x1D11E]) = inl [0x48; 0xE9; 0x1D11E] /\
  (forall u, In u (units_of UTF16LE [0x48; 0xE9; 0x1D11E]) -> u mod 256 <> 0) /\ Forall unicode [0x48; 0xE9; 0x1D11E] /\
  (exists l, string_layout (file_read ex_text) (8 * zlen ex_text) BIG_ENDIAN 16 FormatC (Some UTF16LE) None = Ok l /\ l_size l = 80 /\
     string_value (fun _ => true) ex_codec (file_read ex_text) 16 l None None = Ok [0x48; 0xE9; 0x1D11E]).
Proof.
  split; [reflexivity|]. split; [reflexivity|]. split; [cbn; intuition (subst; discriminate)|].
  split; [repeat constructor; unfold unicode; lia|]. eexists. repeat split; vm_compute; reflexivity.
Qed.
Example C30_pascal_ex : string_layout (file_read [1; 0; 2; 65; 66; 67]) 48 BIG_ENDIAN 8 FormatPascal16 None None =
  Ok {| l_size := 32; l_content_offset := 2; l_content_size := 2; l_charset := None |}.
Proof. reflexivity. Qed.
Example C30_terminated_ex : terminated [65; 0; 66; 0; 0; 0; 1] [0; 0] 0 2 /\ ~ straddled [65; 0; 66; 0; 0; 0; 1] [0; 0] 0 2.
Proof.
  split.
  - split; [lia|]. split; [cbn; lia|]. split; [reflexivity|]. intros k Hk. assert (k = 0 \/ k = 1) as [->| ->] by lia; discriminate.
  - intros (j & J1 & J2 & J3). change (zlen [0; 0]) with 2 in *. assert (j = 0 \/ j = 1 \/ j = 2) as [->|[->| ->]] by lia; discriminate.
Qed.

(** The full statement is false for wide charsets: a text with two characters
    such as U+0041 U+0100 is cut. *)
Theorem C30_straddle_refuted : exists text e, ~ In 0 text /\ Forall unicode text /\
  let data := encode UTF16LE text ++ encode UTF16LE [0] in
  terminated data (encode UTF16LE [0]) 0 (zlen text) /\
  exists l, string_layout (file_read data) (8 * zlen data) e 0 FormatC (Some UTF16LE) None = Ok l /\
    l_content_size l <> zlen (encode UTF16LE text).
Proof.
  exists [0x41; 0x100; 0x42], LITTLE_ENDIAN. split; [cbn; lia|]. split; [repeat constructor; unfold unicode; lia|]. split.
  - exact (text_terminated FormatC UTF16LE [0x41; 0x100; 0x42] [] [] ltac:(repeat constructor; unfold unicode; lia) ltac:(cbn; lia)).
  - eexists. split; [vm_compute; reflexivity|]. vm_compute. discriminate.
Qed.
Print Assumptions C30_straddle_refuted.
(** A line of UTF-16-LE text in a big endian parser may not be ended by its
    newline: the terminator is chosen with the endian of the parser. *)
Theorem C30_line_endian_refuted : let data := encode UTF16LE [0x141] ++ encode UTF16LE [10] ++ encode UTF16LE [0x42] in
  string_layout (file_read data) (8 * zlen data) BIG_ENDIAN 0 FormatUnixLine (Some UTF16LE) None <>
  Ok {| l_size := 32; l_content_offset := 0; l_content_size := 2; l_charset := Some UTF16LE |}.
Proof. vm_compute. discriminate. Qed.
Print Assumptions C30_line_endian_refuted.
(** The byte-order mark of a Pascal string is looked for at the prefix: every
    Pascal string with a byte-order mark is misread. *)
Theorem C30_pascal_bom_refuted : forall e text, e <> MIDDLE_ENDIAN ->
  let body := encode UTF16LE (0xFEFF :: text) in
  zlen body < 256 -> is_bytes body ->
  let data := zlen body :: body in
  forall l, string_layout (file_read data) (8 * zlen data) e 0 FormatPascal8 (Some UTF16) None = Ok l -> l_charset l <> Some UTF16LE.
Proof.
  intros e text He body Hb Hbytes data l H.
  assert (Hd : body = 0xFF :: 0xFE :: flat_map unit_le (flat_map utf16_units text)) by reflexivity.
  assert (Hz : 2 <= zlen body).
  { rewrite Hd, !(@zlen_cons Z). pose proof (zlen_nonneg (flat_map unit_le (flat_map utf16_units text))). lia. }
  assert (Hs : serves (file_read data) data) by apply file_serves.
  assert (Hzd : zlen data = 1 + zlen body) by (unfold data; apply zlen_cons).
  assert (Hrd : readBytes (file_read data) 0 2 = Ok [zlen body; 0xFF]).
  { change 0 with (8 * 0). rewrite (readBytes_serves _ data) by (try assumption; lia). reflexivity. }
  unfold string_layout in H. cbn [suffix_str suffix_format pascal_format utf_charset] in H.
  destruct (readBits (file_read data) 0 (1 * 8) e) as [v|ex]; [|discriminate]. cbn [bind] in H.
  change (16 / 8) with 2 in H. rewrite Hrd in H. cbn [bind utf_bom Z.eqb Pos.eqb] in H.
  destruct (Z.eq_dec (zlen body) 0xFE) as [E|E].
  - rewrite E in H. injection H as <-. discriminate.
  - destruct (zlen body) as [|p|p] eqn:Ez; [lia| |lia].
    assert (Hn : utf_bom 16 [Z.pos p; 255] = None).
    { unfold utf_bom. change (16 =? 16) with true. cbv iota.
      do 8 (destruct p as [p|p|]; try reflexivity; try lia). }
    cbn [utf_bom Z.eqb Pos.eqb] in Hn. rewrite Hn in H. discriminate.
Qed.
Print Assumptions C30_pascal_bom_refuted.

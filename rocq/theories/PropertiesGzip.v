(** C75: what the gzip parser shows. *)
From Coq Require Import String.
From Verif Require Import Base BaseProofs BitsModel BitsSpec BitsProofs StreamModel StreamSpec StreamProofs DictModel DictProofs NumSpec NumRead ChunkBase GenModel GenSpec GenProofs GzipModel GzipSpec Lit.
Open Scope Z_scope.
Ltac Zify.zify_post_hook ::= Z.div_mod_to_equations.

Lemma occ_self data : occurs_at data data 0.
Proof. pose proof (occ_pre [] data []) as O. cbn [app] in O. rewrite app_nil_r in O. exact O. Qed.
Section Head.
Context (read : read_fun) (data : list Z) (Hs : serves read data) (Hb : is_bytes data) (m : member).
Definition after : prog :=
  when (num (VNum (val_le [is_some (g_extra m)])) =? 1) (fun p => have n := (lit "extra_length") (KNum 16 LE); emit (lit "extra") (KBytes (num n)); p)
  (when (num (VNum (val_le [is_some (g_name m)])) =? 1) (fun p => emit (lit "filename") (KLine 0); p)
  (when (num (VNum (val_le [is_some (g_comment m)])) =? 1) (fun p => emit (lit "comment") (KLine 0); p)
  (when (num (VNum (val_le [is_some (g_crc16 m)])) =? 1) (fun p => emit (lit "hdr_crc16") (KNum 16 LE); p)
  (PAsk (fun stop a =>
     let size := (stop - a) / 8 - 8 in
     when (0 <? size) (fun p => emit (lit "file") (KBytes size); p)
     (emit (lit "crc32") (KNum 32 LE);
      emit (lit "size") (KNum 32 LE);
      PRet)))))).
Lemma head_read stop ssize : gzip_ok m -> occurs_at (gz_head m) data 0 -> 80 <= stop ->
  run read ssize gzip_fields true stop 0 = puts (gz_head_fields m) (run read ssize after false stop 80).
Proof using All.
  intros (M & T & Os & _) O St. unfold gz_head in O. apply occ_app in O as [O1 O]. apply occ_app in O as [O2 O]. apply occ_app in O as [O3 O]. apply occ_app in O as [O4 O]. apply occ_app in O as [O5 O6].
  unfold u in *. rewrite !zlen_uint in *. change (zlen [0x1F; 0x8B]) with 2 in *. cbn [Z.add Z.of_nat Pos.add Pos.succ Pos.of_succ_nat] in *. unfold flag_bits, xfl_bits, gz_head_fields in *.
  destruct (g_r m) as [[r0 r1] r2]. destruct (g_xfl m) as [[x0 [x1 x2]] [[[[x3 x4] x5] x6] x7]]. unfold gzip_fields.
  Ltac bits O j b := erewrite (step_bits _ _ ltac:(eassumption) ltac:(eassumption) _ _ LE _ _ _ _ _ _ _ j _ b); [|discriminate|exact O|apply (bits_uint_le 1); reflexivity|reflexivity|lia|lia|rewrite zlen_uint; lia|reflexivity|reflexivity|lia].
  rewrite (at_bytes read data Hs ssize _ [0x1F; 0x8B] 2 _ _ 0 _ 16) by (try reflexivity; try discriminate; try exact O1; lia).
  rewrite (at_num read data Hs Hb ssize _ LE 1 8 (g_method m) _ _ 2 _ 24) by (try discriminate; auto; lia).
  bits O3 0 25. bits O3 1 26. bits O3 2 27. bits O3 3 28. bits O3 4 29. bits O3 5 32.
  rewrite (at_num read data Hs Hb ssize _ LE 4 32 (g_mtime m) _ _ 4 _ 64) by (try discriminate; auto; lia).
  bits O5 0 65. bits O5 1 66. bits O5 2 67. bits O5 3 72.
  rewrite (at_num read data Hs Hb ssize _ LE 1 8 (g_os m) _ _ 9 _ 80) by (try discriminate; auto; lia).
  reflexivity.
Qed.
End Head.
(** Equality of lists of fields whose addresses are equal numbers *)
Ltac flds := repeat match goal with
  | |- ?x = ?x => reflexivity
  | |- _ :: _ = _ :: _ => f_equal
  | |- _ ++ _ = _ ++ _ => f_equal
  | |- (_, _) = (_, _) => f_equal
  | |- F _ _ _ _ = F _ _ _ _ => f_equal
  | |- VBytes _ = VBytes _ => f_equal
  | |- VNum _ = VNum _ => f_equal
  | |- @eq Z _ _ => lia
  end.
Section Members.
Context (read : read_fun) (m : member) (Hs : serves read (gzip m)) (Hb : is_bytes (gzip m)) (Ok_m : gzip_ok m).
Lemma zlen_head : zlen (gz_head m) = 10.
Proof using Type. unfold gz_head, u. rewrite !zlen_app, !zlen_uint. reflexivity. Qed.
Lemma members_read : g_extra m <> Some [] -> GzipParser read (8 * zlen (gzip m)) = (gz_fields m, None, 8 * zlen (gzip m)).
Proof using All.
  intros X0. unfold GzipParser. set (size := 8 * zlen (gzip m)). pose proof (occ_self (gzip m)) as O. unfold gzip in O at 1. apply occ_app in O as [O0 O]. rewrite zlen_head in O. cbn [Z.add] in O.
  assert (L : size = 8 * (10 + zlen (gz_extra m) + zlen (gz_name m) + zlen (gz_comment m) + zlen (gz_crc16 m) + zlen (g_content m) + 8)).
  { unfold size. unfold gzip, u. rewrite !zlen_app, !zlen_uint, zlen_head. lia. }
  pose proof (zlen_nonneg (gz_extra m)) as N1. pose proof (zlen_nonneg (gz_name m)) as N2. pose proof (zlen_nonneg (gz_comment m)) as N3. pose proof (zlen_nonneg (gz_crc16 m)) as N4. pose proof (zlen_nonneg (g_content m)) as N5.
  rewrite (head_read read (gzip m) Hs Hb m size size Ok_m O0) by lia. destruct Ok_m as (_ & _ & _ & Cr & Sz & Xl & Nl & Cl & C16 & Fl).
  apply occ_app in O as [O1 O]. apply occ_app in O as [O2 O]. apply occ_app in O as [O3 O]. apply occ_app in O as [O4 O]. apply occ_app in O as [O5 O]. apply occ_app in O as [O6 O7].
  unfold gz_fields. set (p1 := 10 + zlen (gz_extra m)) in *. set (p2 := p1 + zlen (gz_name m)) in *. set (p3 := p2 + zlen (gz_comment m)) in *. set (p4 := p3 + zlen (gz_crc16 m)) in *. set (p5 := p4 + zlen (g_content m)) in *.
  assert (E1 : p1 = 10 + zlen (gz_extra m)) by reflexivity. assert (E2 : p2 = p1 + zlen (gz_name m)) by reflexivity. assert (E3 : p3 = p2 + zlen (gz_comment m)) by reflexivity. assert (E4 : p4 = p3 + zlen (gz_crc16 m)) by reflexivity. assert (E5 : p5 = p4 + zlen (g_content m)) by reflexivity.
  replace (zlen (u 4 (g_crc m))) with (Z.of_nat 4) in O7 by (unfold u; rewrite zlen_uint; reflexivity). change (Z.of_nat 4) with 4 in O7.
  (* the end of the member *)
  assert (Tail : run read size (PAsk (fun stop a => let size := (stop - a) / 8 - 8 in when (0 <? size) (fun p => emit (lit "file") (KBytes size); p) (emit (lit "crc32") (KNum 32 LE); emit (lit "size") (KNum 32 LE); PRet))) false size (8 * p4)
    = (match g_content m with [] => [] | x => [bytes_at (lit "file") p4 x] end ++ [number_at (lit "crc32") p5 4 (g_crc m); number_at (lit "size") (p5 + 4) 4 (g_size m)], None, size)).
  { rewrite step_ask. cbv zeta. replace ((size - 8 * p4) / 8 - 8) with (zlen (g_content m)) by (unfold p4, p3, p2, p1; lia).
    assert (End : run read size (emit (lit "crc32") (KNum 32 LE); emit (lit "size") (KNum 32 LE); PRet) false size (8 * p5)
      = ([number_at (lit "crc32") p5 4 (g_crc m); number_at (lit "size") (p5 + 4) 4 (g_size m)], None, size)).
    { rewrite (at_num read (gzip m) Hs Hb size _ LE 4 32 (g_crc m) _ _ p5 _ (8 * (p5 + 4))) by (try discriminate; auto; try exact O6; unfold p5, p4, p3, p2, p1; lia).
      rewrite (at_num read (gzip m) Hs Hb size _ LE 4 32 (g_size m) _ _ (p5 + 4) _ size) by (try discriminate; auto; try exact O7; unfold p5, p4, p3, p2, p1; lia).
      reflexivity. }
    destruct (g_content m) as [|y ys] eqn:C; [change (zlen (@nil Z)) with 0 in *; cbn [Z.ltb Z.compare when]; replace (8 * p4) with (8 * p5) by (unfold p5; lia); exact End|].
    rewrite <- C in *. assert (C0 : g_content m <> []) by (rewrite C; discriminate). assert (1 <= zlen (g_content m)) by (rewrite C, zlen_cons; pose proof (zlen_nonneg ys); lia).
    replace (0 <? zlen (g_content m)) with true by lia. cbn [when].
    rewrite (at_bytes read (gzip m) Hs size _ (g_content m) (zlen (g_content m)) _ _ p4 _ (8 * p5)) by (auto; unfold p5, p4, p3, p2, p1; lia).
    rewrite End. reflexivity. }
  assert (S5 : 8 * p5 <= size) by (unfold p5, p4, p3, p2, p1; lia).
  (* the checksum of the header *)
  assert (T4 : forall T, run read size T false size (8 * p4) = (match g_content m with [] => [] | x => [bytes_at (lit "file") p4 x] end ++ [number_at (lit "crc32") p5 4 (g_crc m); number_at (lit "size") (p5 + 4) 4 (g_size m)], None, size) ->
    run read size (when (num (VNum (val_le [is_some (g_crc16 m)])) =? 1) (fun p => emit (lit "hdr_crc16") (KNum 16 LE); p) T) false size (8 * p3)
    = puts (opt (g_crc16 m) (fun v => [number_at (lit "hdr_crc16") p3 2 v])) (run read size T false size (8 * p4))).
  { intros T _. unfold p4, gz_crc16 in *. destruct (g_crc16 m) as [v|]; cbn [opt is_some] in *.
    - change (num (VNum (val_le [true])) =? 1) with true. cbn [when]. unfold u in *. rewrite zlen_uint in *. rewrite (at_num read (gzip m) Hs Hb size _ LE 2 16 v _ _ p3 _ (8 * (p3 + Z.of_nat 2))) by (try discriminate; auto; lia). reflexivity.
    - change (num (VNum (val_le [false])) =? 1) with false. cbn [when]. rewrite puts_nil. change (zlen (@nil Z)) with 0. rewrite Z.add_0_r. reflexivity. }
  assert (Line : forall name o p T, let x := opt o (fun x => x ++ [0]) in occurs_at x (gzip m) p -> 8 * (p + zlen x) <= size -> match o with Some x => ~ In 0 x | None => True end ->
    run read size (when (num (VNum (val_le [is_some o])) =? 1) (fun q => emit name (KLine 0); q) T) false size (8 * p) = puts (opt o (fun x => [line_at name p x])) (run read size T false size (8 * (p + zlen x)))).
  { intros name o p T x Ox Sx Nx. unfold x in *. destruct o as [y|]; cbn [opt is_some] in *.
    - change (num (VNum (val_le [true])) =? 1) with true. cbn [when]. rewrite zlen_app in *. change (zlen [0]) with 1 in *.
      rewrite (at_line read (gzip m) Hs Hb size _ 0 y _ _ p _ (8 * (p + (zlen y + 1)))) by (auto; lia). reflexivity.
    - change (num (VNum (val_le [false])) =? 1) with false. cbn [when]. rewrite puts_nil. change (zlen (@nil Z)) with 0. rewrite Z.add_0_r. reflexivity. }
  assert (Extra : forall T, run read size (when (num (VNum (val_le [is_some (g_extra m)])) =? 1) (fun p => have n := (lit "extra_length") (KNum 16 LE); emit (lit "extra") (KBytes (num n)); p) T) false size 80
    = puts (opt (g_extra m) (fun x => [number_at (lit "extra_length") 10 2 (zlen x); bytes_at (lit "extra") 12 x])) (run read size T false size (8 * p1))).
  { intros T. unfold p5, p4, p3, p2, p1, gz_extra in *. destruct (g_extra m) as [x|] eqn:X; cbn [opt is_some] in *.
    - change (num (VNum (val_le [true])) =? 1) with true. cbn [when]. unfold u in *. rewrite zlen_app, zlen_uint in *. apply occ_app in O1 as [Oa Ob]. rewrite zlen_uint in Ob. pose proof (zlen_nonneg x). change (Z.of_nat 2) with 2 in *.
      rewrite (at_num read (gzip m) Hs Hb size _ LE 2 16 (zlen x) _ _ 10 _ 96) by (try discriminate; auto; lia).
      cbn [num]. rewrite (at_bytes read (gzip m) Hs size _ x (zlen x) _ _ 12 _ (8 * (10 + (2 + zlen x)))) by (auto; try congruence; try lia). reflexivity.
    - change (num (VNum (val_le [false])) =? 1) with false. cbn [when]. rewrite puts_nil. reflexivity. }
  unfold after. rewrite Extra. rewrite Line by (auto; unfold p5, p4, p3, p2 in *; unfold gz_name in *; lia). cbv zeta. change (p1 + zlen (opt (g_name m) (fun x => x ++ [0]))) with p2.
  rewrite Line by (auto; unfold p5, p4, p3 in *; unfold gz_comment in *; lia). cbv zeta. change (p2 + zlen (opt (g_comment m) (fun x => x ++ [0]))) with p3. cbv zeta in Tail. rewrite (T4 _ Tail), Tail.
  unfold puts. cbn [fst snd]. rewrite !app_assoc. reflexivity.
Qed.
(** validate looks at the head of the file only. *)
Lemma valid_read : gzip_validate read (8 * zlen (gzip m)) =
  Ok ((g_method m =? 8) && (let '(r0, r1, r2) := g_r m in negb (r0 || r1 || r2)) && (let '(x0, _, (x3, x4, x5, x6, x7)) := g_xfl m in negb (x0 || x3 || x4 || x5 || x6 || x7))).
Proof using All.
  unfold gzip_validate, GzipParser. pose proof (occ_self (gzip m)) as O. unfold gzip in O at 1. apply occ_app in O as [O0 O].
  assert (L : 80 <= 8 * zlen (gzip m)) by (pose proof (occ_in _ _ _ O0) as [_ I2]; rewrite zlen_head in I2; lia).
  rewrite (head_read read (gzip m) Hs Hb m _ _ Ok_m O0 L). unfold puts, gz_head_fields. cbn [fst]. destruct (g_r m) as [[r0 r1] r2]. destruct (g_xfl m) as [[x0 [x1 x2]] [[[[x3 x4] x5] x6] x7]].
  match goal with |- context [get _ (_ ++ ?r)] => generalize r end. intros r. unfold bytes_at, number_at, bit_at. cbn [app].
  cbn [get]. change (str_eqb (lit "signature") (lit "signature")) with true. change (str_eqb (lit "signature") (lit "compression")) with false. change (str_eqb (lit "compression") (lit "compression")) with true. cbn iota.
  match goal with |- context [gets ?n ?l] => assert (G : exists t, gets n l = VNum (val_le [r0; r1; r2]) :: VNum (val_le [x0]) :: VNum (val_le [x3; x4; x5; x6; x7]) :: t) by (eexists; reflexivity) end.
  destruct G as [t ->]. cbn [bytes num]. destruct (g_method m =? 8), r0, r1, r2, x0, x3, x4, x5, x6, x7; reflexivity.
Qed.
End Members.

(** For every gzip file of one member whose extra field, if it has one, is not empty: the fields are all the parts of it, each where it is. *)
Theorem C75_members : forall read m, serves read (gzip m) -> is_bytes (gzip m) -> gzip_ok m -> g_extra m <> Some [] ->
  GzipParser read (8 * zlen (gzip m)) = (gz_fields m, None, 8 * zlen (gzip m)).
Proof. exact members_read. Qed.
Print Assumptions C75_members.
(** A file is accepted exactly when its method is deflate and its reserved bits are zero, whatever the rest of it. *)
Theorem C75_valid : forall read m, serves read (gzip m) -> is_bytes (gzip m) -> gzip_ok m ->
  gzip_validate read (8 * zlen (gzip m)) =
  Ok ((g_method m =? 8) && (let '(r0, r1, r2) := g_r m in negb (r0 || r1 || r2)) && (let '(x0, _, (x3, x4, x5, x6, x7)) := g_xfl m in negb (x0 || x3 || x4 || x5 || x6 || x7))).
Proof. exact valid_read. Qed.
Print Assumptions C75_valid.
(** Every file: the fields follow each other from the start and end inside the file, and nothing is cut by a bound of the model. *)
Theorem C75_any : forall read data, serves read data -> ends read data -> is_bytes data -> data <> [] ->
  let '(l, e, b) := GzipParser read (8 * zlen data) in tiled 0 l b /\ b <= 8 * zlen data /\ settled_file (l, e, b).
Proof.
  intros read data Hs He Hb Hd. apply (any_file read data Hs Hb He Hd). unfold gzip_fields. do 14 calm_step.
  assert (C : forall m, safe read data m (PAsk (fun stop a => let size := (stop - a) / 8 - 8 in when (0 <? size) (fun p => emit (lit "file") (KBytes size); p) (emit (lit "crc32") (KNum 32 LE); emit (lit "size") (KNum 32 LE); PRet)))).
  { intros m. apply safe_ask. intros stop a A M. cbv zeta. repeat calm_step. }
  repeat first [apply C | calm_step].
Qed.
Print Assumptions C75_any.
(** A file whose extra field is empty, which RFC 1952 allows, is shown up to the length of this field: neither the name, nor the
    contents, nor the size of the file are shown (gzip_parser.py:91-93 makes a RawBytes field of no byte, which raises). *)
Theorem C75_extra_refuted : forall read m, serves read (gzip m) -> is_bytes (gzip m) -> gzip_ok m -> g_extra m = Some [] ->
  GzipParser read (8 * zlen (gzip m)) = (gz_head_fields m ++ [number_at (lit "extra_length") 10 2 0], Some ParserError, 96).
Proof.
  intros read m Hs Hb Om X. unfold GzipParser. set (size := 8 * zlen (gzip m)). pose proof (occ_self (gzip m)) as O. unfold gzip in O at 1. apply occ_app in O as [O0 O]. apply occ_app in O as [O1 _]. rewrite zlen_head in O1.
  assert (L : 96 <= size) by (pose proof (occ_in _ _ _ O1) as [_ I2]; unfold gz_extra in I2; rewrite X in I2; cbn [opt] in I2; rewrite app_nil_r in I2; unfold u in I2; rewrite zlen_uint in I2; unfold size; lia).
  rewrite (head_read read (gzip m) Hs Hb m size size Om O0) by lia. unfold after. unfold gz_extra in O1. rewrite X in *. cbn [opt is_some] in *. change (num (VNum (val_le [true])) =? 1) with true. cbn [when]. apply occ_app in O1 as [Oa _].
  rewrite (at_num read (gzip m) Hs Hb size _ LE 2 16 0 _ _ 10 _ 96) by (try discriminate; auto; lia). reflexivity.
Qed.
Print Assumptions C75_extra_refuted.
(** A file of two members, as RFC 1952 allows and as "cat a.gz b.gz" makes them, is shown as one: its contents are said to go up to the
    last eight bytes of the second, and the checksum and the size shown are those of the second member. *)
Definition joined (m m' : member) : member :=
  Member (g_method m) (g_text m) (g_r m) (g_mtime m) (g_xfl m) (g_os m) (g_extra m) (g_name m) (g_comment m) (g_crc16 m)
    (g_content m ++ u 4 (g_crc m) ++ u 4 (g_size m) ++ gz_head m' ++ gz_extra m' ++ gz_name m' ++ gz_comment m' ++ gz_crc16 m' ++ g_content m') (g_crc m') (g_size m').
Theorem C75_two_refuted : forall read m m', serves read (gzip m ++ gzip m') -> is_bytes (gzip m ++ gzip m') -> gzip_ok m -> gzip_ok m' -> g_extra m <> Some [] -> zlen (gzip m ++ gzip m') <= 2 ^ 64 ->
  GzipParser read (8 * zlen (gzip m ++ gzip m')) = (gz_fields (joined m m'), None, 8 * zlen (gzip m ++ gzip m')).
Proof.
  intros read m m' Hs Hb Om Om' X L. assert (E : gzip m ++ gzip m' = gzip (joined m m')).
  { unfold gzip, joined, gz_head, flag_bits, xfl_bits, gz_extra, gz_name, gz_comment, gz_crc16. cbn [g_method g_text g_r g_mtime g_xfl g_os g_extra g_name g_comment g_crc16 g_content g_crc g_size]. rewrite <- !app_assoc. reflexivity. }
  rewrite E in *. apply C75_members; auto. destruct Om as (A1 & A2 & A3 & A4 & A5 & A6 & A7 & A8 & A9 & A10), Om' as (B1 & B2 & B3 & B4 & B5 & B6 & B7 & B8 & B9 & B10).
  unfold gzip_ok. unfold gzip in L. rewrite !zlen_app in L. cbn [joined g_method g_text g_r g_mtime g_xfl g_os g_extra g_name g_comment g_crc16 g_content g_crc g_size] in *.
  repeat split; try assumption; try lia. rewrite !zlen_app in *. pose proof (zlen_nonneg (gz_head (joined m m'))). pose proof (zlen_nonneg (gz_extra (joined m m'))). pose proof (zlen_nonneg (gz_name (joined m m'))). pose proof (zlen_nonneg (gz_comment (joined m m'))). pose proof (zlen_nonneg (gz_crc16 (joined m m'))). pose proof (zlen_nonneg (u 4 (g_crc m'))). pose proof (zlen_nonneg (u 4 (g_size m'))). lia.
Qed.
Print Assumptions C75_two_refuted.

(** A concrete file: with a name, an extra field, a comment and a checksum of the header *)
Definition a_member : member := Member 8 true (false, false, false) 0x12345678 (false, (true, false), (false, false, false, false, false)) 3 (Some [7; 8]) (Some (lit "a")) (Some (lit "hi")) (Some 0x1234) [3; 0] 0 0.
Example C75_a_file : gzip_ok a_member /\ g_extra a_member <> Some [] /\ is_bytes (gzip a_member) /\
  GzipParser (string_read (gzip a_member)) (8 * zlen (gzip a_member)) = (gz_fields a_member, None, 8 * zlen (gzip a_member)) /\
  gzip_validate (string_read (gzip a_member)) (8 * zlen (gzip a_member)) = Ok true /\
  nth_error (gz_fields a_member) 16 = Some (line_at (lit "filename") 14 (lit "a")).
Proof.
  repeat apply conj; try (vm_compute; intuition congruence); try (cbn; intuition discriminate).
  - repeat constructor; vm_compute; intuition congruence.
Qed.

(** C68: what the tar parser shows of an archive. *)
From Coq Require Import String.
From Verif Require Import Base BaseProofs ChunkBase ToolsModel TextModel DictModel DictProofs TorrentModel TarModel TarSpec TarProofs Lit.
Open Scope Z_scope.
Ltac Zify.zify_post_hook ::= Z.div_mod_to_equations.

(** ** C68 *)
(** The files of an archive are all shown, in order, with their names, numbers and
    contents, and the end of the archive is found, whatever is after it. *)
Theorem C68_members : forall read l b after, let data := b ++ List.repeat 0 1024 ++ after in
  serves read data -> is_bytes data -> members l b ->
  exists es, TarFile read (8 * zlen data) = Ok (es, Some (8 * zlen b)) /\ listed data 0 l es (zlen b).
Proof.
  intros read l b after data Hs Hb M.
  assert (O : occurs_at b data 0) by apply (occ_pre [] b).
  assert (T : occurs_at (List.repeat 0 1024) data (zlen b)) by apply occ_pre.
  assert (L : 512 * Z.of_nat (List.length l) <= zlen b).
  { clear -M. induction M as [|m h pad l b H Z P E M IH]; [cbn; lia|]. assert (zlen h = 512) as L by apply H. rewrite !zlen_app, L. cbn [List.length].
    pose proof (zlen_nonneg (m_content m)). lia. }
  pose proof (occ_in _ _ _ O) as B. pose proof (zlen_nonneg b).
  destruct (members_listed read data Hs Hb l b M 0 O (S (Z.to_nat (zlen data) - List.length l))) as (es & Ls & R).
  exists es. split; [|exact Ls]. unfold TarFile. replace (8 * zlen data / 8) with (zlen data) by lia.
  specialize (R ([], Some (8 * zlen b))). cbn [fst snd] in R. rewrite app_nil_r in R. rewrite <- R.
  - f_equal. lia.
  - rewrite Z.add_0_l. apply (terminator_at read data Hs Hb). exact T.
Qed.
Print Assumptions C68_members.
Definition pad_to (n : Z) (t : list Z) : list Z := t ++ List.repeat 0 (Z.to_nat (n - zlen t)).
Definition ex_header (name size prefix : str) : list Z :=
  pad_to 100 name ++ pad_to 8 (lit "0000644") ++ pad_to 8 (lit "   1750") ++ pad_to 8 (lit "0000144 ") ++ pad_to 12 size ++ pad_to 12 (lit "14513327403") ++
  pad_to 8 (lit "012345") ++ [48] ++ pad_to 100 [] ++ lit "ustar  " ++ [0] ++ pad_to 32 (lit "me") ++ pad_to 32 (lit "us") ++ pad_to 16 [] ++ pad_to 155 prefix ++ pad_to 12 [].
Definition ex_member := {| m_name := lit "a.txt"; m_prefix := lit "dir"; m_type := 48; m_mode := 420; m_uid := 1000; m_gid := 100; m_mtime := 1697492739;
  m_link := []; m_user := lit "me"; m_group := lit "us"; m_content := lit "hello" |}.
Lemma ex_header_ok : header ex_member (ex_header (lit "a.txt") (lit "00000000005") (lit "dir")).
Proof.
  assert (T : forall t, Forall (fun c => c <> 0) t -> forall k, text_field (t ++ List.repeat 0 k) t).
  { intros t F k. split; [exists (List.repeat 0 k); split; [reflexivity|]|].
    - apply Forall_forall. intros x I. apply repeat_spec in I. congruence.
    - intros I. rewrite Forall_forall in F. apply (F 0 I). reflexivity. }
  assert (R : forall k, Forall (eq 0) (List.repeat 0 k)) by (intros k; apply Forall_forall; intros x I; apply repeat_spec in I; congruence).
  unfold header, ex_member. cbn [m_name m_prefix m_type m_mode m_uid m_gid m_mtime m_link m_user m_group m_content].
  split; [vm_compute; reflexivity|]. split; [apply (T (lit "a.txt") ltac:(repeat (apply Forall_cons; [discriminate|]); apply Forall_nil) 95%nat)|]. split; [discriminate|].
  Local Ltac oct sp ds bl := exists sp, ds, bl; split; [vm_compute; reflexivity|]; split; [repeat (apply Forall_cons; [reflexivity|]); apply Forall_nil|];
    split; [repeat (apply Forall_cons; [unfold blank_byte; lia|]); apply Forall_nil|]; split; [discriminate|]; split; [repeat (apply Forall_cons; [unfold octal_digit; lia|]); apply Forall_nil|vm_compute; reflexivity].
  split; [oct (@nil Z) [48; 48; 48; 48; 54; 52; 52] [0]|]. split; [oct [32; 32; 32] [49; 55; 53; 48] [0]|]. split; [oct (@nil Z) [48; 48; 48; 48; 49; 52; 52] [32]|].
  split; [oct (@nil Z) [48; 48; 48; 48; 48; 48; 48; 48; 48; 48; 53] [0]|]. split; [oct (@nil Z) [49; 52; 53; 49; 51; 51; 50; 55; 52; 48; 51] [0]|]. split; [vm_compute; reflexivity|].
  split; [apply (T [] ltac:(apply Forall_nil) 100%nat)|]. split; [right; vm_compute; reflexivity|].
  split; [apply (T (lit "me") ltac:(repeat (apply Forall_cons; [discriminate|]); apply Forall_nil) 30%nat)|].
  split; [apply (T (lit "us") ltac:(repeat (apply Forall_cons; [discriminate|]); apply Forall_nil) 30%nat)|].
  apply (T (lit "dir") ltac:(repeat (apply Forall_cons; [discriminate|]); apply Forall_nil) 152%nat).
Qed.
Example C68_members_ex : let b := ex_header (lit "a.txt") (lit "00000000005") (lit "dir") ++ lit "hello" ++ List.repeat 0 507 ++ [] in
  members [ex_member] b /\ serves (string_read (b ++ List.repeat 0 1024 ++ [1])) (b ++ List.repeat 0 1024 ++ [1]) /\
  match TarFile (string_read (b ++ List.repeat 0 1024 ++ [1])) (8 * (1024 + 1025)) with
  | Ok ([e], Some a) => e_name e = lit "a.txt" /\ e_content e = Some (8 * 512, 40, lit "a.txt") /\ described_name e = lit "dir/a.txt" /\ a = 8192
  | _ => False
  end.
Proof.
  cbv zeta. split; [|split; [apply string_serves|vm_compute; auto]].
  apply (ms_cons ex_member _ (List.repeat 0 507) [] []); [apply ex_header_ok| |vm_compute; split; discriminate || reflexivity|vm_compute; reflexivity|constructor].
  apply Forall_forall. intros x I. apply repeat_spec in I. congruence.
Qed.

(** An archive with at least one file is accepted. *)
Theorem C68_valid : forall read l b after, let data := b ++ List.repeat 0 1024 ++ after in
  serves read data -> is_bytes data -> members l b -> l <> [] -> tar_validate read (8 * zlen data) = Ok true.
Proof.
  intros read l b after data Hs Hb M N. destruct (C68_members read l b after Hs Hb M) as (es & E & Ls). fold data in E, Ls. unfold tar_validate.
  destruct M as [|m h pad l b H Z P E' M]; [congruence|].
  assert (O : occurs_at h data 0).
  { unfold data. rewrite <- app_assoc. apply (occ_pre [] h). }
  destruct O as (O1 & O2 & O3). assert (L : zlen h = 512) by apply H. rewrite L in *.
  rewrite (readBytes_serves read data) by (auto; lia). cbn [bind].
  assert (S8 : sub data 257 8 = sub h 257 8) by (rewrite <- O3, sub_sub by lia; reflexivity).
  assert (Sg : tar_sign (sub data 257 8) = true).
  { rewrite S8. destruct H as (_ & _ & _ & _ & _ & _ & _ & _ & _ & _ & [G|G] & _).
    - change 8 with (6 + 2). rewrite sub_app_split by lia. rewrite G. reflexivity.
    - rewrite G. reflexivity. }
  rewrite Sg. cbn [negb]. rewrite E. cbn [bind fst]. clearbody data. inversion Ls as [|p m0 l0 e es' k q Sh Sz Ls']; subst.
  destruct Sh as (_ & _ & _ & _ & _ & _ & -> & -> & _ & -> & _). reflexivity.
Qed.
Print Assumptions C68_valid.
Example C68_valid_ex : tar_validate (string_read (ex_header (lit "a.txt") (lit "00000000005") (lit "dir") ++ lit "hello" ++ List.repeat 0 1531)) (8 * 2048) = Ok true /\
  tar_validate (string_read (List.repeat 0 1024)) (8 * 1024) = Ok false.
Proof. vm_compute. auto. Qed.

(** On every file the parser stops; the entries it shows are whole numbers of blocks that
    follow one another, up to the terminator or to the end of the file. *)
Theorem C68_any : forall read data, serves read data -> ends read data -> is_bytes data ->
  match TarFile read (8 * zlen data) with
  | Ok (es, t) => exists n, follow 0 es n /\
      match t with Some a => a = 8 * (512 * n) /\ 512 * n < zlen data | None => zlen data <= 512 * n end
  | Err x => x = ReadStreamError \/ x = ParserError
  end.
Proof.
  intros read data Hs He Hb. unfold TarFile. replace (8 * zlen data / 8) with (zlen data) by lia. pose proof (zlen_nonneg data).
  apply (loop_any read data Hs He Hb (S (Z.to_nat (zlen data))) 0); lia.
Qed.
Print Assumptions C68_any.
Example C68_any_ex : exists e, TarFile (string_read (ex_header (lit "a") (lit "777") [])) (8 * 512) = Ok ([e], None) /\ e_size e = 8 * 1024 /\ follow 0 [e] 2 /\
  TarFile (string_read (lit "x")) 8 = Err ReadStreamError.
Proof.
  eexists. split; [vm_compute; reflexivity|]. split; [reflexivity|]. split; [|vm_compute; reflexivity].
  apply (fo_cons 0 _ [] 2); [reflexivity|reflexivity|lia|constructor].
Qed.

(** The content size counts one of the two null blocks at the end of an archive: the
    file that hachoir-subfile cuts out has one block less. *)
Theorem C68_content_size_refuted : forall read l b after r, let data := b ++ List.repeat 0 1024 ++ after in
  serves read data -> is_bytes data -> members l b -> TarFile read (8 * zlen data) = Ok r ->
  tar_content_size r = Ok (8 * (zlen (b ++ List.repeat 0 1024) - 512)).
Proof.
  intros read l b after r data Hs Hb M E. destruct (C68_members read l b after Hs Hb M) as (es & E' & _). fold data in E'. rewrite E in E'. apply ok_inj in E' as ->.
  unfold tar_content_size. cbn [snd]. f_equal. rewrite zlen_app. replace (zlen (List.repeat 0 1024)) with 1024 by (vm_compute; reflexivity). clear. lia.
Qed.
Print Assumptions C68_content_size_refuted.
Example C68_content_size_ex : match TarFile (string_read (ex_header (lit "a") (lit "0") [] ++ List.repeat 0 1024)) (8 * 1536) with
  Ok r => tar_content_size r = Ok (8 * 1024) | _ => False end.
Proof. vm_compute. reflexivity. Qed.

(** The size of a large file is in binary, after a byte 128: it is read as 0, the content
    is not shown, and its blocks are shown as other entries. *)
Theorem C68_large_refuted : forall read data p h b e, serves read data -> is_bytes data -> occurs_at h data p -> zlen h = 512 ->
  sub h 124 12 = 128 :: b -> FileEntry read (8 * p) = Ok e -> e_content e = None /\ e_size e = 8 * 512.
Proof.
  intros read data p h b e Hs Hb O L Hd E.
  assert (Sz : e_sizetext e = strip (fun c => existsb (Z.eqb c) [32; 0]) (sub h 124 12)).
  { unfold FileEntry in E. cbv zeta in E. rewrite !(str_field_at read data Hs h p) in E by (auto; lia). cbn [bind] in E.
    destruct (readBits _ _ _ _); [|discriminate]. cbn [bind] in E. injection E as <-. reflexivity. }
  assert (F : e_filesize e = 0).
  { unfold e_filesize. rewrite Sz, Hd. unfold octal2int.
    assert (S0 : exists u, strip (fun c => existsb (Z.eqb c) [32; 0]) (128 :: b) = 128 :: u).
    { unfold strip. change (lstrip (fun c => existsb (Z.eqb c) [32; 0]) (128 :: b)) with (128 :: b). cbn [rev].
      assert (G : forall r, exists r', lstrip (fun c => existsb (Z.eqb c) [32; 0]) (r ++ [128]) = r' ++ [128]).
      { induction r as [|x r IH]; [exists []; reflexivity|]. cbn [app lstrip]. destruct (existsb _ _); [exact IH|]. exists (x :: r). reflexivity. }
      destruct (G (rev b)) as (r' & ->). exists (rev r'). rewrite rev_app_distr. reflexivity. }
    destruct S0 as (u & ->). unfold py_int. change (skip_spaces (128 :: u)) with (128 :: u). cbn [rev].
    assert (G : forall r, exists r', skip_spaces (r ++ [128]) = r' ++ [128]).
    { induction r as [|x r IH]; [exists []; reflexivity|]. cbn [app skip_spaces]. destruct (is_space x); [exact IH|]. exists (x :: r). reflexivity. }
    destruct (G (rev u)) as (r' & ->). rewrite rev_app_distr. cbn [rev app]. reflexivity. }
  unfold e_content, e_size. rewrite F. split; reflexivity.
Qed.
Print Assumptions C68_large_refuted.
Example C68_large_ex : exists e, FileEntry (string_read (ex_header (lit "a") [128;0;0;0;2;0;0;0;0;0;0;1] [])) 0 = Ok e /\ e_content e = None.
Proof. eexists. split; [vm_compute; reflexivity|reflexivity]. Qed.
(** The content of a file with a prefix is given its name without the prefix. *)
Theorem C68_prefix_refuted : exists m data e, shows data 0 m e /\ exists a n, e_content e = Some (a, n, lit "a.txt") /\ m_path m = lit "dir/a.txt".
Proof.
  set (data := ex_header (lit "a.txt") (lit "00000000005") (lit "dir") ++ lit "hello").
  assert (O : occurs_at (ex_header (lit "a.txt") (lit "00000000005") (lit "dir")) data 0) by apply (occ_pre []).
  assert (C : occurs_at (lit "hello") data (0 + 512)) by (split; [vm_compute; discriminate|split; [vm_compute; discriminate|vm_compute; reflexivity]]).
  assert (Hb : is_bytes data) by (apply Forall_forall; intros x I; assert (F : forallb (fun x => (0 <=? x) && (x <? 256)) data = true) by (vm_compute; reflexivity); rewrite forallb_forall in F; specialize (F x I); unfold is_byte; lia).
  destruct (header_shows (string_read data) data (string_serves data) Hb 0 _ ex_member _ ex_header_ok O C eq_refl) as (e & E & Sh & _). exists ex_member, data, e. split; [exact Sh|].
  vm_compute in E. apply ok_inj in E as <-. eexists _, _. split; reflexivity.
Qed.
Print Assumptions C68_prefix_refuted.

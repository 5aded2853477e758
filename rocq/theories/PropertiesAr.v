(** C79: what the parser of Unix archives shows. *)
From Coq Require Import String.
From Verif Require Import Base BaseProofs BitsModel BitsSpec BitsProofs StreamModel StreamSpec StreamProofs StreamProofs2 DictModel DictProofs NumSpec NumRead ChunkBase FieldNames TorrentModel TorrentSpec TorrentProofs GenModel GenSpec GenProofs ItemSpec ItemProofs ItemProofs2 ZipSpec ArModel ArSpec Lit.
Open Scope Z_scope.
Ltac Zify.zify_post_hook ::= Z.div_mod_to_equations.

Lemma words_app : forall a b cur, words_from (a ++ 32 :: b) cur = words_from a cur ++ words b.
Proof.
  induction a as [|c a IH]; intros b cur; cbn [app words_from].
  - change (is_space 32) with true. cbn iota. destruct cur; reflexivity.
  - destruct (is_space c); [|apply IH]. destruct cur; rewrite IH; reflexivity.
Qed.
Lemma words_some : forall a cur, cur <> [] -> words_from a cur <> [].
Proof. induction a as [|c a IH]; intros cur N; cbn [words_from]; [destruct cur; [contradiction|discriminate]|]. destruct (is_space c); [destruct cur; [contradiction|discriminate]|apply IH; discriminate]. Qed.
Lemma words_name : forall h c, In c h -> 33 <= c <= 126 -> words h <> [].
Proof.
  unfold words. induction h as [|d h IH]; intros c I C; [contradiction|]. cbn [words_from]. destruct (is_space d) eqn:S; [|apply words_some; discriminate]. destruct I as [->|I]; [unfold is_space in S; lia|eapply IH; eauto].
Qed.
Lemma words_digits : forall t cur, Forall digit t -> words_from (t ++ 32 :: [96]) cur = words_from t cur ++ [[96]].
Proof. intros t cur _. apply words_app. Qed.
Lemma digits_word : forall t cur, Forall digit t -> t <> [] \/ cur <> [] -> words_from t cur = [rev cur ++ t].
Proof.
  induction t as [|d t IH]; intros cur D N; cbn [words_from].
  - destruct N as [N|N]; [contradiction|]. destruct cur; [contradiction|]. rewrite app_nil_r. reflexivity.
  - inversion D as [|? ? D1 D2]; subst. unfold digit in D1. unfold is_space. replace (((9 <=? d) && (d <=? 13)) || ((28 <=? d) && (d <=? 32)) || (d =? 133) || (d =? 160)) with false by lia. rewrite IH by (auto; right; discriminate). cbn [rev]. rewrite <- app_assoc. reflexivity.
Qed.
Lemma words_spaces n b : words (List.repeat 32 n ++ b) = words b.
Proof. induction n as [|n IH]; [reflexivity|]. cbn [List.repeat app]. unfold words in *. cbn [words_from]. exact IH. Qed.
Lemma header_words m : member_ok m -> exists h, h <> [] /\ words (header_of m) = h ++ [m_size m; [96]].
Proof.
  intros (_ & _ & (h & E & c & I & C) & (Ne & D & _) & L). exists (words h). split; [eapply words_name; eauto|]. unfold header_of. rewrite E, <- app_assoc. cbn [app]. unfold words at 1. rewrite words_app. f_equal.
  assert (X : exists n, (10 - List.length (m_size m) = S n)%nat) by (exists (9 - List.length (m_size m))%nat; unfold zlen in L; lia). destruct X as [n ->]. cbn [List.repeat app]. unfold words at 1. rewrite words_app, digits_word by auto. rewrite words_spaces. reflexivity.
Qed.
Section Read.
Context (read : read_fun) (data : list Z) (Hs : serves read data) (Hb : is_bytes data).
Lemma no_newline m : member_ok m -> ~ In 10 (header_of m).
Proof using Type.
  intros (_ & N & _ & (_ & D & _) & _) I. unfold header_of in I. rewrite !in_app_iff in I. destruct I as [I|[I|[I|I]]]; [exact (N I)| | |].
  - rewrite Forall_forall in D. specialize (D 10 I). unfold digit in D. lia.
  - apply repeat_spec in I. lia.
  - destruct I as [I|[]]. lia.
Qed.
Lemma entry_obeys stop p m k : member_ok m -> zlen (m_content m) <= 2 ^ 64 -> obeys read data stop p (ArchiveFileEntry k) [ISet (lit "file[]") (I (lit "header") (SLine 10 (header_of m)) :: some_bytes_item "content" (m_content m))] k.
Proof using Type.
  intros K L. unfold ArchiveFileEntry. assert (L48 : 48 <= zlen (header_of m)) by (destruct K as [K _]; unfold header_of; rewrite !zlen_app; pose proof (zlen_nonneg (m_size m)); pose proof (zlen_nonneg (List.repeat 32 (10 - List.length (m_size m)))); change (zlen [96]) with 1; lia).
  apply ob_open; [rewrite bytes_of_all_cons; cbn [bytes_of plain_bytes]; rewrite !zlen_app; change (zlen [10]) with 1; match goal with |- context [zlen (bytes_of_all ?l)] => pose proof (zlen_nonneg (bytes_of_all l)) end; lia| |apply ob_nil].
  apply ob_plain; [apply no_newline, K|reflexivity|]. cbn [plain_val bytes]. cbv zeta. destruct (header_words m K) as (h & Nh & E). rewrite E. assert (W : 3 <= zlen (h ++ [m_size m; [96]])) by (destruct h as [|w h]; [contradiction|]; rewrite zlen_app, zlen_cons; change (zlen [m_size m; [96]]) with 2; pose proof (zlen_nonneg h); lia). match goal with |- context [if ?b then PErr ParserError else _] => destruct b eqn:B3; [exfalso; change (zlen (h ++ [m_size m; [96]]) <? 3 = true) in B3; lia|] end.
  rewrite rev_app_distr. cbn [rev app nth]. destruct K as (_ & _ & _ & D & _). rewrite (py_int_decimal _ _ D). unfold some_bytes_item. destruct (m_content m) as [|x y] eqn:C; [apply ob_nil|]. rewrite <- C in *. pose proof (zlen_pos (m_content m) ltac:(rewrite C; discriminate)). replace (0 <? zlen (m_content m)) with true by lia. cbn [when].
  apply ob_plain; [split; [rewrite C; discriminate|exact L]|reflexivity|apply ob_nil].
Qed.
(** Members and empty lines *)
Definition token_items (t : option member) : list item :=
  match t with Some m => [ISet (lit "file[]") (I (lit "header") (SLine 10 (header_of m)) :: some_bytes_item "content" (m_content m))] | None => [I (lit "empty_line[]") (SBytes [10])] end.
Definition tokens (m : member) : list (option member) := Some m :: (if Z.odd (zlen (m_content m)) then [None] else []).
Lemma token_members ms : flat_map member_items ms = flat_map token_items (flat_map tokens ms).
Proof using Type. induction ms as [|m ms IH]; [reflexivity|]. cbn [flat_map]. rewrite flat_map_app, <- IH. f_equal. unfold member_items, tokens. destruct (Z.odd _); reflexivity. Qed.
Definition token_ok (t : option member) : Prop := match t with Some m => member_ok m | None => True end.
Lemma tokens_ok ms : Forall member_ok ms -> Forall token_ok (flat_map tokens ms).
Proof using Type. induction 1 as [|m ms K _ IH]; [constructor|]. cbn [flat_map]. apply Forall_app. split; [|exact IH]. constructor; [exact K|]. destruct (Z.odd _); repeat constructor. Qed.
Lemma content_small m : member_ok m -> zlen (m_content m) <= 2 ^ 64.
Proof using data.
  intros (_ & _ & _ & (Ne & D & U & _) & L). rewrite <- U. assert (X : forall t acc, Forall digit t -> 0 <= acc -> undec acc t < (acc + 1) * 10 ^ zlen t).
  { induction t as [|d t IH]; intros acc Dt A; [change (zlen (@nil Z)) with 0; cbn [undec]; lia|]. inversion Dt as [|? ? D1 D2]; subst. unfold digit in D1. cbn [undec]. rewrite zlen_cons. pose proof (zlen_nonneg t). rewrite Z.pow_add_r by lia. change (10 ^ 1) with 10. specialize (IH (10 * acc + (d - 48)) D2 ltac:(lia)). pose proof (Z.pow_pos_nonneg 10 (zlen t) ltac:(lia) ltac:(lia)). nia. }
  specialize (X (m_size m) 0 D ltac:(lia)). pose proof (Z.pow_le_mono_r 10 (zlen (m_size m)) 9 ltac:(lia) L). change (10 ^ 9) with 1000000000 in *. lia.
Qed.
Lemma token_obeys stop p t k : token_ok t -> obeys read data stop p (ar_entry k) (token_items t) k.
Proof using Hs Hb.
  intros K. unfold ar_entry. destruct t as [m|]; cbn [token_items token_ok] in *.
  - set (it := ISet (lit "file[]") _). pose proof K as (_ & _ & (h & Eh & c & Ic & _) & _). destruct h as [|y h]; [contradiction|]. apply (ob_do _ _ _ _ _ _ (VBytes [y])).
    + intros [O _]. rewrite bytes_of_all_cons in O. apply occ_app in O as [O _]. assert (Ey : exists z, bytes_of it = [y] ++ z). { unfold it. change (bytes_of (ISet ?n ?l)) with (bytes_of_all l). rewrite bytes_of_all_cons. cbn [bytes_of plain_bytes]. unfold header_of. rewrite Eh. cbn [app]. eexists. reflexivity. }
      destruct Ey as [z Ey]. rewrite Ey in O. apply occ_app in O as [O _]. pose proof (rb_occ read data Hs p _ O ltac:(discriminate)) as R. change (zlen [y]) with 1 in R. rewrite R. reflexivity.
    + cbn [bytes]. replace (str_eqb [y] [10]) with false; [apply entry_obeys; [exact K|apply content_small, K]|]. symmetry. destruct (str_eqb [y] [10]) eqn:S; [|reflexivity]. apply str_eqb_eq in S. apply (f_equal (hd 0)) in S. cbn [hd] in S. subst y. exfalso. destruct K as (_ & N & _). apply N. rewrite Eh. left. reflexivity.
  - apply (ob_do _ _ _ _ _ _ (VBytes [10])).
    + intros [O _]. rewrite bytes_of_all_cons in O. apply occ_app in O as [O _]. cbn [bytes_of plain_bytes] in O. pose proof (rb_occ read data Hs _ _ O ltac:(discriminate)) as R. change (zlen [10]) with 1 in R. rewrite R. reflexivity.
    + cbn [bytes]. change (str_eqb [10] [10]) with true. cbn iota. apply ob_plain; [split; [discriminate|vm_compute; discriminate]|reflexivity|apply ob_nil].
Qed.
Lemma token_len t : 1 <= zlen (bytes_of_all (token_items t)).
Proof using Type.
  destruct t as [m|]; [|vm_compute; discriminate]. cbn [token_items]. rewrite bytes_of_all_cons, app_nil_r. change (bytes_of (ISet ?n ?l)) with (bytes_of_all l). rewrite bytes_of_all_cons, zlen_app. cbn [bytes_of plain_bytes]. rewrite zlen_app. change (zlen [10]) with 1. pose proof (zlen_nonneg (header_of m)). match goal with |- context [zlen (bytes_of_all ?l)] => pose proof (zlen_nonneg (bytes_of_all l)) end. lia.
Qed.
Lemma tokens_obey : forall ts n p stop, Forall token_ok ts -> (List.length ts <= n)%nat -> 8 * (p + zlen (bytes_of_all (flat_map token_items ts))) <= stop -> obeys read data stop p (loop ar_entry n) (flat_map token_items ts) (loop ar_entry (n - List.length ts)).
Proof using Hs Hb.
  induction ts as [|t ts IH]; intros n p stop K N St; [replace (n - _)%nat with n by (cbn [List.length]; lia); apply ob_nil|]. destruct n as [|n]; [cbn [List.length] in N; lia|]. cbn [List.length flat_map] in *. change (S n - S (List.length ts))%nat with (n - List.length ts)%nat. inversion K as [|? ? K1 K2]; subst.
  rewrite bytes_of_all_app, zlen_app in St. pose proof (token_len t). pose proof (zlen_nonneg (bytes_of_all (flat_map token_items ts))). eapply ob_app; [|apply IH; [exact K2|lia|lia]]. cbn [loop]. apply ob_ask. replace (stop <=? 8 * p) with false by lia. apply token_obeys, K1.
Qed.
Lemma tokens_count ts : Z.of_nat (List.length ts) <= zlen (bytes_of_all (flat_map token_items ts)).
Proof using Type. induction ts as [|t ts IH]; [cbn; lia|]. cbn [List.length flat_map]. rewrite bytes_of_all_app, zlen_app. pose proof (token_len t). lia. Qed.
Lemma ar_obeys stop ms : Forall member_ok ms -> 8 * zlen (bytes_of_all (ar ms)) <= stop -> exists n, obeys read data stop 0 (ar_fields stop) (ar ms) (loop ar_entry (S n)).
Proof using Hs Hb.
  intros K St. unfold ar, ar_fields in *. rewrite token_members in *. set (ts := flat_map tokens ms) in *. rewrite bytes_of_all_cons, zlen_app in St. change (zlen (bytes_of (I (lit "id") (SText ar_magic)))) with 8 in St. pose proof (tokens_count ts). exists (Z.to_nat stop - List.length ts)%nat.
  apply ob_plain; [split; [discriminate|vm_compute; discriminate]|reflexivity|]. change (0 + len (I (lit "id") (SText ar_magic))) with 8. replace (S (Z.to_nat stop - List.length ts)) with (S (Z.to_nat stop) - List.length ts)%nat by lia. apply tokens_obey; [apply tokens_ok, K|lia|lia].
Qed.
End Read.
(** For every archive: its members, each with its header and contents, and the bytes between them. *)
Theorem C79_members : forall read ms, let data := bytes_of_all (ar ms) in serves read data -> is_bytes data -> Forall member_ok ms -> ArchiveFile read (8 * zlen data) = (shows (ar ms) 0, None, 8 * zlen data).
Proof.
  intros read ms data Hs Hb K. unfold ArchiveFile. apply (obey_file read data Hs Hb); [reflexivity|]. destruct (ar_obeys read data Hs Hb (8 * zlen data) ms K ltac:(fold data; lia)) as [n H]. rewrite <- (app_nil_r (ar ms)). eapply ob_app; [exact H|]. cbn [loop]. apply ob_ask. fold data. replace (8 * zlen data <=? 8 * (0 + zlen data)) with true by lia. apply ob_nil.
Qed.
Print Assumptions C79_members.
(** For every file that starts with members, whatever follows: they are shown first. *)
Theorem C79_prefix : forall read ms rest, let data := bytes_of_all (ar ms) ++ rest in serves read data -> is_bytes data -> Forall member_ok ms -> exists r, ArchiveFile read (8 * zlen data) = puts (shows (ar ms) 0) r.
Proof.
  intros read ms rest data Hs Hb K. unfold ArchiveFile. assert (Zd : zlen data = zlen (bytes_of_all (ar ms)) + zlen rest) by apply zlen_app. pose proof (zlen_nonneg rest). destruct (ar_obeys read data Hs Hb (8 * zlen data) ms K ltac:(lia)) as [n H1]. eapply (obey_start read data Hs Hb); [exact H1|]. apply (occ_pre []).
Qed.
Print Assumptions C79_prefix.
(** Every file. *)
Theorem C79_any : forall read data, serves read data -> ends read data -> is_bytes data -> data <> [] ->
  let '(l, e, b) := ArchiveFile read (8 * zlen data) in tiled 0 l b /\ b <= 8 * zlen data /\ settled_file (l, e, b).
Proof.
  intros read data Hs He Hb Hd. apply (any_file read data Hs Hb He Hd). pose proof (zlen_nonneg data). unfold ar_fields. calm_step. apply safe_loop; [|unfold least; lia]. intros m k K. unfold ar_entry. apply safe_do. intros stop a A. pose proof (bytes_any read data Hs He a 1 ltac:(lia) ltac:(lia)) as R. destruct (readBytes read a 1) as [b|e]; cbn [bind]; [|exact R].
  clear R. cbn iota. cbn [bytes]. destruct (str_eqb _ _); [calm_step; eapply safe_more; [exact K|unfold least; lia]|]. unfold ArchiveFileEntry. calm_step; [|exact K]. calm_step. cbv zeta. destruct (zlen _ <? 3); [calm_step|]. destruct (py_int 10 _); repeat calm_step.
Qed.
Print Assumptions C79_any.
(** A file is accepted exactly when it starts with the eight bytes of archives. *)
Theorem C79_valid : forall read data, serves read data -> 8 <= zlen data -> ar_validate read = Ok (str_eqb (sub data 0 8) ar_magic).
Proof.
  intros read data Hs L. unfold ar_validate. pose proof (occ_sub data 0 8 ltac:(lia) ltac:(lia) ltac:(lia)) as O. assert (Lx : zlen (sub data 0 8) = 8) by (rewrite zlen_sub_exact; lia). pose proof (rb_occ read data Hs 0 _ O ltac:(intros X; rewrite X in Lx; discriminate)) as R. rewrite Lx in R. change (8 * 0) with 0 in R. rewrite R. reflexivity.
Qed.
Print Assumptions C79_valid.
(** The description of a member has the first word of its header: its name, up to the first space. *)
Lemma word_first : forall w cur t, Forall (fun c => 33 <= c <= 126) w -> w <> [] \/ cur <> [] -> words_from (w ++ 32 :: t) cur = (rev cur ++ w) :: words t.
Proof.
  induction w as [|c w IH]; intros cur t W N; cbn [app words_from].
  - change (is_space 32) with true. cbn iota. rewrite app_nil_r. destruct N as [N|N]; [contradiction|]. destruct cur; [contradiction|reflexivity].
  - inversion W as [|? ? W1 W2]; subst. replace (is_space c) with false by (unfold is_space; lia). rewrite IH by (auto; right; discriminate). cbn [rev]. rewrite <- app_assoc. reflexivity.
Qed.
Theorem C79_description : forall m w t, m_head m = w ++ 32 :: t -> w <> [] -> Forall (fun c => 33 <= c <= 126) w -> ar_description (header_of m) = Ok (lit "File entry (" ++ w ++ lit ")").
Proof. intros m w t E N W. unfold ar_description, header_of, words. rewrite E, <- app_assoc. cbn [app]. rewrite word_first by auto. reflexivity. Qed.
Print Assumptions C79_description.
Definition a_member (name : string) (size content : list Z) : member := Member (lit name ++ lit "0           0     0     100644  ") size content.
Definition members : list member := [a_member "foo.c/          " (lit "3") [1; 2; 3]; a_member "bar.c/          " (lit "0") []; a_member "a b/            " (lit "4") [10; 10; 10; 10]; a_member "x/              " (lit "1") [9]].
Ltac good := repeat apply Forall_cons; try apply Forall_nil; (split; [reflexivity|]; split; [vm_compute; intuition discriminate|]; split; [match goal with |- exists h, m_head ?m = _ /\ _ => exists (firstn 47 (m_head m)) end; split; [reflexivity|]; exists 47; split; [vm_compute; tauto|lia]|]; split; [|vm_compute; discriminate]; split; [discriminate|]; split; [repeat constructor; vm_compute; discriminate|]; split; [reflexivity|]; intros l E; vm_compute in E; congruence).
Example C79_files : Forall member_ok members /\ zlen (bytes_of_all (ar members)) = 258 /\ ArchiveFile (string_read (bytes_of_all (ar members))) (8 * 258) = (shows (ar members) 0, None, 8 * 258) /\
  map f_name (shows (ar members) 0) = map lit ["id"; "file[]"; "empty_line[]"; "file[]"; "file[]"; "file[]"; "empty_line[]"]%string /\
  ar_description (header_of (hd (Member [] [] []) members)) = Ok (lit "File entry (foo.c/)").
Proof. split; [good|]. split; [vm_compute; reflexivity|]. split; [vm_compute; reflexivity|]. split; vm_compute; reflexivity. Qed.
(** A member of 1000000000 bytes or more: its size takes the ten bytes, no space is found before the two last characters of the header, and the parser reads the mode as the size: it
    shows 100644 bytes, and takes what follows for other members (ar.py:15-19). *)
Definition large : list Z := lit "large.bin/      0           0     0     100644  1234567890`".
Theorem C79_large_refuted : forall read content rest, zlen content = 1234567890 -> let data := ar_magic ++ large ++ [10] ++ content ++ rest in serves read data -> is_bytes data ->
  exists r, ArchiveFile read (8 * zlen data) = puts (shows [I (lit "id") (SText ar_magic); ISet (lit "file[]") [I (lit "header") (SLine 10 large); I (lit "content") (SBytes (sub content 0 100644))]] 0) r.
Proof.
  intros read content rest L data Hs Hb. unfold ArchiveFile. set (x := sub content 0 100644). assert (Lx : zlen x = 100644) by (unfold x; rewrite zlen_sub_exact; lia).
  assert (Ec : content = x ++ skipn (Z.to_nat 100644) content) by (unfold x, sub; cbn [Z.to_nat skipn]; rewrite firstn_skipn; reflexivity).
  set (l := [I _ _; ISet _ _]). assert (El : data = bytes_of_all l ++ skipn (Z.to_nat 100644) content ++ rest).
  { unfold data, l. rewrite Ec at 1. rewrite !bytes_of_all_cons. change (bytes_of (ISet ?n ?l)) with (bytes_of_all l). rewrite !bytes_of_all_cons. cbn [bytes_of plain_bytes]. rewrite !app_nil_r, <- !app_assoc. reflexivity. }
  assert (Ne : x <> []) by (intros E; rewrite E in Lx; discriminate).
  eapply (obey_start read data Hs Hb _ l (loop ar_entry _)); [|rewrite El; apply (occ_pre [])]. unfold ar_fields, l. apply ob_plain; [split; [discriminate|vm_compute; discriminate]|reflexivity|]. assert (Zd : 1000000 <= zlen data) by (unfold data; rewrite !zlen_app, L; pose proof (zlen_nonneg rest); pose proof (zlen_nonneg ar_magic); pose proof (zlen_nonneg large); change (zlen [10]) with 1; lia).
  cbn [loop]. apply ob_ask. change (0 + len (I (lit "id") (SText ar_magic))) with 8. replace (8 * zlen data <=? 8 * 8) with false by lia. unfold ar_entry at 1. apply (ob_do _ _ _ _ _ _ (VBytes (lit "l"))).
  - intros [O _]. rewrite bytes_of_all_cons in O. apply occ_app in O as [O _]. change (bytes_of (ISet ?n ?l)) with (bytes_of_all l) in O. rewrite bytes_of_all_cons in O. apply occ_app in O as [O _]. cbn [bytes_of plain_bytes] in O. apply occ_app in O as [O _]. change large with (lit "l" ++ skipn 1 large) in O. apply occ_app in O as [O _]. pose proof (rb_occ read data Hs _ _ O ltac:(discriminate)) as R. change (zlen (lit "l")) with 1 in R. rewrite R. reflexivity.
  - cbn [bytes]. change (str_eqb (lit "l") [10]) with false. cbn iota. unfold ArchiveFileEntry. apply ob_open; [rewrite bytes_of_all_cons, zlen_app; change (zlen (bytes_of (I (lit "header") (SLine 10 large)))) with 60; match goal with |- context [zlen (bytes_of_all ?l)] => pose proof (zlen_nonneg (bytes_of_all l)) end; lia| |apply ob_nil].
    apply ob_plain; [vm_compute; intuition discriminate|reflexivity|]. cbn [plain_val bytes]. change (zlen (words large) <? 3) with false. change (py_int 10 (nth 1 (rev (words large)) [])) with (Some 100644). cbn iota. change (0 <? 100644) with true. cbn [when]. rewrite <- Lx. apply ob_plain; [split; [exact Ne|lia]|reflexivity|apply ob_nil].
Qed.
Print Assumptions C79_large_refuted.
Example C79_large : exists content : list Z, zlen content = 1234567890.
Proof. exists (List.repeat 0 (Z.to_nat 1234567890)). unfold zlen. rewrite repeat_length. lia. Qed.

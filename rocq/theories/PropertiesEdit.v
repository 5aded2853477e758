(** Theorems about the editor: what is written, and the size, length and addresses
    announced before writing. *)
From Coq Require Import String.
From Verif Require Import Base BaseProofs BitsModel BitsSpec StreamModel StreamSpec StreamProofs DictModel Lit OutputModel OutputProofs
  EditModel EditSpec EditProofs EditProofs4 EditProofs5 EditProofs6 EditProofs7.
Open Scope Z_scope.
Ltac Zify.zify_post_hook ::= Z.div_mod_to_equations.

(** Without edits, the editor writes exactly the bytes of the parsed field set. *)
Theorem C31_unmodified : forall data input nm e a s children st,
  is_bytes data -> serves input data ->
  0 <= a -> 0 <= s -> a + s <= 8 * zlen data -> a mod 8 = 0 -> s mod 8 = 0 ->
  is_bytes (out st) -> bit_pos st = 0 -> byte st = 0 ->
  exists st', writeInto input (createEditor (ISet nm e a s children)) st = Ok st' /\
              out st' = out st ++ sub data (a / 8) (s / 8) /\ bit_pos st' = 0.
Proof.
  intros data input nm e a s children st Hd Hs H1 H2 H3 H4 H5 H6 H7 H8.
  destruct (unmodified_copy data input (ISet nm e a s children) st Hd Hs ltac:(eauto 10) (conj H1 (conj H2 (conj H3 (conj H4 H5)))) (conj H6 (conj H7 H8)))
    as (st' & E & (_ & B & _) & O). exists st'. auto.
Qed.
Print Assumptions C31_unmodified.

(** With edits, on a tree whose fields are made of whole bytes: writing succeeds and
    writes the edited document. *)
Theorem C31_edited_bytes : forall data input i l n st,
  is_bytes data -> serves input data ->
  parsed (bytes_range data) real_endian i -> (exists nm e a s ch, i = ISet nm e a s ch) ->
  edited fits_bytes (createEditor i) l n -> byte_aligned st ->
  exists st', writeInto input n st = Ok st' /\ bit_pos st' = 0 /\
    out st' = out st ++ flatten (final_doc (orig_bytes data) enc_bytes i l).
Proof.
  intros data input i l n st Hd Hs P IS E A. destruct (editor_bytes data Hd input Hs i l n P IS E) as (W & _).
  destruct (W st A) as (st' & E1 & (_ & B & _) & O). exists st'. auto.
Qed.
Print Assumptions C31_edited_bytes.

(** With edits, on any tree of one endianness: when writing succeeds, the edited
    document was written, bit for bit. *)
Theorem C31_edited_bits : forall e data input i l n st st',
  e <> MIDDLE_ENDIAN -> is_bytes data -> serves input data ->
  parsed (bits_range data) (fun e' => e' = e) i -> (exists nm e a s ch, i = ISet nm e a s ch) ->
  edited fits (createEditor i) l n -> wf_out e st -> writeInto input n st = Ok st' ->
  obits e st' = obits e st ++ flatten (final_doc (orig_bits e data) enc_bits i l).
Proof.
  intros e data input i l n st st' He Hd Hs P IS E Hw H.
  destruct (editor_bits e He data Hd input Hs i l n P IS E) as (W & _). exact (W st st' Hw H).
Qed.
Print Assumptions C31_edited_bits.

(** The fields that no edit mentions are in the edited document, unchanged and in
    the order of the file. *)
Theorem C31_unedited_kept : forall A (orig : Z -> Z -> list A) enc i l ds,
  (exists nm e a s ch, i = ISet nm e a s ch) -> final_doc orig enc i l = Node ds ->
  filter (fun kv => untouched l (fst kv)) ds =
  filter (fun kv => untouched l (fst kv)) (map (fun c => (i_name c, idoc orig c)) (i_children i)).
Proof. intros A orig enc i l ds. exact (unedited_kept orig enc i l ds). Qed.
Print Assumptions C31_unedited_kept.
(** The document of a parsed field is its original content. *)
Theorem C31_field_content : forall data i, is_bytes data -> parsed (bytes_range data) real_endian i ->
  flatten (idoc (orig_bytes data) i) = sub data (i_addr i / 8) (i_size i / 8).
Proof.
  intros data i Hd P.
  apply (flatten_idoc 8 (string_read data) (bytes_R) (bytes_range data) real_endian fits_bytes (orig_bytes data) enc_bytes bytes_R_refl bytes_R_trans); try assumption.
  - intros a m H. apply H.
  - intros a m k (H1 & H2 & H3 & H4 & H5) (H6 & H7 & H8 & H9 & H10) H11. unfold bytes_range. repeat split; lia.
  - intros a. apply sub_0.
  - intros a m k (H1 & H2 & H3 & H4 & H5) (H6 & H7 & H8 & H9 & H10). unfold orig_bytes.
    replace ((a + m) / 8) with (a / 8 + m / 8) by lia. replace ((m + k) / 8) with (m / 8 + k / 8) by lia. symmetry. apply sub_app_split; lia.
  - intros a m (H1 & H2 & H3 & H4 & H5). unfold orig_bytes. rewrite zlen_sub_exact by lia. lia.
  - intros; eapply bytes_copy_bits; try eassumption. apply string_serves.
  - intros; eapply bytes_copy_bytes; try eassumption. apply string_serves.
  - intros; eapply bytes_write_value; eassumption.
  - intros; eapply bytes_enc_len; eassumption.
Qed.
Print Assumptions C31_field_content.

(** A value that the editor accepts fits in its field, but for signed 8-bit integers. *)
Theorem C31_accepted_fits : forall k size v,
  sane_kind k size -> bytes_value v -> ~ (k = KInt true /\ size = 8) ->
  check_value k size v = Ok tt -> fits k size v.
Proof. exact accepted_fits. Qed.
Print Assumptions C31_accepted_fits.

(** After any history of edits: the size is the number of bits of the document, the
    length is its number of fields, and an address is the number of bits before the
    field. *)
Theorem C32_bytes : forall data input i l n,
  is_bytes data -> serves input data ->
  parsed (bytes_range data) real_endian i -> (exists nm e a s ch, i = ISet nm e a s ch) ->
  edited fits_bytes (createEditor i) l n ->
  (forall st, byte_aligned st -> exists st', writeInto input n st = Ok st' /\
     total st' - total st = editor_size input n) /\
  exists ds, final_doc (orig_bytes data) enc_bytes i l = Node ds /\
    map v_name (iter_views input n) = map fst ds /\ editor_len n = zlen ds /\
    forall name a, editor_address input n name = Ok a <->
      exists l1 x l2, ds = l1 ++ (name, x) :: l2 /\ ~ In name (map fst l1) /\ a = 8 * zlen (flatten (Node l1)).
Proof.
  intros data input i l n Hd Hs P IS E. destruct (editor_bytes data Hd input Hs i l n P IS E) as (W & Sz & R). split; [|exact R].
  intros st A. destruct (W st A) as (st' & E1 & (_ & B & _) & O). exists st'. split; [exact E1|].
  rewrite Sz. unfold total. rewrite O, zlen_app, B. destruct A as (_ & -> & _). lia.
Qed.
Print Assumptions C32_bytes.
Theorem C32_bits : forall e data input i l n,
  e <> MIDDLE_ENDIAN -> is_bytes data -> serves input data ->
  parsed (bits_range data) (fun e' => e' = e) i -> (exists nm e a s ch, i = ISet nm e a s ch) ->
  edited fits (createEditor i) l n ->
  (forall st st', wf_out e st -> writeInto input n st = Ok st' -> zlen (obits e st') - zlen (obits e st) = editor_size input n) /\
  exists ds, final_doc (orig_bits e data) enc_bits i l = Node ds /\
    map v_name (iter_views input n) = map fst ds /\ editor_len n = zlen ds /\
    forall name a, editor_address input n name = Ok a <->
      exists l1 x l2, ds = l1 ++ (name, x) :: l2 /\ ~ In name (map fst l1) /\ a = zlen (flatten (Node l1)).
Proof.
  intros e data input i l n He Hd Hs P IS E. destruct (editor_bits e He data Hd input Hs i l n P IS E) as (W & Sz & R). split; [|exact R].
  intros st st' Hw H. rewrite (W st st' Hw H), zlen_app, Sz. lia.
Qed.
Print Assumptions C32_bits.

(** ** A concrete case *)
Definition ex_data : list Z := [1; 2; 3; 4; 5; 6; 7; 8].
Definition ex_tree : inode :=
  ISet (lit "root") LITTLE_ENDIAN 0 64
    [ILeaf (lit "a") (KInt false) 0 16;
     ISet (lit "h") BIG_ENDIAN 16 24 [ILeaf (lit "x") (KInt false) 16 16; ILeaf (lit "y") KBytes 32 8];
     ILeaf (lit "s") (KString FFixed 0 []) 40 16; ILeaf (lit "z") (KInt true) 56 8].
Definition ex_edits : list edit :=
  [Assign [lit "h"; lit "x"] (VInt 258); Delete [] (lit "s");
   Insert [] (Some (lit "h")) true [new_integer (lit "n") false 16 772; new_string (lit "m") FSuffix [0] [65; 66]];
   Assign [lit "a"] (VInt 513); Insert [lit "h"] None true [new_integer (lit "q") false 8 255]].
Ltac ptree :=
  match goal with
  | |- parsed _ _ _ => constructor
  | |- Forall _ _ => constructor
  | |- real_endian _ => unfold real_endian; discriminate
  | |- _ = BIG_ENDIAN => reflexivity
  | |- NoDup _ => constructor
  | |- ~ In _ _ => cbn [map i_name In]; intros H; repeat destruct H as [H|H]; try contradiction; vm_compute in H; discriminate
  | |- tiles _ _ _ => cbn; repeat split
  end.
Example ex_parsed : parsed (bytes_range ex_data) real_endian ex_tree.
Proof.
  assert (R : forall a n, (0 <=? a) && (0 <=? n) && (a + n <=? 64) && (a mod 8 =? 0) && (n mod 8 =? 0) = true -> bytes_range ex_data a n).
  { intros a n H. unfold bytes_range. change (zlen ex_data) with 8. repeat (apply andb_prop in H; destruct H as [H ?]). repeat split; lia. }
  repeat ptree; apply R; reflexivity.
Qed.
Ltac look := unfold expected; match goal with |- context [get_path ?n ?p] => let y := eval vm_compute in (get_path n p) in replace (get_path n p) with y by (vm_compute; reflexivity) end; cbv iota beta.
Ltac step := eapply edited_one; [look|vm_compute; reflexivity|].
Ltac value := split; [reflexivity|]; eexists; split; [reflexivity|]; cbn [fits_bytes fits new_integer new_string ef_kind ef_size].
Example ex_edited : exists n, edited fits_bytes (createEditor ex_tree) ex_edits n.
Proof.
  eexists. unfold ex_edits.
  step. { split; [cbn; repeat split; lia || reflexivity|exact I]. }
  step. { reflexivity. }
  step. { split; [constructor; [value; split; [repeat split; lia || reflexivity|exact I]|constructor; [value; split; [|exact I]|constructor]]|].
          - repeat split; repeat constructor; discriminate.
          - split; [discriminate|]. split; [reflexivity|]. right. split; [reflexivity|]. split; [reflexivity|]. reflexivity. }
  step. { split; [cbn; repeat split; lia || reflexivity|exact I]. }
  step. { split; [constructor; [value; split; [repeat split; lia || reflexivity|exact I]|constructor]|]. split; [reflexivity|]. left; reflexivity. }
  apply edited_none.
Qed.
Definition run (i : inode) (data : list Z) (l : list edit) : res (list Z) :=
  do n <- apply_edits (createEditor i) l; do st <- writeInto (string_read data) n ostream_init; Ok (out st).
Definition announced (i : inode) (data : list Z) (l : list edit) : res (Z * Z * list str) :=
  do n <- apply_edits (createEditor i) l;
  Ok (editor_size (string_read data) n, editor_len n, map v_name (iter_views (string_read data) n)).
Example ex_run : run ex_tree ex_data ex_edits = Ok [1; 2; 1; 2; 5; 255; 4; 3; 65; 66; 0; 8] /\
  flatten (final_doc (orig_bytes ex_data) enc_bytes ex_tree ex_edits) = [1; 2; 1; 2; 5; 255; 4; 3; 65; 66; 0; 8] /\
  announced ex_tree ex_data ex_edits = Ok (96, 5, [lit "a"; lit "h"; lit "n"; lit "m"; lit "z"]).
Proof. vm_compute. auto. Qed.
(** A tree with fields of a few bits. *)
Definition ex_bits_tree : inode :=
  ISet (lit "root") BIG_ENDIAN 0 16
    [ILeaf (lit "f") KBits 0 3; ILeaf (lit "g") KBits 3 6; ILeaf (lit "h") KBits 9 7].
Example ex_bits_parsed : parsed (bits_range [255; 1]) (fun e' => e' = BIG_ENDIAN) ex_bits_tree.
Proof.
  assert (R : forall a n, (0 <=? a) && (0 <=? n) && (a + n <=? 16) = true -> bits_range [255; 1] a n).
  { intros a n H. unfold bits_range. change (zlen [255; 1]) with 2. repeat (apply andb_prop in H; destruct H as [H ?]). repeat split; lia. }
  repeat ptree; apply R; reflexivity.
Qed.
Example ex_bits_run : run ex_bits_tree [255; 1] [Assign [lit "g"] (VInt 5)] = Ok [226; 129].
Proof. reflexivity. Qed.

(** ** What the editor does not do *)

(** A signed integer is not stored in two's complement: 5 is written as 133, and read
    back as -123. *)
Theorem C31_signed_refuted : exists i data v,
  run i data [Assign [lit "z"] (VInt v)] = Ok [v + 128] /\ v = 5 /\
  readInteger (string_read [v + 128]) 0 true 8 LITTLE_ENDIAN = Ok (-123).
Proof. exists (ISet (lit "root") LITTLE_ENDIAN 0 8 [ILeaf (lit "z") (KInt true) 0 8]), [1], 5. vm_compute. auto. Qed.
Print Assumptions C31_signed_refuted.
(** A signed 8-bit integer accepts 200, and is then written on two bytes: the size
    announced is not the size written. *)
Theorem C32_signed_size_refuted : exists i data l,
  run i data l = Ok [72; 1; 7] /\ announced i data l = Ok (16, 2, [lit "z"; lit "b"]).
Proof.
  exists (ISet (lit "root") LITTLE_ENDIAN 0 16 [ILeaf (lit "z") (KInt true) 0 8; ILeaf (lit "b") KBytes 8 8]), [1; 7], [Assign [lit "z"] (VInt 200)].
  vm_compute. auto.
Qed.
Print Assumptions C32_signed_size_refuted.
(** A Pascal string, and a character, can be assigned but not written. *)
Theorem C31_pascal_refuted : exists i data l n,
  apply_edits (createEditor i) l = Ok n /\ writeInto (string_read data) n ostream_init = Err AttributeError.
Proof.
  exists (ISet (lit "root") LITTLE_ENDIAN 0 16 [ILeaf (lit "p") (KString (FPascal 1) 1 []) 0 16]), [1; 65], [Assign [lit "p"] (VBytes [66; 67])].
  eexists. split; vm_compute; reflexivity.
Qed.
Print Assumptions C31_pascal_refuted.
Theorem C31_character_refuted : exists i data l n,
  apply_edits (createEditor i) l = Ok n /\ writeInto (string_read data) n ostream_init = Err TypeError.
Proof.
  exists (ISet (lit "root") LITTLE_ENDIAN 0 8 [ILeaf (lit "c") KChar 0 8]), [65], [Assign [lit "c"] (VText [66])].
  eexists. split; vm_compute; reflexivity.
Qed.
Print Assumptions C31_character_refuted.
(** Bytes that are inserted cannot be written; inserted under the name of a deleted
    field, it is the deleted content that is written. *)
Theorem C31_inserted_bytes_refuted :
  run ex_tree ex_data [Insert [] None true [new_bytes (lit "b") [9; 9]]] = Err AssertionError /\
  run ex_tree ex_data [Delete [] (lit "a"); Insert [] None true [new_bytes (lit "a") [9; 9]]] = Ok [3; 4; 5; 6; 7; 8; 1; 2].
Proof. split; reflexivity. Qed.
Print Assumptions C31_inserted_bytes_refuted.
(** A field of whole bytes that is copied or written after a field of some bits
    cannot be written. *)
Theorem C31_unaligned_refuted : exists i data l n,
  apply_edits (createEditor i) l = Ok n /\ writeInto (string_read data) n ostream_init = Err NotImplementedError.
Proof.
  exists (ISet (lit "root") BIG_ENDIAN 0 16 [ILeaf (lit "f") KBits 0 4; ILeaf (lit "n") (KInt false) 4 8; ILeaf (lit "g") KBits 12 4]), [1; 65],
    [Assign [lit "n"] (VInt 3)].
  eexists. split; vm_compute; reflexivity.
Qed.
Print Assumptions C31_unaligned_refuted.
(** A field of more than 256 bits that is not aligned cannot be copied. *)
Theorem C31_large_unaligned_refuted : exists i data l n,
  apply_edits (createEditor i) l = Ok n /\ writeInto (string_read data) n ostream_init = Err AssertionError.
Proof.
  exists (ISet (lit "root") BIG_ENDIAN 0 320 [ILeaf (lit "f") KBits 0 4; ILeaf (lit "n") KBytes 4 312; ILeaf (lit "g") KBits 316 4]),
    (List.repeat 7 40), [Assign [lit "f"] (VInt 3)].
  eexists. split; vm_compute; reflexivity.
Qed.
Print Assumptions C31_large_unaligned_refuted.
(** Deleting a name that does not exist is accepted and makes [len] wrong. *)
Theorem C32_delete_refuted : exists i data l,
  announced i data l = Ok (64, 3, [lit "a"; lit "h"; lit "s"; lit "z"]).
Proof. exists ex_tree, ex_data, [Delete [] (lit "nope")]. reflexivity. Qed.
Print Assumptions C32_delete_refuted.
(** Of two fields inserted after the same field, the first one is lost, and [insertBefore("")]
    loses its field while counting it. *)
Theorem C31_insert_lost_refuted :
  announced ex_tree ex_data [Insert [] (Some (lit "h")) true [new_integer (lit "n") false 8 1];
                             Insert [] (Some (lit "h")) true [new_integer (lit "m") false 8 2]]
    = Ok (72, 5, [lit "a"; lit "h"; lit "m"; lit "s"; lit "z"]).
Proof. reflexivity. Qed.
Print Assumptions C31_insert_lost_refuted.
Theorem C32_insert_before_nothing_refuted :
  announced ex_tree ex_data [Insert [] (Some []) false [new_integer (lit "n") false 8 1]]
    = Ok (64, 5, [lit "a"; lit "h"; lit "s"; lit "z"]).
Proof. reflexivity. Qed.
Print Assumptions C32_insert_before_nothing_refuted.
(** A field inserted after [h] is put before [h] when something was inserted before
    [h]; several fields appended by a second [insert] are reversed; and nothing can
    be inserted after the last field. *)
Theorem C31_insert_order_refuted :
  announced ex_tree ex_data [Insert [] (Some (lit "h")) false [new_integer (lit "n") false 8 1];
                             Insert [] (Some (lit "h")) true [new_integer (lit "m") false 8 2]]
    = Ok (80, 6, [lit "a"; lit "n"; lit "m"; lit "h"; lit "s"; lit "z"]) /\
  announced ex_tree ex_data [Insert [] None true [new_integer (lit "n") false 8 1];
                             Insert [] None true [new_integer (lit "m") false 8 2; new_integer (lit "k") false 8 2]]
    = Ok (88, 7, [lit "a"; lit "h"; lit "s"; lit "z"; lit "n"; lit "k"; lit "m"]) /\
  announced ex_tree ex_data [Insert [] (Some (lit "z")) true [new_integer (lit "n") false 8 1]] = Err MissingField.
Proof. repeat split; reflexivity. Qed.
Print Assumptions C31_insert_order_refuted.
(** Integers of 24 and 64 bits cannot be assigned. *)
Theorem C31_integer_size_refuted :
  check_value (KInt false) 24 (VInt 1) = Err KeyError /\ check_value (KInt false) 64 (VInt 1) = Err KeyError.
Proof. split; reflexivity. Qed.
Print Assumptions C31_integer_size_refuted.

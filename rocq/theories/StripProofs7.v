(** Sun/NeXT audio files. *)
From Coq Require Import String.
From Verif Require Import Base BaseProofs BitsModel BitsSpec BitsProofs StreamModel StreamSpec StreamProofs DictModel DictProofs Lit OutputModel OutputProofs
  EditModel EditSpec EditProofs EditProofs2 EditProofs3 EditProofs4 EditProofs5 EditProofs6 ValueProofs StripModel StripSpec StripProofs StripProofs2 StripProofs3 StripProofs4 StripProofs5 StripProofs6.
Open Scope Z_scope.
Ltac Zify.zify_post_hook ::= Z.div_mod_to_equations.

Section Au.
Context (data : list Z) (Hd : is_bytes data) (input : read_fun) (Hs : serves input data).
Notation holds := (holds data input).
Notation set_ok := (set_ok data).

Lemma decrease_be i fields deleted name a v delta :
  set_ok i -> i_endian i = BIG_ENDIAN -> In (ILeaf name (KInt false) a 32) (i_children i) -> mem name deleted = false -> assoc name fields = None ->
  orig_bytes data a 32 = be32 v -> 0 <= v < 2 ^ 32 -> 0 <= v - delta < 2 ^ 32 ->
  let f := EField {| ef_name := name; ef_kind := KInt false; ef_size := 32; ef_value := Some (VInt (v - delta)); ef_altered := true |} in
  decrease input (ESet i fields deleted []) name delta = Ok (ESet i (set_assoc name f fields) deleted []) /\
  holds i (ILeaf name (KInt false) a 32) f (be32 (v - delta)).
Proof using Hd Hs.
  intros SO Ee Hc Hm Ha Ho Hv Hw f. destruct SO as (IS & Ra & ND & T & F). rewrite Forall_forall in F. pose proof (F _ Hc) as Rc. cbn [i_addr i_size] in Rc.
  split.
  - pose proof (get_child i fields deleted _ ND Hc Hm) as G. unfold the_item in G. cbn [i_name fresh] in G. rewrite Ha in G.
    unfold decrease. rewrite G. cbn [bind]. unfold int_value. cbn [ef_value ef_kind ef_name].
    pose proof (find_child_in _ _ ND Hc) as C. cbn [i_name] in C. unfold child. rewrite C. cbn [i_addr i_size]. rewrite Ee.
    assert (R : readInteger input a false 32 BIG_ENDIAN = Ok v).
    { destruct Rc as (C1 & C2 & C3 & C4 & C5). unfold readInteger.
      assert (W : readBits input a 32 BIG_ENDIAN = Ok v). { pose proof (whole_be input data Hs Hd (a / 8) 4 ltac:(lia) ltac:(lia) ltac:(lia)) as W. change (8 * 4) with 32 in W. replace (8 * (a / 8)) with a in W by lia. rewrite W. f_equal. unfold orig_bytes in Ho. change (32 / 8) with 4 in Ho. rewrite Ho. unfold be32. rewrite <- from_bytes_little_rev. rewrite <- tiles_app_le32. apply le_bytes_val. change (256 ^ Z.of_nat 4) with (2 ^ 32). assumption. }
      rewrite W. reflexivity. }
    rewrite R. cbn [bind edit_at]. rewrite G. cbn [bind assign]. unfold set_value. cbn [ef_kind ef_size check_value]. change (valid_unsigned 32) with (Some (0, 2 ^ 32 - 1)). cbv beta iota.
    replace ((0 <=? v - delta) && (v - delta <=? 2 ^ 32 - 1)) with true by (symmetry; apply andb_true_intro; split; lia). reflexivity.
  - split; [reflexivity|]. split; [discriminate|]. intros st A. cbn [view_of field_view v_write f ef_altered].
    destruct (bytes_write_total st (i_endian i) {| ef_name := name; ef_kind := KInt false; ef_size := 32; ef_value := Some (VInt (v - delta)); ef_altered := true |} (VInt (v - delta))) as (st' & W & A' & O).
    + rewrite Ee. discriminate.
    + reflexivity.
    + split; [|exact I]. cbn [ef_kind ef_size fits]. split; [lia|]. split; [reflexivity|lia].
    + assumption.
    + exists st'. split; [exact W|]. split; [assumption|]. rewrite O. f_equal. cbn [ef_kind ef_size enc_bytes stored]. rewrite Ee. cbn [bytes_of]. change (Z.to_nat (32 / 8)) with 4%nat. rewrite tiles_app_le32. reflexivity.
Qed.

Lemma zlen_be32 v : zlen (be32 v) = 4.
Proof using. reflexivity. Qed.

Lemma au_ok level header info rest i : au_file data header info rest i ->
  strip_file input (au_strip input level) i =
    Ok (if has_level level STRIP_METADATA && negb (zlen info =? 0) then Some (au_bytes 24 header [] rest) else None).
Proof using Hd Hs.
  intros (E & Zh & Hi & name & k & fields & Ei & ND & Ni & T & F0). cbv zeta in Ei. pose proof (zlen_nonneg info). pose proof (zlen_nonneg rest).
  assert (Zd : zlen data = 24 + zlen info + zlen rest) by (rewrite E; unfold au_bytes; rewrite !zlen_app, zlen_be32, Zh; change (zlen (lit ".snd")) with 4; lia).
  assert (F : Forall (fun c => bytes_range data (i_addr c) (i_size c)) fields).
  { destruct (tiles_each fields _ _ T F0 ltac:(lia)) as [_ S1]. rewrite Forall_forall. intros c Hc. specialize (S1 c Hc). unfold bytes_range. lia. }
  destruct (zlen info =? 0) eqn:Z0.
  - rewrite andb_false_r. cbn [app] in *. unfold strip_file, createEditor. rewrite Ei. cbn [au_strip]. rewrite <- Ei.
    cbn [get_item mem existsb]. replace (child i (lit "info")) with (@None inode); [reflexivity|].
    unfold child. rewrite Ei. cbn [i_children find_child i_name]. symmetry.
    destruct (find_child _ (lit "info")) eqn:C; [|reflexivity]. exfalso.
    revert C. repeat (cbn [find_child i_name]; match goal with |- context [str_eqb ?a ?b] => change (str_eqb a b) with false; cbv iota end). intros C. apply find_child_name in C as [C1 C2]. apply Ni. rewrite <- C1. apply in_map. assumption.
  - rewrite andb_true_r. cbn [app] in *. set (all := ILeaf (lit "signature") _ _ _ :: _) in *.
    assert (Hin : forall c, In c all -> In c (i_children i)) by (intros c; rewrite Ei; auto).
    assert (SO : set_ok i).
    { rewrite Ei. split; [do 5 eexists; reflexivity|]. cbn [i_addr i_size i_children]. split; [unfold bytes_range; lia|]. split; [exact ND|]. split.
      - unfold all. cbn [tiles i_addr i_size]. repeat (split; [lia|]). replace (0 + 32 + 32 + 32 + 32 + 32 + 32 + 8 * zlen info) with (192 + 8 * zlen info) by lia.
        replace (8 * zlen data - 32 - 32 - 32 - 32 - 32 - 32 - 8 * zlen info) with (8 * zlen rest) by lia. exact T.
      - unfold all. repeat (constructor; [cbn [i_addr i_size]; unfold bytes_range; lia|]). exact F. }
    assert (St : stored_at data 0 (au_bytes (24 + zlen info) header info rest)).
    { rewrite <- E. split; [lia|]. split; [reflexivity|]. split; [lia|]. apply sub_all. }
    unfold au_bytes in St.
    assert (O1 : orig_bytes data 0 32 = lit ".snd") by exact (stored_part data 0 [] (lit ".snd") _ St).
    assert (O2 : orig_bytes data 32 32 = be32 (24 + zlen info)) by exact (stored_part data 0 (lit ".snd") (be32 (24 + zlen info)) _ St).
    assert (O3 : orig_bytes data 64 128 = header).
    { pose proof (stored_part data 0 (lit ".snd" ++ be32 (24 + zlen info)) header (info ++ rest)) as P. rewrite <- app_assoc in P. specialize (P St). rewrite zlen_app, zlen_be32, Zh in P. exact P. }
    assert (O4 : orig_bytes data (192 + 8 * zlen info) (8 * zlen rest) = rest).
    { pose proof (stored_part data 0 (lit ".snd" ++ be32 (24 + zlen info) ++ header ++ info) rest []) as P. rewrite app_nil_r, <- !app_assoc in P. specialize (P St).
      rewrite !zlen_app, zlen_be32, Zh in P. change (zlen (lit ".snd")) with 4 in P. replace (192 + 8 * zlen info) with (0 + 8 * (4 + (4 + (16 + zlen info)))) by lia. exact P. }
    assert (Sg : get_item (ESet i [] [] []) (lit "info") = Ok (fresh (ILeaf (lit "info") k 192 (8 * zlen info)))).
    { apply (get_child i [] [] (ILeaf (lit "info") k 192 (8 * zlen info))); [apply SO|apply Hin; unfold all; cbn [In]; tauto|reflexivity]. }
    destruct (has_level level STRIP_METADATA) eqn:Hl.
    + assert (Vs : v_size (view_of input i (fresh (ILeaf (lit "info") k 192 (8 * zlen info)))) = 8 * zlen info) by (cbn [fresh view_of field_view v_size]; unfold field_size; cbn; destruct k; reflexivity).
      assert (V8 : 8 * zlen info / 8 = zlen info) by (rewrite (Z.mul_comm 8), Z.div_mul by lia; reflexivity).
      destruct (decrease_be i [] [] (lit "data_ofs") 32 (24 + zlen info) (zlen info) SO) as (D1 & D2); try assumption; try reflexivity; try lia.
      { rewrite Ei. reflexivity. }
      { apply Hin. unfold all. cbn [In]. tauto. }
      set (f := EField _) in *. cbn [set_assoc] in D1.
      assert (Sg' : get_item (ESet i [(lit "data_ofs", f)] [] []) (lit "info") = Ok (fresh (ILeaf (lit "info") k 192 (8 * zlen info)))).
      { apply (get_child i [(lit "data_ofs", f)] [] (ILeaf (lit "info") k 192 (8 * zlen info))); [apply SO|apply Hin; unfold all; cbn [In]; tauto|reflexivity]. }
      set (n2 := ESet i [(lit "data_ofs", f)] [lit "info"] []).
      rewrite (strip_file_ok data input (au_strip input level) i n2 (8 * zlen info) (au_bytes 24 header [] rest)).
      * replace (8 * zlen info =? 0) with false by lia. reflexivity.
      * unfold createEditor. cbn [au_strip]. rewrite Sg, Hl. cbv zeta. rewrite Vs, V8, D1. cbn [bind]. cbn [removeField]. match goal with |- bind ?m _ = _ => replace m with (Ok (fresh (ILeaf (lit "info") k 192 (8 * zlen info)))) by (symmetry; exact Sg') end. cbn [bind]. rewrite Vs. reflexivity.
      * replace (24 + zlen info - zlen info) with 24 in * by lia.
        pose (ms := lit ".snd" :: be32 24 :: orig_bytes data 64 32 :: orig_bytes data 96 32 :: orig_bytes data 128 32 :: orig_bytes data 160 32 :: [] :: map (fun c => orig_bytes data (i_addr c) (i_size c)) fields).
        replace (au_bytes 24 header [] rest) with (List.concat ms).
        2: { unfold ms. cbn [List.concat]. rewrite <- flat_map_concat_map, (tiles_bytes data fields (192 + 8 * zlen info) (8 * zlen rest) F) by (assumption || (unfold bytes_range; lia)). rewrite O4.
             unfold au_bytes. do 2 f_equal. rewrite <- O3. unfold orig_bytes. change (64 / 8) with 8. change (96 / 8) with 12. change (128 / 8) with 16. change (160 / 8) with 20. change (32 / 8) with 4.
             change (128 / 8) with 16. cbn [app]. rewrite !app_assoc. f_equal.
             assert (Q : sub data 8 (4 + (4 + (4 + 4))) = ((sub data 8 4 ++ sub data 12 4) ++ sub data 16 4) ++ sub data 20 4) by (rewrite !sub_app_split by lia; rewrite <- !app_assoc; reflexivity).
             symmetry. exact Q. }
        assert (FH : forall c, In c all -> i_name c <> lit "data_ofs" -> i_name c <> lit "info" ->
          mem (i_name c) [lit "info"] = true /\ orig_bytes data (i_addr c) (i_size c) = [] \/
          mem (i_name c) [lit "info"] = false /\ holds i c (the_item i [(lit "data_ofs", f)] c) (orig_bytes data (i_addr c) (i_size c))).
        { intros c Hc N1 N2. right. split; [apply mem_not_in; intros [X|[]]; congruence|]. unfold the_item. cbn [assoc]. apply not_eq_sym, str_eqb_neq in N1. rewrite N1. apply fresh_holds; auto. }
        unfold n2. apply set_holds_del; try assumption. replace (i_children i) with all by (rewrite Ei; reflexivity). unfold all, ms.
        constructor; [rewrite <- O1; apply (FH (ILeaf (lit "signature") (KString FFixed 0 []) 0 32)); [unfold all; cbn [In]; tauto|discriminate|discriminate]|].
        constructor; [right; split; [reflexivity|exact D2]|].
        do 4 (constructor; [match goal with |- context [the_item _ _ ?c] => apply (FH c); [unfold all; cbn [In]; tauto|discriminate|discriminate] end|]).
        constructor; [left; split; reflexivity|].
        assert (Hf : forall c, In c fields -> In c all /\ i_name c <> lit "data_ofs" /\ i_name c <> lit "info").
        { intros c Hc. split; [unfold all; do 7 right; assumption|]. split.
          - unfold all in ND. cbn [map i_name] in ND. apply NoDup_cons_iff in ND as [_ ND]. apply NoDup_cons_iff in ND as [ND _]. intros X. apply ND. do 5 right. rewrite <- X. apply in_map. assumption.
          - intros X. apply Ni. rewrite <- X. apply in_map. assumption. }
        clearbody all. clear - FH Hf. induction fields as [|c fields IH]; constructor.
        -- destruct (Hf c (or_introl eq_refl)) as (Y1 & Y2 & Y3). apply FH; assumption.
        -- apply IH. intros x Hx. apply Hf. right. assumption.
    + unfold strip_file, createEditor. cbn [au_strip]. rewrite Sg, Hl. reflexivity.
Qed.
End Au.

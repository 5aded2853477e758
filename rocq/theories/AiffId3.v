(** The fields of an ID3 tag, in a field set that has the size of the tag. *)
From Coq Require Import String.
From Verif Require Import Base BaseProofs BitsModel BitsSpec BitsProofs StreamModel StreamSpec StreamProofs StreamProofs2 DictModel DictProofs FieldModel ToolsModel NumSpec NumRead ChunkBase GenModel GenSpec GenProofs ItemSpec ItemProofs ItemProofs2 ZipSpec ZipProofs MidiSpec MidiProofs Id3Model Id3Spec Lit.
From Verif Require TextModel.
From Verif Require Import Id3Proofs.
Open Scope Z_scope.
Ltac Zify.zify_post_hook ::= Z.div_mod_to_equations.

Ltac nonneg := repeat match goal with |- context [zlen ?x] => lazymatch goal with H : 0 <= zlen x |- _ => fail | _ => pose proof (zlen_nonneg x) end | H' : context [zlen ?x] |- _ => lazymatch goal with H : 0 <= zlen x |- _ => fail | _ => pose proof (zlen_nonneg x) end end.
Section Read.
Context (read : read_fun) (data : list Z) (Hs : serves read data) (Hb : is_bytes data).
Notation obeys := (obeys read data).
Lemma tag2_fields_obey stop p t : tag2_ok t -> stop = 8 * (p + zlen (bytes_of_all (tag2_items t))) -> obeys stop p ID3v2_fields (tag2_items t) PRet.
Proof using Hs Hb.
  intros (V & Fr & Sz) E. pose proof (zlen_nonneg (bytes_of_all (tag2_body t))) as S0. fold (tag2_size t) in S0. assert (Kv : negb (known_version (g_ver t) 0) = false) by (unfold known_version; lia). pose proof (tag2_len t) as L.
  unfold ID3v2_fields, tag2_items. cbn [app]. apply ob_word; [reflexivity|discriminate|vm_compute; discriminate|]. apply ob_plain; [split; [discriminate|split; [lia|change (2 ^ (8 * Z.of_nat 1)) with 256; lia]]|reflexivity|]. apply ob_plain; [split; [discriminate|split; [lia|change (2 ^ (8 * Z.of_nat 1)) with 256; lia]]|reflexivity|]. cbn [plain_val num bytes]. change (str_eqb (lit "ID3") (lit "ID3")) with true. cbn [negb]. rewrite Kv.
  eapply (ob_bits read data); [discriminate|lia|reflexivity| |].
  - unfold flag, high, bit. do 4 (apply ta_cons; [cbn; lia|reflexivity|]). apply ta_nil.
  - apply (ob_safe read data Hs); [lia|]. apply ob_ask. assert (Ps : p + zlen (lit "ID3") + len (I (lit "ver_major") (SNum 1 BIG_ENDIAN (g_ver t))) + len (I (lit "ver_minor") (SNum 1 BIG_ENDIAN 0)) + Z.of_nat 1 + 4 = p + 10) by (unfold len; cbn [bytes_of plain_bytes]; rewrite !zlen_uint; change (zlen (lit "ID3")) with 3; lia). rewrite Ps.
    apply (frames2_obey read data Hs Hb).
    + exact V.
    + unfold tag2_size, tag2_body in Sz. destruct (g_padding t) as [n|]; [|exact Logic.I]. cbn [padding_items] in Sz. rewrite bytes_of_all_app, bytes_of_all_cons, !zlen_app, len_rest_data, zeros_len in Sz. nonneg. change (2 ^ 28) with 268435456 in Sz. change (2 ^ 32) with 4294967296. lia.
    + exact Fr.
    + pose proof (frames_count (g_ver t) (g_frames t) V Fr) as Fc. assert (zlen (bytes_of_all (map (frame2_item (g_ver t)) (g_frames t))) <= tag2_size t) by (unfold tag2_size, tag2_body; rewrite bytes_of_all_app, zlen_app; pose proof (zlen_nonneg (bytes_of_all (padding_items (g_ver t) (g_padding t)))); lia). lia.
    + unfold tag2_size, tag2_body in *. lia.
Qed.
End Read.

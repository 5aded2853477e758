(** C67: what the torrent parser shows of a file. *)
From Coq Require Import String.
From Verif Require Import Base BitsModel ChunkBase DictModel FieldModel FieldNames TorrentModel TorrentSpec TorrentProofs Lit.
Open Scope Z_scope.

(** ** C67 *)
(** A document that is in a file is shown, whatever is around it: all the values of the
    document, in a field of the size of its bytes. *)
Theorem C67_bencode : forall read pre b post v, serves read (pre ++ b ++ post) -> ends read (pre ++ b ++ post) ->
  bencode v b -> in_limits v ->
  exists t, Entry read (8 * zlen (pre ++ b ++ post)) (Z.to_nat (zlen b)) (8 * zlen pre) = Ok t /\
    t_addr t = 8 * zlen pre /\ t_size t = 8 * zlen b /\ shows v (t_content t).
Proof.
  intros read pre b post v Hs He B L. destruct (proj1 bencode_at v b B L (8 * zlen pre)) as (t & A & S). exists t.
  destruct (at_size _ _ _ A) as [E1 E2]. repeat split; auto. pose proof (zlen_nonneg b).
  apply (proj1 (complete3 read (pre ++ b ++ post) Hs He) _ _ _ A (zlen pre)); [reflexivity|apply occ_pre|lia].
Qed.
Print Assumptions C67_bencode.
Example C67_bencode_ex : bencode (BDict [(lit "a b", BInt (-12)); ([], BList [BStr (lit "x")])]) (lit "d3:a bi-12e0:l1:xee") /\
  Entry (string_read (lit "zzd3:a bi-12e0:l1:xeez")) (8 * 22) 19 16 =
    Ok (Node 16 152 (CDict [(lit "a_b", Node 24 40 (CText (lit "a b")), Node 64 40 (CInt (Some (-12))));
      (lit "item[]", Node 104 16 CEmpty, Node 120 40 (CList [Node 128 24 (CText (lit "x"))]))])).
Proof.
  split; [|vm_compute; reflexivity].
  assert (D : forall d v, digit d -> v = d - 48 -> decimal [d] v).
  { intros d v Hd ->. split; [discriminate|]. split; [constructor; [assumption|constructor]|]. split; [cbn; lia|]. intros l E. injection E as _ <-. reflexivity. }
  assert (B0 : bencode_str [] (lit "0:")) by (apply (bes [] [48]); apply D; [unfold digit; lia|reflexivity]).
  assert (B1 : bencode_str (lit "x") (lit "1:x")) by (apply (bes (lit "x") [49]); apply D; [unfold digit; lia|reflexivity]).
  assert (B3 : bencode_str (lit "a b") (lit "3:a b")) by (apply (bes (lit "a b") [51]); apply D; [unfold digit; lia|reflexivity]).
  change (lit "d3:a bi-12e0:l1:xee") with (lit "d" ++ (lit "3:a b" ++ (lit "i" ++ lit "-12" ++ lit "e") ++ lit "0:" ++ (lit "l" ++ (lit "1:x" ++ []) ++ lit "e") ++ []) ++ lit "e").
  constructor. constructor; [exact B3| |constructor; [exact B0| |constructor]].
  - constructor. right. exists (lit "12"). split; [reflexivity|]. split; [|lia]. split; [discriminate|]. split; [change (lit "12") with [49; 50]; apply Forall_cons; [unfold digit; lia|apply Forall_cons; [unfold digit; lia|apply Forall_nil]]|]. split; [reflexivity|]. intros l E. discriminate.
  - constructor. constructor; [constructor; exact B1|constructor].
Qed.

(** The fields shown are exactly those that are in the file: the parser succeeds if and
    only if the file has, from this address on, the bytes of a field; then the fields
    tile these bytes. *)
Theorem C67_exact : forall read data p t, serves read data -> ends read data -> 0 <= p <= zlen data ->
  Entry read (8 * zlen data) (S (Z.to_nat (zlen data - p))) (8 * p) = Ok t <->
  exists b, at_ (8 * p) b t /\ occurs_at b data p.
Proof.
  intros read data p t Hs He Hp. split.
  - apply entry_sound; auto; lia.
  - intros (b & A & O). apply (proj1 (complete3 read data Hs He) _ _ _ A p); auto. apply occ_in in O. lia.
Qed.
Print Assumptions C67_exact.
Example C67_exact_ex : exists t, Entry (string_read (lit "li007ei1_0e 1:ae")) (8 * 16) 17 0 = Err ParserError /\
  Entry (string_read (lit "li007ei1_0e1:ae")) (8 * 15) 16 0 = Ok t /\ t_size t = 120.
Proof. eexists. vm_compute. auto. Qed.
(** The parser stops on every file. *)
Theorem C67_stops : forall read data p, serves read data -> ends read data -> 0 <= p <= zlen data ->
  Entry read (8 * zlen data) (S (Z.to_nat (zlen data - p))) (8 * p) <> Err OutOfFuel.
Proof. intros read data p Hs He Hp. apply entry_fuel; auto; lia. Qed.
Print Assumptions C67_stops.
Example C67_stops_ex : Entry (string_read (lit "llllll")) 48 7 0 = Err ReadStreamError /\
  serves (string_read (lit "llllll")) (lit "llllll") /\ ends (string_read (lit "llllll")) (lit "llllll").
Proof. split; [reflexivity|]. split; [apply string_serves|apply string_ends]. Qed.

(** Documents with a string of a million bytes or more (the hashes of 50000 pieces) or a
    number of more than 21 characters are not shown: the parser refuses them. *)
Theorem C67_long_refuted : forall read data p v b fuel, serves read data -> ends read data -> occurs_at b data p -> bencode v b ->
  match v with BStr s => 10 ^ 6 <= zlen s | BInt z => z <= - 10 ^ 20 \/ 10 ^ 21 <= z | _ => False end ->
  Entry read (8 * zlen data) (S fuel) (8 * p) = Err ParserError.
Proof.
  intros read data p v b fuel Hs He O B L. destruct v; try contradiction.
  - eapply long_integer; eauto.
  - inversion B; subst. eapply long_string; eauto.
Qed.
Print Assumptions C67_long_refuted.
Example C67_long_ex : Entry (string_read (lit "1000000:x")) 72 10 0 = Err ParserError /\
  Entry (string_read (lit "i1000000000000000000000e")) 192 25 0 = Err ParserError.
Proof. vm_compute; auto. Qed.
(** Two keys of a dictionary may be given the same name, as spaces become "_": the second
    item then has another name than its key (C23). *)
Theorem C67_names_refuted : exists k k', k <> k' /\ key_name k = key_name k' /\ key_name k = lit "piece_length".
Proof. exists (lit "piece length"), (lit "piece_length"). split; [discriminate|]. split; reflexivity. Qed.
Print Assumptions C67_names_refuted.

(** ** C67, texts that are not canonical: an integer has a value exactly if its text is one that int() takes, and then this value *)
Theorem C67_values : forall read data p text v, serves read data -> ends read data -> 0 <= p -> occurs_at (lit "i" ++ text ++ lit "e") data p -> text <> [] -> zlen text <= 21 -> ~ In 101 text ->
  (exists t, Integer read (8 * zlen data) (8 * p) = Ok t /\ t_content t = CInt (Some v)) <-> int_text text v.
Proof.
  intros read data p text v Hs He P O N L E.
  pose proof (proj1 (complete3 read data Hs He) _ _ _ (at_int (8 * p) text N L E) p (Z.to_nat (zlen text + 2)) eq_refl O) as C.
  assert (I : Integer read (8 * zlen data) (8 * p) = Ok (Node (8 * p) (8 * (zlen text + 2)) (CInt (py_int 10 text)))).
  { pose proof (zlen_nonneg text). specialize (C ltac:(rewrite !zlen_app; change (zlen (lit "i")) with 1; change (zlen (lit "e")) with 1; lia)). replace (Z.to_nat (zlen text + 2)) with (S (Z.to_nat (zlen text + 1))) in C by lia. cbn [Entry] in C.
    apply occ_app in O as [O1 _]. pose proof (rb_occ read data Hs p (lit "i") O1 ltac:(discriminate)) as R. change (zlen (lit "i")) with 1 in R. rewrite R in C. exact C. }
  rewrite I, <- py_int_iff. split.
  - intros (t & Et & Ct). apply ok_inj in Et as <-. cbn [t_content] in Ct. congruence.
  - intros V. eexists. split; [reflexivity|]. cbn [t_content]. rewrite V. reflexivity.
Qed.
Print Assumptions C67_values.
Example C67_values_ex : int_text (lit " -1_000 ") (-1000) /\ ~ (exists v, int_text (lit "1a") v) /\
  Integer (string_read (lit "i1ae")) 32 0 = Ok (Node 0 32 (CInt None)) /\ Integer (string_read (lit "i -1_0 e")) 64 0 = Ok (Node 0 64 (CInt (Some (-10)))).
Proof.
  split; [apply py_int_iff; reflexivity|]. split; [intros (v & V); apply py_int_iff in V; discriminate|]. split; reflexivity.
Qed.

(** ** C67, keys that are not strings: the item of a key that is an integer has its decimal text as a name *)
Theorem C67_integer_keys : forall a s z, signed_decimal (item_name (Node a s (CInt (Some z)))) z.
Proof.
  assert (Lead : forall fuel n acc, 0 < n < 10 ^ Z.of_nat fuel -> forall l, dec_loop fuel n acc <> 48 :: l).
  { induction fuel as [|fuel IH]; intros n acc N l; [change (10 ^ Z.of_nat 0) with 1 in N; lia|]. cbn [dec_loop]. destruct (n <? 10) eqn:E.
    - intros X. apply (f_equal (hd 0)) in X. cbn [hd] in X. lia.
    - apply IH. replace (Z.of_nat (S fuel)) with (Z.of_nat fuel + 1) in N by lia. rewrite Z.pow_add_r in N by lia. change (10 ^ 1) with 10 in N. set (q := 10 ^ Z.of_nat fuel) in *. clearbody q. lia. }
  assert (D : forall n, 0 <= n -> decimal (dec n) n).
  { intros n N. destruct (dec_spec n N) as (F & U & Ne). unfold decimal. repeat split; auto. intros l E. destruct (Z.eq_dec n 0) as [->|Nz]; [vm_compute in E; congruence|].
    exfalso. unfold dec in E. apply (Lead (S (Z.to_nat n)) n [] ltac:(split; [lia|apply lt_pow10; lia]) l E). }
  intros a s z. cbn [item_name t_content]. unfold signed_decimal. destruct (z <? 0) eqn:E.
  - right. exists (dec (- z)). split; [reflexivity|]. split; [apply D; lia|lia].
  - left. apply D. lia.
Qed.
Print Assumptions C67_integer_keys.
Example C67_integer_keys_ex : item_name (Node 0 32 (CInt (Some (-12)))) = lit "-12".
Proof. reflexivity. Qed.

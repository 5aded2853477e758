(** What the parser of MIDI files does on the files of the format. *)
From Coq Require Import String.
From Verif Require Import Base BaseProofs BitsModel BitsSpec BitsProofs StreamModel StreamSpec StreamProofs StreamProofs2 DictModel DictProofs FieldModel ToolsModel NumSpec NumRead ChunkBase GenModel GenSpec GenProofs ItemSpec ItemProofs ItemProofs2 ZipSpec MidiModel MidiSpec Lit.
Open Scope Z_scope.
Ltac Zify.zify_post_hook ::= Z.div_mod_to_equations.

Lemma land127 b : Z.land b 127 = b mod 128.
Proof. change 127 with (Z.ones 7). rewrite Z.land_ones by lia. reflexivity. Qed.
Lemma land128 b : 0 <= b < 256 -> (Z.land b 128 =? 0) = (b <? 128).
Proof.
  intros B. assert (C : forallb (fun x => Bool.eqb (Z.land x 128 =? 0) (x <? 128)) (map Z.of_nat (seq 0 256)) = true) by (vm_compute; reflexivity). rewrite forallb_forall in C. apply Bool.eqb_prop. apply C. apply in_map_iff. exists (Z.to_nat b). split; [lia|]. apply in_seq. lia.
Qed.
Lemma uint1 b : 0 <= b < 256 -> uint BIG_ENDIAN 1 b = [b].
Proof. intros B. unfold uint. cbn. f_equal. lia. Qed.
Section Read.
Context (read : read_fun) (data : list Z) (Hs : serves read data) (Hb : is_bytes data).
Notation obeys := (obeys read data).
Lemma vlq_read init last : Forall (fun b => 128 <= b < 256) init -> b7 last -> forall n v size p, (List.length init < n)%nat -> size + 8 * zlen init <= 32 -> occurs_at (init ++ [last]) data p ->
  vlq read n (8 * p) v size = Ok (fold_left (fun v b => 128 * v + b mod 128) (init ++ [last]) v, size + 8 * zlen init).
Proof using Hs Hb.
  intros Hi L. unfold b7 in L. induction Hi as [|b init B Hi IH]; intros n v size p N S O; (destruct n as [|n]; [cbn [List.length] in N; lia|]); cbn [app vlq fold_left List.length] in *.
  - rewrite <- (uint1 last) in O by lia. rewrite (read_num read data Hs Hb BIG_ENDIAN 1 8 last p ltac:(discriminate) ltac:(lia) ltac:(lia) ltac:(change (2 ^ 8) with 256; lia) O). cbn [bind]. rewrite land128, land127 by lia. replace (last <? 128) with true by lia. rewrite Z.shiftl_mul_pow2 by lia. change (2 ^ 7) with 128. change (zlen (@nil Z)) with 0. f_equal. f_equal; lia.
  - change (b :: init ++ [last]) with ([b] ++ init ++ [last]) in O. apply occ_app in O as [O1 O2]. rewrite <- (uint1 b) in O1 by lia. rewrite (read_num read data Hs Hb BIG_ENDIAN 1 8 b p ltac:(discriminate) ltac:(lia) ltac:(lia) ltac:(change (2 ^ 8) with 256; lia) O1). cbn [bind]. rewrite land128, land127 by lia. replace (b <? 128) with false by lia. rewrite zlen_cons in *. pose proof (zlen_nonneg init). replace (32 <? size + 8) with false by lia.
    rewrite Z.shiftl_mul_pow2 by lia. change (2 ^ 7) with 128. replace (8 * p + 8) with (8 * (p + 1)) by lia. rewrite IH; [|lia|lia|exact O2]. f_equal. f_equal; [|lia]. f_equal. lia.
Qed.
Lemma ob_var stop p name x l q c : is_vlq x -> obeys stop (p + zlen x) (c (VNum (vlq_value x))) l q -> obeys stop p (PFld (lit name) Integer c) (var name x :: l) q.
Proof using Hs Hb.
  intros (init & last & -> & Hi & L & S) H. apply ob_code; [|exact H]. intros [O _]. rewrite bytes_of_all_cons in O. apply occ_app in O as [O _]. rewrite zlen_app in *. change (zlen [last]) with 1 in *. rewrite (vlq_read init last Hi L); [f_equal; f_equal; lia|unfold zlen in *; lia|lia|exact O].
Qed.
Lemma ob_look stop p v l q c y : byte v -> bytes_of_all l = uint BIG_ENDIAN 1 v ++ y -> obeys stop p (c (VNum v)) l q -> forall st, obeys stop p (peek 0 (KNum 8 BE) st c) l q.
Proof using Hs Hb. intros V E H st. apply (ob_peek read data Hs Hb stop p 0 (SNum 1 BIG_ENDIAN v) st c l q (KNum 8 BE) 0 [] y E eq_refl); [split; [discriminate|split; [lia|exact V]]|reflexivity|reflexivity|exact H]. Qed.
Lemma message_obeys stop p m : message_ok m -> obeys stop p (command_data (status m)) (message_items m) PRet.
Proof using Type.
  intros K. unfold command_data, command_parser.
  assert (D : forall k c, 8 <= k <= 14 -> 0 <= c < 16 -> (16 * k + c =? 255) = false /\ (16 * k + c) / 16 = k) by (intros; lia).
  destruct m as [k c n v|c n v|c v|c v|c b t]; cbn [message_ok status message_items] in *; unfold b7 in K; unfold parseNote, parseControl, parsePatch, parseChannel, parsePitch, u8, be.
  - destruct K as (Kk & C & N & V). destruct (D k c ltac:(lia) C) as [-> ->]. assert (X : k = 8 \/ k = 9 \/ k = 10) by lia. destruct X as [->|[->| ->]]; repeat ob.
  - destruct K as (C & N & V). destruct (D 11 c ltac:(lia) C) as [-> ->]. repeat ob.
  - destruct K as (C & N). destruct (D 12 c ltac:(lia) C) as [-> ->]. repeat ob.
  - destruct K as (C & N). destruct (D 13 c ltac:(lia) C) as [-> ->]. repeat ob.
  - destruct K as (C & N & V). destruct (D 14 c ltac:(lia) C) as [-> ->]. repeat ob.
Qed.
Lemma status_range m : message_ok m -> 128 <= status m < 240.
Proof using Type. destruct m; cbn [message_ok status]; lia. Qed.
(** The first byte of the data of a message is less than 128 *)
Lemma message_first m : message_ok m -> exists v y, b7 v /\ bytes_of_all (message_items m) = uint BIG_ENDIAN 1 v ++ y.
Proof using Type.
  destruct m as [k c n v|c n v|c v|c v|c b t]; cbn [message_ok message_items]; intros K; unfold be, bytes_of_all; cbn [flat_map bytes_of plain_bytes]; eexists; eexists; (split; [|reflexivity]); apply K.
Qed.
Lemma meta_obeys stop p m : meta_ok m -> meta_items m <> [] -> obeys stop p (match meta_parser (meta_type m) (zlen (bytes_of_all (meta_items m))) with Some p => p | None => emit (lit "data") (KBytes (zlen (bytes_of_all (meta_items m)))); PRet end) (meta_items m) PRet.
Proof using Type.
  intros K Ne. unfold meta_parser. destruct m as [t|t x|c|v|pa r h mi s f sf|n d t q|t x]; cbn [meta_type meta_items meta_ok] in *; [contradiction|..].
  - destruct K as [T X]. replace ((1 <=? t) && (t <=? 7)) with true by lia. unfold parseText. unfold bytes_of_all. cbn [flat_map bytes_of plain_bytes]. rewrite app_nil_r. apply ob_plain; [split; [intros ->; cbn in X; lia|lia]|reflexivity|apply ob_nil].
  - unfold parseChannel, u8, be. change (32 =? 32) with true. cbn. unfold byte in K. ob. apply ob_nil.
  - unfold parseTempo, be. cbn. repeat ob.
  - destruct K as (P & R & H & Mi & S & F & Sf). unfold byte in *. unfold parseSMPTEOffset, u8, be. cbn iota. change ((1 <=? 84) && (84 <=? 7)) with false. change (84 =? 32) with false. change (84 =? 81) with false. change (84 =? 84) with true. cbn iota. eapply ob_bits; [discriminate|lia|reflexivity| |].
    + unfold high. repeat (apply ta_cons; [cbn; lia|reflexivity|]). apply ta_nil.
    + repeat ob.
  - destruct K as (N & D & T & Q). unfold byte in *. unfold parseTimeSignature, u8, be. change ((1 <=? 88) && (88 <=? 7)) with false. change (88 =? 32) with false. change (88 =? 81) with false. change (88 =? 84) with false. change (88 =? 88) with true. cbn iota. repeat ob.
  - destruct K as (T & N1 & N2 & X). cbn [In] in N2. replace ((1 <=? t) && (t <=? 7)) with false by lia. replace (t =? 32) with false by lia. replace (t =? 81) with false by lia. replace (t =? 84) with false by lia. replace (t =? 88) with false by lia. unfold bytes_of_all. cbn [flat_map bytes_of plain_bytes]. rewrite app_nil_r. change (2 ^ 28) with 268435456 in X.
    apply ob_plain; [split; [intros ->; cbn in X; lia|change (2 ^ 64) with 18446744073709551616; lia]|reflexivity|apply ob_nil].
Qed.
Lemma meta_type_byte m : meta_ok m -> byte (meta_type m).
Proof using Type. unfold byte. change (2 ^ 8) with 256. destruct m; cbn [meta_ok meta_type]; unfold byte; change (2 ^ 8) with 256; lia. Qed.
Lemma meta_empty m : meta_ok m -> meta_items m = [] \/ (meta_items m <> [] /\ 0 < zlen (bytes_of_all (meta_items m))).
Proof using Type.
  destruct m as [t|t x|c|v|pa r h mi s f sf|n d t q|t x]; cbn [meta_ok meta_items]; intros K; [left; reflexivity|..]; right; (split; [discriminate|]); unfold be, bytes_of_all; cbn [flat_map bytes_of plain_bytes]; rewrite ?app_nil_r, ?zlen_app, ?zlen_uint; try lia; match goal with |- context [zlen ?y] => pose proof (zlen_nonneg y) end; lia.
Qed.
(** The code remembers the status of the standard *)
Definition knows (prev s : option Z) : Prop := forall c, prev = Some c -> s = Some c.
Lemma event_obeys stop p e l prev s k : events_ok prev (e :: l) -> knows prev s -> exists s', knows (after_event e) s' /\ obeys stop p (Command s k) [event_item e] (k s').
Proof using Hs Hb.
  intros [E _] Kn. unfold Command, event_item.
  assert (Open : forall body it, 0 < zlen (bytes_of_all it) -> obeys stop p body it PRet -> obeys stop p (PSet (lit "command[]") None body (fun l => k (command_of s l))) [ISet (lit "command[]") it] (k (command_of s (shows it p)))) by (intros body it P H; apply ob_open; [exact P|exact H|apply ob_nil]).
  assert (Pos : 0 < zlen (bytes_of_all (event_items e))). { destruct e as [t r m|t n m]; cbn [event_items app]; rewrite bytes_of_all_cons, zlen_app; change (bytes_of (var ?n t)) with t; destruct E as [(init & last & -> & _) _]; rewrite zlen_app; change (zlen [last]) with 1; pose proof (zlen_nonneg init); match goal with |- context [_ + zlen ?y] => pose proof (zlen_nonneg y) end; lia. }
  exists (command_of s (shows (event_items e) p)). split; [|apply Open; [exact Pos|]].
  - intros c Ec. destruct e as [t r m|t n m]; cbn [after_event] in Ec; [|discriminate]. injection Ec as <-. destruct E as (_ & Mk & R). cbn [event_items]. destruct r.
    + unfold command_of. replace (GenModel.get (lit "command") _) with (@None val); [apply Kn, R; reflexivity|]. destruct m; reflexivity.
    + unfold command_of. destruct m; reflexivity.
  - unfold Command_fields. destruct e as [t r m|t n m]; cbn [event_items app].
    + destruct E as (T & Mk & R). apply ob_var; [exact T|]. pose proof (status_range m Mk) as Sr. destruct r; cbn [app].
      * destruct (message_first m Mk) as (v & y & V & Ey). unfold b7 in V. eapply (ob_look _ _ v); [unfold byte; change (2 ^ 8) with 256; lia|exact Ey|]. cbn [num]. rewrite land128 by lia. replace (v <? 128) with true by lia. rewrite (Kn _ (R eq_refl)). apply message_obeys, Mk.
      * eapply (ob_look _ _ (status m)); [unfold byte; change (2 ^ 8) with 256; lia|unfold be; rewrite bytes_of_all_cons; reflexivity|]. cbn [num]. rewrite land128 by lia. replace (status m <? 128) with false by lia. unfold be at 1. apply ob_plain; [split; [discriminate|split; [lia|change (2 ^ (8 * Z.of_nat 1)) with 256; lia]]|reflexivity|]. apply message_obeys, Mk.
    + destruct E as (T & N & Mk & Sz). apply ob_var; [exact T|]. eapply (ob_look _ _ 255); [unfold byte; lia|unfold be; rewrite bytes_of_all_cons; reflexivity|]. cbn [num]. change (Z.land 255 128 =? 0) with false. cbn iota. unfold be. ob. cbn [plain_val num]. unfold command_data. change (255 =? 255) with true. cbn iota. pose proof (meta_type_byte m Mk) as Tb. unfold byte in Tb. ob. apply ob_var; [exact N|]. cbn [num plain_val].
      rewrite Sz. destruct (meta_empty m Mk) as [-> |[Ne P]]; [apply ob_nil|]. replace (zlen (bytes_of_all (meta_items m)) =? 0) with false by lia. apply meta_obeys; assumption.
Qed.
Lemma event_pos e prev l : events_ok prev (e :: l) -> 0 < zlen (bytes_of_all [event_item e]).
Proof using Type.
  intros [E _]. unfold event_item. rewrite bytes_of_all_cons, app_nil_r. change (bytes_of (ISet ?n ?x)) with (bytes_of_all x). destruct e as [t r m|t n m]; cbn [event_items app]; rewrite bytes_of_all_cons, zlen_app; change (bytes_of (var ?n t)) with t; destruct E as [(init & last & -> & _) _]; rewrite zlen_app; change (zlen [last]) with 1; pose proof (zlen_nonneg init); match goal with |- context [_ + zlen ?y] => pose proof (zlen_nonneg y) end; lia.
Qed.
(** The events of a track, when more bytes may follow *)
Lemma events_obey l : forall stop p n prev s, events_ok prev l -> knows prev s -> (List.length l < n)%nat -> 8 * (p + track_size l) <= stop -> exists s', obeys stop p (loop_from Command n s) (map event_item l) (loop_from Command (n - List.length l) s').
Proof using Hs Hb.
  induction l as [|e l IH]; intros stop p n prev s K Kn N St; [exists s; rewrite Nat.sub_0_r; apply ob_nil|]. destruct n as [|n]; [cbn [List.length] in N; lia|]. unfold track_size in St. cbn [map List.length] in *. rewrite bytes_of_all_cons, zlen_app in St. pose proof (event_pos e prev l K) as P. rewrite bytes_of_all_cons, app_nil_r in P. pose proof (zlen_nonneg (bytes_of_all (map event_item l))).
  destruct (event_obeys stop p e l prev s (loop_from Command n) K Kn) as (s1 & Kn1 & H1). destruct (IH stop (p + zlen (bytes_of_all [event_item e])) n (after_event e) s1 (proj2 K) Kn1 ltac:(lia)) as [s2 H2]; [rewrite bytes_of_all_cons, app_nil_r; unfold track_size; lia|].
  exists s2. cbn [loop_from]. apply ob_ask. replace (stop <=? 8 * p) with false by lia. change (event_item e :: map event_item l) with ([event_item e] ++ map event_item l). eapply ob_app; [exact H1|]. replace (S n - S (List.length l))%nat with (n - List.length l)%nat by lia. exact H2.
Qed.
Lemma events_count prev l : events_ok prev l -> Z.of_nat (List.length l) <= track_size l.
Proof using Type.
  revert prev. induction l as [|e l IH]; intros prev K; [cbn; lia|]. unfold track_size in *. cbn [map List.length]. rewrite bytes_of_all_cons, zlen_app. pose proof (event_pos e prev l K) as P. rewrite bytes_of_all_cons, app_nil_r in P. specialize (IH _ (proj2 K)). lia.
Qed.
Lemma track_len l : zlen (bytes_of (track_item l)) = 8 + track_size l.
Proof using Type.
  unfold track_item. change (bytes_of (ISet ?n ?x)) with (bytes_of_all x). rewrite bytes_of_all_app, zlen_app. unfold track_size. unfold be, bytes_of_all at 1. cbn [flat_map bytes_of plain_bytes]. rewrite !zlen_app, zlen_uint. change (zlen (lit "MTrk")) with 4. change (zlen []) with 0. lia.
Qed.
Lemma track_obeys stop p l k : track_ok l -> obeys stop p (Track k) [track_item l] k.
Proof using Hs Hb.
  intros [K Sz]. assert (S0 : 0 <= track_size l) by (unfold track_size; apply zlen_nonneg). pose proof (track_len l) as Tl. unfold Track.
  eapply (ob_peek read data Hs Hb stop p 4 (SNum 4 BIG_ENDIAN (track_size l)) true _ _ _ (KNum 32 BE) 32 (lit "MTrk")); [unfold track_item, be; rewrite bytes_of_all_cons; change (bytes_of (ISet ?n ?x)) with (bytes_of_all x); cbn [app]; rewrite !bytes_of_all_cons; cbn [bytes_of plain_bytes]; rewrite <- !app_assoc; reflexivity|reflexivity|split; [discriminate|split; [lia|change (8 * Z.of_nat 4) with 32; lia]]|reflexivity|reflexivity|].
  cbn [plain_val num]. unfold track_item. change (bytes_of (track_item l)) with (bytes_of_all ([I (lit "marker") (SText (lit "MTrk")); be 4 "size" (track_size l)] ++ map event_item l)) in Tl. apply ob_set; [rewrite Tl; lia|lia| |apply ob_nil].
  unfold Track_fields. cbn [app]. apply ob_plain; [split; [discriminate|vm_compute; discriminate]|reflexivity|]. unfold be. apply ob_plain; [split; [discriminate|split; [lia|change (8 * Z.of_nat 4) with 32; lia]]|reflexivity|]. apply ob_ask. set (q := p + _ + _). assert (q = p + 8) by (unfold q, len; cbn [bytes_of plain_bytes]; rewrite zlen_uint; change (zlen (lit "MTrk")) with 4; lia).
  set (stop' := 8 * p + (8 + track_size l) * 8). pose proof (events_count None l K) as Ec. destruct (events_obey l stop' q (S (Z.to_nat (stop' - 8 * q))) None None K) as [s H']; [intros c Ec'; discriminate|unfold stop'; lia|unfold stop'; lia|].
  rewrite <- (app_nil_r (map event_item l)). eapply ob_app; [exact H'|]. destruct (S (Z.to_nat (stop' - 8 * q)) - List.length l)%nat as [|n] eqn:En; [unfold stop' in En; lia|]. cbn [loop_from]. apply ob_ask. replace (stop' <=? _) with true; [apply ob_nil|]. unfold stop'. fold (track_size l). lia.
Qed.
Lemma start_obeys stop p m : midi_ok m -> obeys stop p midi_fields (start_items m) (PAsk (fun stop a => loop Track (S (Z.to_nat (stop - a))))).
Proof using Type.
  intros (F & C & D & _). unfold midi_fields, start_items. apply ob_plain; [split; [discriminate|vm_compute; discriminate]|reflexivity|]. apply ob_set; [unfold be, bytes_of_all; cbn [flat_map bytes_of plain_bytes]; rewrite !zlen_app, !zlen_uint; reflexivity|lia| |apply ob_nil]. unfold Header_fields, be. repeat ob.
Qed.
Lemma start_len m : zlen (bytes_of_all (start_items m)) = 14.
Proof using Type. unfold start_items, be, bytes_of_all. cbn [flat_map bytes_of plain_bytes]. rewrite !zlen_app, !zlen_uint. reflexivity. Qed.
End Read.
(** A string that is found is found for the first time somewhere. *)
Lemma first_le needle data n upto : occurs_at needle data n -> n + zlen needle <= upto -> forall from, 0 <= from <= n -> exists k, first_occurrence needle data from upto k /\ k <= n.
Proof.
  intros O U. assert (Dec : forall j, {occurs_at needle data j} + {~ occurs_at needle data j}). { intros j. unfold occurs_at. destruct (Z_le_dec 0 j); [|right; tauto]. destruct (Z_le_dec (j + zlen needle) (zlen data)); [|right; tauto]. destruct (list_eq_dec Z.eq_dec (sub data j (zlen needle)) needle); [left; auto|right; tauto]. }
  assert (Ind : forall m : nat, forall from, n - from = Z.of_nat m -> 0 <= from -> exists j, first_occurrence needle data from upto j /\ j <= n).
  { induction m as [|m IH]; intros from M F0; [assert (from = n) by lia; subst from; exists n; split; [|lia]; split; [lia|]; split; [lia|]; split; [exact O|intros; lia]|]. destruct (Dec from) as [O'|O']; [exists from; split; [|lia]; split; [lia|]; split; [lia|]; split; [exact O'|intros; lia]|]. destruct (IH (from + 1) ltac:(lia) ltac:(lia)) as (j & (J1 & J2 & J3 & J4) & J5). exists j. split; [|lia]. split; [lia|]. split; [lia|]. split; [exact J3|]. intros j' J'. destruct (Z.eq_dec j' from) as [->|]; [exact O'|apply J4; lia]. }
  intros from F. apply (Ind (Z.to_nat (n - from))); lia.
Qed.
Lemma occ_prefix needle x y j : j + zlen needle <= zlen x -> occurs_at needle (x ++ y) j <-> occurs_at needle x j.
Proof.
  intros J. unfold occurs_at. rewrite zlen_app. pose proof (zlen_nonneg y). split; intros (P & Q & R); (split; [lia|split; [lia|]]); rewrite <- R at 2; unfold sub; rewrite skipn_app, firstn_app; (replace (Z.to_nat (zlen needle) - _)%nat with O by (rewrite skipn_length; unfold zlen in *; lia)); cbn [firstn]; rewrite app_nil_r; reflexivity.
Qed.

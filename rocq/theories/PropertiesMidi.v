(** C82: what the parser of MIDI files shows. *)
From Coq Require Import String.
From Verif Require Import Base BaseProofs BitsModel BitsSpec BitsProofs StreamModel StreamSpec StreamProofs StreamProofs2 DictModel DictProofs FieldModel FieldNames ToolsModel NumSpec NumRead ChunkBase GenModel GenSpec GenProofs ItemSpec ItemProofs ItemProofs2 ZipSpec MidiModel MidiSpec MidiProofs Lit.
Open Scope Z_scope.
Ltac Zify.zify_post_hook ::= Z.div_mod_to_equations.

Section Read.
Context (read : read_fun) (data : list Z) (Hs : serves read data) (Hb : is_bytes data).
Lemma tracks_obey l : forall stop p n, Forall track_ok l -> (List.length l <= n)%nat -> 8 * (p + zlen (bytes_of_all (map track_item l))) <= stop -> obeys read data stop p (loop Track n) (map track_item l) (loop Track (n - List.length l)).
Proof using Hs Hb.
  induction l as [|t l IH]; intros stop p n K N St; [rewrite Nat.sub_0_r; apply ob_nil|]. destruct n as [|n]; [cbn [List.length] in N; lia|]. apply Forall_cons_iff in K as [K K']. cbn [map List.length] in *. rewrite bytes_of_all_cons, zlen_app in St. pose proof (track_len t) as Tl. pose proof (zlen_nonneg (bytes_of_all (map track_item l))). assert (0 <= track_size t) by apply zlen_nonneg.
  cbn [loop]. apply ob_ask. replace (stop <=? 8 * p) with false by lia. change (track_item t :: map track_item l) with ([track_item t] ++ map track_item l). eapply ob_app; [apply track_obeys; auto|]. replace (S n - S (List.length l))%nat with (n - List.length l)%nat by lia. apply IH; [exact K'|lia|]. rewrite bytes_of_all_cons, app_nil_r. lia.
Qed.
Lemma tracks_count l : Z.of_nat (List.length l) <= zlen (bytes_of_all (map track_item l)).
Proof using Type.
  induction l as [|t l IH]; [cbn; lia|]. cbn [map List.length]. rewrite bytes_of_all_cons, zlen_app, track_len. assert (0 <= track_size t) by apply zlen_nonneg. lia.
Qed.
Lemma midi_obeys m stop : midi_ok m -> 8 * zlen (bytes_of_all (midi_items m)) <= stop -> exists n, (1 <= n)%nat /\ obeys read data stop 0 midi_fields (midi_items m) (loop Track n).
Proof using Hs Hb.
  intros K St. unfold midi_items in *. rewrite bytes_of_all_app, zlen_app, start_len in St. pose proof (tracks_count (m_tracks m)). exists (S (Z.to_nat (stop - 8 * 14)) - List.length (m_tracks m))%nat. split; [lia|]. eapply ob_app; [apply start_obeys, K|]. rewrite start_len. apply ob_ask. apply tracks_obey; [apply K|lia|lia].
Qed.
End Read.
(** For every file: its header, its tracks, and in each one its events, with the numbers of variable length and the running status. *)
Theorem C82_file : forall read m, let data := bytes_of_all (midi_items m) in serves read data -> is_bytes data -> midi_ok m ->
  MidiFile read (8 * zlen data) = (shows (midi_items m) 0, None, 8 * zlen data).
Proof.
  intros read m data Hs Hb K. unfold MidiFile. apply (obey_file read data Hs Hb); [reflexivity|]. destruct (midi_obeys read data Hs Hb m (8 * zlen data) K ltac:(unfold data; lia)) as (n & N & H). rewrite <- (app_nil_r (midi_items m)). eapply ob_app; [exact H|]. destruct n as [|n]; [lia|]. cbn [loop]. apply ob_ask. replace (_ <=? _) with true; [apply ob_nil|]. fold data. lia.
Qed.
Print Assumptions C82_file.
(** Whatever follows: the fields of the file come first. *)
Lemma midi_start read m rest : let data := bytes_of_all (midi_items m) ++ rest in serves read data -> is_bytes data -> midi_ok m -> exists l, fst (fst (MidiFile read (8 * zlen data))) = shows (midi_items m) 0 ++ l.
Proof.
  intros data Hs Hb K. destruct (midi_obeys read data Hs Hb m (8 * zlen data) K) as (n & _ & H); [unfold data; rewrite zlen_app; pose proof (zlen_nonneg rest); lia|]. destruct (obey_start read data Hs Hb _ _ _ H (occ_pre [] _ rest)) as [r R]. unfold MidiFile. rewrite R. eexists. reflexivity.
Qed.
Lemma midi_header m l : exists p, group (lit "header") (shows (midi_items m) 0 ++ l) = Some (shows [be 4 "size" 6; be 2 "file_format" (m_format m); be 2 "nb_track" (m_count m); be 2 "delta_time" (m_division m)] p).
Proof. unfold midi_items, start_items. cbn [app shows]. rewrite show_set. eexists. reflexivity. Qed.
Lemma header_values m l : let h := shows (midi_items m) 0 ++ l in header_value "size" h = Ok 6 /\ header_value "file_format" h = Ok (m_format m) /\ header_value "nb_track" h = Ok (m_count m).
Proof. intros h. unfold header_value, h. destruct (midi_header m l) as [p ->]. auto. Qed.
(** Every such file is accepted, whatever follows it; a file that starts otherwise is not. *)
Theorem C82_valid : forall read m rest, let data := bytes_of_all (midi_items m) ++ rest in serves read data -> is_bytes data -> midi_ok m -> midi_validate read (8 * zlen data) = Ok true.
Proof.
  intros read m rest data Hs Hb K. unfold midi_validate. assert (O : occurs_at (lit "MThd") data 0). { unfold data, midi_items, start_items. cbn [app]. rewrite bytes_of_all_cons. cbn [bytes_of plain_bytes]. rewrite <- app_assoc. apply (occ_pre []). }
  pose proof (rb_occ read data Hs 0 _ O ltac:(discriminate)) as R. change (8 * 0) with 0 in R. change (zlen (lit "MThd")) with 4 in R. rewrite R. cbn [bind]. change (negb (str_eqb (lit "MThd") (lit "MThd"))) with false. cbn iota.
  destruct (midi_start read m rest Hs Hb K) as [l E]. fold data in E. rewrite E. destruct (header_values m l) as (-> & _). reflexivity.
Qed.
Print Assumptions C82_valid.
Theorem C82_invalid : forall read data x, serves read data -> occurs_at x data 0 -> zlen x = 4 -> x <> lit "MThd" -> midi_validate read (8 * zlen data) = Ok false.
Proof.
  intros read data x Hs O L N. unfold midi_validate. pose proof (rb_occ read data Hs 0 _ O ltac:(intros ->; discriminate)) as R. change (8 * 0) with 0 in R. rewrite L in R. rewrite R. cbn [bind]. destruct (str_eqb x (lit "MThd")) eqn:E; [apply str_eqb_eq in E; contradiction|]. reflexivity.
Qed.
Print Assumptions C82_invalid.
(** The description says the format and the number of tracks of the header. *)
Definition format_name (v : Z) : str := if v =? 0 then lit "Single track" else if v =? 1 then lit "Multiple tracks, synchronous" else if v =? 2 then lit "Multiple tracks, asynchronous" else dec v.
Theorem C82_description : forall read m rest, let data := bytes_of_all (midi_items m) ++ rest in serves read data -> is_bytes data -> midi_ok m ->
  midi_description (fst (fst (MidiFile read (8 * zlen data)))) = Ok (lit "MIDI audio: " ++ format_name (m_format m) ++ lit "; " ++ dec (m_count m) ++ lit " tracks").
Proof.
  intros read m rest data Hs Hb K. destruct (midi_start read m rest Hs Hb K) as [l E]. fold data in E. rewrite E. unfold midi_description. destruct (header_values m l) as (_ & -> & ->). cbn [bind]. do 2 f_equal. f_equal. unfold format_name, file_format_display.
  destruct (m_format m =? 0) eqn:A; [replace (m_format m) with 0 by lia; reflexivity|]. destruct (m_format m =? 1) eqn:B; [replace (m_format m) with 1 by lia; reflexivity|]. destruct (m_format m =? 2) eqn:C; [replace (m_format m) with 2 by lia; reflexivity|].
  destruct (m_format m) as [|[p|[p|p|]|]|p]; try reflexivity; lia.
Qed.
Print Assumptions C82_description.
(** Numbers of variable length: seven bits in each byte, the highest ones first; the bytes of each number end with the first one less than 128. *)
Theorem C82_integer : forall read data p init last, serves read data -> is_bytes data -> Forall (fun b => 128 <= b < 256) init -> 0 <= last < 128 -> zlen init <= 3 -> occurs_at (init ++ [last]) data p ->
  vlq read 4 (8 * p) 0 8 = Ok (vlq_value (init ++ [last]), 8 * zlen (init ++ [last])).
Proof.
  intros read data p init last Hs Hb I L N O. rewrite (vlq_read read data Hs Hb init last I L); [|unfold zlen in N; lia|lia|exact O]. rewrite zlen_app. change (zlen [last]) with 1. do 2 f_equal. lia.
Qed.
Print Assumptions C82_integer.
Theorem C82_integer_value : forall init last, 0 <= last < 128 -> vlq_value (init ++ [last]) = 128 * vlq_value init + last.
Proof. intros init last L. unfold vlq_value. rewrite fold_left_app. cbn [fold_left]. rewrite Z.mod_small by lia. reflexivity. Qed.
Print Assumptions C82_integer_value.
(** Longer numbers are refused. *)
Theorem C82_integer_long : forall read data p x, serves read data -> is_bytes data -> Forall (fun b => 128 <= b < 256) x -> zlen x = 4 -> occurs_at x data p -> vlq read 4 (8 * p) 0 8 = Err ParserError.
Proof.
  intros read data p x Hs Hb F L O. destruct x as [|a [|b [|c [|d [|e x]]]]]; unfold zlen in L; cbn [List.length] in L; try lia. repeat match goal with H : Forall _ (_ :: _) |- _ => apply Forall_cons_iff in H as [? ?] end.
  assert (St : forall n q v size z, 128 <= z < 256 -> occurs_at [z] data q -> vlq read (S n) (8 * q) v size = if 32 <? size + 8 then Err ParserError else vlq read n (8 * (q + 1)) (Z.shiftl v 7 + Z.land z 127) (size + 8)).
  { intros n q v size z Z0 O'. cbn [vlq]. rewrite <- (uint1 z) in O' by lia. rewrite (read_num read data Hs Hb BIG_ENDIAN 1 8 z q ltac:(discriminate) ltac:(lia) ltac:(lia) ltac:(change (2 ^ 8) with 256; lia) O'). cbn [bind]. rewrite land128 by lia. replace (z <? 128) with false by lia. cbv zeta. replace (8 * q + 8) with (8 * (q + 1)) by lia. reflexivity. }
  change [a; b; c; d] with ([a] ++ [b] ++ [c] ++ [d]) in O. apply occ_app in O as [Oa O]. apply occ_app in O as [Ob O]. apply occ_app in O as [Oc Od]. change (zlen [a]) with 1 in *. change (zlen [b]) with 1 in *. change (zlen [c]) with 1 in *.
  rewrite (St _ _ _ _ a), (St _ _ _ _ b), (St _ _ _ _ c), (St _ _ _ _ d) by assumption. reflexivity.
Qed.
Print Assumptions C82_integer_long.
(** Every file: the fields follow each other from the start and end inside the file, and the loops end. *)
Section Ends.
Context (read : read_fun) (data : list Z) (Hs : serves read data) (Hb : is_bytes data) (He : ends read data) (Hd : data <> []).
Notation safe := (safe read data).
Lemma vlq_any : forall n a v size, 0 <= a -> 8 <= size -> size = 8 * (5 - Z.of_nat n) -> (1 <= n)%nat -> match vlq read n a v size with Ok r => 1 <= snd r | Err e => e <> OutOfFuel end.
Proof using Hs Hb He.
  induction n as [|n IH]; intros a v size A S0 S N; [lia|]. cbn [vlq]. destruct (bits_any read data Hs He a 8 BIG_ENDIAN Hb ltac:(discriminate) A ltac:(lia)) as [(E & _)|E]; rewrite E; cbn [bind]; [|discriminate]. destruct (_ =? 0); [cbn [snd]; lia|]. cbv zeta. destruct (32 <? size + 8) eqn:L; [discriminate|]. apply IH; lia.
Qed.
Lemma integer_safe m name c : (forall v, safe (m - 1) (c v)) -> safe m (PFld name Integer c).
Proof using Hs Hb He. intros H. apply safe_code; [|exact H]. intros a A. apply vlq_any; lia. Qed.
Lemma command_safe c m : safe m (command_data c).
Proof using All.
  unfold command_data. destruct (c =? 255).
  - calm_step. apply integer_safe. intros size. destruct (num size =? 0); [apply safe_ret|]. unfold meta_parser, parseText, parseChannel, parseTempo, parseSMPTEOffset, parseTimeSignature, u8. repeat match goal with |- context [if ?b then _ else _] => destruct b end; repeat calm_step.
  - unfold command_parser, parseNote, parseControl, parsePatch, parseChannel, parsePitch, u8. destruct (c / 16) as [|[[[[?|?|]|[?|?|]|]|[[?|?|]|[?|?|]|]|]|[[[?|?|]|[?|?|]|]|[[?|?|]|[?|?|]|]|]|]|?]; repeat calm_step.
Qed.
Lemma track_safe k m : safe (m - 1) k -> safe m (Track k).
Proof using All.
  intros K. unfold Track. apply safe_peek; try assumption; [split; [lia|discriminate]|lia|]. intros size. apply safe_set; [|intros _; exact K]. unfold Track_fields. do 2 calm_step. apply safe_ask. intros stop a A M. apply safe_loop_from; [|lia]. clear K. intros s m' k' K. unfold Command. apply safe_open; try assumption; [|intros l; apply K].
  unfold Command_fields. apply integer_safe. intros t. apply safe_peek; try assumption; [split; [lia|discriminate]|lia|]. intros next. destruct (_ =? 0); [destruct s; [apply command_safe|apply safe_err; discriminate]|]. calm_step. apply command_safe.
Qed.
End Ends.
Theorem C82_any : forall read data, serves read data -> ends read data -> is_bytes data -> data <> [] ->
  let '(l, e, b) := MidiFile read (8 * zlen data) in tiled 0 l b /\ b <= 8 * zlen data /\ settled_file (l, e, b).
Proof.
  intros read data Hs He Hb Hd. apply (any_file read data Hs Hb He Hd). unfold midi_fields. calm_step. apply safe_set; [unfold Header_fields; repeat calm_step|]. intros ?. apply safe_ask. intros stop a A M. apply safe_loop; [|lia]. intros m k K. apply track_safe; auto.
Qed.
Print Assumptions C82_any.
(** ** The size of the content *)
Definition tracks_end (l : list (list event)) : Z := 14 + zlen (bytes_of_all (map track_item l)).
Lemma tracks_app a b : tracks (a ++ b) = tracks a ++ tracks b.
Proof. apply filter_app. Qed.
Lemma track_show t p : exists k, ItemSpec.show (track_item t) p = [G (lit "track[]") (8 * p) (8 * zlen (bytes_of (track_item t))) k None].
Proof. eexists. apply show_set. Qed.
Lemma tracks_show l : forall p, tracks (shows (map track_item l) p) = shows (map track_item l) p /\ List.length (shows (map track_item l) p) = List.length l.
Proof.
  induction l as [|t l IH]; intros p; [split; reflexivity|]. cbn [map shows]. set (q := p + len (track_item t)). destruct (track_show t p) as [k ->]. rewrite tracks_app. destruct (IH q) as [-> Ln]. rewrite app_length, Ln. split; reflexivity.
Qed.
Lemma track_at m l pre last post : m_tracks m = pre ++ last :: post -> exists k, nth_error (tracks (shows (midi_items m) 0 ++ l)) (List.length pre) = Some (G (lit "track[]") (8 * tracks_end pre) (8 * zlen (bytes_of (track_item last))) k None).
Proof.
  intros E. unfold midi_items. rewrite E, map_app. cbn [map]. rewrite !shows_app, !tracks_app. replace (tracks (shows (start_items m) 0)) with (@nil fld) by (unfold start_items; cbn [shows]; rewrite show_set; reflexivity). cbn [app]. destruct (tracks_show pre (0 + zlen (bytes_of_all (start_items m)))) as [-> Ln]. rewrite start_len in *. rewrite <- app_assoc, nth_error_app2 by (rewrite Ln; lia). rewrite Ln, Nat.sub_diag. cbn [shows]. match goal with |- context [ItemSpec.show _ ?q] => destruct (track_show last q) as [k ->] end. rewrite !tracks_app. exists k. reflexivity.
Qed.
(** The content ends with the first end of track, "\xff\x2f\x00", after the start of the last track that the header counts. *)
Theorem C82_content_size : forall read m rest pre last post, let data := bytes_of_all (midi_items m) ++ rest in serves read data -> is_bytes data -> midi_ok m -> m_tracks m = pre ++ last :: post -> m_count m = zlen pre + 1 ->
  let from := tracks_end pre in let upto := Z.min (zlen data) (10 * 1024 * 1024) in
  (exists k, midi_content_size read (8 * zlen data) = Ok (Some (8 * (k + 3))) /\ first_occurrence [0xff; 0x2f; 0] data from upto k) \/ (midi_content_size read (8 * zlen data) = Ok None /\ forall k, ~ first_occurrence [0xff; 0x2f; 0] data from upto k).
Proof.
  intros read m rest pre last post data Hs Hb K E C from upto. unfold midi_content_size. destruct (midi_start read m rest Hs Hb K) as [l El]. fold data in El. rewrite El. destruct (header_values m l) as (_ & _ & ->). cbn [bind]. pose proof (zlen_nonneg pre). replace (m_count m - 1 <? 0) with false by lia. replace (Z.to_nat (m_count m - 1)) with (List.length pre) by (unfold zlen in C; lia).
  destruct (track_at m l pre last post E) as [k ->]. cbn [f_addr]. assert (F0 : 0 < from) by (unfold from, tracks_end; pose proof (zlen_nonneg (bytes_of_all (map track_item pre))); lia). fold from. assert (Nd : data <> []) by (unfold data, midi_items, start_items; discriminate).
  destruct (searchBytes_correct read data [255; 47; 0] from (Some (10 * 1024 * 1024 * 8)) Hs Nd ltac:(discriminate) ltac:(lia)) as [(j & -> & J)|[-> J]]; cbn [bind]; unfold search_limit in J; replace (10 * 1024 * 1024 * 8 / 8) with (10 * 1024 * 1024) in J by lia; [left; exists j|right; split; [reflexivity|exact J]].
  split; [|exact J]. do 2 f_equal. lia.
Qed.
Print Assumptions C82_content_size.
(** A file of at most 10 MB whose last track ends with an end of track: its size is found whatever follows it, unless the three bytes are in the last track before. *)
Theorem C82_content_size_le : forall read m rest pre last x, let all := bytes_of_all (midi_items m) in let data := all ++ rest in serves read data -> is_bytes data -> midi_ok m -> m_tracks m = pre ++ [last] -> m_count m = zlen pre + 1 ->
  bytes_of (track_item last) = x ++ [0xff; 0x2f; 0] -> zlen all <= 10 * 1024 * 1024 ->
  exists k, midi_content_size read (8 * zlen data) = Ok (Some (8 * k)) /\ tracks_end pre < k <= zlen all /\ (k = zlen all <-> forall j, tracks_end pre <= j < zlen all - 3 -> ~ occurs_at [0xff; 0x2f; 0] all j).
Proof.
  intros read m rest pre last x all data Hs Hb K E C X L. assert (B : exists y, all = y ++ x ++ [255; 47; 0] /\ zlen y = tracks_end pre).
  { exists (bytes_of_all (start_items m) ++ bytes_of_all (map track_item pre)). unfold all, midi_items. rewrite E, map_app. cbn [map]. rewrite !bytes_of_all_app, bytes_of_all_cons, app_nil_r, X, <- app_assoc. split; [reflexivity|]. rewrite zlen_app, start_len. reflexivity. }
  destruct B as (y & Ey & Ly). pose proof (zlen_nonneg y). pose proof (zlen_nonneg x). pose proof (zlen_nonneg rest). assert (Al : zlen all = zlen y + zlen x + 3) by (rewrite Ey, !zlen_app; change (zlen [255; 47; 0]) with 3; lia). assert (Dl : zlen data = zlen all + zlen rest) by apply zlen_app.
  assert (On : occurs_at [255; 47; 0] all (zlen all - 3)). { replace (zlen all - 3) with (zlen (y ++ x)) by (rewrite zlen_app; lia). rewrite Ey, app_assoc. pose proof (occ_pre (y ++ x) [255; 47; 0] []) as O. rewrite app_nil_r in O. exact O. }
  assert (Same : forall j, j + 3 <= zlen all -> occurs_at [255; 47; 0] data j <-> occurs_at [255; 47; 0] all j) by (intros j J; apply occ_prefix; exact J).
  destruct (first_le [255; 47; 0] data (zlen all - 3) (Z.min (zlen data) (10 * 1024 * 1024)) (proj2 (Same (zlen all - 3) ltac:(lia)) On) ltac:(change (zlen [255; 47; 0]) with 3; lia) (tracks_end pre) ltac:(lia)) as (k0 & F0 & K0).
  destruct (C82_content_size read m rest pre last [] Hs Hb K E C) as [(k & Ck & F)|[_ N]]; [|exfalso; apply (N k0 F0)]. fold all in Ck, F. change (all ++ rest) with data in Ck, F. destruct F as (F1 & F2 & F3 & F4). change (zlen [255; 47; 0]) with 3 in F2. assert (k <= zlen all - 3). { destruct (Z_le_gt_dec k (zlen all - 3)) as [|G]; [assumption|]. exfalso. apply (F4 (zlen all - 3)); [lia|]. apply Same; [lia|exact On]. }
  exists (k + 3). split; [exact Ck|]. split; [lia|]. split.
  - intros Ek j J O. apply (F4 j); [lia|]. apply Same; [lia|exact O].
  - intros Ho. destruct (Z.eq_dec k (zlen all - 3)) as [->|Nk]; [lia|]. exfalso. apply (Ho k); [lia|]. apply Same; [lia|exact F3].
Qed.
Print Assumptions C82_content_size_le.
(** A header that counts no track, or more tracks than there are: asking for the size of the content raises MissingField (midi.py:263-264). *)
Theorem C82_content_size_missing_refuted : forall read m, let data := bytes_of_all (midi_items m) in serves read data -> is_bytes data -> midi_ok m -> m_count m = 0 \/ zlen (m_tracks m) < m_count m ->
  midi_content_size read (8 * zlen data) = Err MissingField.
Proof.
  intros read m data Hs Hb K C. unfold midi_content_size, data. rewrite C82_file by assumption. cbn [fst]. rewrite <- (app_nil_r (shows _ _)). destruct (header_values m []) as (_ & _ & ->). cbn [bind]. destruct (m_count m - 1 <? 0) eqn:N; [reflexivity|]. assert (C' : zlen (m_tracks m) < m_count m) by lia.
  replace (nth_error _ _) with (@None fld); [reflexivity|]. symmetry. apply nth_error_None. rewrite app_nil_r. unfold midi_items. rewrite shows_app, tracks_app, app_length. destruct (tracks_show (m_tracks m) (0 + zlen (bytes_of_all (start_items m)))) as [-> ->]. replace (tracks (shows (start_items m) 0)) with (@nil fld) by (unfold start_items; cbn [shows]; rewrite show_set; reflexivity). unfold zlen in C'. cbn [List.length]. lia.
Qed.
Print Assumptions C82_content_size_missing_refuted.
(** ** System exclusive messages *)
(** The standard has events with the status 0xF0 and 0xF7 (system exclusive messages); the parser knows none of the commands from 0xF0 to 0xFE (midi.py:170-173): the events
    after the first one of them are not shown, though the track is one of the format, and the command where it stopped is not shown either.  The other tracks are shown. *)
Theorem C82_sysex_refuted : forall read m l t s x, let n := track_size l + zlen t + 1 + zlen x in
  let bad := lit "MTrk" ++ uint BIG_ENDIAN 4 n ++ bytes_of_all (map event_item l) ++ t ++ [s] ++ x in let data := bytes_of_all (start_items m) ++ bad ++ bytes_of_all (map track_item (m_tracks m)) in
  serves read data -> is_bytes data -> midi_ok m -> events_ok None l -> is_vlq t -> 0xf0 <= s <= 0xfe -> x <> [] -> n < 2 ^ 32 ->
  MidiFile read (8 * zlen data) = (shows (start_items m) 0 ++ [G (lit "track[]") (8 * 14) (8 * (8 + n)) (shows ([I (lit "marker") (SText (lit "MTrk")); be 4 "size" n] ++ map event_item l) 14) (Some ParserError)] ++ shows (map track_item (m_tracks m)) (22 + n), None, 8 * zlen data).
Proof.
  intros read m l t s x n bad data Hs Hb K El Vt Sr Nx N32. assert (X1 : 1 <= zlen x) by (destruct x; [contradiction|rewrite zlen_cons; pose proof (zlen_nonneg x); lia]). assert (T1 : 1 <= zlen t). { destruct Vt as (i & la & -> & _). rewrite zlen_app. change (zlen [la]) with 1. pose proof (zlen_nonneg i). lia. } assert (S0 : 0 <= track_size l) by apply zlen_nonneg.
  assert (Bl : zlen bad = 8 + n). { unfold bad. rewrite !zlen_app, zlen_uint. change (zlen (lit "MTrk")) with 4. change (zlen [s]) with 1. fold (track_size l). unfold n. lia. }
  set (more := bytes_of_all (map track_item (m_tracks m))). assert (Dl : zlen data = 22 + n + zlen more) by (unfold data; rewrite !zlen_app, start_len, Bl; fold more; lia). pose proof (zlen_nonneg more) as M0.
  assert (O : occurs_at (bad ++ more) data 14). { unfold data. rewrite <- (start_len m). pose proof (occ_pre (bytes_of_all (start_items m)) (bad ++ more) []) as O. rewrite app_nil_r in O. exact O. } apply occ_app in O as [Ob Om]. rewrite Bl in Om. replace (14 + (8 + n)) with (22 + n) in Om by lia.
  set (head := [I (lit "marker") (SText (lit "MTrk")); be 4 "size" n] ++ map event_item l). assert (Hl : bytes_of_all head = lit "MTrk" ++ uint BIG_ENDIAN 4 n ++ bytes_of_all (map event_item l)) by reflexivity.
  assert (Oh : occurs_at (bytes_of_all head ++ t ++ [s] ++ x) data 14) by (rewrite Hl, <- !app_assoc; exact Ob). apply occ_app in Oh as [Oh Ot]. assert (Lh : zlen (bytes_of_all head) = 8 + track_size l) by (rewrite Hl, !zlen_app, zlen_uint; change (zlen (lit "MTrk")) with 4; fold (track_size l); lia). rewrite Lh in Ot. pose proof Ot as Ots. apply occ_app in Ots as [_ Os]. apply occ_app in Os as [Os _].
  set (stop := 8 * 14 + (8 + n) * 8). set (q := 14 + (8 + track_size l)) in *.
  (* the fields of the track *)
  assert (RT : exists b, run read (8 * zlen data) Track_fields true stop (8 * 14) = (shows head 14, Some ParserError, b)).
  { pose proof (events_count None l El) as Ec. destruct (events_obey read data Hs Hb l stop 22 (S (Z.to_nat (stop - 8 * 22))) None None El) as [s' H']; [intros c E; discriminate|unfold stop, n; lia|unfold stop, n; lia|].
    assert (Hh : obeys read data stop 14 Track_fields head (loop_from Command (S (Z.to_nat (stop - 8 * 22)) - List.length l) s')).
    { unfold Track_fields, head. cbn [app]. apply ob_plain; [split; [discriminate|vm_compute; discriminate]|reflexivity|]. unfold be. apply ob_plain; [split; [discriminate|split; [unfold n; lia|change (8 * Z.of_nat 4) with 32; lia]]|reflexivity|]. apply ob_ask. unfold len. cbn [bytes_of plain_bytes]. rewrite zlen_uint. change (14 + zlen (lit "MTrk") + Z.of_nat 4) with 22. exact H'. }
    pose proof (follow read data Hs Hb _ _ _ _ _ (Hh ltac:(split; [exact Oh|rewrite Lh; unfold stop, n; lia])) true Oh ltac:(rewrite Lh; unfold stop, n; lia)) as R. rewrite R. rewrite Lh. fold q. change (after_items head true) with false.
    destruct (S (Z.to_nat (stop - 8 * 22)) - List.length l)%nat as [|k] eqn:Ek; [unfold stop, n in Ek; lia|]. cbn [loop_from GenModel.run]. replace (stop <=? 8 * q) with false by (unfold stop, q, n; lia).
    assert (Rc : forall c, run read (8 * zlen data) (Command s' c) false stop (8 * q) = ([], Some ParserError, 8 * q)).
    { intros c. unfold Command. cbn [GenModel.run]. assert (Hc : obeys read data stop q (Command_fields s') [var "time" t; be 1 "command" s] (PErr ParserError)).
      { unfold Command_fields. apply (ob_var read data Hs Hb); [exact Vt|]. eapply (ob_look read data Hs Hb _ _ s); [unfold byte; change (2 ^ 8) with 256; lia|unfold be; rewrite bytes_of_all_cons; reflexivity|]. cbn [num]. rewrite land128 by lia. replace (s <? 128) with false by lia. unfold be. apply ob_plain; [split; [discriminate|split; [lia|change (2 ^ (8 * Z.of_nat 1)) with 256; lia]]|reflexivity|]. cbn [plain_val num].
        unfold command_data. replace (s =? 255) with false by lia. unfold command_parser. replace (s / 16) with 15 by lia. apply ob_nil. }
      assert (Bc : bytes_of_all [var "time" t; be 1 "command" s] = t ++ [s]). { unfold be. rewrite !bytes_of_all_cons. cbn [bytes_of plain_bytes]. rewrite uint1 by lia. reflexivity. }
      assert (Oc : occurs_at (bytes_of_all [var "time" t; be 1 "command" s]) data q) by (rewrite Bc; rewrite app_assoc in Ot; apply occ_app in Ot as [Ot _]; exact Ot).
      assert (Lc : zlen (bytes_of_all [var "time" t; be 1 "command" s]) = zlen t + 1) by (rewrite Bc, zlen_app; reflexivity).
      pose proof (follow read data Hs Hb _ _ _ _ _ (Hc ltac:(split; [exact Oc|rewrite Lc; unfold stop, q, n; lia])) true Oc ltac:(rewrite Lc; unfold stop, q, n; lia)) as Rc. rewrite Rc, Lc. unfold puts. cbn [GenModel.run fst snd]. rewrite app_nil_r. cbn [shows ItemSpec.show app]. replace (negb (stop <=? 8 * (q + (zlen t + 1)))) with true by (unfold stop, q, n; lia). reflexivity. }
    rewrite Rc. unfold puts. cbn [fst snd]. rewrite app_nil_r. eexists. reflexivity. }
  destruct RT as [b RT].
  (* the file *)
  unfold MidiFile. pose proof (follow read data Hs Hb _ _ _ _ _ (start_obeys read data (8 * zlen data) 0 m K ltac:(split; [apply (occ_pre [])|rewrite start_len; lia])) true ltac:(apply (occ_pre [])) ltac:(rewrite start_len; lia)) as R. change (8 * 0) with 0 in R. rewrite R. rewrite start_len. change (0 + 14) with 14. cbn [GenModel.run]. set (f0 := after_items _ _). assert (f0 = false) as -> by reflexivity. cbn [loop GenModel.run]. replace (8 * zlen data <=? 8 * 14) with false by lia.
  set (k := loop Track _). unfold Track. match goal with |- context [peek _ _ _ ?c] => set (cc := c) end. unfold peek. cbn [GenModel.run].
  assert (Osz : occurs_at (uint BIG_ENDIAN 4 n) data 18) by (unfold bad in Ob; apply occ_app in Ob as [_ Ob]; apply occ_app in Ob as [Ob _]; exact Ob). 
  cbn [fsize fval]. change (8 * 14 + 32) with (8 * 18). change (0 <=? 32) with true. cbn [bind]. replace (true && (8 * zlen data <? 8 * 18 + 32)) with false by lia. rewrite (read_num read data Hs Hb BIG_ENDIAN 4 32 n 18 ltac:(discriminate) ltac:(lia) ltac:(lia) ltac:(unfold n in *; lia) Osz). cbn [bind]. unfold cc. cbn [num].
  rewrite (step_set read _ (lit "track[]") ((8 + n) * 8) Track_fields (fun _ => k) false (8 * zlen data) (8 * 14) _ _ b (8 * (22 + n)) RT) by (unfold n in *; lia).
  assert (Hm : obeys read data (8 * zlen data) (22 + n) k (map track_item (m_tracks m)) PRet).
  { unfold k. pose proof (tracks_count (m_tracks m)) as Tc. fold more in Tc. rewrite <- (app_nil_r (map track_item _)). eapply ob_app; [apply (tracks_obey read data Hs Hb); [apply K|lia|fold more; lia]|]. fold more. destruct (Z.to_nat (8 * zlen data - 8 * 14) - List.length (m_tracks m))%nat as [|j] eqn:Ej; [lia|]. cbn [loop]. apply ob_ask. replace (_ <=? _) with true by lia. apply ob_nil. }
  pose proof (follow_all read data Hs Hb _ _ _ _ false (Hm ltac:(split; [exact Om|fold more; lia])) Om ltac:(fold more; lia)) as Ra. fold more in Ra. rewrite Ra. unfold puts, put. cbn [fst snd]. replace ((8 + n) * 8) with (8 * (8 + n)) by lia. f_equal. lia.
Qed.
Print Assumptions C82_sysex_refuted.
(** ** The names of notes *)
(** The twelve notes of an octave *)
Definition scale : list string := ["C"; "C#"; "D"; "D#"; "E"; "F"; "F#"; "G"; "G#"; "A"; "A#"; "B"]%string.
Definition note_name (k o : Z) : str := lit (nth (Z.to_nat k) scale ""%string) ++ lit " (octave " ++ dec o ++ lit ")".
(** The names from C to G# are right. *)
Theorem C82_notes : forall o k, 0 <= o < 10 -> 0 <= k <= 8 -> note_display (12 * o + k) = note_name k o.
Proof.
  intros o k O K. assert (C : forallb (fun o => forallb (fun k => str_eqb (note_display (12 * Z.of_nat o + Z.of_nat k)) (note_name (Z.of_nat k) (Z.of_nat o))) (seq 0 9)) (seq 0 10) = true) by (vm_compute; reflexivity).
  rewrite forallb_forall in C. specialize (C (Z.to_nat o) ltac:(apply in_seq; lia)). rewrite forallb_forall in C. specialize (C (Z.to_nat k) ltac:(apply in_seq; lia)). rewrite !Z2Nat.id in C by lia. apply str_eqb_eq, C.
Qed.
Print Assumptions C82_notes.
(** The table of names has "G#" twice (tracker.py:5): the notes A, A# and B of each octave are shown with the name of the note below. *)
Theorem C82_notes_refuted : forall o k, 0 <= o < 10 -> 9 <= k <= 11 -> note_display (12 * o + k) = note_name (k - 1) o /\ note_name (k - 1) o <> note_name k o.
Proof.
  intros o k O K. assert (C : forallb (fun o => forallb (fun k => str_eqb (note_display (12 * Z.of_nat o + Z.of_nat k)) (note_name (Z.of_nat k - 1) (Z.of_nat o)) && negb (str_eqb (note_name (Z.of_nat k - 1) (Z.of_nat o)) (note_name (Z.of_nat k) (Z.of_nat o)))) (seq 9 3)) (seq 0 10) = true) by (vm_compute; reflexivity).
  rewrite forallb_forall in C. specialize (C (Z.to_nat o) ltac:(apply in_seq; lia)). rewrite forallb_forall in C. specialize (C (Z.to_nat k) ltac:(apply in_seq; lia)). rewrite !Z2Nat.id in C by lia. apply andb_true_iff in C as [C1 C2]. split; [apply str_eqb_eq, C1|]. intros E. apply negb_true_iff in C2. rewrite E in C2. assert (str_eqb (note_name k o) (note_name k o) = true) by (apply str_eqb_eq; reflexivity). congruence.
Qed.
Print Assumptions C82_notes_refuted.
(** The last notes: the second B of the table is the note 120, a C; the others have no name. *)
Theorem C82_last_notes : note_display 120 = note_name 11 9 /\ forall v, 120 < v -> note_display v = dec v.
Proof.
  split; [vm_compute; reflexivity|]. intros v V. unfold note_display. destruct (find _ (rev NOTE_NAME)) as [kv|] eqn:E; [|reflexivity]. exfalso. apply find_some in E as [I E]. assert (C : forallb (fun kv => fst kv <=? 120) (rev NOTE_NAME) = true) by (vm_compute; reflexivity). rewrite forallb_forall in C. specialize (C _ I). lia.
Qed.
Print Assumptions C82_last_notes.
(** ** A song of two tracks, with the running status, and a text *)
Definition song : midi := Midi 1 2 96 [[Meta [0] [4] (Text 3 (lit "Song")); Meta [0] [3] (Tempo 500000); Meta [0] [4] (Signature 4 2 24 8); Meta [0] [5] (Offset 0 1 1 2 3 4 5); Meta [0] [2] (Data 0x59 [0; 1]); Meta [0] [0] (Empty 0x2f)];
  [Message [0] false (Program 0 5); Message [0] false (Note 9 0 60 100); Message [129; 72] true (Note 9 0 60 0); Message [0] false (Control 1 7 127); Message [0] false (Pitch 2 0 64); Message [0] false (Touch 3 9); Meta [0] [1] (Prefix 3); Meta [0] [0] (Empty 0x2f)]].
Ltac made := repeat match goal with
  | |- True => exact Logic.I | |- is_vlq [?a] => exists [], a | |- is_vlq [?a; ?b] => exists [a], b | |- b7 _ => unfold b7 | |- byte _ => unfold byte | |- message_ok _ => cbn [message_ok] | |- meta_ok _ => cbn [meta_ok] | |- events_ok _ _ => cbn [events_ok after_event status] | |- track_ok _ => unfold track_ok
  | |- _ /\ _ => split | |- Forall _ (_ :: _) => constructor | |- Forall _ [] => constructor | |- ~ In _ _ => cbn [In]; lia | |- ~ _ => lia | |- false = true -> _ => discriminate | |- true = true -> _ => intros _
  | |- ?a < ?b => vm_compute; reflexivity | |- ?a <= ?b => vm_compute; discriminate | |- _ = _ => vm_compute; reflexivity end.
Example C82_song : midi_ok song /\ MidiFile (string_read (bytes_of_all (midi_items song))) (8 * zlen (bytes_of_all (midi_items song))) = (shows (midi_items song) 0, None, 8 * zlen (bytes_of_all (midi_items song))) /\
  midi_content_size (string_read (bytes_of_all (midi_items song) ++ [1; 2])) (8 * zlen (bytes_of_all (midi_items song) ++ [1; 2])) = Ok (Some (8 * zlen (bytes_of_all (midi_items song)))) /\ vlq_value [129; 72] = 200.
Proof. split; [unfold midi_ok, song; cbn [m_format m_count m_division m_tracks]; made|]. repeat split; vm_compute; reflexivity. Qed.
Example C82_notes_ok : note_display 60 = lit "C (octave 5)" /\ note_display 69 = lit "G# (octave 5)".
Proof. split; vm_compute; reflexivity. Qed.
Example C82_exclusive : let m := Midi 0 1 96 [] in let l := [Message [0] false (Program 0 5)] in let data := bytes_of_all (start_items m) ++ (lit "MTrk" ++ uint BIG_ENDIAN 4 12 ++ bytes_of_all (map event_item l) ++ [0] ++ [0xf0] ++ [1; 0xf7; 0; 0xff; 0x2f; 0; 0]) in
  midi_ok m /\ events_ok None l /\ track_size l = 3 /\ MidiFile (string_read data) (8 * zlen data) = (shows (start_items m) 0 ++ [G (lit "track[]") (8 * 14) (8 * 20) (shows ([I (lit "marker") (SText (lit "MTrk")); be 4 "size" 12] ++ map event_item l) 14) (Some ParserError)], None, 8 * zlen data).
Proof. cbv zeta. split; [unfold midi_ok; cbn [m_format m_count m_division m_tracks]; made|]. split; [made|]. split; vm_compute; reflexivity. Qed.

(** What the extractor of MPEG audio files leaves in the metadata. *)
From Coq Require Import String.
From Verif Require Import Base BaseProofs BitsModel BitsSpec StreamModel StreamSpec DictModel DictProofs FieldModel FieldNames ToolsModel NumSpec GenModel GenSpec GenProofs ItemSpec ItemProofs ItemProofs2 ZipSpec MidiSpec MidiProofs ExtractModel ExtractProofs FloatModel FloatProofs HumanModel HumanProofs4 Id3Model Id3Spec Id3Proofs MpegModel MpegSpec MpegProofs Lit.
From Verif Require MetaModel TextModel.
From Verif Require Import MetaModel MetaProofs2.
Open Scope Z_scope.
Ltac Zify.zify_post_hook ::= Z.div_mod_to_equations.

(** ** Durations *)
Lemma duration_close size rn rd : 0 <= size <= 2 ^ 53 -> 0 < rn -> 0 < rd -> size * rd <= 2 ^ 31 * rn ->
  exists us, timedelta_seconds (seconds_of size (rn, rd)) = Ok us /\ 0 <= us /\ Z.abs (us * rn - 1000000 * (size * rd)) < rn.
Proof.
  intros S Rn Rd B. unfold seconds_of. cbn [fst snd]. pose proof (fl_dyadic size 0 ltac:(lia) ltac:(lia)) as D. change (2 ^ 0) with 1 in D. destruct (fl_pos size 1 ltac:(lia) ltac:(lia)) as [P0 P1]. set (s := FloatModel.fl size 1) in *. set (s0 := fst s) in *. set (s1 := snd s) in *. clearbody s0 s1. clear s. rewrite Z.mul_1_r in D. subst s0.
  assert (A0 : 0 <= size * s1 * rd) by nia. assert (A1 : 0 < s1 * rn) by nia. destruct (fl_pos _ _ A0 A1) as [Q0 Q1]. pose proof (fl_error _ _ A0 A1) as E. set (x := FloatModel.fl (size * s1 * rd) (s1 * rn)) in *. unfold timedelta_seconds, ftrunc, fround. set (a := fst x) in *. set (b := snd x) in *. clearbody a b. clear x.
  assert (E1 : 2 ^ 53 * Z.abs (a * rn - size * rd * b) <= size * rd * b).
  { apply (Z.mul_le_mono_pos_l _ _ s1); [lia|]. replace (s1 * (2 ^ 53 * Z.abs (a * rn - size * rd * b))) with (2 ^ 53 * (Z.abs s1 * Z.abs (a * rn - size * rd * b))) by (rewrite (Z.abs_eq s1) by lia; ring). rewrite <- Z.abs_mul. replace (s1 * (a * rn - size * rd * b)) with (a * (s1 * rn) - size * s1 * rd * b) by ring. replace (s1 * (size * rd * b)) with (size * s1 * rd * b) by ring. exact E. }
  clear E. pose proof (Z.div_mod a b ltac:(lia)) as Dm. pose proof (Z.mod_pos_bound a b Q1) as Rb. set (i := a / b) in *. replace (a - i * b) with (a mod b) by lia. set (r := a mod b) in *. clearbody i r. assert (R0 : 0 <= 1000000 * r) by lia. destruct (fl_pos _ _ R0 Q1) as [C0 C1]. pose proof (fl_error _ _ R0 Q1) as E2. set (y := FloatModel.fl (1000000 * r) b) in *. set (c := fst y) in *. set (d := snd y) in *. clearbody c d. clear y. pose proof (rhe_error c d C1) as E3. set (n := rhe c d) in *. clearbody n.
  (* the error of the microseconds *)
  assert (E4 : 2 ^ 53 * (2 * Z.abs (n * b - 1000000 * r)) <= b * (2 ^ 53 + 2000000)).
  { apply (Z.mul_le_mono_pos_l _ _ d); [lia|]. assert (T : Z.abs (n * b - 1000000 * r) * d <= Z.abs (n * d - c) * b + Z.abs (c * b - 1000000 * r * d)).
    { replace (Z.abs (n * b - 1000000 * r) * d) with (Z.abs ((n * b - 1000000 * r) * d)) by (rewrite Z.abs_mul, (Z.abs_eq d) by lia; reflexivity). replace ((n * b - 1000000 * r) * d) with ((n * d - c) * b + (c * b - 1000000 * r * d)) by ring. etransitivity; [apply Z.abs_triangle|]. rewrite Z.abs_mul, (Z.abs_eq b) by lia. lia. }
    set (u := Z.abs (n * b - 1000000 * r)) in *. set (v := Z.abs (n * d - c)) in *. set (w := Z.abs (c * b - 1000000 * r * d)) in *. clearbody u v w.
    assert (V : 2 * (v * b) <= d * b) by nia. assert (Wd : 2 ^ 53 * w <= 1000000 * (b * d)) by (etransitivity; [exact E2|]; nia). change (2 ^ 53) with 9007199254740992 in *. nia. }
  assert (Us : Z.abs ((i * 1000000 + n) * rn - 1000000 * (size * rd)) < rn).
  { apply (Z.mul_lt_mono_pos_l b); [lia|]. rewrite <- (Z.abs_eq b) at 1 by lia. rewrite <- Z.abs_mul. replace (b * ((i * 1000000 + n) * rn - 1000000 * (size * rd))) with (rn * (n * b - 1000000 * r) + 1000000 * (a * rn - size * rd * b)) by (rewrite Dm; ring). eapply Z.le_lt_trans; [apply Z.abs_triangle|]. rewrite !Z.abs_mul, (Z.abs_eq rn), (Z.abs_eq 1000000) by lia.
    set (u := Z.abs (n * b - 1000000 * r)) in *. set (v := Z.abs (a * rn - size * rd * b)) in *. assert (V0 : 0 <= v) by apply Z.abs_nonneg. clearbody u v. assert (V : 2 ^ 22 * v <= rn * b).
    { assert (X : size * rd * b <= 2 ^ 31 * rn * b) by (apply Z.mul_le_mono_nonneg_r; lia). apply (Z.mul_le_mono_pos_l _ _ (2 ^ 31)); [lia|]. change (2 ^ 53) with (2 ^ 31 * 2 ^ 22) in E1. lia. }
    change (2 ^ 22) with 4194304 in V. change (2 ^ 53) with 9007199254740992 in E4. assert (U : 4 * (rn * u) <= 3 * (rn * b)) by nia. assert (0 < rn * b) by nia. lia. }
  assert (N0 : 0 <= n) by (destruct (Z_lt_dec n 0); [exfalso|lia]; nia). assert (I0 : 0 <= i) by nia. exists (i * 1000000 + n). split; [|split; [lia|exact Us]]. apply td_ok. split; [lia|]. set (us := i * 1000000 + n) in *. clearbody us. assert (us * rn < (86400000000 * 1000000000) * rn) by (change (2 ^ 31) with 2147483648 in B; lia). nia.
Qed.
(** ** Assignments *)
Lemma setattr_same e m key a m' : setattr e m (lit key) a = Ok m' -> same [key; "track_total"%string] m m'.
Proof.
  unfold setattr. destruct (find_data m (lit key)) as [d|] eqn:F; [|discriminate]. destruct (data_add e d a) as [[t r]|]; [|discriminate]. cbn [bind fst snd]. assert (W : forall m key l, same [key] m (with_values m (lit key) l)) by (intros m0 k0 l k Nk; apply find_with_values_other; intros X; apply Nk; left; exact X).
  assert (S1 : forall m l, same [key; "track_total"%string] m (with_values m (lit key) l)) by (intros m0 l k Nk; apply W; intros X; apply Nk; destruct X as [X|[]]; left; exact X).
  destruct t as [total|].
  - unfold set_plain. destruct (find_data m (lit "track_total")) as [d'|]; [|intros X; injection X as <-; apply same_refl]. destruct (data_add e d' (AVal total)) as [[t' r']|]; cbn [bind snd]; [|intros X; injection X as <-; apply same_refl]. destruct r' as [l'|]; cbn [bind]; [|intros X; injection X as <-; apply same_refl]. destruct r as [l|]; [|discriminate]. cbn [bind]. intros X. injection X as <-.
    intros k Nk. rewrite (S1 _ l k Nk). apply (W m "track_total"%string l' k). intros X. apply Nk. destruct X as [X|[]]. right. left. exact X.
  - destruct r as [l|]; [|discriminate]. cbn [bind]. intros X. injection X as <-. apply S1.
Qed.
Lemma sub_same ks ks' m m' : same ks m m' -> forallb (fun k => existsb (fun k' => str_eqb (lit k) (lit k')) ks') ks = true -> same ks' m m'.
Proof.
  intros S F k N. apply S. intros I. apply N. apply in_map_iff in I as (x & Ex & I). rewrite forallb_forall in F. specialize (F x I). apply existsb_exists in F as (y & Iy & E). apply str_eqb_eq in E. rewrite <- Ex, E. apply in_map, Iy.
Qed.
Lemma assign_args_same e l : forall m ks, forallb (fun k => existsb (fun k' => str_eqb (lit k) (lit k')) ks) ("track_total"%string :: map fst l) = true -> same ks m (fst (assign_args e m l)).
Proof.
  induction l as [|[key a] l IH]; intros m ks F; [apply same_refl|]. cbn [map fst forallb] in F. apply andb_prop in F as [Ft F]. apply andb_prop in F as [Fk F]. cbn [assign_args]. destruct (setattr e m (lit key) a) as [m'|] eqn:E; [|apply same_refl]. intros k N. rewrite (IH m' ks) by (exact N || (cbn [forallb]; rewrite Ft; exact F)).
  eapply sub_same; [exact (setattr_same _ _ _ _ _ E)| |exact N]. cbn [forallb]. rewrite Fk, Ft. reflexivity.
Qed.
Lemma assign_same e l : forall m ks, forallb (fun k => existsb (fun k' => str_eqb (lit k) (lit k')) ks) ("track_total"%string :: map fst l) = true -> same ks m (fst (assign e m l)).
Proof.
  induction l as [|[key a] l IH]; intros m ks F; [apply same_refl|]. cbn [map fst forallb] in F. apply andb_prop in F as [Ft F]. apply andb_prop in F as [Fk F]. cbn [assign]. destruct (setattr e m (lit key) (AVal a)) as [m'|] eqn:E; [|apply same_refl]. intros k N. rewrite (IH m' ks) by (exact N || (cbn [forallb]; rewrite Ft; exact F)).
  eapply sub_same; [exact (setattr_same _ _ _ _ _ E)| |exact N]. cbn [forallb]. rewrite Fk, Ft. reflexivity.
Qed.
Lemma same_then ks m m' m'' : same ks m m' -> same ks m' m'' -> same ks m m''.
Proof. intros A B k N. rewrite (B k N). apply A, N. Qed.
Lemma andthen_same ks m r f : same ks m (fst r) -> (forall m', same ks m' (fst (f m'))) -> same ks m (fst (andthen r f)).
Proof. destruct r as [m1 [|]]; cbn [andthen fst]; intros A B; [exact (same_then _ _ _ _ A (B m1))|exact A]. Qed.
Definition tag_keys : list string := ["comment"; "author"; "title"; "album"; "creation_date"; "track_number"; "track_total"; "producer"; "music_genre"; "url"; "language"; "copyright"]%string.
Lemma id3v1_same e m l : same tag_keys m (fst (use_id3v1 e m l)).
Proof.
  unfold use_id3v1. apply andthen_same; [apply assign_same; reflexivity|]. intros m1. apply andthen_same; [destruct (str_eqb _ _); [apply same_refl|apply assign_same; reflexivity]|]. intros m2. destruct (GenModel.get _ _); [apply assign_same; reflexivity|apply same_refl].
Qed.
Lemma id3v2_same codec e l : forall m, same tag_keys m (fst (readID3v2 codec e m l)).
Proof.
  induction l as [|f l IH]; intros m; [apply same_refl|]. destruct f as [| name a s field err]; cbn [readID3v2]; [apply IH|]. apply andthen_same; [|exact IH]. unfold processID3v2. destruct (group _ _) as [c|]; [|apply same_refl]. destruct (GenModel.get (lit "text") c); [|apply same_refl]. destruct (GenModel.get (lit "tag") field) as [tg|]; [|apply same_refl].
  destruct (find _ _) as [[t key]|] eqn:F; [|apply same_refl]. apply find_some in F as [I _]. apply assign_same. cbn [map fst forallb]. replace (existsb (fun k' => str_eqb (lit "track_total") (lit k')) tag_keys) with true by reflexivity. rewrite Bool.andb_true_r. cbn [andb]. clear - I. unfold TAG_TO_KEY in I. cbn [In] in I. repeat (destruct I as [I|I]; [injection I as <- <-; reflexivity|]). destruct I.
Qed.
Lemma mime_same' e m a b : same ["mime_type"; "endian"; "track_total"]%string m (with_mime e m a b).
Proof.
  unfold with_mime. destruct (meta_bool m); [|apply same_refl]. assert (K : forall m key a, In key ["mime_type"; "endian"]%string -> same ["mime_type"; "endian"; "track_total"]%string m (set_or_keep e m (lit key, a))).
  { intros m0 key a0 I. unfold set_or_keep. cbn [fst snd]. destruct (setattr e m0 (lit key) a0) eqn:E; [|apply same_refl]. eapply sub_same; [exact (setattr_same _ _ _ _ _ E)|]. destruct I as [<-|[<-|[]]]; reflexivity. }
  eapply same_then; apply K; cbn [In]; tauto.
Qed.
Lemma compr_same e m s : same ["compr_rate"; "track_total"]%string m (fst (audio_compr_rate e m s)).
Proof. unfold audio_compr_rate. destruct (_ || _); [apply same_refl|]. destruct s; try apply same_refl. apply assign_same. reflexivity. Qed.
(** ** Values *)
Definition passes (d : MetaModel.data) (v : mval) : bool := match d_filter d with Some f => filter_ok f v | None => true end.
Definition quantity (v : mval) : Prop := match v with MInt _ | MFloat _ | MTimedelta _ => True | _ => False end.
Definition value_arg (v : mval) (a : arg) : Prop := a = AVal v \/ exists t, a = APair v t.
Lemma set_arg e m key d v a : writes e -> find_data m (lit key) = Some d -> d_conv d = None -> value_arg v a -> some v -> exists l, (exists text, store e d v text = Ok l) /\ setattr e m (lit key) a = Ok (with_values m (lit key) l).
Proof.
  intros W F C A N. assert (X : exists text, data_add e d a = Ok (None, store e d v text)).
  { unfold data_add. destruct A as [->|[t ->]]; rewrite C; eexists; destruct v; try contradiction; reflexivity. }
  destruct X as (text & X). destruct (store_ok e d v text W) as [l L]. exists l. split; [exists text; exact L|]. unfold setattr. rewrite F, X. cbn [bind fst snd]. rewrite L. reflexivity.
Qed.
Lemma step_arg e ks m key d v a : writes e -> same ks root m -> find_data root (lit key) = Some d -> d_conv d = None -> d_values d = [] -> forallb (fun k => negb (str_eqb (lit k) (lit key))) ks = true ->
  match d_type d with Some ts => existsb (isinstance v) ts | None => true end = true -> quantity v -> value_arg v a ->
  exists m', setattr e m (lit key) a = Ok m' /\ same (ks ++ [key]) root m' /\ getValues m' (lit key) = Ok (if passes d v then [v] else []) /\ same [key] m m'.
Proof.
  intros W S D C V F T Q A. assert (M : find_data m (lit key) = Some d) by (rewrite (S _ (fresh _ _ F)); exact D). destruct (set_arg e m key d v a W M C A) as (l & (text & L) & E); [destruct v; try contradiction; exact Logic.I|]. exists (with_values m (lit key) l). split; [exact E|].
  assert (S' : same [key] m (with_values m (lit key) l)) by (intros k Nk; apply find_with_values_other; intros X; apply Nk; left; exact X). split; [exact (same_trans _ _ _ _ _ S S')|]. split; [|exact S'].
  unfold getValues, getItems. rewrite (find_with_values_same _ _ _ _ M). cbn [bind set_values d_values]. destruct (create_ok e d v text W) as ([v' t] & Ei & Fv). cbn [fst] in Fv. subst v'.
  assert (X : store e d v text = Ok (if passes d v then [(v, t)] else [])).
  { unfold store, store_checked, passes. rewrite V. replace (match d_type d with Some ((_ :: _) as ts) => negb (existsb (isinstance v) ts) | _ => false end) with false by (destruct (d_type d) as [[|]|]; try reflexivity; rewrite T; reflexivity).
    destruct v; try contradiction; cbn iota; cbn [contains existsb]; (destruct (d_filter d) as [fi|]; [destruct (filter_ok fi _) eqn:Ef|]); cbn [negb]; rewrite ?Ef, ?Ei; reflexivity. }
  rewrite X in L. injection L as <-. destruct (passes d v); reflexivity.
Qed.
(** ** The fields of a file *)
Fixpoint frames_shown (l : list frame) (p : Z) : list (list fld) := match l with [] => [] | f :: l => shows (frame_items f) p :: frames_shown l (p + flen f) end.
Definition start (m : mp3) : Z := zlen (bytes_of_all (tag2_part m)).
Lemma frame_list_shown l : Forall frame_ok l -> forall p, flat_map (fun x => match x with G name _ _ k _ => if str_eqb name (lit "frame[]") then [k] else [] | F _ _ _ _ => [] end) (shows (map frame_item l) p) = frames_shown l p.
Proof.
  induction 1 as [|f l K _ IH]; intros p; [reflexivity|]. cbn [map shows frames_shown]. unfold frame_item at 1. rewrite show_set. cbn [app flat_map]. change (str_eqb (lit "frame[]") (lit "frame[]")) with true. cbn iota. cbn [app]. f_equal. rewrite (frame_item_len f K). apply IH.
Qed.
Lemma group_app name a b : group name (a ++ b) = match group name a with Some k => Some k | None => group name b end.
Proof. induction a as [|f a IH]; [reflexivity|]. cbn [app group]. destruct f; [exact IH|]. destruct (str_eqb _ _); [reflexivity|exact IH]. Qed.
Lemma size_of_app name a b : size_of name (a ++ b) = match size_of name a with Some k => Some k | None => size_of name b end.
Proof. induction a as [|f a IH]; [reflexivity|]. cbn [app size_of]. destruct (str_eqb _ _); [reflexivity|exact IH]. Qed.
Lemma shown_parts m : Forall frame_ok (p_frames m) -> let l := shows (mp3_items m) 0 in
  frame_list l = frames_shown (p_frames m) (start m) /\ size_of (lit "frames") l = match p_frames m with [] => None | _ => Some (8 * frames_len (p_frames m)) end /\
  group (lit "id3v1") l = match p_tag1 m with Some t => Some (shows (tag1_items t) (start m + frames_len (p_frames m))) | None => None end /\
  group (lit "id3v2") l = match p_tag2 m with Some t => Some (shows (tag2_items t) 0) | None => None end.
Proof.
  intros K l. unfold l, mp3_items. rewrite !shows_app. change (0 + zlen (bytes_of_all (tag2_part m))) with (start m). rewrite frames_part_len. set (p := start m). clearbody p. unfold frame_list. rewrite !group_app, !size_of_app. pose proof (frame_list_shown _ K p) as FL. unfold tag2_part, frames_part, tag1_part.
  destruct (p_tag2 m) as [t2|], (p_frames m) as [|f fs], (p_tag1 m) as [t1|]; cbn [shows]; rewrite ?show_set, ?app_nil_r; cbn [app group size_of f_name f_size];
  repeat match goal with |- context [str_eqb (lit ?a) (lit ?b)] => let v := eval vm_compute in (str_eqb (lit a) (lit b)) in change (str_eqb (lit a) (lit b)) with v end; cbn iota; repeat split; try exact FL; try reflexivity.
Qed.
Lemma rate_shown f p : frame_ok f -> getRate (shows (frame_items f) p) = Ok (Some (1000 * kbits (a_mpeg f) (a_layer f) (a_rate f))).
Proof.
  intros K. destruct (frame_values f p K) as (_ & V2 & V3 & V4 & _). pose proof K as (R & S & _). unfold getRate. rewrite V2, V3, V4. cbn [bind]. destruct (frame_table (a_mpeg f) (a_layer f) (a_padded f) (a_rate f) (a_sampling f) R S) as (_ & _ & -> & _). reflexivity.
Qed.
Lemma kbits_bounds v l i : 1 <= i <= 14 -> 8 <= kbits v l i <= 448.
Proof. intros H. assert (I : In i (map (fun i => 1 + Z.of_nat i) (seq 0 (Z.to_nat 14)))) by (apply between_in; lia). revert i H I. intros i _. revert i. apply Forall_forall. vm_compute Z.to_nat. cbn [seq map]. repeat (constructor; [destruct v, l; vm_compute; split; discriminate|]). constructor. Qed.
Lemma hertz_bounds v i : 0 <= i <= 2 -> 8000 <= hertz v i <= 48000.
Proof. intros H. assert (X : i = 0 \/ i = 1 \/ i = 2) by lia. destruct X as [->|[->| ->]], v; vm_compute; split; discriminate. Qed.
(** Frames with the same version, layer and bit rate *)
Definition alike (f g : frame) : Prop := a_mpeg g = a_mpeg f /\ a_layer g = a_layer f /\ a_rate g = a_rate f.
Lemma codes_inj f g : (mpeg_code (a_mpeg g) = mpeg_code (a_mpeg f) /\ layer_code (a_layer g) = layer_code (a_layer f) /\ a_rate g = a_rate f) <-> alike f g.
Proof. unfold alike. split; [|intros (-> & -> & ->); repeat split; reflexivity]. intros (A & B & C). repeat split; [destruct (a_mpeg f), (a_mpeg g)|destruct (a_layer f), (a_layer g)|exact C]; try reflexivity; discriminate. Qed.
Lemma all_same_shown f : frame_ok f -> forall l g p q n, Forall frame_ok l -> frame_ok g -> alike f g -> exists b, all_same ["version"; "layer"; "bit_rate"]%string (Some (shows (frame_items g) q)) (firstn n (frames_shown l p)) = Ok b /\ (b = true <-> Forall (alike f) (firstn n l)).
Proof.
  intros Kf. induction l as [|h l IH]; intros g p q n Kl Kg Ag; [cbn [frames_shown]; rewrite !firstn_nil; exists true; split; [reflexivity|split; [constructor|reflexivity]]|]. destruct n as [|n]; [exists true; split; [reflexivity|split; [constructor|reflexivity]]|]. cbn [frames_shown firstn all_same].
  pose proof (Forall_inv Kl) as Kh. destruct (frame_values h p Kh) as (_ & V2 & V3 & V4 & _). destruct (frame_values g q Kg) as (_ & W2 & W3 & W4 & _). rewrite V2, V3, V4, W2, W3, W4. cbn [bind].
  destruct (mpeg_code (a_mpeg h) =? mpeg_code (a_mpeg g)) eqn:E1; [destruct (layer_code (a_layer h) =? layer_code (a_layer g)) eqn:E2; [destruct (a_rate h =? a_rate g) eqn:E3|]|]; cbn [bind].
  - assert (Ah : alike f h). { assert (A : alike g h) by (apply codes_inj; repeat split; lia). unfold alike in *. destruct A as (-> & -> & ->). exact Ag. } destruct (IH h (p + flen h) p n (Forall_inv_tail Kl) Kh Ah) as (b & E & B). exists b. split; [exact E|]. rewrite B. split; [intros F; constructor; assumption|intros F; exact (Forall_inv_tail F)].
  - exists false. split; [reflexivity|]. split; [discriminate|]. intros F. apply Forall_inv in F. destruct F as (A & B & C), Ag as (A' & B' & C'). exfalso. lia.
  - exists false. split; [reflexivity|]. split; [discriminate|]. intros F. apply Forall_inv in F. destruct F as (A & B & C), Ag as (A' & B' & C'). rewrite B, B' in E2. exfalso. lia.
  - exists false. split; [reflexivity|]. split; [discriminate|]. intros F. apply Forall_inv in F. destruct F as (A & B & C), Ag as (A' & B' & C'). rewrite A, A' in E1. exfalso. lia.
Qed.
Lemma constant_shown f l p : frame_ok f -> Forall frame_ok l -> exists b, looksConstantBitRate (frames_shown (f :: l) p) = Ok b /\ (b = true <-> Forall (alike f) (firstn 10 l)).
Proof.
  intros Kf Kl. unfold looksConstantBitRate. cbn [frames_shown]. change (firstn 11 (?x :: ?y)) with (x :: firstn 10 y). cbn [all_same bind]. apply all_same_shown; auto. repeat split.
Qed.
(** The mean of bit rates *)
Definition rate_sum (l : list frame) : Z := fold_right (fun f s => 1000 * kbits (a_mpeg f) (a_layer f) (a_rate f) + s) 0 l.
Lemma rate_sum_bounds l : Forall frame_ok l -> 8000 * zlen l <= rate_sum l <= 448000 * zlen l.
Proof. induction 1 as [|f l K _ IH]; [cbn; lia|]. cbn [rate_sum fold_right]. fold (rate_sum l). rewrite zlen_cons. pose proof (kbits_bounds (a_mpeg f) (a_layer f) (a_rate f) ltac:(destruct K; assumption)). lia. Qed.
Lemma sum_shown max_count l : Forall frame_ok l -> forall p total count, 0 <= count < max_count ->
  sum_rates max_count (frames_shown l p) total count = let k := firstn (Z.to_nat (max_count - count)) l in Ok (total + rate_sum k, count + zlen k).
Proof.
  induction 1 as [|f l K _ IH]; intros p total count C; [cbn [frames_shown sum_rates]; rewrite firstn_nil; cbv zeta; cbn [rate_sum fold_right]; change (zlen (@nil frame)) with 0; match goal with |- Ok (?a, ?b) = Ok (?c, ?d) => replace c with a by lia; replace d with b by lia; reflexivity end|]. cbn [frames_shown sum_rates]. rewrite rate_shown by exact K. cbn [bind]. pose proof (kbits_bounds (a_mpeg f) (a_layer f) (a_rate f) ltac:(destruct K; assumption)) as Kb. replace (1000 * kbits _ _ _ =? 0) with false by lia. destruct (Z.to_nat (max_count - count)) as [|n] eqn:N; [lia|]. cbn [firstn]. cbv zeta. cbn [rate_sum fold_right]. fold (rate_sum (firstn n l)). rewrite zlen_cons.
  destruct (max_count <=? count + 1) eqn:G.
  - replace n with O by lia. cbn [firstn rate_sum fold_right]. change (zlen (@nil frame)) with 0. match goal with |- Ok (?a, ?b) = Ok (?c, ?d) => replace c with a by lia; replace d with b by lia; reflexivity end.
  - rewrite IH by lia. replace (Z.to_nat (max_count - (count + 1))) with n by lia. cbv zeta. match goal with |- Ok (?a, ?b) = Ok (?c, ?d) => replace c with a by lia; replace d with b by lia; reflexivity end.
Qed.
Lemma skipn_shown n : forall l p, exists q, skipn n (frames_shown l p) = frames_shown (skipn n l) q.
Proof. induction n as [|n IH]; intros l p; [exists p; reflexivity|]. destruct l as [|f l]; [exists p; reflexivity|]. cbn [frames_shown skipn]. apply IH. Qed.
(** ** The frames *)
Definition version_text (v : mpeg) : string := match v with Mpeg1 => "1" | Mpeg2 => "2" | Mpeg25 => "2.5" end.
Definition layer_text (l : layer) : string := match l with Layer1 => "I" | Layer2 => "II" | Layer3 => "III" end.
Definition format_text (f : frame) : str := lit "MPEG version " ++ lit (version_text (a_mpeg f)) ++ lit " layer " ++ lit (layer_text (a_layer f)).
(** A duration, in microseconds, is told when it is at least one millisecond and at most a year *)
Definition in_year (us : Z) : list mval := if (1000 <=? us) && (us <=? 31536000000000) then [MTimedelta us] else [].
Definition audio_keys : list string := ["nb_channel"; "format_version"; "sample_rate"; "bits_per_sample"; "bit_rate"; "duration"]%string.
Definition bit_rate_of (f : frame) : Z := 1000 * kbits (a_mpeg f) (a_layer f) (a_rate f).
Lemma displays f : frame_ok f -> version_display (mpeg_code (a_mpeg f)) = lit (version_text (a_mpeg f)) /\ layer_display (layer_code (a_layer f)) = lit (layer_text (a_layer f)).
Proof. intros _. destruct (a_mpeg f), (a_layer f); split; reflexivity. Qed.
Lemma human_rate r : 0 <= r < 2 ^ 40 -> exists t, humanBitRate r = Ok t.
Proof.
  intros R. unfold humanBitRate, humanBitSize. destruct (r <? 1000); [eexists; reflexivity|]. unfold py_float. replace (2 ^ 1024 - 2 ^ 970 <=? r) with false; [eexists; reflexivity|]. symmetry. apply Z.leb_gt. apply Z.lt_le_trans with (2 ^ 40); [lia|]. apply Z.leb_le. vm_compute. reflexivity.
Qed.
(** The bit rate and the duration, for a bit rate that is the number [rn / rd] *)
Lemma told_rate e ks m rn rd size v t : writes e -> same ks root m -> forallb (fun k => negb (str_eqb (lit k) (lit "bit_rate")) && negb (str_eqb (lit k) (lit "duration"))) ks = true ->
  0 < rd -> 1000 * rd <= rn <= 1000000 * rd -> 0 <= size <= 2 ^ 40 -> quantity v -> isinstance v TInt = true \/ isinstance v TFloat = true -> MetaModel.number v = Some (FNum rn (Z.to_pos rd)) ->
  exists m', andthen (assign_args e m [("bit_rate"%string, APair v t)]) (fun m => match timedelta_seconds (seconds_of size (rn, rd)) with Ok d => assign_args e m [("duration"%string, AVal (MTimedelta d))] | Err _ => (m, false) end) = (m', true) /\
    same (ks ++ ["bit_rate"; "duration"]%string) root m' /\ same ["bit_rate"; "duration"]%string m m' /\ getValues m' (lit "bit_rate") = Ok [v] /\
    exists us, Z.abs (us * rn - 1000000 * (size * rd)) < rn /\ getValues m' (lit "duration") = Ok (in_year us).
Proof.
  intros W S F Rd Rn Sz Q Is Nu. assert (F1 : forallb (fun k => negb (str_eqb (lit k) (lit "bit_rate"))) ks = true) by (rewrite forallb_forall in F |- *; intros k I; specialize (F k I); apply andb_prop in F; tauto). assert (F2 : forallb (fun k => negb (str_eqb (lit k) (lit "duration"))) (ks ++ ["bit_rate"%string]) = true) by (rewrite forallb_app; apply andb_true_intro; split; [rewrite forallb_forall in F |- *; intros k I; specialize (F k I); apply andb_prop in F; tauto|reflexivity]).
  destruct (duration_close size rn rd) as (us & T & U0 & Us); [change (2 ^ 53) with 9007199254740992; change (2 ^ 40) with 1099511627776 in Sz; lia|lia|lia|change (2 ^ 31) with 2147483648; change (2 ^ 40) with 1099511627776 in Sz; nia|].
  destruct (step_arg e ks m "bit_rate"%string _ v (APair v t) W S eq_refl eq_refl eq_refl F1) as (m1 & E1 & S1 & V1 & S1'); [cbn [d_type mk_data existsb]; destruct Is as [-> | ->]; [reflexivity|rewrite Bool.orb_comm; reflexivity]|exact Q|right; exists t; reflexivity|].
  destruct (step_arg e _ m1 "duration"%string _ (MTimedelta us) (AVal (MTimedelta us)) W S1 eq_refl eq_refl eq_refl F2 eq_refl Logic.I (or_introl eq_refl)) as (m2 & E2 & S2 & V2 & S2').
  exists m2. cbn [assign_args]. rewrite E1. unfold andthen. cbn [fst snd]. rewrite T, E2. split; [reflexivity|]. split; [rewrite <- app_assoc in S2; exact S2|]. split; [exact (same_trans _ _ _ _ _ S1' S2')|]. split.
  - apply (kept _ m1 m2 "bit_rate"%string _ S2' eq_refl). rewrite V1. unfold passes. cbn [d_filter mk_data]. unfold filter_ok. rewrite Nu. cbn [fl_lt]. rewrite !Z.mul_1_r, Z2Pos.id by lia. replace (rn <? 1 * rd) with false by lia. replace (524288000 * rd <? rn) with false by lia. reflexivity.
  - exists us. split; [exact Us|]. rewrite V2. unfold passes, in_year. cbn [d_filter mk_data filter_ok]. unfold us_per_day. replace (365 * 86400000000) with 31536000000000 by reflexivity. replace (negb (us <? 1000)) with (1000 <=? us) by lia. replace (negb (31536000000000 <? us)) with (us <=? 31536000000000) by lia. reflexivity.
Qed.
Lemma assign_one e m key v m' : assign e m [(key, v)] = (m', true) -> setattr e m (lit key) (AVal v) = Ok m'.
Proof. cbn [assign]. destruct (setattr e m (lit key) (AVal v)) as [x|]; [|discriminate]. intros E. injection E as ->. reflexivity. Qed.
Lemma frames_told e text max_count f l p size : writes e -> frame_ok f -> Forall frame_ok l -> 0 <= size <= 2 ^ 40 -> 1 <= max_count ->
  exists m', use_frames e text root max_count (frames_shown (f :: l) p) size = (m', true) /\ same audio_keys root m' /\
    getValues m' (lit "nb_channel") = Ok [MInt (if a_mode f =? 3 then 1 else 2)] /\ (kept_text e (format_text f) -> getValues m' (lit "format_version") = Ok [MStr (format_text f)]) /\
    getValues m' (lit "sample_rate") = Ok [MInt (hertz (a_mpeg f) (a_sampling f))] /\ getValues m' (lit "bits_per_sample") = Ok [MInt 16] /\
    (Forall (alike f) (firstn 10 l) -> getValues m' (lit "bit_rate") = Ok [MInt (bit_rate_of f)] /\
       exists us, Z.abs (us * bit_rate_of f - 1000000 * size) < bit_rate_of f /\ getValues m' (lit "duration") = Ok (in_year us)) /\
    (~ Forall (alike f) (firstn 10 l) -> let k := firstn (Z.to_nat max_count) (skipn 3 (f :: l)) in k <> [] ->
       exists rn rd, 0 < rd /\ FloatModel.fl (rate_sum k) (zlen k) = (rn, rd) /\ getValues m' (lit "bit_rate") = Ok [MFloat (FNum rn (Z.to_pos rd))] /\
       exists us, Z.abs (us * rn - 1000000 * (size * rd)) < rn /\ getValues m' (lit "duration") = Ok (in_year us)).
Proof.
  intros W K Kl Sz Mc. destruct (frame_values f p K) as (_ & V2 & V3 & V4 & V5 & V6 & _). pose proof K as (R & Sa & Mo & _). destruct (displays f K) as [Dv Dl]. destruct (frame_table (a_mpeg f) (a_layer f) (a_padded f) (a_rate f) (a_sampling f) R Sa) as (_ & _ & _ & Sr). pose proof (hertz_bounds (a_mpeg f) (a_sampling f) Sa) as Hz. pose proof (kbits_bounds (a_mpeg f) (a_layer f) (a_rate f) R) as Kb.
  unfold use_frames. cbn [frames_shown]. rewrite V6, V2, V3, V5, Dv, Dl, Sr. fold (format_text f). cbn [assign_args].
  destruct (step_arg e [] root "nb_channel"%string _ (MInt (getNbChannel (a_mode f))) (APair (MInt (getNbChannel (a_mode f))) (Some (channel_mode_display (a_mode f)))) W (same_refl _ _) eq_refl eq_refl eq_refl eq_refl eq_refl Logic.I (or_intror (ex_intro _ _ eq_refl))) as (m1 & E1 & S1 & G1 & _). rewrite E1.
  destruct (step_plain e _ m1 "format_version"%string (MStr (format_text f)) W Logic.I S1) as (m2 & E2 & S2 & S2'); [eexists; split; reflexivity|reflexivity|]. apply assign_one in E2. rewrite E2.
  destruct (step_arg e _ m2 "sample_rate"%string _ (MInt (hertz (a_mpeg f) (a_sampling f))) (AVal (MInt (hertz (a_mpeg f) (a_sampling f)))) W S2 eq_refl eq_refl eq_refl eq_refl eq_refl Logic.I (or_introl eq_refl)) as (m3 & E3 & S3 & G3 & S3'). rewrite E3.
  destruct (step_arg e _ m3 "bits_per_sample"%string _ (MInt 16) (AVal (MInt 16)) W S3 eq_refl eq_refl eq_refl eq_refl eq_refl Logic.I (or_introl eq_refl)) as (m4 & E4 & S4 & G4 & S4'). rewrite E4. cbn [app] in S4.
  assert (H1 : getValues m4 (lit "nb_channel") = Ok [MInt (if a_mode f =? 3 then 1 else 2)]). { apply (kept _ m3 m4 "nb_channel"%string _ S4' eq_refl), (kept _ m2 m3 "nb_channel"%string _ S3' eq_refl), (kept _ m1 m2 "nb_channel"%string _ S2' eq_refl). rewrite G1. unfold getNbChannel. destruct (a_mode f =? 3); reflexivity. }
  assert (H2 : kept_text e (format_text f) -> getValues m4 (lit "format_version") = Ok [MStr (format_text f)]).
  { intros Kt. apply (kept _ m3 m4 "format_version"%string _ S4' eq_refl), (kept _ m2 m3 "format_version"%string _ S3' eq_refl). destruct (step_text e _ m1 "format_version"%string (format_text f) W Kt S1) as (m2' & X & _ & G & _); [eexists; repeat split; try reflexivity; right; reflexivity|reflexivity|]. apply assign_one in X. rewrite X in E2. injection E2 as <-. exact G. }
  assert (H3 : getValues m4 (lit "sample_rate") = Ok [MInt (hertz (a_mpeg f) (a_sampling f))]). { apply (kept _ m3 m4 "sample_rate"%string _ S4' eq_refl). rewrite G3. unfold passes. cbn [d_filter mk_data filter_ok number fl_lt]. replace (hertz (a_mpeg f) (a_sampling f) * 1 <? 1000 * 1) with false by lia. replace (192000 * 1 <? hertz (a_mpeg f) (a_sampling f) * 1) with false by lia. reflexivity. }
  assert (H4 : getValues m4 (lit "bits_per_sample") = Ok [MInt 16]) by (rewrite G4; reflexivity).
  clear E1 E2 E3 E4 G1 G3 G4 S1 S2 S2' S3 S3' S4' m1 m2 m3. unfold andthen at 1. cbn [fst snd]. destruct (constant_shown f l p K Kl) as (b & B & Eb). change (frames_shown (f :: l) p) with (shows (frame_items f) p :: frames_shown l (p + flen f)) in B. rewrite B.
  assert (Fin : forall m', same ["bit_rate"; "duration"]%string m4 m' -> getValues m' (lit "nb_channel") = Ok [MInt (if a_mode f =? 3 then 1 else 2)] /\ (kept_text e (format_text f) -> getValues m' (lit "format_version") = Ok [MStr (format_text f)]) /\ getValues m' (lit "sample_rate") = Ok [MInt (hertz (a_mpeg f) (a_sampling f))] /\ getValues m' (lit "bits_per_sample") = Ok [MInt 16]).
  { intros m' S'. split; [apply (kept _ m4 m' "nb_channel"%string _ S' eq_refl H1)|]. split; [intros Kt; apply (kept _ m4 m' "format_version"%string _ S' eq_refl (H2 Kt))|]. split; [apply (kept _ m4 m' "sample_rate"%string _ S' eq_refl H3)|apply (kept _ m4 m' "bits_per_sample"%string _ S' eq_refl H4)]. }
  destruct b.
  - unfold computeBitrate. rewrite rate_shown by exact K. fold (bit_rate_of f). assert (Br : 8000 <= bit_rate_of f <= 448000) by (unfold bit_rate_of; lia). replace (bit_rate_of f =? 0) with false by lia. destruct (human_rate (bit_rate_of f)) as (t & ->); [change (2 ^ 40) with 1099511627776; lia|].
    destruct (told_rate e _ m4 (bit_rate_of f) 1 size (MInt (bit_rate_of f)) (Some (t ++ lit " (constant)")) W S4 eq_refl) as (m' & E & S' & S'' & G1 & us & Us & G2); [lia|lia|exact Sz|exact Logic.I|left; reflexivity|reflexivity|].
    exists m'. split; [exact E|]. split; [exact S'|]. destruct (Fin m' S'') as (A1 & A2 & A3 & A4). repeat (split; [assumption|]). split; [|intros N; destruct N; apply Eb; reflexivity]. intros _. split; [exact G1|]. exists us. split; [rewrite Z.mul_1_r in Us; exact Us|exact G2].
  - assert (K3 : Forall frame_ok (skipn 3 (f :: l))) by (pose proof (Forall_cons f K Kl) as X; rewrite <- (firstn_skipn 3 (f :: l)) in X; apply Forall_app in X; tauto). set (k := firstn (Z.to_nat max_count) (skipn 3 (f :: l))). assert (Kk : Forall frame_ok k) by (rewrite <- (firstn_skipn (Z.to_nat max_count) (skipn 3 (f :: l))) in K3; apply Forall_app in K3; tauto).
    unfold computeVariableBitrate. destruct (skipn_shown 3 (f :: l) p) as (q & Eq). change (frames_shown (f :: l) p) with (shows (frame_items f) p :: frames_shown l (p + flen f)) in Eq. rewrite Eq, sum_shown by (assumption || lia). cbv zeta. rewrite Z.sub_0_r, !Z.add_0_l. fold k.
    pose proof (rate_sum_bounds k Kk) as Rs. assert (Nc : ~ Forall (alike f) (firstn 10 l)) by (intros X; apply Eb in X; discriminate X). destruct (zlen k =? 0) eqn:Z0.
    + exists m4. split; [reflexivity|]. split; [eapply sub_same; [exact S4|reflexivity]|]. destruct (Fin m4 (same_refl _ _)) as (A1 & A2 & A3 & A4). repeat (split; [assumption|]). split; [intros X; contradiction|]. intros _ Nk. destruct k; [contradiction|]. rewrite zlen_cons in Z0. pose proof (zlen_nonneg k). lia.
    + pose proof (zlen_nonneg k) as Zk. destruct (fl_pos (rate_sum k) (zlen k) ltac:(lia) ltac:(lia)) as [P0 P1]. pose proof (fl_error (rate_sum k) (zlen k) ltac:(lia) ltac:(lia)) as Er. destruct (FloatModel.fl (rate_sum k) (zlen k)) as [rn rd] eqn:Ef. cbn [fst snd] in *. set (n := zlen k) in *. set (sm := rate_sum k) in *. assert (B1 : 7000 * rd <= rn <= 500000 * rd).
      { change (2 ^ 53) with 9007199254740992 in Er. assert (Lo : 8000 * n * rd <= sm * rd) by nia. assert (Hi : sm * rd <= 448000 * n * rd) by nia. set (x := sm * rd) in *. clearbody x. split; apply (Z.mul_le_mono_pos_r _ _ n); try lia; nia. }
      destruct (told_rate e _ m4 rn rd size (MFloat (FNum rn (Z.to_pos rd))) (Some (text (rn, rd) ++ lit " (Variable bit rate)")) W S4 eq_refl) as (m' & E & S' & S'' & G1 & us & Us & G2); [lia|lia|exact Sz|exact Logic.I|right; reflexivity|reflexivity|].
      exists m'. split; [exact E|]. split; [exact S'|]. destruct (Fin m' S'') as (A1 & A2 & A3 & A4). repeat (split; [assumption|]). split; [intros X; contradiction|]. intros _ _. exists rn, rd. split; [exact P1|]. split; [reflexivity|]. split; [exact G1|]. exists us. split; assumption.
Qed.

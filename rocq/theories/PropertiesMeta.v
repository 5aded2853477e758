(** C38 and C39: the values of metadata and their export. *)
From Coq Require Import String.
From Verif Require Import Base DictModel FieldModel Lit HumanSpec MetaModel MetaSpec MetaProofs MetaProofs2 MetaProofs3 MetaProofs4.
Open Scope Z_scope.

(** An environment for the examples: int() reads decimal digits. *)
Definition demo_int (s : str) : option Z :=
  match s with
  | [] => None
  | _ => if forallb (fun c => (48 <=? c) && (c <=? 57)) s then Some (fold_left (fun a c => 10 * a + (c - 48)) s 0) else None
  end.
Definition demo : env :=
  {| e_str := fun _ => lit "?"; e_handler := fun _ _ => Ok (lit "text"); e_int := demo_int; e_datetime := fun _ => CNone;
     e_iso639 := fun _ => true; e_max_str_length := 300; e_raw_output := false |}.
Definition title_is (s : str) : str * arg := (lit "title", AVal (MStr s)).

(** RootMetadata() registers every key once. *)
Theorem C38_root : root_metadata = Ok root /\ (forall key vs, getValues root key = Ok vs -> vs = []).
Proof.
  split; [vm_compute; reflexivity|]. intros key vs H. apply getValues_find in H. destruct H as (d & H & ->). unfold find_data in H. apply find_some in H. destruct H as [H _].
  assert (G : forallb (fun d => match d_values d with [] => true | _ => false end) (m_data root) = true) by reflexivity.
  rewrite forallb_forall in G. specialize (G d H). destruct (d_values d); [reflexivity|discriminate].
Qed.
Print Assumptions C38_root.

(** ** C38 *)
(** After any history of assignments the values of a key are minimal. *)
Theorem C38_minimal : forall e L key vs, getValues (set_all e root L) key = Ok vs -> minimal vs.
Proof.
  intros e L key vs H. destruct (getValues root key) as [vs0|] eqn:E.
  - apply (minimal_lemma e root L key vs0 vs E); [|exact H]. rewrite (proj2 C38_root key vs0 E). intros i j a b _ Ha. destruct i; discriminate.
  - exfalso. destruct (find_data root key) as [d|] eqn:Ed.
    + assert (getValues root key = Ok (map fst (d_values d))) by (apply getValues_find; exists d; auto). congruence.
    + apply getValues_find in H. destruct H as (d & H & _). rewrite (set_all_none e L root key Ed) in H. discriminate.
Qed.
Print Assumptions C38_minimal.
Example C38_minimal_ex :
  getValues (set_all demo root [title_is (lit "Tom"); title_is (lit "Jerry"); title_is (lit "Tommy"); title_is (lit "Jer"); title_is (lit "Jerry")]) (lit "title")
  = Ok [MStr (lit "Tommy"); MStr (lit "Jerry")].
Proof. vm_compute; reflexivity. Qed.
(** ... and so they are when they were minimal before. *)
Theorem C38_minimal_kept : forall e m L key vs ws, getValues m key = Ok vs -> minimal vs -> getValues (set_all e m L) key = Ok ws -> minimal ws.
Proof. exact minimal_lemma. Qed.
Print Assumptions C38_minimal_kept.

(** No value ever disappears or moves; a text may be replaced by a longer one. *)
Theorem C38_grows : forall e m L key vs, getValues m key = Ok vs -> exists ws, getValues (set_all e m L) key = Ok ws /\ grows vs ws.
Proof. exact grows_lemma. Qed.
Print Assumptions C38_grows.
Example C38_grows_ex : getValues (set_all demo root [title_is (lit "a")]) (lit "title") = Ok [MStr (lit "a")].
Proof. vm_compute; reflexivity. Qed.

(** A text assigned to a key for texts, without conversion, is the beginning of
    a stored text, whatever is assigned before and after. *)
Theorem C38_kept : forall e m L key d a s t, 0 <= e_max_str_length e -> find_data m key = Some d -> d_conv d = None ->
  (d_type d = None \/ exists ts, d_type d = Some ts /\ In TStr ts) ->
  carried a (MStr s) \/ carried a (MBytes s) -> normal e s t ->
  exists ws u, getValues (set_all e m ((key, a) :: L)) key = Ok ws /\ In (MStr u) ws /\ starts_with u t.
Proof. exact kept_lemma. Qed.
Print Assumptions C38_kept.
Example C38_kept_ex : normal demo ([32] ++ lit "a" ++ [13; 10] ++ lit "b" ++ [0]) (lit "a" ++ [10] ++ lit "b") /\
  getValues (set_all demo root [(lit "comment", AVal (MStr ([32] ++ lit "a" ++ [13; 10] ++ lit "b" ++ [0])))]) (lit "comment") = Ok [MStr (lit "a" ++ [10] ++ lit "b")].
Proof.
  split; [|vm_compute; reflexivity]. exists (lit "a" ++ [13; 10] ++ lit "b"), (lit "a" ++ [10] ++ lit "b"). split.
  - exists [32], [0]. split; [reflexivity|]. split; [repeat constructor|]. split; [constructor; [unfold blank; cbn; intuition lia|constructor]|]. split.
    + intros c t E. cbn in E. injection E as <- _. unfold blank. cbn. intuition lia.
    + intros t c E. apply (f_equal (fun l => hd 0 (rev l))) in E. rewrite rev_unit in E. cbn in E. subst c. unfold blank. cbn. intuition lia.
  - split; [discriminate|]. split.
    + apply un_char; [unfold newline; cbn; lia|]. apply (un_run [13; 10]); [discriminate|repeat constructor; unfold newline; lia| |].
      * intros c u E. cbn in E. injection E as <- _. unfold newline. lia.
      * apply un_char; [unfold newline; cbn; lia|constructor].
    + left. split; [right; vm_compute; discriminate|reflexivity].
Qed.

(** Nothing is invented: a value of a key without conversion was assigned to it. *)
Theorem C38_sound : forall e L key d ws, 0 <= e_max_str_length e -> find_data root key = Some d -> d_conv d = None ->
  getValues (set_all e root L) key = Ok ws -> forall w, In w ws -> exists a v, In (key, a) L /\ carried a v /\ v <> MNone /\ stored_for e v w.
Proof.
  intros e L key d ws Hm Hd Hc H w Hw.
  assert (Hn : d_values d = []).
  { assert (G : getValues root key = Ok (map fst (d_values d))) by (apply getValues_find; exists d; auto). apply C38_root in G. destruct (d_values d); [reflexivity|discriminate]. }
  assert (Hk : key <> lit "track_total") by (intros ->; assert (E : find_data root (lit "track_total") = Some total_data) by reflexivity; rewrite E in Hd; injection Hd as <-; discriminate).
  destruct (sound_lemma e root L key d ws Hd Hn Hc Hk H w Hw) as (a & v & H1 & H2 & H3 & H4). exists a, v. split; [exact H1|]. split; [exact H2|]. split; [exact H3|].
  exact (stored_for_final e v w Hm H4).
Qed.
Print Assumptions C38_sound.

(** A number stored for a key with limits is within them, unless it is NaN. *)
Theorem C38_range_partial : forall e L key d lo hi ld hd ws, find_data root key = Some d ->
  d_filter d = Some (NumberFilter (FNum lo ld) (FNum hi hd)) -> getValues (set_all e root L) key = Ok ws ->
  forall w, In w ws -> number w <> None -> w = MFloat FNan \/ between (lo, ld) (hi, hd) w.
Proof.
  intros e L key d lo hi ld hd ws Hd Hf H w Hw Hnum.
  assert (Hn : d_values d = []).
  { assert (G : getValues root key = Ok (map fst (d_values d))) by (apply getValues_find; exists d; auto). apply C38_root in G. destruct (d_values d); [reflexivity|discriminate]. }
  destruct (typed_lemma e root L key d ws Hd Hn H w Hw) as [_ Ho]. exact (between_filter d lo hi ld hd w Hf Ho Hnum).
Qed.
Print Assumptions C38_range_partial.
(** For the keys of type int: the value is an int within the limits. *)
Theorem C38_int_range : forall e L key d lo hi ws, find_data root key = Some d -> d_type d = Some [TInt] ->
  d_filter d = Some (NumberFilter (FNum lo 1) (FNum hi 1)) -> getValues (set_all e root L) key = Ok ws ->
  forall w, In w ws -> (exists z, w = MInt z /\ lo <= z <= hi) \/ exists b, w = MBool b.
Proof.
  intros e L key d lo hi ws Hd Ht Hf H w Hw.
  assert (Hn : d_values d = []).
  { assert (G : getValues root key = Ok (map fst (d_values d))) by (apply getValues_find; exists d; auto). apply C38_root in G. destruct (d_values d); [reflexivity|discriminate]. }
  destruct (typed_lemma e root L key d ws Hd Hn H w Hw) as [Ho Ho2]. unfold type_ok in Ho. rewrite Ht in Ho.
  destruct w; cbn in Ho; try discriminate; [|right; eexists; reflexivity]. left. exists z. split; [reflexivity|]. unfold filter_okb in Ho2. rewrite Hf in Ho2. cbn [filter_ok number fl_lt] in Ho2. lia.
Qed.
Print Assumptions C38_int_range.
Example C38_int_range_ex : getValues (set_all demo root [(lit "width", AVal (MInt 20001)); (lit "width", AVal (MInt 640)); (lit "width", AVal (MInt 0)); (lit "width", AVal (MStr (lit "640")))]) (lit "width") = Ok [MInt 640].
Proof. vm_compute; reflexivity. Qed.
(** A duration that is stored lasts from a millisecond to a year, ... *)
Theorem C38_duration_range : forall e L ws us, getValues (set_all e root L) (lit "duration") = Ok ws ->
  In (MTimedelta us) ws -> 1000 <= us <= 365 * 24 * 3600 * 1000000.
Proof.
  intros e L ws us H Hw. destruct (find_data root (lit "duration")) as [d|] eqn:Hd; [|discriminate].
  assert (Hn : d_values d = [] /\ d_filter d = Some DurationFilter) by (vm_compute in Hd; injection Hd as <-; split; reflexivity). destruct Hn as [Hn Hf].
  destruct (typed_lemma e root L _ d ws Hd Hn H _ Hw) as [_ Ho]. unfold filter_okb in Ho. rewrite Hf in Ho. cbn [filter_ok] in Ho. change HumanModel.us_per_day with (24 * 3600 * 1000000) in Ho. lia.
Qed.
Print Assumptions C38_duration_range.
Example C38_duration_ex : getValues (set_all demo root [(lit "duration", AVal (MTimedelta 999)); (lit "duration", AVal (MTimedelta 1000)); (lit "duration", AVal (MTimedelta 31536000000001))]) (lit "duration") = Ok [MTimedelta 1000].
Proof. vm_compute; reflexivity. Qed.
(** ... and a date that is stored is from 1850-01-01 to 2030-12-31 (to the midnight that
    starts this day if there is a time; in UTC if there is a time zone). *)
Theorem C38_date_range : forall e L key d ws, find_data root key = Some d -> d_filter d = Some DatetimeFilter ->
  getValues (set_all e root L) key = Ok ws -> forall w, In w ws ->
  let within us := HumanModel.datetime 1850 1 1 <= us <= HumanModel.datetime 2030 12 31 in
  match w with
  | MDate day => within (day * (24 * 3600 * 1000000))
  | MDatetime us None => within us
  | MDatetime us (Some offset) => within (us - offset)
  | _ => True
  end.
Proof.
  intros e L key d ws Hd Hf H w Hw within.
  assert (Hn : d_values d = []).
  { assert (G : getValues root key = Ok (map fst (d_values d))) by (apply getValues_find; exists d; auto). apply C38_root in G. destruct (d_values d); [reflexivity|discriminate]. }
  destruct (typed_lemma e root L key d ws Hd Hn H w Hw) as [_ Ho]. unfold filter_okb in Ho. rewrite Hf in Ho. cbn [filter_ok] in Ho.
  destruct w; try exact I; unfold within; [|destruct tz]; apply andb_true_iff in Ho as [Ho1 Ho2]; apply Z.leb_le in Ho1, Ho2; rewrite ?Z.sub_0_r in *; split; assumption.
Qed.
Print Assumptions C38_date_range.
(** "Years up to 2030" fails on the last day of 2030, for a date with a time. *)
Theorem C38_last_day_refuted : exists e day, day * (24 * 3600 * 1000000) = HumanModel.datetime 2030 12 31 /\
  getValues (set_all e root [(lit "creation_date", AVal (MDate day))]) (lit "creation_date") = Ok [MDate day] /\
  getValues (set_all e root [(lit "creation_date", AVal (MDatetime (HumanModel.datetime 2030 12 31 + 1) None))]) (lit "creation_date") = Ok [].
Proof. exists demo, (HumanModel.datetime 2030 12 31 / (24 * 3600 * 1000000)). repeat split; vm_compute; reflexivity. Qed.
Print Assumptions C38_last_day_refuted.
Lemma map_nth_inv : forall {A B} (f : A -> B) l k v, nth_error (map f l) k = Some v -> exists x, nth_error l k = Some x /\ f x = v.
Proof. intros A B f l k v E. rewrite nth_error_map in E. destruct (nth_error l k) as [x|]; [|discriminate]. injection E as <-. eauto. Qed.
(** Reading the values one by one: from the first or, with a negative index, from the
    last; the default (or ValueError) if there is no such value. *)
Theorem C38_get : forall m key vs default, getValues m key = Ok vs -> has m key = Ok (negb (zlen vs =? 0)) /\
  (forall k v, nth_error vs k = Some v -> get m key default (Z.of_nat k) = Ok v) /\
  (forall k v, nth_error (rev vs) k = Some v -> get m key default (- Z.of_nat k - 1) = Ok v) /\
  (forall i, i < - zlen vs \/ zlen vs <= i -> get m key default i = match default with MNone => Err ValueError | v => Ok v end).
Proof.
  intros m key vs default H. unfold getValues in H. unfold has, get, getItem. destruct (getItems m key) as [l|]; [|discriminate]. cbn [bind] in *. injection H as <-.
  assert (ZL : zlen (map fst l) = zlen l) by (unfold zlen; rewrite map_length; reflexivity). assert (0 <= zlen l) by (unfold zlen; lia).
  split; [f_equal; rewrite ZL; lia|]. split; [|split].
  - intros k v E. cbv zeta. replace (Z.of_nat k <? 0) with false by lia. rewrite ?Nat2Z.id. replace (Z.of_nat k <? 0) with false by lia.
    apply map_nth_inv in E as (it & E & <-). unfold item in *. rewrite E. reflexivity.
  - intros k v E. cbv zeta. replace (- Z.of_nat k - 1 <? 0) with true by lia.
    assert (K : (k < length l)%nat).
    { pose proof (proj1 (nth_error_Some (rev (map fst l)) k) ltac:(rewrite E; discriminate)) as K. rewrite rev_length, map_length in K. exact K. }
    assert (R : nth_error (map fst l) (length l - 1 - k) = Some v).
    { rewrite <- E. rewrite <- (rev_involutive (map fst l)) at 1. set (r := rev (map fst l)). assert (LR : length r = length l) by (unfold r; rewrite rev_length, map_length; reflexivity).
      rewrite <- LR in *. clearbody r. clear - K. revert k K. induction r as [|x r IH]; intros k K; [cbn in K; lia|]. cbn [rev length].
      destruct k as [|k].
      - rewrite nth_error_app2; rewrite rev_length; [|lia]. replace (S (length r) - 1 - 0 - length r)%nat with 0%nat by lia. reflexivity.
      - rewrite nth_error_app1; [|rewrite rev_length; cbn [length] in K; lia]. cbn [nth_error]. rewrite <- IH; [f_equal; cbn [length] in K; lia|cbn [length] in K; lia]. }
    unfold zlen in *. replace (- Z.of_nat k - 1 + Z.of_nat (length l) <? 0) with false by lia. replace (Z.to_nat (- Z.of_nat k - 1 + Z.of_nat (length l))) with (length l - 1 - k)%nat by lia.
    apply map_nth_inv in R as (it & R & <-). unfold item in *. rewrite R. reflexivity.
  - intros i Hi. rewrite ZL in Hi. cbv zeta. destruct (i <? 0) eqn:N.
    + replace (i + zlen l <? 0) with true by lia. reflexivity.
    + rewrite N. replace (nth_error l (Z.to_nat i)) with (@None item); [reflexivity|]. symmetry. apply nth_error_None. unfold zlen in *. lia.
Qed.
Print Assumptions C38_get.
Example C38_get_ex : let m := set_all demo root [title_is (lit "a"); title_is (lit "b")] in
  get m (lit "title") MNone (-1) = Ok (MStr (lit "b")) /\ get m (lit "title") MNone 2 = Err ValueError /\ get m (lit "title") (MInt 5) (-3) = Ok (MInt 5).
Proof. vm_compute; auto. Qed.
(** NaN passes every filter, and is stored as many times as it is assigned. *)
Theorem C38_nan_refuted : exists e L, getValues (set_all e root L) (lit "sample_rate") = Ok [MFloat FNan; MFloat FNan].
Proof. exists demo, [(lit "sample_rate", AVal (MFloat FNan)); (lit "sample_rate", AVal (MFloat FNan))]. vm_compute; reflexivity. Qed.
Print Assumptions C38_nan_refuted.
(** A text that begins another one is lost, even when both were meant. *)
Theorem C38_prefix_refuted : exists e L s, In (title_is s) L /\ forall ws, getValues (set_all e root L) (lit "title") = Ok ws -> ~ In (MStr s) ws.
Proof.
  exists demo, [title_is (lit "Al"); title_is (lit "Alice")], (lit "Al"). split; [left; reflexivity|]. intros ws H.
  assert (E : getValues (set_all demo root [title_is (lit "Al"); title_is (lit "Alice")]) (lit "title") = Ok [MStr (lit "Alice")]) by (vm_compute; reflexivity).
  pose proof (eq_trans (eq_sym E) H) as X. injection X as <-. intros [C|[]]. discriminate.
Qed.
Print Assumptions C38_prefix_refuted.
(** "3/10": the number and the total. *)
Theorem C38_track : forall e a b x y, ~ In 47 a -> e_int e a = Some x -> e_int e b = Some y -> 1 <= x <= 999 -> 1 <= y <= 999 ->
  exists m, setattr e root (lit "track_number") (AVal (MStr (a ++ lit "/" ++ b))) = Ok m /\
    getValues m (lit "track_number") = Ok [MInt x] /\ getValues m (lit "track_total") = Ok [MInt y].
Proof. exact track_lemma. Qed.
Print Assumptions C38_track.
Example C38_track_ex : ~ In 47 (lit "3") /\ e_int demo (lit "3") = Some 3 /\ e_int demo (lit "10") = Some 10.
Proof. split; [intros [C|[]]; discriminate|split; reflexivity]. Qed.

(** ** C39 *)
(** The lines of exportPlaintext: the title, then one line for each value of
    each key of priority at most [p], in the order of the priorities, of the
    registrations and of the values; None when there is no value. *)
Theorem C39_lines : forall e m priority human prefix title,
  let p := match priority with None => 999 | Some p => Z.max 100 (Z.min p 999) end in
  exists ds, in_priority_order p (m_data m) ds /\
    exportPlaintext e m priority human prefix title =
      match flat_map (fun d => map (line_of e human prefix d) (d_values d)) ds with
      | [] => None
      | lines => Some ((export_title m title ++ lit ":") :: lines)
      end.
Proof.
  intros e m priority human prefix title p. assert (E : p = clamp priority) by (unfold p, clamp, MIN_PRIORITY, MAX_PRIORITY; destruct priority; lia).
  rewrite E. apply export_text.
Qed.
Print Assumptions C39_lines.
(** The order leaves no choice. *)
Theorem C39_order : forall p l ds ds', in_priority_order p l ds -> in_priority_order p l ds' -> ds = ds'.
Proof. exact order_unique. Qed.
Print Assumptions C39_order.
Definition demo_meta : meta := set_all demo root [(lit "endian", AVal (MStr (lit "Big endian"))); (lit "bit_rate", AVal (MInt 9)); title_is (lit "x"); (lit "aspect_ratio", AVal (MInt 2)); title_is (lit "y")].
Example C39_lines_ex :
  exportPlaintext demo demo_meta None true (lit "- ") None = Some [lit "Metadata:"; lit "- Title: x"; lit "- Title: y"; lit "- Bit rate: text"; lit "- Aspect ratio: ?"; lit "- Endianness: Big endian"] /\
  exportPlaintext demo demo_meta (Some 603) true (lit "- ") None = Some [lit "Metadata:"; lit "- Title: x"; lit "- Title: y"] /\
  exportPlaintext demo demo_meta (Some 0) false (lit "- ") (Some (lit "t")) = Some [lit "t:"; lit "- title: x"; lit "- title: y"] /\
  exportPlaintext demo root None true (lit "- ") None = None.
Proof. repeat split; vm_compute; reflexivity. Qed.
(** str() of an empty metadata raises TypeError. *)
Theorem C39_str_refuted : forall e, meta_str e root = Err TypeError.
Proof. intros e. vm_compute. reflexivity. Qed.
Print Assumptions C39_str_refuted.
(** A text with a newline forges a line: two metadata with different values have
    the same str(). *)
Theorem C39_newline_refuted : exists e L L', let m := set_all e root L in let m' := set_all e root L' in
  meta_str e m = meta_str e m' /\ getValues m (lit "title") <> getValues m' (lit "title") /\ getValues m (lit "author") = Ok [] /\ getValues m' (lit "author") <> Ok [].
Proof.
  exists demo, [title_is (lit "a" ++ [10] ++ lit "- Author: b")], [title_is (lit "a"); (lit "author", AVal (MStr (lit "b")))]. cbv zeta.
  split; [vm_compute; reflexivity|]. split; [vm_compute; discriminate|]. split; [vm_compute; reflexivity|vm_compute; discriminate].
Qed.
Print Assumptions C39_newline_refuted.

(** exportDictionary: for each key of priority at most [p] the text of its last
    value, under a title, and nothing else.
    Partial: the other values of a key are missing. *)
Theorem C39_dictionary_partial : forall e L priority human title,
  let m := set_all e root L in
  let p := match priority with None => 999 | Some p => Z.max 100 (Z.min p 999) end in
  exists fields, exportDictionary e m priority human title = [(export_title m title, fields)] /\
    (forall d, In d (m_data m) -> dget fields (data_title human d) = if d_priority d <=? p then last_text e human d else None) /\
    (forall k, ~ In k (map (data_title human) (m_data m)) -> dget fields k = None).
Proof.
  intros e L priority human title m p. assert (E : p = clamp priority) by (unfold p, clamp, MIN_PRIORITY, MAX_PRIORITY; destruct priority; lia).
  rewrite E. apply dictionary_lemma. unfold m. rewrite set_all_titles. apply root_titles.
Qed.
Print Assumptions C39_dictionary_partial.
Example C39_dictionary_ex : exportDictionary demo demo_meta (Some 603) false None = [(lit "Metadata", [(lit "title", lit "y")])].
Proof. vm_compute; reflexivity. Qed.
(** The first of two values is not in the dictionary. *)
Theorem C39_dictionary_refuted : exists e L v, getValues (set_all e root L) (lit "title") = Ok [MStr v; MStr (lit "y")] /\
  forall title fields k, In (title, fields) (exportDictionary e (set_all e root L) None true None) -> dget fields k <> Some v.
Proof.
  exists demo, [title_is (lit "x"); title_is (lit "y")], (lit "x"). split; [vm_compute; reflexivity|].
  assert (E : exportDictionary demo (set_all demo root [title_is (lit "x"); title_is (lit "y")]) None true None = [(lit "Metadata", [(lit "Title", lit "y")])]) by (vm_compute; reflexivity).
  rewrite E. intros title fields k [H|[]]. injection H as _ <-. cbn [dget]. match goal with |- (if ?b then _ else _) <> _ => destruct b end; vm_compute; discriminate.
Qed.
Print Assumptions C39_dictionary_refuted.

(** Groups added under the keys "k[]": the empty ones are refused, the others are
    named k[1], k[2]... for each k, in the order of the calls, and exported after
    the common metadata, in that order. *)
Theorem C39_groups : forall common l, let st := add_groups {| mm_common := common; mm_groups := dict_empty; mm_counter := [] |} l in
  mm_common (fst st) = common /\ dict_items (mm_groups (fst st)) = numbered [] (filter has_values l) /\ snd st = map (fun g => Ok (has_values g)) l.
Proof. exact groups_lemma. Qed.
Print Assumptions C39_groups.
Theorem C39_group_lines : forall e mm priority human prefix,
  let lines o := match o with Some t => t | None => [] end in
  lines (mm_exportPlaintext e mm priority human prefix) =
    lines (exportPlaintext e (mm_common mm) priority human prefix None) ++
    List.concat (map (fun km => lines (exportPlaintext e (snd km) priority human prefix (if human then None else Some (fst km)))) (dict_items (mm_groups mm))).
Proof.
  intros e mm priority human prefix lines. unfold mm_exportPlaintext, group_title. fold lines. cbv zeta. rewrite flat_map_concat_map.
  assert (G : forall t : list str, lines (match t with [] => None | _ :: _ => Some t end) = t) by (intros [|x t]; reflexivity). apply G.
Qed.
Print Assumptions C39_group_lines.
Definition demo_group (s : str) : meta := set_all demo root [title_is s].
Definition demo_mm : mmeta := fst (add_groups {| mm_common := root; mm_groups := dict_empty; mm_counter := [] |}
  [(lit "audio", demo_group (lit "x"), Some (lit "Audio")); (lit "video", demo_group (lit "z"), None); (lit "audio", root, None); (lit "audio", demo_group (lit "y"), Some (lit "Audio"))]).
Example C39_groups_ex : map fst (dict_items (mm_groups demo_mm)) = [lit "audio[1]"; lit "video[1]"; lit "audio[2]"] /\
  mm_exportPlaintext demo demo_mm None true (lit "- ") = Some [lit "Audio:"; lit "- Title: x"; lit "Metadata:"; lit "- Title: z"; lit "Audio:"; lit "- Title: y"].
Proof. split; vm_compute; reflexivity. Qed.
(** A group named "k[1]" by the caller makes the next "k[]" fail. *)
Theorem C39_group_key_refuted : exists mm m k, meta_bool m = true /\ mm_groups mm = dict_empty /\
  snd (addGroup (fst (addGroup mm (k ++ lit "[1]") m None)) (k ++ lit "[]") m None) = Err UniqKeyError.
Proof.
  exists {| mm_common := root; mm_groups := dict_empty; mm_counter := [] |}, (demo_group (lit "x")), (lit "audio"). split; [vm_compute; reflexivity|]. split; vm_compute; reflexivity.
Qed.
Print Assumptions C39_group_key_refuted.
(** Two groups with the same header: the dictionary keeps the second one only. *)
Theorem C39_group_dictionary_refuted : exists e mm, map fst (dict_items (mm_groups mm)) = [lit "audio[1]"; lit "audio[2]"] /\
  mm_exportDictionary e mm None true = [(lit "Metadata", []); (lit "Audio", [(lit "Title", lit "y")])].
Proof.
  exists demo, (fst (add_groups {| mm_common := root; mm_groups := dict_empty; mm_counter := [] |}
    [(lit "audio", demo_group (lit "x"), Some (lit "Audio")); (lit "audio", demo_group (lit "y"), Some (lit "Audio"))])). split; vm_compute; reflexivity.
Qed.
Print Assumptions C39_group_dictionary_refuted.

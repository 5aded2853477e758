(** Properties C20 - C25 (lazy field sets) and C29 (arrays of fields). *)
From Coq Require Import String.
From Verif Require Import Base DictModel ToolsModel Lit FieldModel FieldSpec FieldEdit FieldSpec2.
From Verif Require Import FieldNames FieldProofs FieldProofs2 FieldHist FieldProofs3 FieldWeak FieldLazy FieldAnswers FieldArrays FakeArrayProofs.

(** ** C20 *)
(** Whatever the parser and the history of accesses, in the root set and in
    every set below: names are distinct, the current size never exceeds the
    size, and is the size once parsing is finished. *)
Theorem C20_names_and_sizes : forall g size autofix ops path s',
  0 < size -> set_at path (fst (do_accesses autofix ops (root_set g size))) = Some s' ->
  NoDup (names (layout (fields s'))) /\
  exists z, fsize s' = Some z /\ cur s' <= z /\ (path = [] -> z = size) /\ (done s' -> cur s' = z).
Proof. exact sizes_lemma. Qed.
Print Assumptions C20_names_and_sizes.
(** The fields lie end to end from 0 to the current size.  Partial: names that
    look like array elements ("x[3]") must not be given by the parser, sizes
    of leaves not be negative. *)
Theorem C20_tiling_partial : forall g size autofix ops path s',
  gen_ok g -> 0 < size -> set_at path (fst (do_accesses autofix ops (root_set g size))) = Some s' ->
  tiles 0 (layout (fields s')) (cur s').
Proof. exact tiling_lemma. Qed.
Print Assumptions C20_tiling_partial.

(** A parser of 56 bits: a leaf, an array of two sets (one sized, one not)
    whose second leaf is too big, and a leaf that does not fit. *)
Definition ex_inner : gen := GYield (SLeaf (lit "a") 8) (fun _ => GYield (SLeaf (lit "b") 12) (fun _ => GStop)).
Definition ex_parser : gen :=
  GYield (SLeaf (lit "head") 8) (fun _ => GYield (SSet (lit "it[]") (Some 16) ex_inner) (fun _ =>
  GYield (SSet (lit "it[]") None ex_inner) (fun _ => GYield (SLeaf (lit "tail") 40) (fun _ => GRaise ParserError)))).
Lemma not_array n : (last n 0 =? 93) = false -> name_ok n.
Proof.
  intros H. right. intros (key & i & Hi & E). rewrite E in H. unfold array_name in H.
  rewrite !app_assoc, last_last in H. discriminate.
Qed.
Example C20_ex_ok : gen_ok ex_parser.
Proof.
  assert (Hi : gen_ok ex_inner).
  { cbn [gen_ok spec_ok ex_inner]. split; [split; [apply not_array; reflexivity|lia]|]. intros _. split; [split; [apply not_array; reflexivity|lia]|]. intros _. exact I. }
  cbn [gen_ok spec_ok ex_parser]. split; [split; [apply not_array; reflexivity|lia]|]. intros _.
  split; [split; [left; reflexivity|split; [lia|exact Hi]]|]. intros _.
  split; [split; [left; reflexivity|split; [exact I|exact Hi]]|]. intros _.
  split; [split; [apply not_array; reflexivity|lia]|]. intros _. exact I.
Qed.
Example C20_ex_layout : layout (fields (fst (do_accesses true [AName (lit "it[1]"); AIn (lit "it[0]") AAll; ALen] (root_set ex_parser 56)))) =
  [(lit "head", 0, 8); (lit "it[0]", 8, 16); (lit "it[1]", 24, 20); (lit "raw[]", 44, 12)].
Proof. reflexivity. Qed.
Example C20_ex_inside : option_map (fun s => layout (fields s))
    (set_at [lit "it[0]"] (fst (do_accesses true [AName (lit "it[1]"); AIn (lit "it[0]") AAll; ALen] (root_set ex_parser 56)))) =
  Some [(lit "a", 0, 8); (lit "raw[]", 8, 8)].
Proof. reflexivity. Qed.

(** The full statement is false of the code: a parser that names a field
    "x[0]" itself and then has a duplicate "x" makes the second append of
    _addField fail after the size was counted. *)
Definition ex_clash : gen := gen_of_list [(lit "x[0]", 8); (lit "x", 8); (lit "x", 8)].
Theorem C20_clash_refuted : exists g size ops, 0 < size /\
  let s := fst (do_accesses true ops (root_set g size)) in
  done s /\ ~ tiles 0 (layout (fields s)) (cur s).
Proof. exists ex_clash, 24, [ALen]. split; [lia|]. split; [reflexivity|]. cbv. intros (_ & _ & _ & _ & H). discriminate. Qed.
Print Assumptions C20_clash_refuted.

(** ** C21 *)
(** Every parser, any two histories: in each set they both reached, the sizes
    agree and the fields seen (names, addresses, sizes, in order) are a prefix
    the one of the other; a finished one has them all. *)
Theorem C21_order_independence : forall g size autofix ops1 ops2 path s1 s2,
  0 < size ->
  set_at path (fst (do_accesses autofix ops1 (root_set g size))) = Some s1 ->
  set_at path (fst (do_accesses autofix ops2 (root_set g size))) = Some s2 ->
  fsize s1 = fsize s2 /\
  (prefix (layout (fields s1)) (layout (fields s2)) \/ prefix (layout (fields s2)) (layout (fields s1))) /\
  (done s1 -> prefix (layout (fields s2)) (layout (fields s1))).
Proof. exact lazy_lemma. Qed.
Print Assumptions C21_order_independence.
(** With autofix (the default) the answers to len, size and by-index questions
    do not depend on the history, and two by-name answers agree. *)
Theorem C21_same_answers : forall g size ops1 ops2 path s1 s2 a,
  0 < size -> steady a ->
  set_at path (fst (do_accesses true ops1 (root_set g size))) = Some s1 ->
  set_at path (fst (do_accesses true ops2 (root_set g size))) = Some s2 ->
  snd (do_access true false (inside path a) (fst (do_accesses true ops1 (root_set g size)))) =
  snd (do_access true false (inside path a) (fst (do_accesses true ops2 (root_set g size)))).
Proof. exact answers_lemma. Qed.
Print Assumptions C21_same_answers.
Theorem C21_same_named_field : forall g size ops1 ops2 path s1 s2 n f1 f2,
  0 < size ->
  set_at path (fst (do_accesses true ops1 (root_set g size))) = Some s1 ->
  set_at path (fst (do_accesses true ops2 (root_set g size))) = Some s2 ->
  snd (do_access true false (inside path (AName n)) (fst (do_accesses true ops1 (root_set g size)))) = RField f1 ->
  snd (do_access true false (inside path (AName n)) (fst (do_accesses true ops2 (root_set g size)))) = RField f2 -> f1 = f2.
Proof. exact names_lemma. Qed.
Print Assumptions C21_same_named_field.
(** With or without autofix, a name denotes the same field in both. *)
Theorem C21_same_field_seen : forall g size autofix ops1 ops2 path s1 s2 f1 f2,
  0 < size ->
  set_at path (fst (do_accesses autofix ops1 (root_set g size))) = Some s1 ->
  set_at path (fst (do_accesses autofix ops2 (root_set g size))) = Some s2 ->
  In f1 (layout (fields s1)) -> In f2 (layout (fields s2)) -> fst (fst f1) = fst (fst f2) -> f1 = f2.
Proof. exact lazy_same_field. Qed.
Print Assumptions C21_same_field_seen.
Example C21_ex : exists s1 s2,
  set_at [lit "it[0]"] (fst (do_accesses true [AName (lit "it[0]"); AIn (lit "it[0]") (AIndex 0)] (root_set ex_parser 56))) = Some s1 /\
  set_at [lit "it[0]"] (fst (do_accesses true [ALen; AIn (lit "it[0]") ALen; AMore 2] (root_set ex_parser 56))) = Some s2 /\
  layout (fields s1) = [(lit "a", 0, 8)] /\ layout (fields s2) = [(lit "a", 0, 8); (lit "raw[]", 8, 8)] /\ done s2 /\ ~ done s1.
Proof. do 2 eexists. split; [reflexivity|]. split; [reflexivity|]. repeat split. intros H. discriminate. Qed.
(** A by-name question may wrongly be answered "missing" the first time: the
    field added by autofix at the end, and a field whose addition ends the
    parsing, are there but not returned. *)
Theorem C21_missing_refuted : exists g size n f, 0 < size /\
  snd (do_accesses true [AName n; AName n] (root_set g size)) = [RFail MissingField; RField f].
Proof. exists (gen_of_list [(lit "a", 8)]), 16, raw_name, (raw_name, 8, 8). split; [lia|reflexivity]. Qed.
Print Assumptions C21_missing_refuted.
(** Likewise a loop on the fields skips a field whose addition ends the
    parsing. *)
Theorem C21_iteration_refuted : exists g size f, 0 < size /\
  snd (do_accesses true [ANext 0; ANext 0] (root_set g size)) = [RStop; RField f].
Proof.
  exists (GYield (SSet (lit "s") None (GYield (SLeaf (lit "a") 16) (fun _ => GRaise ParserError))) (fun _ => GStop)), 16, (lit "s", 0, 16).
  split; [lia|reflexivity].
Qed.
Print Assumptions C21_iteration_refuted.

(** ** C22 *)
(** Whatever was asked before, and whatever the generator yields or raises,
    full feeding succeeds, keeps the fields already seen and ends with the
    current size equal to the size. *)
Theorem C22_feeding_ends : forall g size ops path s',
  0 < size -> set_at path (fst (do_accesses true ops (root_set g size))) = Some s' ->
  let t := do_access true false (inside path AAll) (fst (do_accesses true ops (root_set g size))) in
  snd t = RUnit /\
  exists s'' z, set_at path (fst t) = Some s'' /\ done s'' /\ fsize s' = Some z /\ fsize s'' = Some z /\ cur s'' = z /\
    prefix (layout (fields s')) (layout (fields s'')).
Proof. exact cover_gen. Qed.
Print Assumptions C22_feeding_ends.
(** The fields then cover the set exactly.  Partial: as C20_tiling_partial. *)
Theorem C22_cover_partial : forall g size ops path s',
  gen_ok g -> 0 < size -> set_at path (fst (do_accesses true ops (root_set g size))) = Some s' ->
  let t := do_access true false (inside path AAll) (fst (do_accesses true ops (root_set g size))) in
  snd t = RUnit /\
  exists s'' z, set_at path (fst t) = Some s'' /\ done s'' /\ fsize s' = Some z /\ fsize s'' = Some z /\
    tiles 0 (layout (fields s'')) z /\ prefix (layout (fields s')) (layout (fields s'')).
Proof. exact cover_lemma. Qed.
Print Assumptions C22_cover_partial.
Example C22_ex : snd (do_access true false (inside [lit "it[1]"] AAll) (fst (do_accesses true [ALen] (root_set ex_parser 56)))) = RUnit /\
  exists s, set_at [lit "it[1]"] (fst (do_accesses true [ALen] (root_set ex_parser 56))) = Some s.
Proof. split; [reflexivity|]. eexists. reflexivity. Qed.
Theorem C22_cover_refuted : exists g size, 0 < size /\
  let s := fst (do_access true false AAll (root_set g size)) in
  done s /\ fsize s = Some size /\ ~ tiles 0 (layout (fields s)) size.
Proof. exists ex_clash, 24. split; [lia|]. split; [reflexivity|]. split; [reflexivity|]. cbv. intros (_ & _ & _ & _ & H). discriminate. Qed.
Print Assumptions C22_cover_refuted.

(** ** C23 *)
(** A parser that yields leaves of given names (those not ending with "[]"
    distinct) and sizes: all are added and "key[]" is numbered per key in
    order of appearance. *)
Theorem C23_array_names : forall autofix (l : list (str * Z)) size,
  0 < size -> sum_sizes l = size ->
  Forall (fun x => name_ok (fst x) /\ 0 <= snd x) l -> NoDup (plain (map fst l)) ->
  let '(s, r) := do_access autofix false AAll (root_set (gen_of_list l) size) in
  r = RUnit /\ names (layout (fields s)) = numbered [] (map fst l) /\ map f_size (fields s) = map snd l.
Proof. exact array_names_lemma. Qed.
Print Assumptions C23_array_names.
Example C23_ex : numbered [] [lit "a[]"; lit "b[]"; lit "c"; lit "a[]"; lit "b[]"; lit "a[]"] =
  [lit "a[0]"; lit "b[0]"; lit "c"; lit "a[1]"; lit "b[1]"; lit "a[2]"].
Proof. reflexivity. Qed.
Example C23_ex_run : names (layout (fields (fst (do_access true false AAll (root_set (gen_of_list [(lit "a[]", 8); (lit "b", 3); (lit "a[]", 5)]) 16))))) =
  [lit "a[0]"; lit "b"; lit "a[1]"].
Proof. reflexivity. Qed.

(** ** C24 *)
Theorem C24_by_address : forall g size autofix ops path s' feed a,
  gen_ok g -> 0 < size ->
  set_at path (fst (do_accesses autofix ops (root_set g size))) = Some s' -> 0 <= a ->
  let '(s2, r) := get_by_address autofix true feed a s' in
  (feed = false -> s2 = s') /\
  match r with
  | Ok (Some f) => In f (fields s2) /\ f_addr f <= a < f_addr f + f_size f
  | Ok None => cur s2 <= a /\ (feed = true -> done s2)
  | Err _ => feed = true /\ autofix = false
  end.
Proof. exact by_address_lemma. Qed.
Print Assumptions C24_by_address.
Example C24_ex : snd (get_by_address true true true 30 (root_set ex_parser 56)) =
  match nth_error (fields (fst (do_access true false AAll (root_set ex_parser 56)))) 2 with Some f => Ok (Some f) | None => Ok None end
  /\ snd (get_by_address true true false 30 (root_set ex_parser 56)) = Ok None.
Proof. split; reflexivity. Qed.
(** A negative address is not refused: the first field is answered. *)
Theorem C24_negative_refuted : exists g size a f, 0 < size /\ a < 0 /\
  snd (get_by_address true true true a (root_set g size)) = Ok (Some f) /\ f_addr f = 0.
Proof. exists (gen_of_list [(lit "a", 8)]), 8, (-5), (FLeaf (lit "a") 0 8). repeat split; lia. Qed.
Print Assumptions C24_negative_refuted.

(** ** C25 *)
(** A successful replaceField puts the new fields, in order, exactly where the
    old one was, and changes nothing else. *)
Theorem C25_replace : forall name news s s',
  tiles 0 (layout (fields s)) (cur s) -> NoDup (map f_name (fields s)) ->
  Forall (fun f => 0 <= f_size f) news -> replace_field name news s = (s', None) ->
  exists old l1 l2 news', f_name old = name /\ put s s' old l1 news' l2 /\
    Forall2 renamed news news' /\ map f_size news' = map f_size news.
Proof. exact replace_ok. Qed.
Print Assumptions C25_replace.
(** It succeeds when the sizes agree and the new names are free. *)
Theorem C25_replace_accepts : forall old news s l1 l2,
  fields s = l1 ++ old :: l2 -> NoDup (map f_name (fields s)) -> news <> [] ->
  f_size old = total_size news -> Forall (fun f => ends_brackets (f_name f) = false) news -> NoDup (map f_name news) ->
  (forall n, In n (map f_name news) -> ~ In n (map f_name (l1 ++ l2))) ->
  snd (replace_field (f_name old) news s) = None.
Proof. exact replace_accepts. Qed.
Print Assumptions C25_replace_accepts.
(** writeFieldsIn: the same, with at most one padding field on each side. *)
Theorem C25_write : forall old address news s s',
  In old (fields s) -> tiles 0 (layout (fields s)) (cur s) -> NoDup (map f_name (fields s)) ->
  Forall (fun f => 0 <= f_size f) news -> write_fields_in old address news s = (s', None) ->
  exists l1 l2 before w after, put s s' old l1 (before ++ w ++ after) l2 /\
    Forall2 renamed news w /\ tiles address (layout w) (address + total_size news) /\ pads before /\ pads after.
Proof. exact write_ok. Qed.
Print Assumptions C25_write.
(** A rejected replacement by one field leaves the set as it was.  Partial:
    one new field only (see below). *)
Theorem C25_rejected_partial : forall name f s s' e, replace_field name [f] s = (s', Some e) ->
  fields s' = fields s /\ fsize s' = fsize s /\ cur s' = cur s /\ resume s' = resume s.
Proof. exact replace_single_rejected. Qed.
Print Assumptions C25_rejected_partial.
Definition ex_set : fset :=
  MkSet [FLeaf (lit "a") 0 8; FLeaf (lit "b") 8 16; FLeaf (lit "c") 24 8] (Some 32) 32 [] None.
Example C25_ex : replace_field (lit "b") [FLeaf (lit "x") 0 4; FLeaf (lit "y[]") 0 12] ex_set =
  (MkSet [FLeaf (lit "a") 0 8; FLeaf (lit "x") 8 4; FLeaf (lit "y[0]") 12 12; FLeaf (lit "c") 24 8] (Some 32) 32 [(lit "y", 0)] None, None).
Proof. reflexivity. Qed.
Example C25_ex_write : layout (fields (fst (write_fields_in (FLeaf (lit "b") 8 16) 12 [FLeaf (lit "x") 0 4] ex_set))) =
  [(lit "a", 0, 8); (lit "padding[0]", 8, 4); (lit "x", 12, 4); (lit "padding[1]", 16, 8); (lit "c", 24, 8)].
Proof. reflexivity. Qed.
(** With several new fields, a clash on the second one leaves the set half
    replaced: field "b" is gone and 12 bits are in no field. *)
Theorem C25_atomic_refuted : exists s name news e, tiles 0 (layout (fields s)) (cur s) /\ NoDup (map f_name (fields s)) /\
  snd (replace_field name news s) = Some e /\
  ~ tiles 0 (layout (fields (fst (replace_field name news s)))) (cur (fst (replace_field name news s))).
Proof.
  exists ex_set, (lit "b"), [FLeaf (lit "x") 0 4; FLeaf (lit "c") 0 12], ParserError.
  split; [cbn; lia|]. split; [repeat constructor; cbn; intuition discriminate|]. split; [reflexivity|]. cbn. lia.
Qed.
Print Assumptions C25_atomic_refuted.

(** ** C29 *)
(** Item, membership, truth and iteration questions, in any order and number,
    are answered as the names key[0] .. key[n-1] say. *)
Theorem C29_items : forall l key n ops, array_of l key n ->
  Forall2 (fun o r => o <> FLen -> should l key n o r) ops (snd (fa_run l key ops fa_init)).
Proof. exact array_items. Qed.
Print Assumptions C29_items.
(** So is len().  Partial: no index out of range may be asked before the first
    len() or complete iteration, unless the array is empty. *)
Theorem C29_len_partial : forall l key n ops, array_of l key n -> n = O \/ careful n ops ->
  Forall2 (should l key n) ops (snd (fa_run l key ops fa_init)).
Proof. exact array_len. Qed.
Print Assumptions C29_len_partial.
Definition ex_array : list field := [FLeaf (lit "x[0]") 0 8; FLeaf (lit "y") 8 8; FLeaf (lit "x[1]") 16 8].
Lemma ex_array_of : array_of ex_array (lit "x") 2.
Proof.
  intros i. destruct i as [|[|i]]; [cbn; intuition lia|cbn; intuition lia|].
  split; [|lia]. intros H. exfalso.
  assert (Hne : forall j, (j < 2)%nat -> lit "x[" ++ dec (Z.of_nat j) ++ [93] <> array_name (lit "x") (Z.of_nat (S (S i)))).
  { intros j Hj E. change (lit "x[" ++ dec (Z.of_nat j) ++ [93]) with (array_name (lit "x") (Z.of_nat j)) in E.
    apply array_name_inj in E; [|lia..]. destruct E as [_ E]. lia. }
  destruct H as [H|[H|[H|[]]]].
  - exact (Hne O ltac:(lia) H).
  - discriminate.
  - exact (Hne 1%nat ltac:(lia) H).
Qed.
Example C29_ex : snd (fa_run ex_array (lit "x") [FBool; FGet 1; FLen; FGet 5; FLen; FIter] fa_init) =
  [FABool true; FAField (Ok (FLeaf (lit "x[1]") 16 8)); FALen (Ok 2); FAField (Err MissingField); FALen (Ok 2);
   FAAll (Ok [FLeaf (lit "x[0]") 0 8; FLeaf (lit "x[1]") 16 8])].
Proof. reflexivity. Qed.
(** Otherwise len() is wrong: the miss is taken for the end of the array. *)
Theorem C29_len_refuted : exists l key n ops, array_of l key n /\
  exists z, In (FALen (Ok z)) (snd (fa_run l key ops fa_init)) /\ z <> Z.of_nat n.
Proof.
  exists ex_array, (lit "x"), 2%nat, [FGet 5; FLen]. split; [exact ex_array_of|]. exists 0.
  split; [right; left; reflexivity|discriminate].
Qed.
Print Assumptions C29_len_refuted.

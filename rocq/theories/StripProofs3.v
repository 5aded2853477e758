From Coq Require Import String.
From Verif Require Import Base BaseProofs BitsModel BitsSpec BitsProofs StreamModel StreamSpec StreamProofs DictModel DictProofs Lit OutputModel OutputProofs
  EditModel EditSpec EditProofs EditProofs2 EditProofs3 EditProofs4 EditProofs5 EditProofs6 ValueProofs StripModel StripSpec StripProofs StripProofs2.
Open Scope Z_scope.
Ltac Zify.zify_post_hook ::= Z.div_mod_to_equations.

(** ** Stripping the chunks of a RIFF file *)
Lemma Forall2_in_impl {X Y} (P Q : X -> Y -> Prop) l m : (forall x y, In x l -> P x y -> Q x y) -> Forall2 P l m -> Forall2 Q l m.
Proof. intros H F. induction F as [|x y l m Hx F IH]; constructor; [apply H; [left; reflexivity|assumption]|]. apply IH. intros; apply H; [right|]; assumption. Qed.

Fixpoint chunk_ind' (P : chunk -> Prop) (HR : forall n c, P (Raw n c)) (HD : forall n t c p, P (Data n t c p))
  (HL : forall n s l, Forall P l -> P (Lst n s l)) (ch : chunk) : P ch.
Proof.
  destruct ch as [n c|n t c p|n s l]; [apply HR|apply HD|apply HL]. induction l as [|x l IH]; constructor; [apply chunk_ind'; assumption|assumption].
Defined.
Lemma strip_len useless names ch : zlen (flat_map chunk_bytes (strip_chunk useless names ch)) <= zlen (chunk_bytes ch).
Proof.
  induction ch as [n c|n t c p|n s l IH] using chunk_ind'; cbn [strip_chunk].
  - destruct (memb n names); cbn [flat_map]; rewrite ?app_nil_r; [apply zlen_nonneg|lia].
  - destruct (memb n names || _); cbn [flat_map]; rewrite ?app_nil_r; [apply zlen_nonneg|lia].
  - destruct (memb n names); cbn [flat_map]; rewrite ?app_nil_r; [apply zlen_nonneg|]. destruct (str_eqb n (lit "movie")); cbn [flat_map]; rewrite ?app_nil_r; [lia|].
    cbn [chunk_bytes]. rewrite !zlen_app. unfold le32. rewrite !zlen_cons.
    enough (zlen (flat_map chunk_bytes (flat_map (strip_chunk useless names) l)) <= zlen (flat_map chunk_bytes l)) by lia.
    induction IH as [|x l Hx Hl IH2]; [reflexivity|]. cbn [flat_map]. rewrite flat_map_app', !zlen_app. lia.
Qed.
Lemma strip_list_len useless names l : zlen (flat_map chunk_bytes (flat_map (strip_chunk useless names) l)) <= zlen (flat_map chunk_bytes l).
Proof. induction l as [|x l IH]; [reflexivity|]. cbn [flat_map]. rewrite flat_map_app', !zlen_app. pose proof (strip_len useless names x). lia. Qed.

Section Riff.
Context (data : list Z) (Hd : is_bytes data) (input : read_fun) (Hs : serves input data).
Notation holds := (holds data input).
Notation set_ok := (set_ok data).

Definition list_children (a : Z) (fields : list inode) : list inode :=
  ILeaf (lit "tag") (KString FFixed 0 []) a 32 :: ILeaf (lit "size") (KInt false) (a + 32) 32 ::
  ILeaf (lit "subtag") (KString FFixed 0 []) (a + 64) 32 :: fields.
(** The editable version [x] of [c] is a chunk. *)
Inductive elays : inode -> inode -> enode -> chunk -> Prop :=
| el_raw p name k a s f content : holds p (ILeaf name k a s) (EField f) content -> elays p (ILeaf name k a s) (EField f) (Raw name content)
| el_data p name e a s l fs tag content pad a' k' :
    let c := ISet name e a s l in
    holds p c (ESet c fs [] []) (chunk_bytes (Data name tag content pad)) -> zlen tag = 4 -> tag <> lit "LIST" ->
    child c (lit "tag") = Some (ILeaf (lit "tag") k' a' 32) -> readBytes input a' 4 = Ok tag -> assoc (lit "tag") fs = None ->
    elays p c (ESet c fs [] []) (Data name tag content pad)
| el_list p name a s fields fs subtag l :
    let c := ISet name LITTLE_ENDIAN a s (list_children a fields) in
    let body := flat_map chunk_bytes l in
    set_ok c -> assoc (lit "tag") fs = None -> assoc (lit "size") fs = None -> assoc (lit "subtag") fs = None ->
    orig_bytes data a 32 = lit "LIST" -> orig_bytes data (a + 32) 32 = le32 (4 + zlen body) -> orig_bytes data (a + 64) 32 = subtag ->
    zlen subtag = 4 -> 4 + zlen body < 2 ^ 32 ->
    Forall2 (fun d ch => elays c d (the_item c fs d) ch) fields l ->
    elays p c (ESet c fs [] []) (Lst name subtag l).

Definition ch_name (ch : chunk) : str := match ch with Raw n _ => n | Data n _ _ _ => n | Lst n _ _ => n end.
Lemma elays_name p c x ch : elays p c x ch -> i_name c = ch_name ch.
Proof using. clear. destruct 1; reflexivity. Qed.

(** A list of children given with the bytes that they hold. *)
Lemma forall2_content {X} (P : inode -> X -> Prop) (b : X -> list Z) (l : list inode) (m : list X) : NoDup (map i_name l) -> Forall2 P l m ->
  exists content : inode -> list Z, (forall c, In c l -> exists x, P c x /\ content c = b x) /\ flat_map content l = flat_map b m.
Proof using.
  clear. intros ND H. induction H as [|c x l m Hc Hl IH].
  - exists (fun _ => []). split; [intros c []|reflexivity].
  - cbn [map] in ND. inversion ND as [|y ys N1 N2]; subst. destruct (IH N2) as (content & C1 & C2).
    exists (fun d => if str_eqb (i_name d) (i_name c) then b x else content d). split.
    + intros d [<-|Hd]; [rewrite str_eqb_refl; eauto|]. destruct (str_eqb (i_name d) (i_name c)) eqn:E; [|apply C1; assumption].
      apply str_eqb_eq in E. exfalso. apply N1. rewrite <- E. apply in_map. assumption.
    + cbn [flat_map]. rewrite str_eqb_refl. f_equal. rewrite <- C2. apply flat_map_ext_in. intros d Hd.
      destruct (str_eqb (i_name d) (i_name c)) eqn:E; [|reflexivity]. apply str_eqb_eq in E. exfalso. apply N1. rewrite <- E. apply in_map. assumption.
Qed.

(** An editor that holds some bytes for each of its fields holds all of them. *)
Lemma set_holds_list p i fields (ms : list (list Z)) : set_ok i ->
  Forall2 (fun c b => holds i c (the_item i fields c) b) (i_children i) ms -> holds p i (ESet i fields [] []) (List.concat ms).
Proof using Hd Hs.
  intros SO F. pose proof SO as (_ & _ & ND & _). destruct (forall2_content _ (fun b => b) _ _ ND F) as (content & C1 & C2).
  rewrite (flat_map_concat_map (fun b => b)), map_id in C2. rewrite <- C2.
  rewrite (flat_map_ext_in content (fun c => if mem (i_name c) [] then [] else content c)) by (intros; reflexivity).
  apply (set_holds data Hd input Hs p i fields [] content); [assumption|]. intros c Hc _. destruct (C1 c Hc) as (b & B1 & ->). assumption.
Qed.

Lemma set_holds_del p i fields deleted (ms : list (list Z)) : set_ok i ->
  Forall2 (fun c b => (mem (i_name c) deleted = true /\ b = []) \/ (mem (i_name c) deleted = false /\ holds i c (the_item i fields c) b)) (i_children i) ms ->
  holds p i (ESet i fields deleted []) (List.concat ms).
Proof using Hd Hs.
  intros SO F. pose proof SO as (_ & _ & ND & _). destruct (forall2_content _ (fun b => b) _ _ ND F) as (content & C1 & C2).
  rewrite (flat_map_concat_map (fun b => b)), map_id in C2. rewrite <- C2.
  rewrite (flat_map_ext_in content (fun c => if mem (i_name c) deleted then [] else content c)).
  - apply (set_holds data Hd input Hs p i fields deleted content); [assumption|]. intros c Hc Hm. destruct (C1 c Hc) as (b & [B1|B1] & ->); [destruct B1; congruence|apply B1].
  - intros c Hc. destruct (C1 c Hc) as (b & [[B1 B2]|[B1 B2]] & ->); rewrite B1; auto.
Qed.

Lemma elays_holds : forall c p x ch, elays p c x ch -> holds p c x (chunk_bytes ch).
Proof using Hd Hs.
  induction c as [name k a s|name e a s l IH] using inode_ind'; intros p x ch E; inversion E; subst.
  - assumption.
  - assumption.
  - assert (SO : set_ok c0) by assumption.
    assert (Hin : forall d, In d (list_children a fields) -> In d (i_children c0)) by (intros; assumption).
    replace (chunk_bytes (Lst name (orig_bytes data (a + 64) 32) l0)) with
      (List.concat (orig_bytes data a 32 :: orig_bytes data (a + 32) 32 :: orig_bytes data (a + 64) 32 :: map chunk_bytes l0)).
    2: { cbn [List.concat chunk_bytes]. rewrite <- flat_map_concat_map.
       match goal with H : orig_bytes data a 32 = _ |- _ => rewrite H end. match goal with H : orig_bytes data (a + 32) 32 = _ |- _ => rewrite H end. reflexivity. }
    apply set_holds_list; [assumption|]. cbn [c0 i_children list_children]. constructor; [|constructor; [|constructor]].
    + unfold the_item. cbn [i_name]. match goal with H : assoc (lit "tag") fs = None |- _ => rewrite H end. exact (fresh_holds data Hd input Hs c0 _ SO (Hin _ (or_introl eq_refl))).
    + unfold the_item. cbn [i_name]. match goal with H : assoc (lit "size") fs = None |- _ => rewrite H end. exact (fresh_holds data Hd input Hs c0 _ SO (Hin _ (or_intror (or_introl eq_refl)))).
    + unfold the_item. cbn [i_name]. match goal with H : assoc (lit "subtag") fs = None |- _ => rewrite H end. exact (fresh_holds data Hd input Hs c0 _ SO (Hin _ (or_intror (or_intror (or_introl eq_refl))))).
    + unfold list_children in IH. apply Forall_inv_tail in IH. apply Forall_inv_tail in IH. apply Forall_inv_tail in IH.
      match goal with H : Forall2 _ fields l0 |- _ => rename H into F2 end. clearbody c0. clear - F2 IH.
      induction F2 as [|d ch fields l0 Hd0 Hl IH2]; constructor.
      * apply (Forall_inv IH). assumption.
      * apply IH2. apply Forall_inv_tail in IH. assumption.
Qed.

(** The loop of stripSub. *)
Definition strip_loop (level : Z) (names : list str) := fix loop (l : list inode) (n : enode) (remove : list str) (total : Z) : res (enode * list str * Z) :=
  match l with
  | [] => Ok (n, remove, total)
  | c :: l =>
      let name := i_name c in
      do field <- get_item n name;
      if mem name names then loop l n (remove ++ [name]) total
      else
        do tag <- sub_text input field (lit "tag");
        match tag with
        | None => loop l n remove total
        | Some tag =>
            if has_level level STRIP_USELESS && contains (lit "JUNK") tag then loop l n (remove ++ [name]) total
            else if str_eqb tag (lit "LIST") && negb (str_eqb name (lit "movie")) then
              do r <- stripSub input level names c field;
              let '(field, size) := r in
              do field <- (if size =? 0 then Ok field else decrease input field (lit "size") (size / 8));
              do n <- edit_at [name] (fun _ => Ok field) n;
              loop l n remove (total + size)
            else loop l n remove total
        end
  end.
Lemma strip_loop_cons level names c l n remove total : strip_loop level names (c :: l) n remove total =
      (let name := i_name c in
      do field <- get_item n name;
      if mem name names then strip_loop level names l n (remove ++ [name]) total
      else
        do tag <- sub_text input field (lit "tag");
        match tag with
        | None => strip_loop level names l n remove total
        | Some tag =>
            if has_level level STRIP_USELESS && contains (lit "JUNK") tag then strip_loop level names l n (remove ++ [name]) total
            else if str_eqb tag (lit "LIST") && negb (str_eqb name (lit "movie")) then
              do r <- stripSub input level names c field;
              let '(field, size) := r in
              do field <- (if size =? 0 then Ok field else decrease input field (lit "size") (size / 8));
              do n <- edit_at [name] (fun _ => Ok field) n;
              strip_loop level names l n remove (total + size)
            else strip_loop level names l n remove total
        end).
Proof using. reflexivity. Qed.
Lemma stripSub_loop level names name e a s children n :
  stripSub input level names (ISet name e a s children) n =
  do r <- strip_loop level names children n [] 0;
  let '(n, remove, total) := r in
  do s <- removeFields input remove n;
  Ok (fst s, total + snd s).
Proof using. reflexivity. Qed.

Context (level : Z) (names : list str)
  (Hn : forall k, In k [lit "tag"; lit "size"; lit "subtag"] -> memb k names = false).
Notation strip := (strip_chunk (has_level level STRIP_USELESS) names).
Notation bytes := (flat_map chunk_bytes).

(** What is left of a chunk in an editor. *)
Definition left_over (i : inode) (fields : list (str * enode)) (removed : inode -> Prop) (c : inode) (ch : chunk) : Prop :=
  (removed c /\ strip ch = [] /\ holds i c (the_item i fields c) (chunk_bytes ch)) \/
  (~ removed c /\ exists ch', strip ch = [ch'] /\ holds i c (the_item i fields c) (chunk_bytes ch')).
Definition is_leaf (c : inode) : Prop := match c with ILeaf _ _ _ _ => True | _ => False end.

Definition sub_ok (i : inode) : Prop := forall fields items, (exists n e a s l, i = ISet n e a s l) -> set_ok i ->
  Forall2 (fun c ch => elays i c (the_item i fields c) ch) (i_children i) items ->
  exists fields' deleted',
    stripSub input level names i (ESet i fields [] []) = Ok (ESet i fields' deleted' [], 8 * (zlen (bytes items) - zlen (bytes (flat_map strip items)))) /\
    Forall2 (fun c ch => (mem (i_name c) deleted' = true /\ strip ch = []) \/
                         (mem (i_name c) deleted' = false /\ exists ch', strip ch = [ch'] /\ holds i c (the_item i fields' c) (chunk_bytes ch'))) (i_children i) items /\
    (forall c, In c (i_children i) -> is_leaf c -> assoc (i_name c) fields = None -> mem (i_name c) deleted' = false -> assoc (i_name c) fields' = None).

Lemma tag_text c fs name k a : child c (lit "tag") = Some (ILeaf name k a 32) -> assoc (lit "tag") fs = None -> name = lit "tag" ->
  sub_text input (ESet c fs [] []) (lit "tag") = do t <- readBytes input a 4; Ok (Some t).
Proof using.
  clear. intros C A ->. unfold sub_text. cbn [get_item mem existsb]. rewrite C, A. cbn [fresh]. unfold text_value. cbn [ef_value ef_name]. rewrite C. reflexivity.
Qed.
Lemma left_list i fields fields2 deleted l items : (forall d, In d l -> assoc (i_name d) fields2 = assoc (i_name d) fields) ->
  Forall2 (fun c ch => (mem (i_name c) deleted = true /\ strip ch = []) \/
                       (mem (i_name c) deleted = false /\ exists ch', strip ch = [ch'] /\ holds i c (the_item i fields c) (chunk_bytes ch'))) l items ->
  exists bs, Forall2 (fun c b => (mem (i_name c) deleted = true /\ b = []) \/ (mem (i_name c) deleted = false /\ holds i c (the_item i fields2 c) b)) l bs /\
    List.concat bs = bytes (flat_map strip items).
Proof using.
  clear. intros Ha F. induction F as [|c ch l items Hc F IH]; [exists []; split; [constructor|reflexivity]|].
  destruct (IH (fun d Hd => Ha d (or_intror Hd))) as (bs & B1 & B2). cbn [flat_map]. rewrite flat_map_app'.
  destruct Hc as [[M1 M2]|[M1 (ch' & M2 & M3)]]; rewrite M2.
  - exists ([] :: bs). split; [constructor; [left; auto|assumption]|]. cbn [List.concat app flat_map]. assumption.
  - exists (chunk_bytes ch' :: bs). split; [constructor; [right|assumption]|].
    + split; [assumption|]. unfold the_item in *. rewrite (Ha c (or_introl eq_refl)). assumption.
    + cbn [List.concat flat_map]. rewrite app_nil_r, B2. reflexivity.
Qed.
Lemma raw_kept name content : In name [lit "tag"; lit "size"; lit "subtag"] -> strip (Raw name content) = [Raw name content].
Proof using Hn. intros H. cbn [strip_chunk]. rewrite Hn by assumption. reflexivity. Qed.

(** Stripping a list, and correcting its size. *)
Lemma list_ok p name a s fields fs subtag l :
  let c := ISet name LITTLE_ENDIAN a s (list_children a fields) in
  sub_ok c -> elays p c (ESet c fs [] []) (Lst name subtag l) ->
  exists size x n1, stripSub input level names c (ESet c fs [] []) = Ok (n1, size) /\
    (if size =? 0 then Ok n1 else decrease input n1 (lit "size") (size / 8)) = Ok x /\
    size = 8 * (zlen (chunk_bytes (Lst name subtag l)) - zlen (chunk_bytes (Lst name subtag (flat_map strip l)))) /\
    holds p c x (chunk_bytes (Lst name subtag (flat_map strip l))).
Proof using Hd Hs Hn.
  intros c Sc E. inversion E as [|p0 n0 e0 a0 s0 l0 fs0 tag0 content0 pad0 a1 k1 c1|p0 n0 a0 s0 fields0 fs0 subtag0 l0 c1 body SO A1 A2 A3 O1 O2 O3 Zs Zb F2]; subst n0 a0 s0 fields0 fs0 subtag0 l0 p0. subst c1. fold c in SO, F2.
  pose (items := Raw (lit "tag") (lit "LIST") :: Raw (lit "size") (le32 (4 + zlen body)) :: Raw (lit "subtag") subtag :: l).
  assert (Hin : forall d, In d (list_children a fields) -> In d (i_children c)) by (intros; assumption).
  assert (FR : forall nm k x b, In (ILeaf nm k x 32) (list_children a fields) -> assoc nm fs = None -> orig_bytes data x 32 = b ->
     elays c (ILeaf nm k x 32) (the_item c fs (ILeaf nm k x 32)) (Raw nm b)).
  { intros nm k x b I A <-. unfold the_item. cbn [i_name]. rewrite A. apply el_raw. exact (fresh_holds data Hd input Hs c _ SO (Hin _ I)). }
  assert (F3 : Forall2 (fun d ch => elays c d (the_item c fs d) ch) (i_children c) items).
  { cbn [c i_children list_children]. repeat (constructor; [apply FR; try assumption; cbn [list_children In]; auto|]). assumption. }
  destruct (Sc fs items ltac:(do 5 eexists; reflexivity) SO F3) as (fs' & del & S1 & S2 & S3).
  assert (St : flat_map strip items = Raw (lit "tag") (lit "LIST") :: Raw (lit "size") (le32 (4 + zlen body)) :: Raw (lit "subtag") subtag :: flat_map strip l).
  { unfold items. cbn [flat_map]. rewrite !raw_kept by (cbn [In]; auto). reflexivity. }
  set (size := 8 * (zlen (bytes items) - zlen (bytes (flat_map strip items)))) in *.
  set (body' := bytes (flat_map strip l)).
  assert (Sz : size = 8 * (zlen body - zlen body')).
  { unfold size. rewrite St. unfold items. cbn [flat_map chunk_bytes]. fold body body'. rewrite !zlen_app. lia. }
  unfold items in S2. cbn [c i_children list_children] in S2. inversion S2 as [|d1 h1 t1 u1 R1 S21]; subst d1 h1 t1 u1. inversion S21 as [|d1 h1 t1 u1 R2 S22]; subst d1 h1 t1 u1. inversion S22 as [|d1 h1 t1 u1 R3 S23]; subst d1 h1 t1 u1.
  clear S2 S21 S22. fold c in R1, R2, R3, S23.
  rewrite raw_kept in R1, R2, R3 by (cbn [In]; auto).
  destruct R1 as [[_ R1]|[M1 (ch1 & R1 & T1)]]; [discriminate|]. injection R1 as <-. cbn [chunk_bytes] in T1.
  destruct R2 as [[_ R2]|[M2 (ch2 & R2 & T2)]]; [discriminate|]. injection R2 as <-. cbn [chunk_bytes] in T2.
  destruct R3 as [[_ R3]|[M3 (ch3 & R3 & T3)]]; [discriminate|]. injection R3 as <-. cbn [chunk_bytes] in T3.
  cbn [i_name] in M1, M2, M3.
  pose proof SO as (IS & Ra & ND & Ti & Fr).
  assert (Nf : forall d, In d fields -> i_name d <> lit "size").
  { cbn [c i_children list_children map i_name] in ND. apply NoDup_cons_iff in ND as [_ ND]. apply NoDup_cons_iff in ND as [ND _]. intros d Hd0 X. apply ND. right. rewrite <- X. apply in_map. assumption. }
  exists size.
  assert (LEN : chunk_bytes (Lst name subtag (flat_map strip l)) = lit "LIST" ++ le32 (4 + zlen body') ++ subtag ++ body') by reflexivity.
  assert (SZ2 : size = 8 * (zlen (chunk_bytes (Lst name subtag l)) - zlen (chunk_bytes (Lst name subtag (flat_map strip l))))).
  { rewrite LEN, Sz. cbn [chunk_bytes]. fold body. rewrite !zlen_app. unfold le32. rewrite !zlen_cons. lia. }
  destruct (size =? 0) eqn:Z0.
  - exists (ESet c fs' del []), (ESet c fs' del []). split; [exact S1|]. split; [reflexivity|]. split; [exact SZ2|].
    destruct (left_list c fs' fs' del fields l (fun _ _ => eq_refl) S23) as (bs & B1 & B2).
    rewrite LEN. replace (lit "LIST" ++ le32 (4 + zlen body') ++ subtag ++ body') with (List.concat (lit "LIST" :: le32 (4 + zlen body) :: subtag :: bs)).
    2: { cbn [List.concat]. fold body' in B2. rewrite B2. replace (zlen body) with (zlen body') by lia. reflexivity. }
    apply set_holds_del; [assumption|]. cbn [c i_children list_children]. repeat (constructor; [right; split; assumption|]). assumption.
  - assert (L0 : 0 <= zlen body') by apply zlen_nonneg. assert (L1 : zlen body' <= zlen body) by apply strip_list_len.
    destruct (decrease_ok data Hd input Hs c fs' del (lit "size") (a + 32) (4 + zlen body) (size / 8) SO eq_refl) as (D1 & D2).
    + right; left; reflexivity.
    + exact M2.
    + apply (S3 (ILeaf (lit "size") (KInt false) (a + 32) 32)); [right; left; reflexivity|exact I|assumption|exact M2].
    + exact O2.
    + pose proof (zlen_nonneg body). lia.
    + rewrite Sz. rewrite (Z.mul_comm 8), Z.div_mul by lia. lia.
    + eexists. exists (ESet c fs' del []). split; [exact S1|]. split; [exact D1|]. split; [exact SZ2|].
      assert (Ev : 4 + zlen body - size / 8 = 4 + zlen body') by (rewrite Sz, (Z.mul_comm 8), Z.div_mul by lia; lia). rewrite Ev in *.
      set (f := EField _) in *.
      destruct (left_list c fs' (set_assoc (lit "size") f fs') del fields l) as (bs & B1 & B2); [|exact S23|].
      { intros d Hd0. apply assoc_set_other. apply Nf. assumption. }
      rewrite LEN. replace (lit "LIST" ++ le32 (4 + zlen body') ++ subtag ++ body') with (List.concat (lit "LIST" :: le32 (4 + zlen body') :: subtag :: bs)).
      2: { cbn [List.concat]. fold body' in B2. rewrite B2. reflexivity. }
      apply set_holds_del; [assumption|]. cbn [c i_children list_children].
      constructor; [right; split; [assumption|]|constructor; [right; split; [assumption|]|constructor; [right; split; [assumption|]|assumption]]].
      * unfold the_item in *. cbn [i_name] in *. rewrite assoc_set_other by discriminate. assumption.
      * unfold the_item. cbn [i_name]. rewrite assoc_set_same. exact D2.
      * unfold the_item in *. cbn [i_name] in *. rewrite assoc_set_other by discriminate. assumption.
Qed.

Lemma loop_ok i : set_ok i -> forall l items fields remove total,
  Forall sub_ok l -> NoDup (map i_name l) -> (forall c, In c l -> In c (i_children i)) ->
  Forall2 (fun c ch => elays i c (the_item i fields c) ch) l items ->
  exists fields' cs bs T,
    strip_loop level names l (ESet i fields [] []) remove total = Ok (ESet i fields' [] [], remove ++ map i_name cs, total + 8 * T) /\
    NoDup (map i_name cs) /\ (forall c, In c cs -> In c l) /\
    Forall2 (left_over i fields' (fun c => In c cs)) l items /\
    Forall2 (fun c b => holds i c (the_item i fields' c) b) cs bs /\
    T + zlen (List.concat bs) = zlen (bytes items) - zlen (bytes (flat_map strip items)) /\
    (forall k, ~ In k (map i_name l) -> assoc k fields' = assoc k fields) /\
    (forall c, In c l -> is_leaf c -> assoc (i_name c) fields' = assoc (i_name c) fields).
Proof using Hd Hs Hn.
  intros SO. pose proof SO as (IS & Ra & ND & Ti & Fr). induction l as [|c l IH]; intros items fields remove total Fs NDl Hin F.
  - inversion F; subst. exists fields, [], [], 0. cbn [map List.concat flat_map]. rewrite app_nil_r. split; [unfold strip_loop; f_equal; f_equal; lia|].
    split; [constructor|]. split; [auto|]. split; [constructor|]. split; [constructor|]. split; [reflexivity|]. split; auto.
  - inversion F as [|c0 ch l0 items' Ec El]; subst. cbn [map] in NDl. inversion NDl as [|x xs N1 N2]; subst.
    assert (Hc : In c (i_children i)) by (apply Hin; left; reflexivity).
    assert (Hin' : forall d, In d l -> In d (i_children i)) by (intros d Hdl; apply Hin; right; assumption).
    pose proof (Forall_inv Fs) as Sc. apply Forall_inv_tail in Fs.
    assert (Ne : forall d, In d l -> i_name d <> i_name c).
    { intros d Hdl X. apply N1. rewrite <- X. apply in_map. assumption. }
    rewrite strip_loop_cons. cbv zeta. rewrite (get_child i fields [] c ND Hc eq_refl). cbn [bind].
    pose proof (elays_name _ _ _ _ Ec) as Nm. pose proof (elays_holds _ _ _ _ Ec) as Hh.
    (* the three outcomes for this chunk *)
    assert (KEEP : strip ch = [ch] -> exists fields' cs bs T,
       strip_loop level names l (ESet i fields [] []) remove total = Ok (ESet i fields' [] [], remove ++ map i_name cs, total + 8 * T) /\
       NoDup (map i_name cs) /\ (forall d, In d cs -> In d (c :: l)) /\
       Forall2 (left_over i fields' (fun d => In d cs)) (c :: l) (ch :: items') /\
       Forall2 (fun d b => holds i d (the_item i fields' d) b) cs bs /\
       T + zlen (List.concat bs) = zlen (bytes (ch :: items')) - zlen (bytes (flat_map strip (ch :: items'))) /\
       (forall k, ~ In k (map i_name (c :: l)) -> assoc k fields' = assoc k fields) /\
       (forall d, In d (c :: l) -> is_leaf d -> assoc (i_name d) fields' = assoc (i_name d) fields)).
    { intros Sk. destruct (IH items' fields remove total Fs N2 Hin' El) as (fields' & cs & bs & T & L1 & L2 & L3 & L4 & L5 & L6 & L7 & L8).
      assert (Ac : assoc (i_name c) fields' = assoc (i_name c) fields) by (apply L7; assumption).
      exists fields', cs, bs, T. split; [exact L1|]. split; [assumption|]. split; [intros d Hd0; right; apply L3; assumption|]. split; [|split; [assumption|split; [|split]]].
      - constructor; [|assumption]. right. split.
        + intros X. apply (Ne c (L3 _ X)). reflexivity.
        + exists ch. split; [assumption|]. unfold the_item. rewrite Ac. exact Hh.
      - cbn [flat_map]. rewrite Sk. cbn [flat_map app]. rewrite !zlen_app. lia.
      - intros k Hk. apply L7. intros X. apply Hk. right. assumption.
      - intros d [<-|Hd0] Lf; [assumption|]. apply L8; assumption. }
    assert (DROP : strip ch = [] -> exists fields' cs bs T,
       strip_loop level names l (ESet i fields [] []) (remove ++ [i_name c]) total = Ok (ESet i fields' [] [], remove ++ map i_name cs, total + 8 * T) /\
       NoDup (map i_name cs) /\ (forall d, In d cs -> In d (c :: l)) /\
       Forall2 (left_over i fields' (fun d => In d cs)) (c :: l) (ch :: items') /\
       Forall2 (fun d b => holds i d (the_item i fields' d) b) cs bs /\
       T + zlen (List.concat bs) = zlen (bytes (ch :: items')) - zlen (bytes (flat_map strip (ch :: items'))) /\
       (forall k, ~ In k (map i_name (c :: l)) -> assoc k fields' = assoc k fields) /\
       (forall d, In d (c :: l) -> is_leaf d -> assoc (i_name d) fields' = assoc (i_name d) fields)).
    { intros Sk. destruct (IH items' fields (remove ++ [i_name c]) total Fs N2 Hin' El) as (fields' & cs & bs & T & L1 & L2 & L3 & L4 & L5 & L6 & L7 & L8).
      assert (Ac : assoc (i_name c) fields' = assoc (i_name c) fields) by (apply L7; assumption).
      assert (Hc2 : holds i c (the_item i fields' c) (chunk_bytes ch)) by (unfold the_item; rewrite Ac; exact Hh).
      exists fields', (c :: cs), (chunk_bytes ch :: bs), T. split; [rewrite L1; cbn [map]; rewrite <- app_assoc; reflexivity|]. split; [|split; [|split; [|split; [|split; [|split]]]]].
      - cbn [map]. constructor; [|assumption]. intros X. apply in_map_iff in X. destruct X as (d & X1 & X2). apply (Ne d (L3 _ X2)). assumption.
      - intros d [<-|Hd0]; [left; reflexivity|right; apply L3; assumption].
      - constructor; [left; split; [left; reflexivity|split; assumption]|].
        revert L4. apply Forall2_in_impl. intros d ch' Hd0 [(R1 & R2 & R3)|(R1 & R2)]; [left; split; [right; assumption|auto]|right].
        split; [|assumption]. intros [<-|X]; [apply (Ne c Hd0); reflexivity|contradiction].
      - constructor; assumption.
      - cbn [flat_map List.concat]. rewrite Sk. cbn [flat_map app]. rewrite !zlen_app. lia.
      - intros k Hk. apply L7. intros X. apply Hk. right. assumption.
      - intros d [<-|Hd0] Lf; [assumption|]. apply L8; assumption. }
    rewrite <- memb_mem. destruct (memb (i_name c) names) eqn:Mb.
    { apply DROP. destruct ch; cbn [ch_name] in Nm; rewrite Nm in Mb; cbn [strip_chunk]; rewrite Mb; reflexivity. }
    inversion Ec as [p name k a s f content Hf E1 E2 E3 E4|p name e a s ln fs tag content pad a' k' cc Hf Zt Nt Ct Rt At E1 E2 E3 E4|p name a s flds fs subtag ls cc body SOc A1 A2 A3 O1 O2 O3 Zs Zb F2 E1 E2 E3 E4]; subst p; subst c; subst ch.
    + (* not a chunk *)
      cbn [i_name] in Mb. cbn [sub_text bind]. apply KEEP. cbn [strip_chunk]. rewrite Mb. reflexivity.
    + change (memb name names = false) in Mb. rewrite (tag_text cc fs (lit "tag") k' a' Ct At eq_refl), Rt. cbn [bind].
      rewrite (contains_junk tag Zt). destruct (has_level level STRIP_USELESS && str_eqb tag (lit "JUNK")) eqn:J.
      * apply DROP. cbn [strip_chunk]. rewrite Mb, J. reflexivity.
      * apply str_eqb_neq in Nt. rewrite Nt. cbn [andb]. apply KEEP. cbn [strip_chunk]. rewrite Mb, J. reflexivity.
    + change (memb name names = false) in Mb.
      assert (Rt : readBytes input a 4 = Ok (lit "LIST")).
      { destruct SOc as (_ & _ & _ & _ & Fc). pose proof (Forall_inv Fc) as (C1 & C2 & C3 & C4 & C5). cbn [i_addr i_size] in *.
        replace a with (8 * (a / 8)) by lia. rewrite (readBytes_serves input data) by (assumption || lia). f_equal. exact O1. }
      rewrite (tag_text cc fs (lit "tag") (KString FFixed 0 []) a eq_refl A1 eq_refl), Rt. cbn [bind].
      change (contains (lit "JUNK") (lit "LIST")) with false. rewrite andb_false_r. rewrite str_eqb_refl. cbn [andb].
      change (i_name cc) with name at 1. destruct (str_eqb name (lit "movie")) eqn:Mv; cbn [negb].
      { apply KEEP. cbn [strip_chunk]. rewrite Mb, Mv. reflexivity. }
      rewrite <- E3 in Ec.
      destruct (list_ok i name a s flds fs subtag ls Sc Ec) as (size & x & n1 & P1 & P2 & P3 & P4). fold cc in P1, P4.
      rewrite P1. cbn [bind]. rewrite P2. cbn [bind edit_at].
      rewrite (get_child i fields [] cc ND Hc eq_refl). cbn [bind].
      set (fields2 := set_assoc (i_name cc) x fields).
      destruct (IH items' fields2 remove (total + size) Fs N2 Hin') as (fields' & cs & bs & T & L1 & L2 & L3 & L4 & L5 & L6 & L7 & L8).
      { revert El. apply Forall2_in_impl. intros d ch' Hd0 Hd1. unfold the_item, fields2. rewrite assoc_set_other by (apply Ne; assumption). exact Hd1. }
      assert (Ac : assoc (i_name cc) fields' = Some x) by (rewrite L7 by assumption; apply assoc_set_same).
      assert (St : strip (Lst name subtag ls) = [Lst name subtag (flat_map strip ls)]) by (cbn [strip_chunk]; rewrite Mb, Mv; reflexivity).
      exists fields', cs, bs, (T + (zlen (chunk_bytes (Lst name subtag ls)) - zlen (chunk_bytes (Lst name subtag (flat_map strip ls))))).
      split; [rewrite L1; do 2 f_equal; rewrite P3; lia|]. split; [assumption|]. split; [intros d Hd0; right; apply L3; assumption|]. split; [|split; [assumption|split; [|split]]].
      * constructor; [|assumption]. right. split.
        -- intros X. apply (Ne cc (L3 _ X)). reflexivity.
        -- eexists. split; [exact St|]. unfold the_item. rewrite Ac. exact P4.
      * cbn [flat_map]. rewrite St. cbn [flat_map app]. rewrite !zlen_app. lia.
      * intros k Hk. rewrite L7 by (intros X; apply Hk; right; assumption). apply assoc_set_other. intros X. apply Hk. left. congruence.
      * intros d [<-|Hd0] Lf; [exfalso; exact Lf|]. rewrite (L8 d Hd0 Lf). apply assoc_set_other. apply Ne. assumption.
Qed.

Lemma stripSub_ok : forall i, sub_ok i.
Proof using Hd Hs Hn.
  induction i as [name k a s|name e a s l IH] using inode_ind'; intros fields items IS SO F.
  { exfalso. destruct IS as (? & ? & ? & ? & ? & E). discriminate. }
  set (i := ISet name e a s l) in *. pose proof SO as (_ & Ra & ND & Ti & Fr).
  destruct (loop_ok i SO l items fields [] 0 IH ND (fun c H => H) F) as (fields' & cs & bs & T & L1 & L2 & L3 & L4 & L5 & L6 & L7 & L8).
  unfold i at 1. rewrite stripSub_loop. fold i. rewrite L1. cbn [bind app].
  destruct (removeFields_ok data input i ND cs bs fields' [] L2 (fun c Hc => conj (L3 c Hc) eq_refl) L5) as (f2 & E1 & E2). rewrite E1. cbn [bind fst snd app].
  exists f2, (map i_name cs). split; [do 2 f_equal; lia|]. split.
  - revert L4. apply Forall2_in_impl. intros c ch Hc [(R1 & R2 & R3)|(R1 & ch' & R2 & R3)].
    + left. split; [|assumption]. apply mem_in. apply in_map. assumption.
    + assert (N : ~ In (i_name c) (map i_name cs)).
      { intros X. apply in_map_iff in X. destruct X as (d & X1 & X2). apply R1. replace c with d; [assumption|].
        assert (G1 := find_child_in _ _ ND (L3 d X2)). assert (G2 := find_child_in _ _ ND Hc). rewrite X1 in G1. congruence. }
      right. split; [apply mem_not_in; assumption|]. exists ch'. split; [assumption|]. unfold the_item in *. rewrite E2 by assumption. assumption.
  - intros c Hc Lf A M. rewrite E2 by (apply mem_not_in; assumption). rewrite L8 by assumption. assumption.
Qed.
End Riff.

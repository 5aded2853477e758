From Verif Require Import Base BaseProofs BitsModel BitsSpec StreamModel StreamSpec DictModel DictProofs OutputModel EditModel EditSpec.
Ltac Zify.zify_post_hook ::= Z.div_mod_to_equations.

(** ** Induction on trees *)
Fixpoint enode_ind' (P : enode -> Prop) (HF : forall f, P (EField f))
  (HS : forall i fields deleted inserted, Forall (fun kv => P (snd kv)) fields ->
        Forall (fun kv => Forall P (snd kv)) inserted -> P (ESet i fields deleted inserted)) (n : enode) {struct n} : P n.
Proof.
  destruct n as [f|i fields deleted inserted]; [apply HF|]. apply HS.
  - induction fields as [|[k x] l IH]; constructor; [cbn; apply enode_ind'; assumption|assumption].
  - induction inserted as [|[k x] l IH]; constructor; [cbn|assumption].
    induction x as [|m x IHx]; constructor; [apply enode_ind'; assumption|assumption].
Defined.
Fixpoint inode_ind' (P : inode -> Prop) (HL : forall n k a s, P (ILeaf n k a s))
  (HS : forall n e a s l, Forall P l -> P (ISet n e a s l)) (i : inode) {struct i} : P i.
Proof.
  destruct i as [n k a s|n e a s l]; [apply HL|]. apply HS.
  induction l as [|c l IH]; constructor; [apply inode_ind'; assumption|assumption].
Defined.

(** ** Lists *)
Lemma find_child_name l k c : find_child l k = Some c -> i_name c = k /\ In c l.
Proof.
  induction l as [|d l IH]; cbn [find_child]; [discriminate|]. destruct (str_eqb (i_name d) k) eqn:E; intros H.
  - injection H as ->. apply str_eqb_eq in E. split; [assumption|left; reflexivity].
  - destruct (IH H). split; [assumption|right; assumption].
Qed.
Lemma find_child_in l c : NoDup (map i_name l) -> In c l -> find_child l (i_name c) = Some c.
Proof.
  induction l as [|d l IH]; cbn [map find_child]; intros N H; [contradiction|]. inversion N as [|x y Hn N']; subst.
  destruct H as [->|H]; [rewrite str_eqb_refl; reflexivity|].
  destruct (str_eqb (i_name d) (i_name c)) eqn:E; [|apply IH; assumption].
  apply str_eqb_eq in E. exfalso. apply Hn. rewrite E. apply in_map; assumption.
Qed.
Lemma has_child_in i k : has_child i k = true <-> In k (map i_name (i_children i)).
Proof.
  unfold has_child, child. split.
  - destruct (find_child _ k) as [c|] eqn:E; [|discriminate]. intros _. apply find_child_name in E as [<- H]. apply in_map; assumption.
  - induction (i_children i) as [|d l IH]; cbn [map find_child]; [contradiction|]. intros H.
    destruct (str_eqb (i_name d) k) eqn:E; [reflexivity|]. destruct H as [H|H]; [apply str_eqb_neq in E; contradiction|apply IH; assumption].
Qed.
Lemma mem_in x l : mem x l = true <-> In x l.
Proof.
  unfold mem. rewrite existsb_exists. split.
  - intros (y & H & E). apply str_eqb_eq in E. subst. assumption.
  - intros H. exists x. split; [assumption|apply str_eqb_refl].
Qed.
Lemma mem_not_in x l : mem x l = false <-> ~ In x l.
Proof. rewrite <- mem_in. destruct (mem x l); split; congruence. Qed.
Lemma key_eqb_eq a b : key_eqb a b = true <-> a = b.
Proof.
  destruct a, b; cbn [key_eqb]; try (split; congruence). rewrite str_eqb_eq. split; [intros ->; reflexivity|intros H; injection H; auto].
Qed.
Lemma key_eqb_refl a : key_eqb a a = true.
Proof. apply key_eqb_eq. reflexivity. Qed.
Lemma assoc_in {A} k (l : list (str * A)) v : assoc k l = Some v -> In (k, v) l.
Proof.
  induction l as [|[k' w] l IH]; cbn [assoc]; [discriminate|]. destruct (str_eqb k' k) eqn:E; intros H.
  - injection H as ->. apply str_eqb_eq in E. subst. left; reflexivity.
  - right. apply IH; assumption.
Qed.
Lemma assoc_map {A B} (f : A -> B) k (l : list (str * A)) :
  assoc k (map (fun kv => (fst kv, f (snd kv))) l) = match assoc k l with Some v => Some (f v) | None => None end.
Proof. induction l as [|[k' w] l IH]; cbn [assoc map fst snd]; [reflexivity|]. destruct (str_eqb k' k); [reflexivity|assumption]. Qed.
Lemma assoc_set_same {A} k (v : A) l : assoc k (set_assoc k v l) = Some v.
Proof.
  induction l as [|[k' w] l IH]; cbn [set_assoc assoc]; [rewrite str_eqb_refl; reflexivity|].
  destruct (str_eqb k' k) eqn:E; cbn [assoc]; rewrite E; [reflexivity|assumption].
Qed.
Lemma assoc_set_other {A} k k2 (v : A) l : k2 <> k -> assoc k2 (set_assoc k v l) = assoc k2 l.
Proof.
  intros N. induction l as [|[k' w] l IH]; cbn [set_assoc assoc].
  - destruct (str_eqb k k2) eqn:E; [apply str_eqb_eq in E; congruence|reflexivity].
  - destruct (str_eqb k' k) eqn:E; cbn [assoc].
    + apply str_eqb_eq in E. subst. destruct (str_eqb k k2) eqn:E2; [apply str_eqb_eq in E2; congruence|reflexivity].
    + destruct (str_eqb k' k2); [reflexivity|assumption].
Qed.
Lemma assoc_del_other {A} k k2 (l : list (str * A)) : k2 <> k -> assoc k2 (del_assoc k l) = assoc k2 l.
Proof.
  intros N. unfold del_assoc. induction l as [|[k' w] l IH]; cbn [filter assoc fst]; [reflexivity|].
  destruct (str_eqb k' k) eqn:E; cbn [negb].
  - apply str_eqb_eq in E. subst. destruct (str_eqb k k2) eqn:E2; [apply str_eqb_eq in E2; congruence|assumption].
  - cbn [assoc]. destruct (str_eqb k' k2); [reflexivity|assumption].
Qed.
Lemma set_assoc_in {A} k (v : A) l kv : In kv (set_assoc k v l) -> kv = (k, v) \/ In kv l.
Proof.
  induction l as [|[k' w] l IH]; cbn [set_assoc].
  - intros [<-|[]]. left; reflexivity.
  - destruct (str_eqb k' k) eqn:E.
    + apply str_eqb_eq in E. subst. intros [<-|H]; [left; reflexivity|right; right; assumption].
    + intros [<-|H]; [right; left; reflexivity|]. destruct (IH H); [left; assumption|right; right; assumption].
Qed.
Lemma inserted_at_map {A B} (f : A -> B) k (l : list (option str * list A)) :
  inserted_at k (map (fun kv => (fst kv, map f (snd kv))) l) =
  match inserted_at k l with Some x => Some (map f x) | None => None end.
Proof. induction l as [|[k' w] l IH]; cbn [inserted_at map fst snd]; [reflexivity|]. destruct (key_eqb k' k); [reflexivity|assumption]. Qed.
Lemma inserted_at_in {A} k (l : list (option str * list A)) x : inserted_at k l = Some x -> In (k, x) l.
Proof.
  induction l as [|[k' w] l IH]; cbn [inserted_at]; [discriminate|]. destruct (key_eqb k' k) eqn:E; intros H.
  - injection H as ->. apply key_eqb_eq in E. subst. left; reflexivity.
  - right. apply IH; assumption.
Qed.
Lemma inserted_at_none {A} k (l : list (option str * list A)) : inserted_at k l = None <-> ~ In k (keys_of l).
Proof.
  induction l as [|[k' w] l IH]; cbn [inserted_at keys_of map fst]; [split; [auto|reflexivity]|].
  destruct (key_eqb k' k) eqn:E.
  - apply key_eqb_eq in E. subst. split; [discriminate|]. intros H. exfalso. apply H. left; reflexivity.
  - rewrite IH. split; intros H.
    + intros [->|H2]; [rewrite key_eqb_refl in E; discriminate|contradiction].
    + intros H2. apply H. right; assumption.
Qed.

(** ** Iteration *)
Lemma opt_list_map {A B} (f : A -> B) o : opt_list (match o with Some x => Some (map f x) | None => None end) = map f (opt_list o).
Proof. destruct o; reflexivity. Qed.
Lemma flat_map_map {A B C} (f : B -> list C) (g : A -> B) l : flat_map f (map g l) = flat_map (fun x => f (g x)) l.
Proof. induction l as [|x l IH]; cbn; [reflexivity|]. rewrite IH; reflexivity. Qed.
Lemma map_flat_map {A B C} (f : B -> C) (g : A -> list B) l : map f (flat_map g l) = flat_map (fun x => map f (g x)) l.
Proof. induction l as [|x l IH]; cbn; [reflexivity|]. rewrite map_app, IH; reflexivity. Qed.
Lemma flat_map_ext_in {A B} (f g : A -> list B) l : (forall x, In x l -> f x = g x) -> flat_map f l = flat_map g l.
Proof. induction l as [|x l IH]; cbn; intros H; [reflexivity|]. rewrite (H x), IH; auto. Qed.
Lemma iterate_map {A B} (f : A -> B) i deleted entry inserted :
  map f (iterate i deleted entry inserted) =
  iterate i deleted (fun c => f (entry c)) (map (fun kv => (fst kv, map f (snd kv))) inserted).
Proof.
  unfold iterate. rewrite map_app, map_flat_map. f_equal.
  - apply flat_map_ext_in. intros c _. rewrite inserted_at_map, opt_list_map, map_app. f_equal. destruct (mem _ _); reflexivity.
  - rewrite inserted_at_map, opt_list_map. reflexivity.
Qed.
Lemma iterate_ext {A} i deleted (e1 e2 : inode -> A) inserted :
  (forall c, In c (i_children i) -> mem (i_name c) deleted = false -> e1 c = e2 c) ->
  iterate i deleted e1 inserted = iterate i deleted e2 inserted.
Proof.
  intros H. unfold iterate. f_equal. apply flat_map_ext_in. intros c Hc. f_equal.
  destruct (mem (i_name c) deleted) eqn:E; [reflexivity|]. rewrite H by assumption. reflexivity.
Qed.
Lemma iterate_plain {A} i (e : inode -> A) : iterate i [] e [] = map e (i_children i).
Proof.
  unfold iterate. cbn [inserted_at opt_list mem existsb app]. rewrite app_nil_r.
  induction (i_children i) as [|c l IH]; cbn; [reflexivity|]. rewrite IH; reflexivity.
Qed.
Lemma iterate_in {A} i deleted (entry : inode -> A) inserted x :
  In x (iterate i deleted entry inserted) ->
  (exists c, In c (i_children i) /\ mem (i_name c) deleted = false /\ x = entry c) \/
  (exists kv, In kv inserted /\ In x (snd kv)).
Proof.
  assert (G : forall k, In x (opt_list (inserted_at k inserted)) -> exists kv, In kv inserted /\ In x (snd kv)).
  { intros k H. destruct (inserted_at k inserted) as [l|] eqn:E; [|contradiction]. apply inserted_at_in in E.
    exists (k, l). split; assumption. }
  unfold iterate. rewrite in_app_iff, in_flat_map. intros [(c & Hc & H)|H]; [|right; exact (G _ H)].
  rewrite in_app_iff in H. destruct H as [H|H]; [right; exact (G _ H)|].
  left. exists c. destruct (mem (i_name c) deleted); [contradiction|]. destruct H as [<-|[]]. auto.
Qed.
Lemma iterate_Forall2 {A B} (P : A -> B -> Prop) i deleted ea eb ia ib :
  (forall c, In c (i_children i) -> P (ea c) (eb c)) ->
  Forall2 (fun x y => fst x = fst y /\ Forall2 P (snd x) (snd y)) ia ib ->
  Forall2 P (iterate i deleted ea ia) (iterate i deleted eb ib).
Proof.
  intros He Hi.
  assert (G : forall k, Forall2 P (opt_list (inserted_at k ia)) (opt_list (inserted_at k ib))).
  { intros k. induction Hi as [|[k1 x] [k2 y] la lb [E F] Hi IH]; cbn [inserted_at fst snd] in *; [constructor|].
    subst. destruct (key_eqb k2 k); [assumption|assumption]. }
  unfold iterate. apply Forall2_app; [|apply G].
  induction (i_children i) as [|c l IH]; cbn [flat_map]; [constructor|].
  apply Forall2_app; [|apply IH; intros; apply He; right; assumption].
  apply Forall2_app; [apply G|]. destruct (mem _ _); repeat constructor. apply He. left; reflexivity.
Qed.

Section Edit.
Context {A : Type} (u : Z) (input : read_fun).
(** [R st st' l]: the content [l] was added to the output. *)
Context (R : ostream -> ostream -> list A -> Prop).
Context (range : Z -> Z -> Prop) (good_endian : endian -> Prop) (fits' : kind -> Z -> fvalue -> Prop).
Context (orig : Z -> Z -> list A) (enc : endian -> kind -> Z -> fvalue -> list A).
Context (R_refl : forall st, R st st []).
Context (R_trans : forall st1 st2 st3 a b, R st1 st2 a -> R st2 st3 b -> R st1 st3 (a ++ b)).
Context (range_size : forall a n, range a n -> 0 <= n).
Context (range_tail : forall a n m, range a (n + m) -> range a n -> 0 <= m -> range (a + n) m).
Context (orig_zero : forall a, orig a 0 = []).
Context (orig_split : forall a n m, range a n -> range (a + n) m -> orig a n ++ orig (a + n) m = orig a (n + m)).
Context (orig_len : forall a n, range a n -> u * zlen (orig a n) = n).
Context (copy_bits : forall st st' a n e, good_endian e -> range a n ->
  copyBitsFrom st input a n e = Ok st' -> R st st' (orig a n)).
Context (copy_bytes : forall st st' a n, range a n -> n mod 8 = 0 ->
  copyBytesFrom st input a (n / 8) = Ok st' -> R st st' (orig a n)).
Context (write_value : forall st st' e f v, good_endian e -> ef_value f = Some v -> fits' (ef_kind f) (ef_size f) v ->
  field_write_value e f st = Ok st' -> R st st' (enc e (ef_kind f) (ef_size f) v)).
Context (enc_len : forall e f v, good_endian e -> ef_value f = Some v -> fits' (ef_kind f) (ef_size f) v ->
  field_size f = u * zlen (enc e (ef_kind f) (ef_size f) v)).

(** The document of an editor. *)
Fixpoint edoc (p : inode) (n : enode) : doc A :=
  match n with
  | EField f =>
      Leaf match ef_value f with
           | Some v => enc (i_endian p) (ef_kind f) (ef_size f) v
           | None => match child p (ef_name f) with Some c => orig (i_addr c) (ef_size f) | None => [] end
           end
  | ESet i fields deleted inserted =>
      Node (iterate i deleted
              (fun c => (i_name c, match assoc (i_name c) (map (fun kv => (fst kv, edoc i (snd kv))) fields) with
                                   | Some d => d
                                   | None => idoc orig c
                                   end))
              (map (fun kv => (fst kv, map (fun m => (e_name m, edoc i m)) (snd kv))) inserted))
  end.

(** [n] is an editable version of the parsed field [c]. *)
Definition matches (c : inode) (n : enode) : Prop :=
  match n with
  | EField f => exists a, c = ILeaf (ef_name f) (ef_kind f) a (ef_size f)
  | ESet i _ _ _ => c = i
  end.
Definition new_ok (f : efield) : Prop :=
  ef_altered f = true /\ exists v, ef_value f = Some v /\ fits' (ef_kind f) (ef_size f) v.
Notation parsed := (parsed range good_endian).
Inductive good : inode -> enode -> Prop :=
| good_leaf p f a :
    child p (ef_name f) = Some (ILeaf (ef_name f) (ef_kind f) a (ef_size f)) -> range a (ef_size f) ->
    good_endian (i_endian p) ->
    ef_altered f = false -> ef_value f = None -> good p (EField f)
| good_val p f : good_endian (i_endian p) -> new_ok f -> good p (EField f)
| good_set p i fields deleted inserted :
    parsed i -> (exists n e a s l, i = ISet n e a s l) ->
    Forall (fun kv => exists c, child i (fst kv) = Some c /\ matches c (snd kv) /\ good i (snd kv)) fields ->
    Forall (fun kv => Forall (fun m => exists f, m = EField f /\ new_ok f) (snd kv)) inserted ->
    NoDup (keys_of inserted) ->
    (forall k, In (Some k) (keys_of inserted) -> has_child i k = true) ->
    NoDup deleted -> (forall x, In x deleted -> has_child i x = true) ->
    NoDup (inserted_names inserted) ->
    (forall x, In x (inserted_names inserted) -> has_child i x = true -> In x deleted) ->
    good p (ESet i fields deleted inserted).

Lemma parsed_set_inv i : parsed i -> (exists n e a s l, i = ISet n e a s l) ->
  range (i_addr i) (i_size i) /\ good_endian (i_endian i) /\ NoDup (map i_name (i_children i)) /\
  ~ In [] (map i_name (i_children i)) /\
  tiles (i_addr i) (i_size i) (i_children i) /\ Forall parsed (i_children i).
Proof. intros P (n & e & a & s & l & ->). inversion P; subst. cbn. auto 10. Qed.
Lemma parsed_range i : parsed i -> range (i_addr i) (i_size i).
Proof. intros P. inversion P; subst; assumption. Qed.

Lemma tiles_nonneg l : forall a s, Forall parsed l -> tiles a s l -> 0 <= s.
Proof using All.
  induction l as [|c l IH]; cbn [tiles]; intros a s F T; [lia|]. inversion F as [|x y Pc Fl]; subst. destruct T as [E T].
  pose proof (IH _ _ Fl T). pose proof (range_size _ _ (parsed_range _ Pc)). lia.
Qed.
Lemma tiles_orig l : forall a s, Forall parsed l -> range a s -> tiles a s l ->
  flat_map (fun c => orig (i_addr c) (i_size c)) l = orig a s.
Proof using All.
  induction l as [|c l IH]; cbn [tiles flat_map]; intros a s F Ra T; [subst; rewrite orig_zero; reflexivity|].
  inversion F as [|x y Pc Fl]; subst. destruct T as [E T].
  pose proof (tiles_nonneg l _ _ Fl T). pose proof (parsed_range _ Pc) as Rc. rewrite E in *.
  assert (Rt : range (a + i_size c) (s - i_size c)).
  { apply range_tail; try assumption. replace (i_size c + (s - i_size c)) with s by lia. assumption. }
  rewrite (IH _ _ Fl Rt T). rewrite orig_split by assumption. f_equal. lia.
Qed.
Lemma flatten_idoc i : parsed i -> flatten (idoc orig i) = orig (i_addr i) (i_size i).
Proof using All.
  induction i as [n k a s|n e a s l IH] using inode_ind'; intros P; [reflexivity|].
  inversion P as [|? ? ? ? ? Ra Ge ND NE T F]; subst. cbn [idoc flatten i_addr i_size]. rewrite flat_map_map. cbn [snd].
  rewrite <- (tiles_orig l a s F Ra T). apply flat_map_ext_in. intros c Hc.
  rewrite Forall_forall in IH, F. apply IH; auto.
Qed.

(** A view and the part of the document it writes. *)
Definition shows (v : view) (kd : str * doc A) : Prop :=
  v_name v = fst kd /\ v_size v = u * zlen (flatten (snd kd)) /\
  forall st st', v_write v st = Ok st' -> R st st' (flatten (snd kd)).

Lemma shows_sum vs ds : Forall2 shows vs ds -> sum_sizes vs = u * zlen (flatten (Node ds)).
Proof using All.
  cbn [flatten]. induction 1 as [|v d vs ds (N & Sz & _) F IH]; [cbn; lia|].
  cbn [sum_sizes fold_right flat_map]. rewrite zlen_app. fold (sum_sizes vs). lia.
Qed.
Lemma shows_write vs ds : Forall2 shows vs ds -> forall st st', write_all vs st = Ok st' -> R st st' (flatten (Node ds)).
Proof using All.
  cbn [flatten]. induction 1 as [|v d vs ds (N & Sz & W) F IH]; intros st st' H; cbn [write_all flat_map] in *.
  - injection H as <-. apply R_refl.
  - destruct (v_write v st) as [st1|] eqn:E; cbn [bind] in H; [|discriminate]. eapply R_trans; [apply W; exact E|apply IH; assumption].
Qed.
Lemma set_copy_ok i st st' : parsed i -> (exists n e a s l, i = ISet n e a s l) ->
  set_copy input i st = Ok st' -> R st st' (orig (i_addr i) (i_size i)).
Proof using All.
  intros P IS H. destruct (parsed_set_inv i P IS) as (Ra & Ge & _). unfold set_copy in H.
  destruct (i_size i mod 8 =? 0) eqn:E; cbn [negb] in H.
  - apply copy_bytes; [assumption|lia|assumption].
  - eapply copy_bits; eassumption.
Qed.
Lemma fake_write_ok p f a st st' :
  child p (ef_name f) = Some (ILeaf (ef_name f) (ef_kind f) a (ef_size f)) -> range a (ef_size f) ->
  good_endian (i_endian p) -> ef_value f = None ->
  fake_write input p f st = Ok st' -> R st st' (orig a (ef_size f)).
Proof using All.
  intros C Ra Ge V H. unfold fake_write in H. rewrite C in H. cbn [i_addr] in H.
  assert (Sz : field_size f = ef_size f) by (unfold field_size; rewrite V; destruct (ef_kind f); reflexivity).
  rewrite Sz in H.
  destruct (negb (ef_size f mod 8 =? 0) || negb (a mod 8 =? 0)) eqn:E.
  - eapply copy_bits; eassumption.
  - apply copy_bytes; [assumption|lia|assumption].
Qed.

Lemma field_sound p f : good p (EField f) -> shows (field_view input p f) (ef_name f, edoc p (EField f)).
Proof using All.
  intros G. unfold shows. cbn [field_view v_name v_size v_write fst snd edoc flatten]. split; [reflexivity|].
  inversion G as [p' f' a C Ra Ge Al V|p' f' Ge (Al & v & V & Fi)|]; subst.
  - rewrite Al, V, C. cbn [i_addr].
    assert (Sz : field_size f = ef_size f) by (unfold field_size; rewrite V; destruct (ef_kind f); reflexivity).
    split; [rewrite Sz, orig_len by assumption; reflexivity|]. intros st st' H. eapply fake_write_ok; eassumption.
  - rewrite Al, V. split; [apply enc_len; assumption|]. intros st st' H. eapply write_value; eassumption.
Qed.
Lemma plain_sound p c : (exists n e a s l, p = ISet n e a s l) -> parsed p -> In c (i_children p) ->
  shows (plain_view input p c) (i_name c, idoc orig c).
Proof using All.
  intros IS P Hc. destruct (parsed_set_inv p P IS) as (Ra & Ge & ND & NE & T & F).
  assert (Pc : parsed c) by (rewrite Forall_forall in F; auto).
  destruct c as [n k a s|n e a s l].
  - cbn [plain_view i_name]. pose proof (find_child_in _ _ ND Hc) as C. cbn [i_name] in C.
    set (f := {| ef_name := n; ef_kind := k; ef_size := s; ef_value := None; ef_altered := false |}).
    assert (G : good p (EField f)). { apply (good_leaf p f a); try reflexivity; try assumption. apply (parsed_range _ Pc). }
    pose proof (field_sound p f G) as S0.
    assert (E : edoc p (EField f) = Leaf (orig a s)).
    { cbn [edoc f ef_value ef_name]. unfold child. rewrite C. reflexivity. }
    rewrite E in S0. exact S0.
  - cbn [plain_view]. unfold shows. cbn [v_name v_size v_write fst snd].
    rewrite (flatten_idoc _ Pc). cbn [i_addr i_size i_name]. split; [reflexivity|].
    split; [rewrite orig_len by apply (parsed_range _ Pc); reflexivity|]. intros st st' H.
    apply (set_copy_ok (ISet n e a s l) st st'); eauto 10.
Qed.

Lemma matches_name c n : matches c n -> e_name n = i_name c.
Proof. destruct n; cbn; [intros [a ->]|intros ->]; reflexivity. Qed.
Lemma child_matches_name i k c n : child i k = Some c -> matches c n -> e_name n = k.
Proof. intros C M. rewrite (matches_name _ _ M). apply find_child_name in C. apply C. Qed.

Lemma Forall2_map_both {X Y C} (P : Y -> C -> Prop) (f : X -> Y) (g : X -> C) l :
  Forall (fun x => P (f x) (g x)) l -> Forall2 P (map f l) (map g l).
Proof. induction 1; constructor; assumption. Qed.

Lemma sound : forall n p, good p n ->
  shows (view_of input p n) (e_name n, edoc p n) /\
  (forall c, matches c n -> child p (e_name n) = Some c -> v_altered (view_of input p n) = false ->
     flatten (edoc p n) = orig (i_addr c) (i_size c)).
Proof using All.
  induction n as [f|i fields deleted inserted IHf IHi] using enode_ind'; intros p G.
  - split; [apply field_sound; assumption|]. intros c (a & ->) C Al. cbn [view_of field_view v_altered] in Al.
    inversion G as [p' f' a' C' Ra Ge Al' V|p' f' Ge (Al' & _)|]; subst; [|congruence].
    cbn [e_name] in C. rewrite C in C'. injection C' as ->. cbn [edoc flatten]. rewrite V, C. reflexivity.
  - inversion G as [| |p' i' fields' deleted' inserted' P IS Ff Fi NK HK ND HD NI HI]; subst.
    destruct (parsed_set_inv i P IS) as (Ra & Ge & NDc & NE & T & Fc).
    set (fvs := map (fun kv => (fst kv, view_of input i (snd kv))) fields).
    set (ivs := map (fun kv => (fst kv, map (view_of input i) (snd kv))) inserted).
    set (fds := map (fun kv => (fst kv, edoc i (snd kv))) fields).
    set (ids := map (fun kv => (fst kv, map (fun m => (e_name m, edoc i m)) (snd kv))) inserted).
    set (ed := fun c => (i_name c, match assoc (i_name c) fds with Some d => d | None => idoc orig c end)).
    assert (ED : edoc p (ESet i fields deleted inserted) = Node (iterate i deleted ed ids)) by reflexivity.
    assert (EV : view_of input p (ESet i fields deleted inserted) = set_view input i deleted fvs ivs) by reflexivity.
    assert (Hcached : forall k x, assoc k fields = Some x -> exists c, child i k = Some c /\ matches c x /\ good i x /\
              shows (view_of input i x) (k, edoc i x) /\
              (v_altered (view_of input i x) = false -> flatten (edoc i x) = orig (i_addr c) (i_size c))).
    { intros k x E. apply assoc_in in E. rewrite Forall_forall in Ff, IHf.
      destruct (Ff _ E) as (c & C & M & Gx). cbn [fst snd] in *.
      pose proof (child_matches_name _ _ _ _ C M) as Nx.
      destruct (IHf _ E i Gx) as (S0 & S1). cbn [fst snd] in S0, S1. rewrite Nx in S0, S1. exists c. repeat split; auto; apply S0. }
    assert (Hshow : Forall2 shows (set_iter input i deleted fvs ivs) (iterate i deleted ed ids)).
    { unfold set_iter. apply iterate_Forall2.
      - intros c Hc. unfold child_view, ed, fvs, fds. rewrite !assoc_map.
        destruct (assoc (i_name c) fields) as [x|] eqn:E; [|apply plain_sound; assumption].
        destruct (Hcached _ _ E) as (c' & C & M & Gx & S0 & _). exact S0.
      - unfold ivs, ids. apply Forall2_map_both. apply Forall_forall. intros [k l] Hkv. cbn [fst snd].
        split; [reflexivity|]. apply Forall2_map_both. apply Forall_forall. intros m Hm.
        rewrite Forall_forall in IHi, Fi. pose proof (IHi _ Hkv) as IHm. pose proof (Fi _ Hkv) as Fm. cbn [snd] in IHm, Fm.
        rewrite Forall_forall in IHm, Fm. destruct (Fm _ Hm) as (f & -> & Nf).
        apply (IHm _ Hm i). apply good_val; assumption. }
    assert (Hplain : set_altered deleted fvs ivs = false ->
              flatten (Node (iterate i deleted ed ids)) = orig (i_addr i) (i_size i)).
    { unfold set_altered. intros Al. unfold ivs, ids in *. destruct inserted as [|x y]; cbn [map] in *; [|discriminate].
      destruct deleted as [|x y]; [|discriminate]. rewrite iterate_plain. cbn [flatten]. rewrite flat_map_map.
      rewrite <- (tiles_orig _ _ _ Fc Ra T). apply flat_map_ext_in. intros c Hc. unfold ed. cbn [snd]. unfold fds. rewrite assoc_map.
      destruct (assoc (i_name c) fields) as [x|] eqn:E.
      - destruct (Hcached _ _ E) as (c' & C & M & Gx & S0 & S1).
        unfold child in C. rewrite (find_child_in _ _ NDc Hc) in C. injection C as <-. apply S1.
        destruct (v_altered (view_of input i x)) eqn:EA; [|reflexivity].
        rewrite <- Al. symmetry. apply existsb_exists. exists (i_name c, view_of input i x). split; [|exact EA].
        unfold fvs. apply in_map_iff. exists (i_name c, x). split; [reflexivity|]. apply assoc_in; assumption.
      - apply flatten_idoc. rewrite Forall_forall in Fc. auto. }
    split.
    + unfold shows. rewrite ED, EV. cbn [set_view v_name v_size v_write fst snd e_name]. split; [reflexivity|].
      destruct (set_altered deleted fvs ivs) eqn:Al.
      * split; [apply shows_sum; assumption|apply shows_write; assumption].
      * rewrite Hplain by reflexivity. split; [rewrite orig_len by assumption; reflexivity|].
        intros st st' H. apply (set_copy_ok i st st' P IS H).
    + intros c M C Al. rewrite EV in Al. cbn [set_view v_altered] in Al. rewrite ED, Hplain by assumption.
      cbn [matches] in M. subst. reflexivity.
Qed.
End Edit.

From Coq Require Import Permutation.
From Verif Require Import Base BaseProofs DictProofs PipeModel PipeSpec.
Ltac Zify.zify_post_hook ::= Z.div_mod_to_equations.

(** ** Circular doubly linked lists over abstract link functions *)
Fixpoint links (nx pv : nat -> nat) (l : list nat) : Prop :=
  match l with
  | x :: ((y :: _) as t) => nx x = y /\ pv y = x /\ links nx pv t
  | _ => True
  end.
Definition ring (nx pv : nat -> nat) (l : list nat) : Prop :=
  match l with [] => True | x :: _ => links nx pv (l ++ [x]) end.

Lemma links_app nx pv a x b : links nx pv (a ++ x :: b) <-> links nx pv (a ++ [x]) /\ links nx pv (x :: b).
Proof.
  induction a as [|y a IH]; cbn [app].
  - cbn [links]. tauto.
  - destruct a as [|z a]; cbn [app] in *.
    + change (links nx pv (y :: x :: b)) with (nx y = x /\ pv x = y /\ links nx pv (x :: b)).
      cbn [links]. tauto.
    + change (links nx pv (y :: z :: a ++ x :: b)) with (nx y = z /\ pv z = y /\ links nx pv (z :: a ++ x :: b)).
      change (links nx pv (y :: z :: a ++ [x])) with (nx y = z /\ pv z = y /\ links nx pv (z :: a ++ [x])).
      rewrite IH. tauto.
Qed.
Lemma links_frame nx pv nx' pv' l :
  (forall x, In x (removelast l) -> nx' x = nx x) -> (forall x, In x (tl l) -> pv' x = pv x) ->
  links nx pv l -> links nx' pv' l.
Proof.
  induction l as [|x [|y l] IH]; intros Hn Hp; [auto|auto|].
  change (links nx pv (x :: y :: l)) with (nx x = y /\ pv y = x /\ links nx pv (y :: l)).
  change (links nx' pv' (x :: y :: l)) with (nx' x = y /\ pv' y = x /\ links nx' pv' (y :: l)).
  intros (H1 & H2 & H3). split; [rewrite Hn; [assumption|left; reflexivity]|].
  split; [rewrite Hp; [assumption|left; reflexivity]|].
  apply IH; [| |assumption].
  - intros z Hz. apply Hn. change (removelast (x :: y :: l)) with (x :: removelast (y :: l)). right. assumption.
  - intros z Hz. apply Hp. cbn [tl] in *. right. assumption.
Qed.
Lemma ring_rotate nx pv x l : ring nx pv (x :: l) <-> ring nx pv (l ++ [x]).
Proof.
  destruct l as [|y l]; [reflexivity|]. cbn [ring app].
  change (links nx pv (x :: y :: l ++ [x])) with (nx x = y /\ pv y = x /\ links nx pv (y :: l ++ [x])).
  pose proof (links_app nx pv (y :: l) x [y]) as H. cbn [app] in H. rewrite <- app_assoc. cbn [app].
  rewrite H. cbn [links]. tauto.
Qed.
Lemma ring_rotate_app nx pv a b : ring nx pv (a ++ b) <-> ring nx pv (b ++ a).
Proof.
  revert b; induction a as [|x a IH]; intros b; [rewrite app_nil_r; reflexivity|].
  cbn [app]. rewrite ring_rotate, <- app_assoc, IH, <- app_assoc. reflexivity.
Qed.
Lemma ring_snoc nx pv d l : ring nx pv (d ++ [l]) <->
  links nx pv (d ++ [l]) /\ nx l = hd l d /\ pv (hd l d) = l.
Proof.
  destruct d as [|x d]; cbn [app ring hd links]; [tauto|].
  pose proof (links_app nx pv (x :: d) l [x]) as H. cbn [app] in H. rewrite <- app_assoc. cbn [app].
  rewrite H. cbn [links]. tauto.
Qed.
Lemma removelast_snoc {A} (d : list A) l : removelast (d ++ [l]) = d.
Proof. apply removelast_last. Qed.
Lemma NoDup_snoc {A} (d : list A) l : NoDup (d ++ [l]) <-> NoDup d /\ ~ In l d.
Proof.
  split.
  - intros H. apply NoDup_remove in H. rewrite app_nil_r in H. assumption.
  - intros [H1 H2]. induction d as [|x d IH]; cbn [app]; [constructor; [auto|constructor]|].
    inversion H1; subst. constructor; [|apply IH; [assumption|intros ?; apply H2; right; assumption]].
    intros Hi. apply in_app_or in Hi. destruct Hi as [Hi|[Hi|[]]]; [contradiction|]. subst. apply H2. left. reflexivity.
Qed.

(** Insert a new element [n] after the last one. *)
Lemma ring_insert nx pv nx' pv' d l n :
  NoDup (d ++ [l]) -> ~ In n (d ++ [l]) -> ring nx pv (d ++ [l]) ->
  (forall x, nx' x = if (x =? l)%nat then n else if (x =? n)%nat then hd l d else nx x) ->
  (forall x, pv' x = if (x =? hd l d)%nat then n else if (x =? n)%nat then l else pv x) ->
  ring nx' pv' ((d ++ [l]) ++ [n]).
Proof.
  intros Hnd Hn Hr Hnx Hpv. apply ring_snoc in Hr. destruct Hr as (Hl & H1 & H2).
  assert (Hln : l <> n) by (intros ->; apply Hn, in_or_app; right; left; reflexivity).
  assert (Hhn : hd l d <> n).
  { destruct d as [|x d]; cbn [hd]; [assumption|]. intros ->. apply Hn. left. reflexivity. }
  apply ring_snoc. apply NoDup_snoc in Hnd. destruct Hnd as [Hnd Hld].
  assert (Hhd : hd n (d ++ [l]) = hd l d) by (destruct d; reflexivity).
  rewrite Hhd. split; [|split].
  - rewrite <- app_assoc. cbn [app]. rewrite links_app. split.
    + apply links_frame with (nx := nx) (pv := pv); [| |assumption].
      * rewrite removelast_snoc. intros x Hx. rewrite Hnx.
        replace (x =? l)%nat with false by (symmetry; apply Nat.eqb_neq; intros ->; contradiction).
        replace (x =? n)%nat with false by (symmetry; apply Nat.eqb_neq; intros ->; apply Hn, in_or_app; left; assumption).
        reflexivity.
      * intros x Hx. rewrite Hpv. assert (Hxi : In x (d ++ [l])) by (destruct d; cbn in *; [contradiction|right; assumption]).
        replace (x =? hd l d)%nat with false.
        2:{ symmetry. apply Nat.eqb_neq. intros ->. destruct d as [|y d]; cbn in Hx; [contradiction|].
            cbn [hd] in *. inversion Hnd; subst. apply in_app_or in Hx. destruct Hx as [Hx|[Hx|[]]]; [contradiction|].
            apply Hld. left. congruence. }
        replace (x =? n)%nat with false by (symmetry; apply Nat.eqb_neq; intros ->; contradiction). reflexivity.
    + cbn [links]. rewrite Hnx, Nat.eqb_refl, Hpv.
      replace (n =? hd l d)%nat with false by (symmetry; apply Nat.eqb_neq; congruence). rewrite Nat.eqb_refl. auto.
  - rewrite Hnx. replace (n =? l)%nat with false by (symmetry; apply Nat.eqb_neq; congruence). rewrite Nat.eqb_refl. reflexivity.
  - rewrite Hpv, Nat.eqb_refl. reflexivity.
Qed.
(** Remove an element [i] of a ring of at least two elements. *)
Lemma ring_remove_hd nx pv nx' pv' i c :
  NoDup (i :: c) -> c <> [] -> ring nx pv (i :: c) ->
  (forall x, nx' x = if (x =? pv i)%nat then nx i else nx x) ->
  (forall x, pv' x = if (x =? nx i)%nat then pv i else pv x) ->
  ring nx' pv' c.
Proof.
  intros Hnd Hc Hr Hnx Hpv. destruct (exists_last Hc) as (d & l & ->).
  inversion Hnd as [|? ? Hni Hnd']; subst. apply NoDup_snoc in Hnd'. destruct Hnd' as [Hd Hl].
  apply ring_rotate in Hr. apply ring_snoc in Hr.
  assert (Hhd : hd i (d ++ [l]) = hd l d) by (destruct d; reflexivity). rewrite Hhd in Hr.
  destruct Hr as (Hlk & H1 & H2). rewrite <- app_assoc in Hlk. cbn [app] in Hlk. apply links_app in Hlk.
  cbn [links] in Hlk. destruct Hlk as (Hlk & H3 & H4 & _).
  rewrite H1, H4 in *. apply ring_snoc. split; [|split].
  - apply links_frame with (nx := nx) (pv := pv); [| |assumption].
    + rewrite removelast_snoc. intros x Hx. rewrite Hnx.
      replace (x =? l)%nat with false by (symmetry; apply Nat.eqb_neq; intros ->; contradiction). reflexivity.
    + intros x Hx. rewrite Hpv. replace (x =? hd l d)%nat with false; [reflexivity|].
      symmetry. apply Nat.eqb_neq. intros ->. destruct d as [|y d]; cbn in Hx; [contradiction|].
      cbn [hd] in *. inversion Hd; subst. apply in_app_or in Hx. destruct Hx as [Hx|[Hx|[]]]; [contradiction|].
      apply Hl. left. congruence.
  - rewrite Hnx, Nat.eqb_refl. reflexivity.
  - rewrite Hpv, Nat.eqb_refl. reflexivity.
Qed.
Lemma ring_remove nx pv nx' pv' a i c :
  NoDup (a ++ i :: c) -> a ++ c <> [] -> ring nx pv (a ++ i :: c) ->
  (forall x, nx' x = if (x =? pv i)%nat then nx i else nx x) ->
  (forall x, pv' x = if (x =? nx i)%nat then pv i else pv x) ->
  ring nx' pv' (a ++ c).
Proof.
  intros Hnd Hc Hr Hnx Hpv. rewrite ring_rotate_app. rewrite ring_rotate_app in Hr.
  change ((i :: c) ++ a) with (i :: (c ++ a)) in Hr.
  apply (ring_remove_hd nx pv nx' pv' i (c ++ a)); auto.
  - apply NoDup_cons.
    + intros H. apply NoDup_remove_2 in Hnd. apply Hnd. apply in_app_or in H. apply in_or_app. tauto.
    + apply NoDup_remove_1 in Hnd. apply Permutation_NoDup with (l := a ++ c); [apply Permutation_app_comm|assumption].
  - intros H. apply Hc. destruct c, a; try reflexivity; discriminate.
Qed.
(** Neighbours are members. *)
Lemma ring_next_In nx pv l x : ring nx pv l -> In x l -> In (nx x) l.
Proof.
  intros Hr Hx. apply in_split in Hx. destruct Hx as (a & b & ->).
  rewrite ring_rotate_app in Hr. cbn [app] in Hr. cbn [ring] in Hr.
  destruct (b ++ a) as [|y t] eqn:E.
  - cbn in Hr. destruct Hr as [-> _]. apply in_or_app. right. left. reflexivity.
  - cbn [app links] in Hr. destruct Hr as [-> _].
    assert (Hy : In y (b ++ a)) by (rewrite E; left; reflexivity).
    apply in_app_or in Hy. apply in_or_app. cbn [In]. tauto.
Qed.
Lemma ring_prev_In nx pv l x : ring nx pv l -> In x l -> In (pv x) l.
Proof.
  intros Hr Hx. apply in_split in Hx. destruct Hx as (a & b & ->).
  rewrite ring_rotate_app in Hr. cbn [app] in Hr. apply ring_rotate in Hr.
  apply ring_snoc in Hr. destruct Hr as (Hl & H1 & H2).
  destruct (b ++ a) as [|y t] eqn:E.
  - cbn [hd] in *. rewrite H2. apply in_or_app. right. left. reflexivity.
  - assert (Hne : b ++ a <> []) by (rewrite E; discriminate).
    destruct (exists_last Hne) as (d & l & Hd). rewrite <- E, Hd in Hl. rewrite <- app_assoc in Hl. cbn [app] in Hl.
    apply links_app in Hl. cbn [links] in Hl. destruct Hl as (_ & _ & -> & _).
    assert (Hy : In l (b ++ a)) by (rewrite Hd; apply in_or_app; right; left; reflexivity).
    apply in_app_or in Hy. apply in_or_app. cbn [In]. tauto.
Qed.

(** ** Views of the buffer array *)
Definition nxt (bufs : list (option buf)) (i : nat) : nat :=
  match nth_error bufs i with Some (Some b) => b_next b | _ => O end.
Definition pvt (bufs : list (option buf)) (i : nat) : nat :=
  match nth_error bufs i with Some (Some b) => b_prev b | _ => O end.
Definition dat (bufs : list (option buf)) (i : nat) : option (option (list Z)) :=
  option_map (option_map b_data) (nth_error bufs i).
Definition alive (bufs : list (option buf)) (i : nat) : Prop := exists d, dat bufs i = Some (Some d).

Lemma alive_get bufs i : alive bufs i -> exists b, get_buf bufs i = Ok b /\ nth_error bufs i = Some (Some b) /\ b_next b = nxt bufs i /\ b_prev b = pvt bufs i /\ dat bufs i = Some (Some (b_data b)).
Proof.
  intros [d H]. unfold dat, get_buf, nxt, pvt in *. destruct (nth_error bufs i) as [[b|]|]; try discriminate.
  exists b. repeat split; reflexivity.
Qed.
Lemma put_buf_nth bufs i b j : (i < length bufs)%nat ->
  nth_error (put_buf bufs i b) j = if (j =? i)%nat then Some b else nth_error bufs j.
Proof. apply nth_error_put. Qed.
Lemma put_buf_length bufs i b : (i < length bufs)%nat -> length (put_buf bufs i b) = length bufs.
Proof. intros H. unfold put_buf. rewrite app_length, firstn_length. cbn [length]. rewrite skipn_length. lia. Qed.
Lemma alive_lt bufs i : alive bufs i -> (i < length bufs)%nat.
Proof. intros [d H]. unfold dat in H. apply nth_error_Some. destruct (nth_error bufs i); [discriminate|discriminate]. Qed.

Lemma set_next_ok bufs i v : alive bufs i -> exists bufs', set_next bufs i v = Ok bufs' /\
  length bufs' = length bufs /\ (forall j, nxt bufs' j = if (j =? i)%nat then v else nxt bufs j) /\
  (forall j, pvt bufs' j = pvt bufs j) /\ (forall j, dat bufs' j = dat bufs j).
Proof.
  intros Ha. pose proof (alive_lt _ _ Ha) as Hlt. destruct (alive_get _ _ Ha) as (b & Hg & Hnth & Hn & Hp & Hd).
  unfold set_next. rewrite Hg. cbn [bind]. eexists. split; [reflexivity|].
  split; [apply put_buf_length; assumption|]. unfold nxt, pvt, dat.
  repeat split; intros j; rewrite put_buf_nth by assumption; destruct (Nat.eqb_spec j i) as [->|Hne]; try reflexivity.
  - cbn [b_prev]. rewrite Hnth. reflexivity.
  - cbn [option_map b_data]. rewrite Hnth. reflexivity.
Qed.
Lemma set_prev_ok bufs i v : alive bufs i -> exists bufs', set_prev bufs i v = Ok bufs' /\
  length bufs' = length bufs /\ (forall j, pvt bufs' j = if (j =? i)%nat then v else pvt bufs j) /\
  (forall j, nxt bufs' j = nxt bufs j) /\ (forall j, dat bufs' j = dat bufs j).
Proof.
  intros Ha. pose proof (alive_lt _ _ Ha) as Hlt. destruct (alive_get _ _ Ha) as (b & Hg & Hnth & Hn & Hp & Hd).
  unfold set_prev. rewrite Hg. cbn [bind]. eexists. split; [reflexivity|].
  split; [apply put_buf_length; assumption|]. unfold nxt, pvt, dat.
  repeat split; intros j; rewrite put_buf_nth by assumption; destruct (Nat.eqb_spec j i) as [->|Hne]; try reflexivity.
  - cbn [b_next]. rewrite Hnth. reflexivity.
  - cbn [option_map b_data]. rewrite Hnth. reflexivity.
Qed.
Lemma alive_ext bufs bufs' i : (forall j, dat bufs' j = dat bufs j) -> alive bufs i -> alive bufs' i.
Proof. intros H [d Hd]. exists d. rewrite H. assumption. Qed.

Lemma ring_ext nx pv nx' pv' l : (forall x, nx' x = nx x) -> (forall x, pv' x = pv x) -> ring nx pv l -> ring nx' pv' l.
Proof.
  intros H1 H2. destruct l as [|x l]; [auto|]. cbn [ring]. apply links_frame; auto.
Qed.

(** ** The invariant *)
Definition blockn (bn : nat) (data : list Z) (i : nat) : list Z := firstn bn (skipn (i * bn) data).
Record inv (bn : nat) (data : list Z) (p : pipe) (c : cache) : Prop := {
  inv_count : length (p_buffers p) = c_count c;
  inv_nodup : NoDup (c_live c);
  inv_live : forall i, In i (c_live c) <-> (p_first p <= i < c_count c)%nat;
  inv_dead : forall i, (i < p_first p)%nat -> dat (p_buffers p) i = Some None;
  inv_first : (p_first p <= c_count c)%nat;
  inv_data : forall i, In i (c_live c) -> dat (p_buffers p) i = Some (Some (blockn bn data i));
  inv_last : p_last p = match c_live c with [] => None | _ => Some (last (c_live c) O) end;
  inv_ring : ring (nxt (p_buffers p)) (pvt (p_buffers p)) (c_live c);
  inv_rest : p_rest p = skipn (c_count c * bn) data;
  inv_bound : (c_count c = 0 \/ (c_count c - 1) * bn < length data)%nat;
  inv_some : (0 < c_count c)%nat -> (p_first p < c_count c)%nat
}.

Lemma dat_app_l bufs x i : (i < length bufs)%nat -> dat (bufs ++ [x]) i = dat bufs i.
Proof. intros H. unfold dat. rewrite nth_error_app1 by assumption. reflexivity. Qed.
Lemma nxt_app bufs b i : nxt (bufs ++ [Some b]) i = if (i =? length bufs)%nat then b_next b else nxt bufs i.
Proof.
  unfold nxt. destruct (Nat.lt_ge_cases i (length bufs)) as [H|H].
  - rewrite nth_error_app1 by assumption. replace (i =? length bufs)%nat with false by lia. reflexivity.
  - rewrite nth_error_app2 by assumption. destruct (Nat.eqb_spec i (length bufs)) as [->|Hne].
    + rewrite Nat.sub_diag. reflexivity.
    + replace (i - length bufs)%nat with (S (i - length bufs - 1)) by lia. cbn [nth_error].
      replace (nth_error [] (i - length bufs - 1)) with (@None (option buf)) by (destruct (i - length bufs - 1)%nat; reflexivity).
      replace (nth_error bufs i) with (@None (option buf)); [reflexivity|]. symmetry. apply nth_error_None. assumption.
Qed.
Lemma pvt_app bufs b i : pvt (bufs ++ [Some b]) i = if (i =? length bufs)%nat then b_prev b else pvt bufs i.
Proof.
  unfold pvt. destruct (Nat.lt_ge_cases i (length bufs)) as [H|H].
  - rewrite nth_error_app1 by assumption. replace (i =? length bufs)%nat with false by lia. reflexivity.
  - rewrite nth_error_app2 by assumption. destruct (Nat.eqb_spec i (length bufs)) as [->|Hne].
    + rewrite Nat.sub_diag. reflexivity.
    + replace (i - length bufs)%nat with (S (i - length bufs - 1)) by lia. cbn [nth_error].
      replace (nth_error [] (i - length bufs - 1)) with (@None (option buf)) by (destruct (i - length bufs - 1)%nat; reflexivity).
      replace (nth_error bufs i) with (@None (option buf)); [reflexivity|]. symmetry. apply nth_error_None. assumption.
Qed.
Lemma dat_app_last bufs b : dat (bufs ++ [Some b]) (length bufs) = Some (Some (b_data b)).
Proof. unfold dat. rewrite nth_error_app2 by lia. rewrite Nat.sub_diag. reflexivity. Qed.

Definition with_rest (p : pipe) (r : list Z) : pipe :=
  {| p_rest := r; p_first := p_first p; p_address := p_address p; p_last := p_last p;
     p_size := p_size p; p_buffers := p_buffers p |}.
Definition with_size (p : pipe) (s : option Z) : pipe :=
  {| p_rest := p_rest p; p_first := p_first p; p_address := p_address p; p_last := p_last p;
     p_size := s; p_buffers := p_buffers p |}.

Lemma inv_alive bn data p c i : inv bn data p c -> In i (c_live c) -> alive (p_buffers p) i.
Proof. intros H Hi. eexists. eapply inv_data; eassumption. Qed.

Lemma last_snoc_nat d l : last (d ++ [l]) O = l.
Proof. apply last_last. Qed.

Lemma append_inv bn data p c s :
  (0 < bn)%nat -> inv bn data p c -> firstn bn (p_rest p) <> [] ->
  exists p', pipe_append (with_size (with_rest p (skipn bn (p_rest p))) s) (firstn bn (p_rest p)) = Ok p' /\
    inv bn data p' (cache_fetch c) /\ p_address p' = p_address p /\ p_size p' = s /\ p_first p' = p_first p.
Proof.
  intros Hbn Hinv Hne. pose proof Hinv as [Hcount Hnd Hlive Hdead Hfirst Hdata Hlast Hring Hrest Hbound Hsome].
  assert (Hblk : firstn bn (p_rest p) = blockn bn data (c_count c)) by (rewrite Hrest; reflexivity).
  assert (Hrest' : skipn bn (p_rest p) = skipn (S (c_count c) * bn) data).
  { rewrite Hrest, skipn_skipn'. f_equal. lia. }
  assert (Hlen : (c_count c * bn < length data)%nat).
  { destruct (Nat.lt_ge_cases (c_count c * bn) (length data)) as [H|H]; [assumption|]. exfalso. apply Hne.
    rewrite Hrest, skipn_all2 by lia. apply firstn_nil. }
  unfold pipe_append, with_size, with_rest. cbn [p_last p_rest p_first p_address p_size p_buffers].
  destruct (c_live c) as [|h t] eqn:Elive.
  - (* first block *)
    rewrite Hlast. eexists. split; [reflexivity|]. cbn [p_address p_size p_first]. split; [|auto].
    assert (Hc0 : c_count c = O).
    { destruct (c_count c) as [|n] eqn:E; [reflexivity|]. exfalso.
      apply (proj2 (Hlive n)). specialize (Hsome ltac:(lia)). lia. }
    constructor; cbn [p_last p_rest p_first p_address p_size p_buffers cache_fetch c_count c_live]; rewrite ?Elive.
    + rewrite app_length, Hcount. cbn. lia.
    + cbn. constructor; [auto|constructor].
    + intros i. cbn [app In]. rewrite Hc0. split; [intros [<-|[]]; lia|]. intros. left. lia.
    + intros i Hi. lia.
    + lia.
    + cbn [app In]. intros i [<-|[]]. rewrite <- Hcount. rewrite dat_app_last. cbn [b_data]. rewrite Hblk, Hcount. reflexivity.
    + cbn. rewrite Hc0. reflexivity.
    + cbn [app ring links]. rewrite nxt_app, pvt_app, Hcount, Nat.eqb_refl. cbn [b_next b_prev]. rewrite Hc0. auto.
    + assumption.
    + right. lia.
    + intros _. lia.
  - assert (Hne2 : h :: t <> []) by discriminate.
    destruct (exists_last Hne2) as (d & l & Hdl). rewrite Hdl in *.
    assert (Hp_last : p_last p = Some l).
    { rewrite Hlast. rewrite last_snoc_nat. destruct (d ++ [l]) eqn:E; [destruct d; discriminate|reflexivity]. }
    rewrite Hp_last. clear Hlast.
    assert (Hl_in : In l (c_live c)) by (rewrite Elive; apply in_or_app; right; left; reflexivity).
    assert (Hal : alive (p_buffers p) l) by (eapply inv_alive; eassumption).
    destruct (alive_get _ _ Hal) as (bl & Hg & _ & Hnx & _ & _). rewrite Hg. cbn [bind].
    pose proof Hring as Hring0. apply ring_snoc in Hring. destruct Hring as (_ & Hr1 & Hr2).
    rewrite Hnx, Hr1.
    assert (Hh_in : In (hd l d) (c_live c)).
    { rewrite Elive. destruct d; cbn [hd]; apply in_or_app; [right; left; reflexivity|left; left; reflexivity]. }
    assert (Hah : alive (p_buffers p) (hd l d)) by (eapply inv_alive; eassumption).
    destruct (set_prev_ok _ _ (length (p_buffers p)) Hah) as (b1 & E1 & L1 & P1 & N1 & D1). rewrite E1. cbn [bind].
    assert (Hal1 : alive b1 l) by (eapply alive_ext; eassumption).
    destruct (set_next_ok _ _ (length (p_buffers p)) Hal1) as (b2 & E2 & L2 & N2 & P2 & D2). rewrite E2. cbn [bind].
    eexists. split; [reflexivity|]. cbn [p_address p_size p_first]. split; [|auto].
    assert (Hlb : (l < length (p_buffers p))%nat) by (apply alive_lt; assumption).
    assert (Hhb : (hd l d < length (p_buffers p))%nat) by (apply alive_lt; assumption).
    constructor; cbn [p_last p_rest p_first p_address p_size p_buffers cache_fetch c_count c_live]; rewrite ?Elive.
    + rewrite app_length, L2, L1, Hcount. cbn. lia.
    + apply NoDup_snoc. split; [assumption|]. intros Hi. apply Hlive in Hi. lia.
    + intros i. rewrite in_app_iff, Hlive. cbn [In]. split; [intros [H|[H|[]]]; lia|]. intros H.
      destruct (Nat.eq_dec (c_count c) i); [right; left; assumption|left; lia].
    + intros i Hi. rewrite dat_app_l by lia. rewrite D2, D1. auto.
    + lia.
    + intros i Hi. apply in_app_or in Hi. destruct Hi as [Hi|[Hi|[]]].
      * rewrite dat_app_l; [rewrite D2, D1; apply Hdata; assumption|]. rewrite L2, L1, Hcount. apply Hlive in Hi. lia.
      * subst i. rewrite <- Hcount, <- L1, <- L2, dat_app_last. cbn [b_data]. rewrite Hblk, L2, L1, Hcount. reflexivity.
    + rewrite last_snoc_nat. rewrite Hcount. destruct ((d ++ [l]) ++ [c_count c]) eqn:E; [destruct (d ++ [l]); discriminate|reflexivity].
    + apply (ring_insert (nxt (p_buffers p)) (pvt (p_buffers p))); [assumption| |assumption| |].
      * intros Hi. apply Hlive in Hi. lia.
      * intros x. rewrite nxt_app. cbn [b_next]. rewrite L2, L1, Hcount, N2, N1, Hcount.
        destruct (Nat.eqb_spec x l), (Nat.eqb_spec x (c_count c)); try reflexivity. lia.
      * intros x. rewrite pvt_app. cbn [b_prev]. rewrite L2, L1, Hcount, P2, P1, Hcount.
        destruct (Nat.eqb_spec x (hd l d)), (Nat.eqb_spec x (c_count c)); try reflexivity. lia.
    + assumption.
    + right. lia.
    + intros _. pose proof (proj1 (Hlive l) ltac:(apply in_or_app; right; left; reflexivity)). lia.
Qed.

Lemma firstn_short {A} n (l : list A) : (length (firstn n l) < n)%nat -> (length l < n)%nat.
Proof. rewrite firstn_length. lia. Qed.

(** The fetch loop stops after [count] blocks or at the end of the source. *)
Lemma fetch_inv bn bs data : bn = Z.to_nat (Z.shiftl 1 bs) -> (0 < bn)%nat -> forall count p c,
  inv bn data p c ->
  exists p' k, pipe_fetch bs count p = Ok p' /\ inv bn data p' (iter k cache_fetch c) /\
    p_address p' = p_address p /\ p_first p' = p_first p /\
    (k = count \/ (k < count /\ length data <= (c_count c + k) * bn)%nat) /\ (k <= count)%nat.
Proof.
  intros Ebn Hbn. induction count as [|count IH]; intros p c Hinv.
  - exists p, O. cbn [pipe_fetch iter]. auto 10.
  - cbn [pipe_fetch]. rewrite <- Ebn. cbn [p_rest p_first p_address p_last p_size p_buffers].
    assert (HB : Z.shiftl 1 bs = Z.of_nat bn) by lia. rewrite HB.
    destruct (zlen (firstn bn (p_rest p)) <? Z.of_nat bn) eqn:E.
    + assert (Hshort : (length (p_rest p) < bn)%nat) by (apply firstn_short; unfold zlen in E; lia).
      pose proof (inv_rest _ _ _ _ Hinv) as Hr.
      destruct (firstn bn (p_rest p)) as [|x xs] eqn:Ef.
      * assert (p_rest p = []).
        { destruct (p_rest p); [reflexivity|]. destruct bn; [lia|discriminate]. }
        eexists _, O. split; [reflexivity|]. cbn [iter]. split; [|cbn [p_address p_first]].
        { destruct Hinv. constructor; cbn [p_rest p_first p_address p_last p_size p_buffers]; try assumption.
          rewrite H, skipn_nil. rewrite <- H. assumption. }
        split; [reflexivity|]. split; [reflexivity|]. split; [|lia]. right. split; [lia|].
        rewrite Nat.add_0_r. assert (length (skipn (c_count c * bn) data) = 0%nat) by (rewrite <- Hr, H; reflexivity).
        rewrite skipn_length in *. lia.
      * destruct (append_inv bn data p c (Some (Z.shiftl (zlen (p_buffers p)) bs + zlen (x :: xs))) Hbn Hinv) as (p' & Ea & Hi & Hadr & _ & Hf).
        { rewrite Ef. discriminate. }
        rewrite Ef in Ea. exists p', 1%nat. split; [exact Ea|]. cbn [iter]. split; [assumption|]. split; [assumption|]. split; [assumption|].
        split; [|lia]. rewrite Hr in Hshort. rewrite skipn_length in Hshort.
        destruct (Nat.eq_dec count 0); [left; lia|right; lia].
    + destruct (append_inv bn data p c (p_size p) Hbn Hinv) as (p1 & Ea & Hi & Hadr & _ & Hf).
      { intros H. rewrite H in E. unfold zlen in E. cbn in E. lia. }
      unfold with_size, with_rest in Ea. cbn [p_rest p_first p_address p_last p_size p_buffers] in Ea. rewrite Ea. cbn [bind].
      destruct (IH p1 (cache_fetch c) Hi) as (p' & k & Ef & Hi' & Ha' & Hf' & Hk & Hkc).
      exists p', (S k). split; [assumption|].
      assert (Hit : forall k, iter (S k) cache_fetch c = iter k cache_fetch (cache_fetch c)).
      { clear. induction k as [|k IH]; [reflexivity|]. change (iter (S (S k)) cache_fetch c) with (cache_fetch (iter (S k) cache_fetch c)).
        rewrite IH. reflexivity. }
      rewrite Hit. split; [assumption|]. split; [congruence|]. split; [congruence|].
      split; [|lia]. cbn [cache_fetch c_count] in Hk. destruct Hk as [->|[H1 H2]]; [left; reflexivity|right; lia].
Qed.

Lemma remove_split a (i : nat) c : NoDup (a ++ i :: c) -> remove Nat.eq_dec i (a ++ i :: c) = a ++ c.
Proof.
  intros Hnd. rewrite remove_app. cbn [remove]. destruct (Nat.eq_dec i i); [|congruence].
  pose proof (NoDup_remove_2 _ _ _ Hnd) as Hni.
  rewrite !notin_remove; [reflexivity| |]; intros H; apply Hni, in_or_app; auto.
Qed.

Lemma touch_inv bn data p c i l :
  inv bn data p c -> In i (c_live c) -> p_last p = Some l -> l <> i ->
  exists p', pipe_touch p i l = Ok p' /\ inv bn data p' (cache_use c i) /\
    p_address p' = p_address p /\ p_size p' = p_size p /\ p_first p' = p_first p.
Proof.
  intros Hinv Hi Hl Hli. pose proof Hinv as [Hcount Hnd Hlive Hdead Hfirst Hdata Hlast Hring Hrest Hbound Hsome].
  assert (Hcopy : In i (c_live c)) by assumption.
  apply in_split in Hcopy. destruct Hcopy as (a & cc & Elive).
  assert (Hcc : cc <> []).
  { intros ->. rewrite Hl, Elive, last_snoc_nat in Hlast. destruct (a ++ [i]) eqn:E; [destruct a; discriminate|congruence]. }
  destruct (exists_last Hcc) as (d & l' & Hd).
  assert (l' = l).
  { rewrite Hl, Elive, Hd in Hlast. replace (a ++ i :: d ++ [l']) with ((a ++ i :: d) ++ [l']) in Hlast by (rewrite <- app_assoc; reflexivity).
    rewrite last_snoc_nat in Hlast. destruct ((a ++ i :: d) ++ [l']) eqn:E; [destruct (a ++ i :: d); discriminate|congruence]. }
  subst l'.
  assert (Hlin : In l (c_live c)) by (rewrite Elive, Hd; apply in_or_app; right; right; apply in_or_app; right; left; reflexivity).
  unfold pipe_touch.
  assert (Hai : alive (p_buffers p) i) by (eapply inv_alive; eassumption).
  destruct (alive_get _ _ Hai) as (bi & Hg & _ & Hnx & Hpv & _). rewrite Hg. cbn [bind]. rewrite Hnx, Hpv.
  pose proof (ring_next_In _ _ _ _ Hring Hi) as Hnin. pose proof (ring_prev_In _ _ _ _ Hring Hi) as Hpin.
  set (N := nxt (p_buffers p) i) in *. set (P := pvt (p_buffers p) i) in *.
  assert (HaN : alive (p_buffers p) N) by (eapply inv_alive; eassumption).
  destruct (set_prev_ok _ _ P HaN) as (b1 & E1 & L1 & P1 & N1 & D1). rewrite E1. cbn [bind].
  assert (HaP : alive b1 P) by (eapply alive_ext; [eassumption|eapply inv_alive; eassumption]).
  destruct (set_next_ok _ _ N HaP) as (b2 & E2 & L2 & N2 & P2 & D2). rewrite E2. cbn [bind].
  assert (Dall : forall j, dat b2 j = dat (p_buffers p) j) by (intros; rewrite D2; apply D1).
  assert (Hal2 : alive b2 l) by (eapply alive_ext; [eassumption|eapply inv_alive; eassumption]).
  destruct (alive_get _ _ Hal2) as (bl & Hg2 & _ & Hnx2 & _ & _). rewrite Hg2. cbn [bind]. rewrite Hnx2.
  (* the ring without i *)
  assert (Hacd : a ++ cc = (a ++ d) ++ [l]) by (rewrite Hd, app_assoc; reflexivity).
  assert (Hr2 : ring (nxt b2) (pvt b2) (a ++ cc)).
  { apply (ring_remove (nxt (p_buffers p)) (pvt (p_buffers p)) _ _ a i cc).
    - rewrite <- Elive. assumption.
    - rewrite Hacd. destruct (a ++ d); discriminate.
    - rewrite <- Elive. assumption.
    - intros x. rewrite N2, N1. reflexivity.
    - intros x. rewrite P2, P1. reflexivity. }
  assert (Hr2' := Hr2). rewrite Hacd in Hr2'. apply ring_snoc in Hr2'. destruct Hr2' as (_ & HF & _).
  rewrite HF. set (F := hd l (a ++ d)) in *.
  assert (HFin : In F (a ++ cc)).
  { rewrite Hacd. unfold F. destruct (a ++ d); cbn [hd]; apply in_or_app; [right; left; reflexivity|left; left; reflexivity]. }
  assert (Hsubset : forall x, In x (a ++ cc) -> In x (c_live c)).
  { intros x Hx. rewrite Elive. apply in_app_or in Hx. apply in_or_app. cbn [In]. tauto. }
  assert (Hai2 : alive b2 i) by (eapply alive_ext; eassumption).
  destruct (set_next_ok _ _ F Hai2) as (b3 & E3 & L3 & N3 & P3 & D3). rewrite E3. cbn [bind].
  assert (Hai3 : alive b3 i) by (eapply alive_ext; eassumption).
  destruct (set_prev_ok _ _ l Hai3) as (b4 & E4 & L4 & P4 & N4 & D4). rewrite E4. cbn [bind].
  assert (HaF4 : alive b4 F).
  { eapply alive_ext; [exact D4|]. eapply alive_ext; [exact D3|]. eapply alive_ext; [exact Dall|].
    eapply inv_alive; [eassumption|]. apply Hsubset. assumption. }
  destruct (set_prev_ok _ _ i HaF4) as (b5 & E5 & L5 & P5 & N5 & D5). rewrite E5. cbn [bind].
  assert (Hal5 : alive b5 l).
  { eapply alive_ext; [exact D5|]. eapply alive_ext; [exact D4|]. eapply alive_ext; [exact D3|]. assumption. }
  destruct (set_next_ok _ _ i Hal5) as (b6 & E6 & L6 & N6 & P6 & D6). rewrite E6. cbn [bind].
  assert (D6all : forall j, dat b6 j = dat (p_buffers p) j) by (intros; rewrite D6, D5, D4, D3; apply Dall).
  eexists. split; [reflexivity|]. cbn [p_address p_size p_first]. split; [|auto].
  assert (Hnd2 : NoDup (a ++ cc)) by (rewrite Elive in Hnd; apply NoDup_remove_1 in Hnd; assumption).
  assert (Hni2 : ~ In i (a ++ cc)) by (rewrite Elive in Hnd; apply NoDup_remove_2 in Hnd; assumption).
  assert (Hrem : remove Nat.eq_dec i (c_live c) = a ++ cc) by (rewrite Elive; apply remove_split; rewrite <- Elive; assumption).
  constructor; cbn [p_last p_rest p_first p_address p_size p_buffers cache_use c_count c_live]; rewrite ?Hrem; try assumption.
  - congruence.
  - apply NoDup_snoc. auto.
  - intros x. rewrite <- Hlive, Elive, !in_app_iff. cbn [In]. tauto.
  - intros x Hx. rewrite D6all. auto.
  - intros x Hx. rewrite D6all. apply Hdata. apply in_app_or in Hx. destruct Hx as [Hx|[<-|[]]]; auto.
  - rewrite last_snoc_nat. destruct ((a ++ cc) ++ [i]) eqn:E; [destruct (a ++ cc); discriminate|reflexivity].
  - rewrite Hacd. apply (ring_insert (nxt b2) (pvt b2)).
    + rewrite <- Hacd. assumption.
    + rewrite <- Hacd. assumption.
    + rewrite <- Hacd. assumption.
    + intros x. rewrite N6, N5, N4, N3. fold F. destruct (Nat.eqb_spec x l), (Nat.eqb_spec x i); reflexivity.
    + intros x. rewrite P6, P5, P4, P3. fold F. destruct (Nat.eqb_spec x F), (Nat.eqb_spec x i); reflexivity.
Qed.

Lemma get_inv bn data p c i :
  inv bn data p c ->
  exists p', fst (pipe_get p i) = p' /\ p_address p' = p_address p /\ p_size p' = p_size p /\ p_first p' = p_first p /\
  if (c_count c <=? i)%nat then snd (pipe_get p i) = Ok [] /\ inv bn data p' c
  else if existsb (Nat.eqb i) (c_live c)
       then snd (pipe_get p i) = Ok (blockn bn data i) /\ inv bn data p' (cache_use c i)
       else snd (pipe_get p i) = Err InputStreamError /\ inv bn data p' c.
Proof.
  intros Hinv. pose proof Hinv as [Hcount Hnd Hlive Hdead Hfirst Hdata Hlast Hring Hrest Hbound Hsome].
  eexists. split; [reflexivity|]. unfold pipe_get. rewrite Hcount.
  destruct (c_count c <=? i)%nat eqn:E; [cbn [fst snd]; auto|].
  destruct (existsb (Nat.eqb i) (c_live c)) eqn:Ex.
  - apply existsb_exists in Ex. destruct Ex as (x & Hx & Hix). apply Nat.eqb_eq in Hix. subst x.
    destruct (alive_get _ _ (inv_alive _ _ _ _ _ Hinv Hx)) as (b & _ & Hn & _ & _ & Hdb). rewrite Hn.
    rewrite (Hdata i Hx) in Hdb. injection Hdb as Hdb.
    destruct (p_last p) as [l|] eqn:El.
    + destruct (l =? i)%nat eqn:Eli.
      * apply Nat.eqb_eq in Eli. subst l. cbn [fst snd]. rewrite <- Hdb.
        split; [reflexivity|]. split; [reflexivity|]. split; [reflexivity|]. split; [reflexivity|].
        replace (cache_use c i) with c; [assumption|]. unfold cache_use.
        assert (Hnn : c_live c <> []) by (intros Hq; rewrite Hq in Hx; contradiction).
        destruct (exists_last Hnn) as (d & l & Hdl). rewrite Hdl, last_snoc_nat in Hlast.
        assert (l = i) by (destruct (d ++ [l]) eqn:Eq; [destruct d; discriminate|congruence]). subst l.
        rewrite Hdl, remove_split by (rewrite <- Hdl; assumption). rewrite app_nil_r, <- Hdl.
        destruct c; reflexivity.
      * apply Nat.eqb_neq in Eli. destruct (touch_inv bn data p c i l Hinv Hx El Eli) as (p' & Et & Hi' & Ha & Hs & Hf).
        rewrite Et. cbn [fst snd]. rewrite <- Hdb. auto 10.
    + exfalso. destruct (c_live c); [contradiction|discriminate].
  - assert (Hni : ~ In i (c_live c)).
    { intros Hi. assert (existsb (Nat.eqb i) (c_live c) = true) by (apply existsb_exists; exists i; split; [assumption|apply Nat.eqb_refl]). congruence. }
    rewrite Hlive in Hni. assert (Hd : dat (p_buffers p) i = Some None) by (apply Hdead; lia).
    unfold dat in Hd. destruct (nth_error (p_buffers p) i) as [[b|]|]; try discriminate. cbn [fst snd]. auto 10.
Qed.

Lemma get_all_inv bn data is : forall p c,
  inv bn data p c ->
  let '(p', r) := pipe_get_all p is in let '(c', ok) := use_all c is in
  inv bn data p' c' /\ p_address p' = p_address p /\ p_size p' = p_size p /\ p_first p' = p_first p /\ c_count c' = c_count c /\
  if ok then r = Ok (concat (map (fun i => if (c_count c <=? i)%nat then [] else blockn bn data i) is))
  else r = Err InputStreamError.
Proof.
  induction is as [|i is IH]; intros p c Hinv.
  - cbn [pipe_get_all use_all map concat]. auto 10.
  - cbn [pipe_get_all use_all map concat].
    destruct (get_inv bn data p c i Hinv) as (p' & Hp' & Ha & Hs & Hf & Hcase).
    destruct (pipe_get p i) as [p1 r1]. cbn [fst snd] in *. subst p1.
    destruct (c_count c <=? i)%nat eqn:E.
    + destruct Hcase as [-> Hi]. specialize (IH p' c Hi). destruct (pipe_get_all p' is) as [p2 r2], (use_all c is) as [c2 ok].
      destruct IH as (H1 & H2 & H3 & H4 & H5 & H6). destruct ok; subst r2; cbn [app]; repeat (split; [congruence || assumption|]); reflexivity.
    + destruct (existsb (Nat.eqb i) (c_live c)) eqn:Ex.
      * destruct Hcase as [-> Hi]. specialize (IH p' (cache_use c i) Hi).
        destruct (pipe_get_all p' is) as [p2 r2], (use_all (cache_use c i) is) as [c2 ok].
        destruct IH as (H1 & H2 & H3 & H4 & H5 & H6). cbn [cache_use c_count] in *.
        destruct ok; subst r2; repeat (split; [congruence || assumption|]); reflexivity.
      * destruct Hcase as [-> Hi]. auto 10.
Qed.

(** ** Flushing *)
Lemma discard_inv bn data p c l t :
  inv bn data p c -> c_live c = p_first p :: t -> t <> [] -> p_last p = Some l ->
  exists b1 b2 bf, get_buf (p_buffers p) (p_first p) = Ok bf /\ b_prev bf = l /\
    set_next (p_buffers p) l (b_next bf) = Ok b1 /\ set_prev b1 (b_next bf) l = Ok b2 /\
    inv bn data {| p_rest := p_rest p; p_first := S (p_first p); p_address := p_address p; p_last := p_last p;
                   p_size := p_size p; p_buffers := put_buf b2 (p_first p) None |}
        {| c_count := c_count c; c_live := t |}.
Proof.
  intros Hinv Elive Ht Hl. pose proof Hinv as [Hcount Hnd Hlive Hdead Hfirst Hdata Hlast Hring Hrest Hbound Hsome].
  assert (Hf : In (p_first p) (c_live c)) by (rewrite Elive; left; reflexivity).
  pose proof (inv_alive _ _ _ _ _ Hinv Hf) as Haf.
  destruct (alive_get _ _ Haf) as (bf & Hg & _ & Hnx & Hpv & _).
  destruct (exists_last Ht) as (d & l' & Hd).
  assert (l' = l).
  { rewrite Hl, Elive, Hd in Hlast. change (p_first p :: d ++ [l']) with ((p_first p :: d) ++ [l']) in Hlast.
    rewrite last_snoc_nat in Hlast. cbn [app] in Hlast. congruence. }
  subst l'.
  assert (Hring' := Hring). rewrite Elive in Hring'. pose proof Hring' as Hring2. apply ring_rotate, ring_snoc in Hring'. destruct Hring' as (Hlk & Hh1 & _).
  assert (Hprev : pvt (p_buffers p) (p_first p) = l).
  { rewrite Hd, <- app_assoc in Hlk. cbn [app] in Hlk. apply links_app in Hlk. cbn [links] in Hlk. tauto. }
  assert (Hlin : In l (c_live c)) by (rewrite Elive, Hd; right; apply in_or_app; right; left; reflexivity).
  destruct (set_next_ok _ _ (b_next bf) (inv_alive _ _ _ _ _ Hinv Hlin)) as (b1 & E1 & L1 & N1 & P1 & D1).
  assert (Hnin : In (b_next bf) (c_live c)) by (rewrite Hnx; eapply ring_next_In; eassumption).
  assert (Han : alive b1 (b_next bf)) by (eapply alive_ext; [eassumption|eapply inv_alive; eassumption]).
  destruct (set_prev_ok _ _ l Han) as (b2 & E2 & L2 & P2 & N2 & D2).
  exists b1, b2, bf. split; [assumption|]. split; [congruence|]. split; [assumption|]. split; [assumption|].
  assert (Hflt : (p_first p < length b2)%nat) by (rewrite L2, L1; apply alive_lt; assumption).
  rewrite Elive in Hnd. inversion Hnd as [|? ? Hfni Hndt]; subst.
  assert (Hput : forall j, j <> p_first p -> nth_error (put_buf b2 (p_first p) None) j = nth_error b2 j).
  { intros j Hj. rewrite put_buf_nth by assumption. replace (j =? p_first p)%nat with false by lia. reflexivity. }
  assert (Hlive' : forall i, In i (d ++ [pvt (p_buffers p) (p_first p)]) <-> (S (p_first p) <= i < c_count c)%nat).
  { intros i. split.
    - intros Hi. assert (i <> p_first p) by (intros ->; contradiction).
      assert (In i (c_live c)) by (rewrite Elive; right; assumption). apply Hlive in H0. lia.
    - intros Hi. assert (In i (c_live c)) by (apply Hlive; lia). rewrite Elive in H. destruct H as [H|H]; [lia|assumption]. }
  constructor; cbn [p_last p_rest p_first p_address p_size p_buffers c_count c_live].
  - rewrite put_buf_length by assumption. congruence.
  - assumption.
  - assumption.
  - intros i Hi. unfold dat. rewrite put_buf_nth by assumption. destruct (Nat.eqb_spec i (p_first p)) as [->|Hne]; [reflexivity|].
    change (dat b2 i = Some None). rewrite D2, D1. apply Hdead. lia.
  - apply Hlive in Hf. lia.
  - intros i Hi. unfold dat. rewrite Hput by (intros ->; contradiction). change (dat b2 i = Some (Some (blockn bn data i))).
    rewrite D2, D1. apply Hdata. rewrite Elive. right. assumption.
  - rewrite Hl, last_snoc_nat. destruct (d ++ _) eqn:E; [destruct d; discriminate|reflexivity].
  - apply (ring_ext (fun x => nxt (put_buf b2 (p_first p) None) x) (fun x => pvt (put_buf b2 (p_first p) None) x)); [reflexivity|reflexivity|].
    assert (Hr : ring (nxt b2) (pvt b2) (d ++ [pvt (p_buffers p) (p_first p)])).
    { apply (ring_remove_hd (nxt (p_buffers p)) (pvt (p_buffers p)) _ _ (p_first p)); auto.
      - intros x. rewrite N2, N1, Hnx. reflexivity.
      - intros x. rewrite P2, P1, Hnx. reflexivity. }
    destruct (d ++ [pvt (p_buffers p) (p_first p)]) as [|h t] eqn:Eh; [exact I|]. cbn [ring] in *.
    refine (links_frame _ _ _ _ _ _ _ Hr).
    + intros x Hx. unfold nxt. rewrite Hput; [reflexivity|]. intros ->.
      change (h :: t ++ [h]) with ((h :: t) ++ [h]) in Hx. rewrite removelast_snoc in Hx. contradiction.
    + intros x Hx. unfold pvt. rewrite Hput; [reflexivity|]. intros ->. cbn [tl app] in Hx.
      apply in_app_or in Hx. destruct Hx as [Hx|[Hx|[]]]; apply Hfni; [right; assumption|left; assumption].
  - assumption.
  - assumption.
  - intros _. assert (Hx : In (pvt (p_buffers p) (p_first p)) (d ++ [pvt (p_buffers p) (p_first p)])) by (apply in_or_app; right; left; reflexivity).
    apply Hlive' in Hx. lia.
Qed.

Lemma live_length bn data p c : inv bn data p c -> length (c_live c) = (c_count c - p_first p)%nat.
Proof.
  intros Hinv. destruct Hinv. assert (Hp : Permutation (c_live c) (seq (p_first p) (c_count c - p_first p))).
  { apply NoDup_Permutation; [assumption|apply seq_NoDup|]. intros x. rewrite inv_live0, in_seq. lia. }
  apply Permutation_length in Hp. rewrite seq_length in Hp. assumption.
Qed.
Lemma ring_prev_last nx pv l x : NoDup l -> ring nx pv l -> In x l -> pv x = last l O -> exists t, l = x :: t.
Proof.
  intros Hnd Hr Hx Hp. apply in_split in Hx. destruct Hx as (a & b & ->).
  destruct a as [|y0 a0] eqn:Ea; [eexists; reflexivity|]. exfalso. rewrite <- Ea in *.
  assert (Hne : a <> []) by (rewrite Ea; discriminate). clear Ea.
  destruct (exists_last Hne) as (a' & y & ->).
  assert (Hl : links nx pv ((a' ++ [y]) ++ [x])).
  { destruct ((a' ++ [y]) ++ x :: b) as [|h t] eqn:E; [destruct a'; discriminate|]. cbn [ring] in Hr. rewrite <- E in Hr.
    rewrite <- app_assoc in Hr. cbn [app] in Hr. apply links_app in Hr. tauto. }
  rewrite <- app_assoc in Hl. cbn [app] in Hl. apply links_app in Hl. destruct Hl as [_ Hl]. cbn [links] in Hl.
  destruct Hl as (_ & Hpx & _). rewrite Hpx in Hp.
  assert (Hxb : x :: b <> []) by discriminate. destruct (exists_last Hxb) as (b' & z & Hz). rewrite Hz in *.
  rewrite app_assoc, last_snoc_nat in Hp. subst z.
  rewrite <- app_assoc in Hnd. apply NoDup_remove_2 in Hnd. apply Hnd. apply in_or_app. right.
  cbn [app]. rewrite ?in_app_iff. right. left. reflexivity.
Qed.

Lemma flush_inv bn data nb_min : (1 <= nb_min)%nat -> forall fuel p c,
  inv bn data p c -> (length (c_live c) < fuel)%nat ->
  exists p', pipe_flush_loop fuel nb_min p = Ok p' /\ inv bn data p' (cache_drop nb_min c) /\ p_address p' = p_address p /\ p_size p' = p_size p.
Proof.
  intros Hnb. induction fuel as [|fuel IH]; intros p c Hinv Hfuel; [lia|].
  cbn [pipe_flush_loop]. pose proof (live_length _ _ _ _ Hinv) as Hlen.
  pose proof Hinv as [Hcount Hnd Hlive Hdead Hfirst Hdata Hlast Hring Hrest Hbound Hsome].
  rewrite Hcount. destruct (p_first p <? c_count c - nb_min)%nat eqn:Elim.
  - assert (Hin : In (p_first p) (c_live c)) by (apply Hlive; lia).
    destruct (alive_get _ _ (inv_alive _ _ _ _ _ Hinv Hin)) as (bf & Hg & _ & _ & Hpv & _). rewrite Hg. cbn [bind].
    destruct (c_live c) as [|h t] eqn:Elive; [contradiction|]. rewrite Hlast.
    destruct (b_prev bf =? last (h :: t) O)%nat eqn:Ep; cbn [negb].
    + apply Nat.eqb_eq in Ep. rewrite Hpv in Ep.
      destruct (ring_prev_last _ _ _ _ Hnd Hring Hin Ep) as (t' & Ht). injection Ht as -> ->.
      assert (Ht' : t' <> []) by (intros ->; cbn [length] in Hlen; lia).
      destruct (discard_inv bn data p c (last (p_first p :: t') O) t' Hinv Elive Ht' Hlast) as (b1 & b2 & bf' & Hg' & Hp' & E1 & E2 & Hinv').
      rewrite Hg in Hg'. injection Hg' as <-. rewrite E1. cbn [bind]. rewrite E2. cbn [bind].
      rewrite Hlast in Hinv'.
      destruct (IH _ _ Hinv') as (p' & Ef & Hi' & Ha & Hs).
      { cbn [c_live length] in *. lia. }
      exists p'. split; [exact Ef|]. split; [|auto]. unfold cache_drop in *. cbn [c_count c_live] in Hi'. rewrite Elive. cbn [drop_lru].
      replace (((nb_min <? length (p_first p :: t')) && (p_first p + length (p_first p :: t') =? c_count c)))%nat with true by lia.
      assumption.
    + exists p. split; [reflexivity|]. split; [|auto]. replace (cache_drop nb_min c) with c; [assumption|].
      unfold cache_drop. rewrite Elive. cbn [drop_lru].
      destruct ((nb_min <? length (h :: t)) && (h + length (h :: t) =? c_count c))%nat eqn:Ed.
      * exfalso. assert (h = p_first p) by lia. subst h. apply Nat.eqb_neq in Ep. apply Ep. rewrite Hpv.
        assert (Ht : t <> []) by (intros ->; cbn [length] in Hlen; lia).
        destruct (discard_inv bn data p c (last (p_first p :: t) O) t Hinv Elive Ht Hlast) as (b1 & b2 & bf' & Hg' & Hp' & _).
        rewrite Hg in Hg'. injection Hg' as <-. congruence.
      * destruct c; cbn in *; congruence.
  - exists p. split; [reflexivity|]. split; [|auto]. replace (cache_drop nb_min c) with c; [assumption|].
    unfold cache_drop. destruct c as [n live]; cbn [c_count c_live] in *. f_equal.
    destruct live as [|h t]; [reflexivity|]. cbn [drop_lru].
    replace (nb_min <? length (h :: t))%nat with false by lia. reflexivity.
Qed.

(** What InputPipe should do: a random access file, with a cache of blocks
    that is a list in order of last access. *)
From Verif Require Import Base PipeModel.

(** The ideal cache: how many blocks were fetched, and the blocks kept, least
    recently used first. *)
Record cache := { c_count : nat; c_live : list nat }.
Definition cache_init : cache := {| c_count := 0; c_live := [] |}.
(** Fetch one more block. *)
Definition cache_fetch (c : cache) : cache :=
  {| c_count := S (c_count c); c_live := c_live c ++ [c_count c] |}.
(** Use a block: it becomes the most recently used one. *)
Definition cache_use (c : cache) (i : nat) : cache :=
  {| c_count := c_count c; c_live := remove Nat.eq_dec i (c_live c) ++ [i] |}.
(** Drop the least recently used block while more than [nb_min] are kept and
    it is also the earliest block kept. *)
Fixpoint drop_lru (nb_min : nat) (n : nat) (l : list nat) : list nat :=
  match l with
  | [] => []
  | x :: l' => if ((nb_min <? length l) && (x + length l =? n))%nat then drop_lru nb_min n l' else l
  end.
Definition cache_drop (nb_min : nat) (c : cache) : cache :=
  {| c_count := c_count c; c_live := drop_lru nb_min (c_count c) (c_live c) |}.
Fixpoint iter {A} (n : nat) (f : A -> A) (x : A) : A :=
  match n with O => x | S n => f (iter n f x) end.

(** Number of blocks of [b] bytes of a source of [len] bytes. *)
Definition blocks_of (b len : Z) : Z := (len + b - 1) / b.

(** The file position and the cache. *)
Record ideal := { i_pos : Z; i_cache : cache }.
Definition ideal_init : ideal := {| i_pos := 0; i_cache := cache_init |}.

(** Use the blocks [is] in order; stop at the first one that has been
    dropped. *)
Fixpoint use_all (c : cache) (is : list nat) : cache * bool :=
  match is with
  | [] => (c, true)
  | i :: is =>
      if (c_count c <=? i)%nat then use_all c is
      else if existsb (Nat.eqb i) (c_live c) then use_all (cache_use c i) is
      else (c, false)
  end.

Definition ideal_step (nb_min : nat) (b : Z) (data : list Z) (s : ideal) (op : pipe_op) : ideal * res (list Z) :=
  match op with
  | PSeek a => if a <? 0 then (s, Err AssertionError)
               else ({| i_pos := a; i_cache := i_cache s |}, Ok [])
  | PRead n =>
      let a := i_pos s in
      (* fetch the blocks up to the one holding the end position, but not past the end *)
      let want := Z.min ((a + n) / b + 1) (blocks_of b (zlen data)) in
      let c := iter (Z.to_nat want - c_count (i_cache s)) cache_fetch (i_cache s) in
      (* use the blocks overlapping [a, a + n) *)
      let lo := Z.to_nat (a / b) in
      let hi := Z.to_nat ((a + n - 1) / b + 1) in
      match use_all c (seq lo (hi - lo)) with
      | (c, false) => ({| i_pos := a; i_cache := c |}, Err InputStreamError)
      | (c, true) => let d := sub data a n in
                     ({| i_pos := a + zlen d; i_cache := cache_drop nb_min c |}, Ok d)
      end
  end.
Fixpoint ideal_run (nb_min : nat) (b : Z) (data : list Z) (s : ideal) (ops : list pipe_op) : ideal * list (res (list Z)) :=
  match ops with
  | [] => (s, [])
  | op :: ops' => let '(s1, r) := ideal_step nb_min b data s op in
                  let '(s2, rs) := ideal_run nb_min b data s1 ops' in (s2, r :: rs)
  end.

(** Reads ask for a non-negative number of bytes. *)
Definition pipe_op_ok (op : pipe_op) : Prop := match op with PSeek _ => True | PRead n => 0 <= n end.

(** A plain random access file. *)
Definition file_step (data : list Z) (pos : Z) (op : pipe_op) : Z * res (list Z) :=
  match op with
  | PSeek a => if a <? 0 then (pos, Err AssertionError) else (a, Ok [])
  | PRead n => (pos + zlen (sub data pos n), Ok (sub data pos n))
  end.

(** The kept buffers form one circular doubly linked list in the order of
    [live]. *)
Definition circular (bufs : list (option buf)) (live : list nat) : Prop :=
  forall k i, nth_error live k = Some i ->
    exists b, nth_error bufs i = Some (Some b) /\
      nth_error live ((k + 1) mod length live) = Some (b_next b) /\
      nth_error live ((k + length live - 1) mod length live) = Some (b_prev b).

(** The results [rs] of the calls [ops] are those of a file holding [data],
    except that a read may fail with InputStreamError (and then does not move
    the position). *)
Fixpoint like_file (data : list Z) (pos : Z) (ops : list pipe_op) (rs : list (res (list Z))) : Prop :=
  match ops, rs with
  | [], [] => True
  | op :: ops', r :: rs' =>
      (r = snd (file_step data pos op) /\ like_file data (fst (file_step data pos op)) ops' rs') \/
      (r = Err InputStreamError /\ (exists n, op = PRead n) /\ like_file data pos ops' rs')
  | _, _ => False
  end.
Fixpoint file_run (data : list Z) (pos : Z) (ops : list pipe_op) : list (res (list Z)) :=
  match ops with
  | [] => []
  | op :: ops' => snd (file_step data pos op) :: file_run data (fst (file_step data pos op)) ops'
  end.

(** Model of hachoir/stream/input.py:282-389: InputPipe, which makes a
    non-seekable input seekable by caching blocks.

    The wrapped input object is a source that delivers as many bytes as asked
    for until its end (a Python buffered file).  Block indices are natural
    numbers (the code never computes a negative one). *)
From Verif Require Export Base.

(** stream/input.py:294-301: one element of [self.buffers]: [data, next, prev]. *)
Record buf := { b_data : list Z; b_next : nat; b_prev : nat }.

(** The instance (stream/input.py:311-321) together with what is left to read
    in the wrapped input.  [None] in [p_buffers] is a discarded block. *)
Record pipe := { p_rest : list Z; p_first : nat; p_address : Z; p_last : option nat;
                 p_size : option Z; p_buffers : list (option buf) }.
Definition pipe_init (source : list Z) : pipe :=
  {| p_rest := source; p_first := 0; p_address := 0; p_last := None; p_size := None; p_buffers := [] |}.

(** [self.buffers[i]] followed by an access to one of its elements. *)
Definition get_buf (bufs : list (option buf)) (i : nat) : res buf :=
  match nth_error bufs i with
  | None => Err IndexError
  | Some None => Err TypeError
  | Some (Some b) => Ok b
  end.
Definition put_buf (bufs : list (option buf)) (i : nat) (b : option buf) : list (option buf) :=
  firstn i bufs ++ b :: skipn (S i) bufs.
(** [self.buffers[i][1] = v] *)
Definition set_next (bufs : list (option buf)) (i v : nat) : res (list (option buf)) :=
  do b <- get_buf bufs i;
  Ok (put_buf bufs i (Some {| b_data := b_data b; b_next := v; b_prev := b_prev b |})).
(** [self.buffers[i][2] = v] *)
Definition set_prev (bufs : list (option buf)) (i v : nat) : res (list (option buf)) :=
  do b <- get_buf bufs i;
  Ok (put_buf bufs i (Some {| b_data := b_data b; b_next := b_next b; b_prev := v |})).

(** stream/input.py:325-333: _append *)
Definition pipe_append (p : pipe) (data : list Z) : res pipe :=
  match p_last p with
  | None =>
      Ok {| p_rest := p_rest p; p_first := p_first p; p_address := p_address p; p_last := Some O;
            p_size := p_size p;
            p_buffers := p_buffers p ++ [Some {| b_data := data; b_next := O; b_prev := O |}] |}
  | Some prev =>
      do last <- get_buf (p_buffers p) prev;
      let next := b_next last in
      let n := length (p_buffers p) in
      do bufs <- set_prev (p_buffers p) next n;
      do bufs <- set_next bufs prev n;
      Ok {| p_rest := p_rest p; p_first := p_first p; p_address := p_address p; p_last := Some n;
            p_size := p_size p;
            p_buffers := bufs ++ [Some {| b_data := data; b_next := next; b_prev := prev |}] |}
  end.

(** stream/input.py:341-352: the relinking part of _get. *)
Definition pipe_touch (p : pipe) (index last : nat) : res pipe :=
  do buf <- get_buf (p_buffers p) index;
  let next := b_next buf in
  let prev := b_prev buf in
  do bufs <- set_prev (p_buffers p) next prev;
  do bufs <- set_next bufs prev next;
  do bl <- get_buf bufs last;
  let first := b_next bl in
  do bufs <- set_next bufs index first;
  do bufs <- set_prev bufs index last;
  do bufs <- set_prev bufs first index;
  do bufs <- set_next bufs last index;
  Ok {| p_rest := p_rest p; p_first := p_first p; p_address := p_address p; p_last := Some index;
        p_size := p_size p; p_buffers := bufs |}.

(** stream/input.py:335-353: _get.  The state is returned even when an
    exception is raised. *)
Definition pipe_get (p : pipe) (index : nat) : pipe * res (list Z) :=
  if (length (p_buffers p) <=? index)%nat then (p, Ok [])
  else
    match nth_error (p_buffers p) index with
    | Some (Some buf) =>
        match p_last p with
        | Some last =>
            if (last =? index)%nat then (p, Ok (b_data buf))
            else match pipe_touch p index last with
                 | Ok p' => (p', Ok (b_data buf))
                 | Err e => (p, Err e)
                 end
        | None => (p, Err TypeError)
        end
    | _ => (p, Err InputStreamError)
    end.

(** stream/input.py:355-365: _flush.  [fuel] bounds the number of turns of the
    loop, each of which increments [first] (below the number of buffers). *)
Fixpoint pipe_flush_loop (fuel : nat) (nb_min : nat) (p : pipe) : res pipe :=
  match fuel with
  | O => Err OutOfFuel
  | S f =>
      if (p_first p <? length (p_buffers p) - nb_min)%nat then
        do buf <- get_buf (p_buffers p) (p_first p);
        match p_last p with
        | None => Err TypeError
        | Some last =>
            if negb (b_prev buf =? last)%nat then Ok p
            else
              do bufs <- set_next (p_buffers p) last (b_next buf);
              do bufs <- set_prev bufs (b_next buf) last;
              pipe_flush_loop f nb_min
                {| p_rest := p_rest p; p_first := S (p_first p); p_address := p_address p; p_last := p_last p;
                   p_size := p_size p; p_buffers := put_buf bufs (p_first p) None |}
        end
      else Ok p
  end.
Definition pipe_flush (nb_min : nat) (p : pipe) : res pipe :=
  pipe_flush_loop (S (length (p_buffers p))) nb_min p.

(** stream/input.py:373-382: the loop of read fetching [count] more blocks of
    2^bs bytes; it stops at the first short block. *)
Fixpoint pipe_fetch (bs : Z) (count : nat) (p : pipe) : res pipe :=
  match count with
  | O => Ok p
  | S c =>
      let n := Z.to_nat (Z.shiftl 1 bs) in
      let data := firstn n (p_rest p) in
      let p := {| p_rest := skipn n (p_rest p); p_first := p_first p; p_address := p_address p;
                  p_last := p_last p; p_size := p_size p; p_buffers := p_buffers p |} in
      if zlen data <? Z.shiftl 1 bs then
        let p := {| p_rest := p_rest p; p_first := p_first p; p_address := p_address p; p_last := p_last p;
                    p_size := Some (Z.shiftl (zlen (p_buffers p)) bs + zlen data);
                    p_buffers := p_buffers p |} in
        match data with [] => Ok p | _ => pipe_append p data end
      else
        do p <- pipe_append p data;
        pipe_fetch bs c p
  end.

(** stream/input.py:384-386: [b''.join(self._get(index) for index in ...)] *)
Fixpoint pipe_get_all (p : pipe) (indexes : list nat) : pipe * res (list Z) :=
  match indexes with
  | [] => (p, Ok [])
  | i :: is =>
      match pipe_get p i with
      | (p, Err e) => (p, Err e)
      | (p, Ok d) => match pipe_get_all p is with
                     | (p, Err e) => (p, Err e)
                     | (p, Ok ds) => (p, Ok (d ++ ds))
                     end
      end
  end.

(** stream/input.py:371-389: read, for size >= 0.  [nb_min] and [bs] are the
    class attributes buffer_nb_min (256) and buffer_size (16). *)
Definition pipe_read (nb_min : nat) (bs : Z) (p : pipe) (size : Z) : pipe * res (list Z) :=
  let end_ := p_address p + size in
  let count := (Z.to_nat (Z.shiftr end_ bs + 1) - length (p_buffers p))%nat in
  match pipe_fetch bs count p with
  | Err e => (p, Err e)
  | Ok p =>
      let block := Z.to_nat (p_address p / Z.shiftl 1 bs) in
      let offset := p_address p mod Z.shiftl 1 bs in
      let upto := Z.to_nat (Z.shiftr (end_ - 1) bs + 1) in
      match pipe_get_all p (seq block (upto - block)) with
      | (p, Err e) => (p, Err e)
      | (p, Ok joined) =>
          let data := py_slice joined offset (offset + size) in
          match pipe_flush nb_min p with
          | Err e => (p, Err e)
          | Ok p => ({| p_rest := p_rest p; p_first := p_first p; p_address := p_address p + zlen data;
                        p_last := p_last p; p_size := p_size p; p_buffers := p_buffers p |}, Ok data)
          end
      end
  end.

(** stream/input.py:367-369: seek *)
Definition pipe_seek (p : pipe) (address : Z) : pipe * res (list Z) :=
  if 0 <=? address then
    ({| p_rest := p_rest p; p_first := p_first p; p_address := address; p_last := p_last p;
        p_size := p_size p; p_buffers := p_buffers p |}, Ok [])
  else (p, Err AssertionError).

(** The calls a user (InputIOStream) makes. *)
Inductive pipe_op := PSeek (address : Z) | PRead (size : Z).
Definition pipe_step (nb_min : nat) (bs : Z) (p : pipe) (op : pipe_op) : pipe * res (list Z) :=
  match op with PSeek a => pipe_seek p a | PRead n => pipe_read nb_min bs p n end.
Fixpoint pipe_run (nb_min : nat) (bs : Z) (p : pipe) (ops : list pipe_op) : pipe * list (res (list Z)) :=
  match ops with
  | [] => (p, [])
  | op :: ops' => let '(p1, r) := pipe_step nb_min bs p op in
                  let '(p2, rs) := pipe_run nb_min bs p1 ops' in (p2, r :: rs)
  end.

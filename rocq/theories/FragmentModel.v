(** Model of hachoir/stream/input.py:506-577 (FragmentedStream) and 39-99
    (FileFromInputStream over a stream of known size). *)
From Verif Require Export Base StreamModel.

(** ** FragmentedStream *)
(** A data fragment: absolute bit address in the parent stream and bit size. *)
Notation frag := (Z * Z)%type (only parsing).

(** The instance: discovered fragments (address in this stream, address in the
    parent, size); what [self.next] still leads to ([None]: an element of the
    chain whose getData() is None); [_current_size]; [_size]. *)
Record fstream := { fs_frags : list (Z * Z * Z); fs_next : list (option frag);
                    fs_current : Z; fs_size : option Z }.

(** stream/input.py:156-167: _setSize() without argument (no client
    registered). *)
Definition fs_setSize (st : fstream) : res fstream :=
  do _ <- assert_ (match fs_size st with None => true | Some s => fs_current st <=? s end);
  if match fs_size st with Some s => s =? fs_current st | None => false end then Ok st
  else if fs_current st =? 0 then Err NullStreamError
  else Ok {| fs_frags := fs_frags st; fs_next := fs_next st; fs_current := fs_current st;
             fs_size := Some (fs_current st) |}.

(** stream/input.py:508-517: __init__ (no explicit size given). *)
Definition fs_init (first : frag) (next : list (option frag)) : res fstream :=
  let st := {| fs_frags := [(0, fst first, snd first)]; fs_next := next; fs_current := 0; fs_size := None |} in
  match next with
  | [] => fs_setSize {| fs_frags := fs_frags st; fs_next := fs_next st; fs_current := snd first; fs_size := None |}
  | _ => Ok st
  end.

(** stream/input.py:528-547: the loop of _feed.  The parent stream has a known
    size, so its sizeGe(n) is [n <= psize]. *)
Fixpoint fs_feed_loop (fuel : nat) (psize end_ : Z) (st : fstream) (a fa fs : Z) : res (fstream * bool) :=
  match fuel with
  | O => Err OutOfFuel
  | S fuel =>
      if fa + Z.min fs (end_ - a) <=? psize then
        let a := a + fs in
        if end_ <=? a then
          let st := {| fs_frags := fs_frags st; fs_next := fs_next st; fs_current := end_; fs_size := fs_size st |} in
          if (a =? end_) && (match fs_next st with [] => true | _ => false end)
          then do st <- fs_setSize st; Ok (st, false)
          else Ok (st, false)
        else
          let over (next : list (option frag)) :=
            do st <- fs_setSize {| fs_frags := fs_frags st; fs_next := next; fs_current := a; fs_size := fs_size st |};
            Ok (st, true) in
          match fs_next st with
          | [] => over []
          | None :: next => over next
          | Some (fa, fs) :: next =>
              fs_feed_loop fuel psize end_
                {| fs_frags := fs_frags st ++ [(a, fa, fs)]; fs_next := next;
                   fs_current := fs_current st; fs_size := fs_size st |} a fa fs
          end
      else
        do st <- fs_setSize {| fs_frags := fs_frags st; fs_next := fs_next st;
                               fs_current := a + Z.max 0 (psize - fa); fs_size := fs_size st |};
        Ok (st, true)
  end.

(** stream/input.py:522-548: _feed.  [self.fragments[-1]] *)
Definition fs_feed (psize : Z) (st : fstream) (end_ : Z) : res (fstream * bool) :=
  if fs_current st <? end_ then
    if match fs_size st with Some s => s =? fs_current st | None => false end then Err ReadStreamError
    else
      do f <- py_nth (fs_frags st) (-1);
      let '(a, fa, fs) := f in
      fs_feed_loop (S (length (fs_next st))) psize end_ st a fa fs
  else Ok (st, false).

(** stream/input.py:563-577: the loop of read. *)
Fixpoint fs_read_loop (fuel : nat) (pread : read_fun) (frags : list (Z * Z * Z)) (i fa fs size : Z)
         (s : option Z) (d : list Z) : res (Z * list Z) :=
  match fuel with
  | O => Err OutOfFuel
  | S fuel =>
      let n := Z.min fs size in
      do r <- pread fa n;
      let '(u, v, w) := r in
      do _ <- assert_ (negb w);
      do s <- match s with None => Ok u | Some s => do _ <- assert_ (u =? 0); Ok s end;
      let d := d ++ v in
      let size := size - n in
      if size =? 0 then Ok (s, d)
      else
        do f <- py_nth frags i;
        let '(_, fa, fs) := f in
        fs_read_loop fuel pread frags (i + 1) fa fs size (Some s) d
  end.

(** stream/input.py:550-577: read *)
Definition fs_read (pread : read_fun) (psize : Z) (st : fstream) (address size : Z)
  : fstream * res (Z * list Z * bool) :=
  if negb (0 <? size) then (st, Err AssertionError)
  else
    match fs_feed psize st (address + size) with
    | Err e => (st, Err e)
    | Ok (st, missing) =>
        (st,
         let size := if missing then match fs_size st with Some s => s - address | None => 0 end else size in
         if missing && (size <=? 0) then Ok (0, [], true)
         else
           do i <- lowerBound (fs_frags st) (fun x => fst (fst x) <=? address);
           do f <- py_nth (fs_frags st) (i - 1);
           let '(a, fa, fs) := f in
           let a := a - address in
           let fa := fa - a in
           let fs := fs + a in
           do r <- fs_read_loop (S (length (fs_frags st))) pread (fs_frags st) i fa fs size None [];
           let '(s, d) := r in
           Ok (s, d, missing))
    end.

Fixpoint fs_run (pread : read_fun) (psize : Z) (st : fstream) (reads : list (Z * Z)) : fstream * list (res (Z * list Z * bool)) :=
  match reads with
  | [] => (st, [])
  | (a, n) :: reads => let '(st1, r) := fs_read pread psize st a n in
                       let '(st2, rs) := fs_run pread psize st1 reads in (st2, r :: rs)
  end.

(** ** FileFromInputStream, when the size of the stream is known
    ([_size] in bytes is not None and not 0). *)
Record fview := { fv_offset : Z; fv_from_end : bool }.
Definition fview_init : fview := {| fv_offset := 0; fv_from_end := false |}.

(** stream/input.py:43-53: __init__ and _setSize *)
Definition fview_size (bits : Z) : res Z := if negb (bits mod 8 =? 0) then Err InputStreamError else Ok (bits / 8).

(** stream/input.py:55-61: tell *)
Definition fview_tell (size : Z) (f : fview) : fview * Z :=
  if fv_from_end f then
    let f := {| fv_offset := fv_offset f + size; fv_from_end := false |} in (f, fv_offset f)
  else (f, fv_offset f).

(** stream/input.py:63-72: seek *)
Definition fview_seek (f : fview) (pos whence : Z) : res fview :=
  if whence =? 0 then Ok {| fv_offset := pos; fv_from_end := false |}
  else if whence =? 1 then Ok {| fv_offset := fv_offset f + pos; fv_from_end := fv_from_end f |}
  else if whence =? 2 then Ok {| fv_offset := pos; fv_from_end := true |}
  else Err ValueError.

(** stream/input.py:74-91: read, first branch (the size is known and not 0). *)
Definition fview_read (read : read_fun) (fsize : Z) (f : fview) (size : option Z) : fview * res (list Z) :=
  let '(f, pos) := fview_tell fsize f in
  let size := match size with
              | None => fsize - pos
              | Some n => if fsize <? pos + n then fsize - pos else n
              end in
  if size <=? 0 then (f, Ok [])
  else
    match read (8 * pos) (8 * size) with
    | Err e => (f, Err e)
    | Ok (shift, data, missing) =>
        if negb (shift =? 0) then (f, Err InputStreamError)
        else ({| fv_offset := fv_offset f + zlen data; fv_from_end := fv_from_end f |}, Ok data)
    end.

Inductive fview_op := VSeek (pos whence : Z) | VTell | VRead (size : option Z).
Inductive fview_out := VNone | VPos (p : Z) | VData (d : list Z) | VErr (e : exn).
Definition fview_step (read : read_fun) (fsize : Z) (f : fview) (op : fview_op) : fview * fview_out :=
  match op with
  | VSeek p w => match fview_seek f p w with Ok f' => (f', VNone) | Err e => (f, VErr e) end
  | VTell => let '(f, p) := fview_tell fsize f in (f, VPos p)
  | VRead n => match fview_read read fsize f n with (f, Ok d) => (f, VData d) | (f, Err e) => (f, VErr e) end
  end.
Fixpoint fview_run (read : read_fun) (fsize : Z) (f : fview) (ops : list fview_op) : fview * list fview_out :=
  match ops with
  | [] => (f, [])
  | op :: ops' => let '(f1, r) := fview_step read fsize f op in
                  let '(f2, rs) := fview_run read fsize f1 ops' in (f2, r :: rs)
  end.

From Verif Require Import Base StreamModel FragmentModel.

(** The bytes a chain of fragments of [pdata] holds: their concatenation, up
    to the first fragment cut by the end of the parent or the first element
    without data. *)
Fixpoint chain_content (pdata : list Z) (chain : list (option frag)) : list Z :=
  match chain with
  | Some (fa, fs) :: rest =>
      sub pdata (fa / 8) (fs / 8) ++
      (if fa + fs <=? 8 * zlen pdata then chain_content pdata rest else [])
  | _ => []
  end.
(** Byte-aligned, non-empty fragments. *)
Definition frag_ok (f : option frag) : Prop :=
  match f with Some (fa, fs) => 0 <= fa /\ 0 < fs /\ fa mod 8 = 0 /\ fs mod 8 = 0 | None => True end.

(** What a read of [n] bits at bit [a] may answer on a stream holding
    [content]: the data; or, past the end, an error or an answer flagged as
    incomplete that holds only what there is. *)
Definition read_answer (content : list Z) (a n : Z) (r : res (Z * list Z * bool)) : Prop :=
  if a + n <=? 8 * zlen content
  then r = Ok (a mod 8, sub content (a / 8) ((n + a mod 8 + 7) / 8), false)
  else r = Err ReadStreamError \/ exists s, r = Ok (s, skipn (Z.to_nat (a / 8)) content, true).

(** A Python binary file holding [data] (file.seek to a negative position is
    outside the specification). *)
Definition pyfile_step (data : list Z) (pos : Z) (op : fview_op) : Z * fview_out :=
  match op with
  | VSeek p w => if w =? 0 then (p, VNone) else if w =? 1 then (pos + p, VNone)
                 else if w =? 2 then (zlen data + p, VNone) else (pos, VErr ValueError)
  | VTell => (pos, VPos pos)
  | VRead (Some n) => (pos + zlen (sub data pos n), VData (sub data pos n))
  | VRead None => (Z.max pos (zlen data), VData (skipn (Z.to_nat pos) data))
  end.
Fixpoint pyfile_run (data : list Z) (pos : Z) (ops : list fview_op) : Z * list fview_out :=
  match ops with
  | [] => (pos, [])
  | op :: ops' => let '(p1, r) := pyfile_step data pos op in
                  let '(p2, rs) := pyfile_run data p1 ops' in (p2, r :: rs)
  end.
(** The history keeps the position non-negative and reads non-negative
    amounts. *)
Fixpoint pyfile_ok (data : list Z) (pos : Z) (ops : list fview_op) : Prop :=
  match ops with
  | [] => True
  | op :: ops' => (match op with VRead (Some n) => 0 <= n | _ => True end) /\
                  0 <= fst (pyfile_step data pos op) /\ pyfile_ok data (fst (pyfile_step data pos op)) ops'
  end.

(** What is expected of the search of sub-files. *)
From Verif Require Import Base StreamSpec SubfileModel.

(** The regex engine picks one of the magics found at the start of the text, and
    picks one if there is one *)
Definition picks (pick : list Z -> option magic) (magics : list magic) : Prop :=
  forall d, match pick d with
            | Some g => In g magics /\ exists r, d = g_text g ++ r
            | None => forall g r, In g magics -> d <> g_text g ++ r
            end.
(** A file of class [cls] may start at bit [off]: one of its magics is there *)
Definition magic_at (magics : list magic) (data : list Z) (off cls : Z) : Prop :=
  exists g p, In g magics /\ g_class g = cls /\ occurs_at (g_text g) data p /\ off = 8 * p - g_offset g.
(** No two magics overlap in the data *)
Definition no_overlap (magics : list magic) (data : list Z) : Prop :=
  forall g h p q, In g magics -> In h magics -> occurs_at (g_text g) data p -> occurs_at (g_text h) data q -> p <= q -> (p = q /\ g = h) \/ p + zlen (g_text g) <= q.
(** The file reported at [off] asks to skip its content, of [n] bits *)
Definition skips (guess : Z -> Z -> option found) (off cls n : Z) : Prop :=
  exists f, guess off cls = Some f /\ f_size f = Some n /\ f_skip f = true.

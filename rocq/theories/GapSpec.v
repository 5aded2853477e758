(** What a user expects of gaps. *)
From Verif Require Import Base.

(** Unit [x] is in a block. *)
Definition covered (blocks : list (Z * Z)) (x : Z) : Prop := exists s l, In (s, l) blocks /\ s <= x < s + l.
(** [gaps] are non-empty, in order, and apart from each other. *)
Fixpoint apart (from : Z) (gaps : list (Z * Z)) : Prop :=
  match gaps with
  | [] => True
  | (s, l) :: gaps => from <= s /\ 0 < l /\ apart (s + l + 1) gaps
  end.
(** The size of some fields. *)
Definition sizes (l : list (Z * Z)) : Z := fold_right (fun f n => snd f + n) 0 l.

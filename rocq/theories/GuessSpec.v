(** What a user expects of the parser database and of the choice of a parser. *)
From Coq Require Import String.
From Verif Require Import Lit.
From Verif Require Import Base GuessModel.
Open Scope Z_scope.

(** The values a parser declares under a name that can be searched *)
Definition searchable (name : str) : bool :=
  negb (str_eqb name (lit "magic") || str_eqb name (lit "min_size") || str_eqb name (lit "description")).
Definition values_of (v : tagval) : list atom := match v with VAtom a => [a] | VTuple l => l | VList l => l | VMagic => [] end.
Definition declares (tags : tagdict) (name : str) : list atom :=
  if searchable name then match assoc name tags with Some v => values_of v | None => [] end else [].
Fixpoint tags_of (classes : list (Z * tagdict)) (p : Z) : tagdict :=
  match classes with [] => [] | (q, t) :: classes => if p =? q then t else tags_of classes p end.

(** The extension of a file name: what follows the last dot of its last component *)
Definition extension (s e : str) : Prop :=
  exists dir base, (s = dir ++ 47 :: base ++ 46 :: e \/ s = base ++ 46 :: e) /\ ~ In 47 (base ++ e) /\ ~ In 46 e.

(** A tag of the query matches a parser *)
Definition matches (lower : str -> str) (tags : Z -> tagdict) (t : qtag) (p : Z) : Prop :=
  match t with
  | TCall f => f p = true
  | TTag name value =>
      match q_translate lower name value with
      | Ok (n, Some v) => In (AStr v) (declares (tags p) n)
      | Ok (n, None) => declares (tags p) n <> []
      | Err _ => False
      end
  | _ => False
  end.
(** The tags before the first None, and if there is one *)
Fixpoint active (tags : list qtag) : list qtag :=
  match tags with [] => [] | TNone :: _ => [] | t :: tags => t :: active tags end.
Definition closed (tags : list qtag) : Prop := In TNone tags.
(** [rank m l p n]: n is the place of the first tag of l that matches p (the
    length of l if none does) *)
Inductive rank (m : qtag -> Z -> Prop) : list qtag -> Z -> nat -> Prop :=
| rank_none p : rank m [] p 0
| rank_here t l p : m t p -> rank m (t :: l) p 0
| rank_later t l p n : ~ m t p -> rank m l p n -> rank m (t :: l) p (S n).
Definition before {A} (l : list A) (x y : A) : Prop := exists a b c, l = a ++ x :: b ++ y :: c.

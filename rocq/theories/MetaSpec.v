(** What a metadata key holds, in plain terms. *)
From Coq Require Import String.
From Verif Require Import Base DictModel FieldModel MetaModel HumanSpec.
From Coq Require Import Sorted.
Open Scope Z_scope.

Definition starts_with (s t : str) : Prop := exists u, s = t ++ u.
(** No value occurs twice, and no text begins with another one. *)
Definition minimal (vs : list mval) : Prop :=
  forall i j a b, i <> j -> nth_error vs i = Some a -> nth_error vs j = Some b ->
    mval_eq a b = false /\ (forall s t, a = MStr s -> b = MStr t -> ~ starts_with s t).
(** [w] is [v], or a text that continues the text [v]. *)
Definition extends (w v : mval) : Prop := w = v \/ exists s t, w = MStr s /\ v = MStr t /\ starts_with s t.
(** Every value stays in its place, or is replaced by a longer text. *)
Definition grows (vs ws : list mval) : Prop :=
  forall i v, nth_error vs i = Some v -> exists w, nth_error ws i = Some w /\ extends w v.

(** [core] is [s] without the blanks at both ends. *)
Definition blank (c : Z) : Prop := In c [32; 9; 11; 10; 13; 0].
Definition stripped (s core : str) : Prop :=
  exists a b, s = a ++ core ++ b /\ Forall blank a /\ Forall blank b /\
    (forall c t, core = c :: t -> ~ blank c) /\ (forall t c, core = t ++ [c] -> ~ blank c).
(** [t] is [r], cut after [max] characters if it is longer. *)
Definition abridged (max : Z) (r t : str) : Prop :=
  (max = 0 \/ zlen r <= max) /\ t = r \/ (max <> 0 /\ max < zlen r) /\ t = firstn (Z.to_nat max) r ++ [40; 46; 46; 46; 41].
(** the text stored for the text [s] *)
Definition normal (e : env) (s t : str) : Prop :=
  exists core r, (if e_raw_output e then core = s else stripped s core) /\ core <> [] /\ unix_newlines core r /\ abridged (e_max_str_length e) r t.

(** A number within two bounds; a fraction n/d. *)
Definition frac_le (a b : Z * positive) : Prop := fst a * Zpos (snd b) <= fst b * Zpos (snd a).
Definition between (lo hi : Z * positive) (v : mval) : Prop :=
  exists x, frac_le lo x /\ frac_le x hi /\
    (v = MFloat (FNum (fst x) (snd x)) \/ (snd x = 1%positive /\ (v = MInt (fst x) \/ (v = MBool false /\ fst x = 0) \/ (v = MBool true /\ fst x = 1)))).

(** [ds] are the data of [l] of priority at most [p], in the order of the
    priorities, and in the order of the registration for a same priority. *)
Definition in_priority_order (p : Z) (l ds : list data) : Prop :=
  StronglySorted (fun a b => d_priority a <= d_priority b) ds /\
  forall q, filter (fun d => d_priority d =? q) ds = filter (fun d => (d_priority d =? q) && (q <=? p)) l.

(** The value [v] is given, alone or with a text. *)
Definition carried (a : arg) (v : mval) : Prop := a = AVal v \/ exists t, a = APair v t.
(** Bytes are read as ISO-8859-1. *)
Definition decode (v : mval) : mval := match v with MBytes b => MStr b | v => v end.
(** [w] is what is stored for the value [v]: a text is normalised. *)
Definition stored_for (e : env) (v w : mval) : Prop :=
  match v with
  | MStr s | MBytes s => exists t, w = MStr t /\ normal e s t
  | v => w = v
  end.
(** The line of one value. *)
Definition line_of (e : env) (human : bool) (line_prefix : str) (d : data) (it : item) : str :=
  line_prefix ++ data_title human d ++ lit ": " ++ item_text e human it.
(** The text of the last value of a key. *)
Definition last_text (e : env) (human : bool) (d : data) : option str :=
  match rev (d_values d) with [] => None | it :: _ => Some (item_text e human it) end.
(** ** Groups: the key before "[]", the metadata, the header *)
Fixpoint occurrences (k : str) (l : list str) : Z := match l with [] => 0 | x :: l => (if str_eqb k x then 1 else 0) + occurrences k l end.
Definition group := (str * meta * option str)%type.
Definition headed (m : meta) (header : option str) : meta := match header with Some ((_ :: _) as h) => {| m_header := h; m_data := m_data m |} | _ => m end.
(** [k[1]], [k[2]]... for each [k] *)
Fixpoint numbered (seen : list str) (l : list group) : list (str * meta) :=
  match l with
  | [] => []
  | (k, m, h) :: l => (array_name k (1 + occurrences k seen), headed m h) :: numbered (k :: seen) l
  end.
Definition add_groups (mm : mmeta) (l : list group) : mmeta * list (res bool) :=
  fold_left (fun st g => let '(k, m, h) := g in let '(mm, r) := addGroup (fst st) (k ++ lit "[]") m h in (mm, snd st ++ [r])) l (mm, []).
(** Only groups with a value are added. *)
Definition has_values (g : group) : bool := let '(_, m, _) := g in meta_bool m.

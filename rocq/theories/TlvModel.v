(** Fields made of a header that gives their size, inside one another: the loop shared by
    the parsers of RIFF, MP4, Matroska, PNG... files (RiffModel.v, ...). *)
From Verif Require Export Base BitsModel StreamModel DictModel FieldModel.

Section Tlv.
Context {I C : Type}.

(** What the header of a field says: what is shown of it, the size of the whole field in
    bits, and what its content is: plain fields, or fields like this one, in the context
    [ctx], the first one [off] bits after the start of the field, the last one being read as long
    as more than [slack] bits remain. *)
Inductive body := BRaw | BKids (ctx : C) (off slack : Z).
Record head := Head { h_info : I; h_size : Z; h_body : body }.
(** A field: its absolute address and size in bits, its header and the fields in it; after
    them comes the exception that ended them, if any: the bits that follow are then a raw
    field (C27). *)
Inductive tree := Tree (addr size : Z) (info : I) (k : kids)
with kids := KNone | KSome (l : list tree) (e : option exn).
Definition t_addr (t : tree) := let 'Tree a _ _ _ := t in a.
Definition t_size (t : tree) := let 'Tree _ s _ _ := t in s.
Definition t_info (t : tree) := let 'Tree _ _ i _ := t in i.
Definition t_kids (t : tree) := let 'Tree _ _ _ k := t in k.

(** The loop [while slack < self.size - self.current_size: yield ...] of a field set that
    ends at the address [stop], from the address [a] *)
Fixpoint walk (obj : Z -> Z -> res tree) (n : nat) (slack stop a : Z) : list tree * option exn :=
  match n with
  | O => ([], Some OutOfFuel)
  | S n =>
      if stop - a <=? slack then ([], None)
      else match obj stop a with
           | Err e => ([], Some e)
           | Ok t => let r := walk obj n slack stop (a + t_size t) in (t :: fst r, snd r)
           end
  end.
(** A field at the address [addr] of a field set that ends at the address [stop], which cuts
    it there (generic_field_set.py:185-202, 226-256) *)
Fixpoint parse (hd : C -> Z -> Z -> res head) (fuel : nat) (ctx : C) (stop addr : Z) : res tree :=
  match fuel with
  | O => Err OutOfFuel
  | S fuel =>
      do h <- hd ctx stop addr;
      let size := Z.min (h_size h) (stop - addr) in
      Ok (Tree addr size (h_info h)
           match h_body h with
           | BRaw => KNone
           | BKids c off slack => let r := walk (parse hd fuel c) (S fuel) slack (addr + size) (addr + off) in KSome (fst r) (snd r)
           end)
  end.
End Tlv.
Arguments body : clear implicits.
Arguments head : clear implicits.
Arguments tree : clear implicits.
Arguments kids : clear implicits.

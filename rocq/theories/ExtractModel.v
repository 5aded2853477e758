(** What extractors of metadata do with the fields of a file: metadata/image.py, metadata/metadata.py. *)
From Coq Require Import String.
From Verif Require Export Base BitsModel StreamModel DictModel FieldModel GenModel Lit.
From Verif Require MetaModel.
Open Scope Z_scope.

(** ["name" in field_set] *)
Definition has_field (name : string) (l : list fld) : bool := match get (lit name) l with Some _ => true | None => false end.
(** The fields of a file with a name: [image["name"]] *)
Fixpoint group (name : str) (l : list fld) : option (list fld) :=
  match l with [] => None | G n _ _ k _ :: l => if str_eqb n name then Some k else group name l | F _ _ _ _ :: l => group name l end.
Fixpoint size_of (name : str) (l : list fld) : option Z :=
  match l with [] => None | f :: l => if str_eqb (f_name f) name then Some (f_size f) else size_of name l end.
Import MetaModel.
(** Assignments one after the other, until one raises; whether none did *)
Fixpoint assign (e : env) (m : meta) (l : list (string * mval)) : meta * bool :=
  match l with
  | [] => (m, true)
  | (key, v) :: l => match setattr e m (lit key) (AVal v) with Ok m' => assign e m' l | Err _ => (m, false) end
  end.
Definition andthen (r : meta * bool) (k : meta -> meta * bool) : meta * bool := if snd r then k (fst r) else r.
(** metadata.py:81-91: meta.get(key), for a key that has a value *)
Definition int_of (m : meta) (key : string) : Z := match getItem m (lit key) 0 with Some (MInt z, _) => z | _ => 0 end.
Definition has_key (m : meta) (key : string) : bool := match MetaModel.has m (lit key) with Ok b => b | Err _ => false end.
(** image.py:11-27: computeComprRate.  Simplified: the quotient is exact. *)
Definition computeComprRate (e : env) (m : meta) (compr_size : Z) : meta * bool :=
  if negb (has_key m "width") || negb (has_key m "height") || negb (has_key m "bits_per_pixel") then (m, true)
  else match compr_size with
       | Zpos d => assign e m [("compr_rate"%string, MFloat (FNum (int_of m "width" * int_of m "height" * int_of m "bits_per_pixel") d))]
       | _ => (m, true)
       end.
(** [hdr["name"].value], which raises when there is no such field *)
Definition ask (name : string) (l : list fld) (m : meta) (c : Z -> meta * bool) : meta * bool := match GenModel.get (lit name) l with Some v => c (num v) | None => (m, false) end.
(** metadata.py:317-335: extractMetadata: what was done is kept when extract raises *)
Definition with_mime (e : env) (m : meta) (mime endian : str) : meta :=
  if meta_bool m then set_or_keep e (set_or_keep e m (lit "mime_type", AVal (MStr mime))) (lit "endian", AVal (MStr endian)) else m.

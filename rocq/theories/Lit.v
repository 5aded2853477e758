(** String literals for the models: the list of the character codes. *)
From Coq Require Import ZArith List String Ascii.
Fixpoint lit (s : string) : list Z :=
  match s with
  | EmptyString => nil
  | String c s => Z.of_N (N_of_ascii c) :: lit s
  end.

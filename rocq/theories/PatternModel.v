(** Model of hachoir/regex/pattern.py: PatternMatching.
    Simplifications: the user values carried by the items are left out; addRegex
    receives the parsed regex (parse is modelled in RegexTextModel); string_dict
    is the list of strings, which has no duplicates. *)
From Verif Require Export Base DictModel RegexModel.

Record patterns := { p_strings : list str; p_regexes : list regex }.
(** pattern.py:75-83 *)
Definition no_patterns : patterns := {| p_strings := []; p_regexes := [] |}.
(** pattern.py:110-117: addString *)
Definition addString (ps : patterns) (t : str) : patterns :=
  if existsb (str_eqb t) (p_strings ps) then ps else {| p_strings := p_strings ps ++ [t]; p_regexes := p_regexes ps |}.
(** pattern.py:119-125: addRegex *)
Definition addRegex (ps : patterns) (r : regex) : res patterns :=
  do m <- maxLength r;
  match m with
  | None => Err ValueError
  | Some _ => Ok {| p_strings := p_strings ps; p_regexes := p_regexes ps ++ [r] |}
  end.
(** The calls of a user *)
Inductive pcall := CString (t : str) | CRegex (r : regex).
Fixpoint add_all (ps : patterns) (l : list pcall) : res patterns :=
  match l with
  | [] => Ok ps
  | CString t :: l => add_all (addString ps t) l
  | CRegex r :: l => do ps <- addRegex ps r; add_all ps l
  end.

Section Commit.
Context (same_items : list item -> list item -> bool).
Definition or_opt (a : option regex) (b : regex) : res regex := match a with Some a => bar same_items a b | None => Ok b end.
Fixpoint commit_strings (regex : option RegexModel.regex) (length : Z) (l : list str) : res (option RegexModel.regex * Z) :=
  match l with
  | [] => Ok (regex, length)
  | t :: l => do r <- or_opt regex (createString t); commit_strings (Some r) (Z.max length (zlen t)) l
  end.
Fixpoint commit_regexes (regex : option RegexModel.regex) (length : Z) (l : list RegexModel.regex) : res (option RegexModel.regex * Z) :=
  match l with
  | [] => Ok (regex, length)
  | i :: l =>
      do r <- or_opt regex i;
      do m <- maxLength i;
      match m with None => Err TypeError | Some m => commit_regexes (Some r) (Z.max length m) l end
  end.
(** pattern.py:85-108: commit, giving regex and max_length *)
Definition commit (ps : patterns) : res (regex * Z) :=
  do p <- commit_strings None 0 (p_strings ps);
  do q <- commit_regexes (fst p) (snd p) (p_regexes ps);
  Ok (match fst q with Some r => r | None => REmpty end, snd q).
End Commit.
(** pattern.py:127-142: getPattern; [matches] is compiled_regex.match *)
Inductive pattern := PString (t : str) | PRegex (r : regex).
Definition getPattern (matches : regex -> str -> bool) (ps : patterns) (data : str) : res pattern :=
  if existsb (str_eqb data) (p_strings ps) then Ok (PString data)
  else match find (fun r => matches r data) (p_regexes ps) with
       | Some r => Ok (PRegex r)
       | None => Err KeyError
       end.

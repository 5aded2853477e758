(** Unix archives (ar(5)), for the claims about their parser. *)
From Coq Require Import String.
From Verif Require Import Base BitsModel NumSpec DictModel TorrentSpec GenModel GenSpec ItemSpec ZipSpec Lit.
Open Scope Z_scope.

(** A member: the first 48 bytes of its header (name, date, owner, group and mode), the size of its contents as a text, and its contents *)
Record member := Member { m_head : list Z; m_size : list Z; m_content : list Z }.
Definition ar_magic : list Z := lit "!<arch>" ++ [10].
(** The line of the header, without its end: the size takes ten bytes *)
Definition header_of (m : member) : list Z := m_head m ++ m_size m ++ List.repeat 32 (10 - List.length (m_size m)) ++ [96].
(** The header is one line, with a name; the mode, in octal, ends with a space; the size has at most nine digits *)
Definition member_ok (m : member) : Prop :=
  zlen (m_head m) = 48 /\ ~ In 10 (m_head m) /\ (exists h, m_head m = h ++ [32] /\ exists c, In c h /\ 33 <= c <= 126) /\ decimal (m_size m) (zlen (m_content m)) /\ zlen (m_size m) <= 9.
(** What is shown of a member, and of the byte after contents of odd size *)
Definition member_items (m : member) : list item :=
  [ISet (lit "file[]") (I (lit "header") (SLine 10 (header_of m)) :: some_bytes_item "content" (m_content m))] ++
  (if Z.odd (zlen (m_content m)) then [I (lit "empty_line[]") (SBytes [10])] else []).
Definition ar (ms : list member) : list item := I (lit "id") (SText ar_magic) :: flat_map member_items ms.

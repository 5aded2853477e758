(** Model of hachoir/strip.py: removing the metadata of a file with the editor. *)
From Coq Require Import String.
From Verif Require Export Base BitsModel StreamModel OutputModel DictModel EditModel.
From Verif Require Import Lit.
Open Scope Z_scope.

(** strip.py:26-28 *)
Definition STRIP_USELESS := 0x01.
Definition STRIP_METADATA := 0x02.
Definition STRIP_INDEX := 0x04.
Definition has_level (level bit : Z) : bool := negb (Z.land level bit =? 0).

(** ** The value of a field of the editor *)
(** editor/typed_field.py:38-42 and editor/field.py:37-39: the new value, or the one
    that was parsed (field/integer.py:20-22); [p] is the parent in the parsed file *)
Definition int_value (input : read_fun) (p : inode) (f : efield) : res Z :=
  match ef_value f with
  | Some (VInt z) => Ok z
  | _ => match ef_kind f, child p (ef_name f) with
         | KInt signed, Some c => readInteger input (i_addr c) signed (i_size c) (i_endian p)
         | _, _ => Err MissingField
         end
  end.
(** The text of a string; here its bytes (the tags of RIFF chunks are in ASCII). *)
Definition text_value (input : read_fun) (p : inode) (f : efield) : res str :=
  match ef_value f with
  | Some (VBytes b) => Ok b
  | _ => match child p (ef_name f) with
         | Some c => readBytes input (i_addr c) (i_size c / 8)
         | None => Err MissingField
         end
  end.
(** [field["tag"].value] with its MissingField (strip.py:134-137); a field that is not
    a set has no sub-field: editor/field.py:52-54 *)
Definition sub_text (input : read_fun) (n : enode) (name : str) : res (option str) :=
  match n with
  | EField _ => Ok None
  | ESet i _ _ _ =>
      match get_item n name with
      | Err _ => Ok None
      | Ok (EField f) => do t <- text_value input i f; Ok (Some t)
      | Ok (ESet _ _ _ _) => Err OtherError
      end
  end.
(** [editor[name].value -= delta] *)
Definition decrease (input : read_fun) (n : enode) (name : str) (delta : Z) : res enode :=
  match n with
  | EField _ => Err MissingField
  | ESet i _ _ _ =>
      do x <- get_item n name;
      match x with
      | EField f => do v <- int_value input i f; edit_at [name] (assign (VInt (v - delta))) n
      | ESet _ _ _ _ => Err OtherError
      end
  end.
(** Python's [needle in text] *)
Fixpoint is_prefix (needle text : str) : bool :=
  match needle, text with
  | [], _ => true
  | a :: needle, b :: text => (a =? b) && is_prefix needle text
  | _ :: _, [] => false
  end.
Fixpoint contains (text needle : str) : bool :=
  is_prefix needle text || match text with [] => false | _ :: text => contains text needle end.

(** ** Removing fields *)
(** strip.py:56-62: removeField; the size of the field in bits *)
Definition removeField (input : read_fun) (name : str) (n : enode) : res (enode * Z) :=
  match n with
  | EField _ => Err AttributeError
  | ESet i _ _ _ =>
      do x <- get_item n name;
      let size := v_size (view_of input i x) in
      do n <- del_item name n;
      Ok (n, size)
  end.
(** strip.py:64-67: removeFields *)
Fixpoint removeFields (input : read_fun) (names : list str) (n : enode) : res (enode * Z) :=
  match names with
  | [] => Ok (n, 0)
  | name :: names =>
      do r <- removeField input name n;
      do s <- removeFields input names (fst r);
      Ok (fst s, snd r + snd s)
  end.
(** strip.py:79-81: the generator of CheckStripper.strip consumed by removeFields: each
    field of the file is looked at once, and removed at once.  (That the editor keeps
    the fields that were looked at in its cache is not modelled: it writes the same.) *)
Fixpoint check_loop (input : read_fun) (check : str -> bool) (l : list inode) (n : enode) (total : Z) : res (enode * Z) :=
  match l with
  | [] => Ok (n, total)
  | c :: l =>
      do x <- get_item n (i_name c);
      if check (e_name x) then
        do r <- removeField input (i_name c) n;
        check_loop input check l (fst r) (total + snd r)
      else check_loop input check l n total
  end.
Definition check_strip (input : read_fun) (check : str -> bool) (n : enode) : res (enode * Z) :=
  match n with
  | EField _ => Err AttributeError
  | ESet i _ _ _ => check_loop input check (i_children i) n 0
  end.
(** strip.py:86-93, 98-103, 108-111: checkField of PNG, JPEG and MPEG audio files *)
Definition png_check (level : Z) (name : str) : bool :=
  has_level level STRIP_METADATA && (is_prefix (lit "text[") name || str_eqb name (lit "time")).
Definition jpeg_check (level : Z) (name : str) : bool :=
  has_level level STRIP_METADATA &&
  (is_prefix (lit "comment") name || mem name [lit "photoshop"; lit "exif"; lit "adobe"]).
Definition mpeg_check (level : Z) (name : str) : bool :=
  has_level level STRIP_METADATA && mem name [lit "id3v1"; lit "id3v2"].

(** strip.py:116-122: AuStripper.strip *)
Definition au_strip (input : read_fun) (level : Z) (n : enode) : res (enode * Z) :=
  match n with
  | EField _ => Err AttributeError
  | ESet i _ _ _ =>
      match get_item n (lit "info") with
      | Ok info =>
          if has_level level STRIP_METADATA then
            let size := v_size (view_of input i info) in
            do n <- decrease input n (lit "data_ofs") (size / 8);
            removeField input (lit "info") n
          else Ok (n, 0)
      | Err _ => Ok (n, 0)
      end
  end.

(** strip.py:127-149: RiffStripper.stripSub; [i] is the parsed field set of the editor
    [n].  The sub-editor of a list is a value here: it is put back into its parent. *)
Fixpoint stripSub (input : read_fun) (level : Z) (names : list str) (i : inode) (n : enode) : res (enode * Z) :=
  match i with
  | ILeaf _ _ _ _ => Err AttributeError
  | ISet _ _ _ _ children =>
      do r <- (fix loop (l : list inode) (n : enode) (remove : list str) (total : Z) : res (enode * list str * Z) :=
        match l with
        | [] => Ok (n, remove, total)
        | c :: l =>
            let name := i_name c in
            do field <- get_item n name;
            if mem name names then loop l n (remove ++ [name]) total
            else
              do tag <- sub_text input field (lit "tag");
              match tag with
              | None => loop l n remove total
              | Some tag =>
                  if has_level level STRIP_USELESS && contains (lit "JUNK") tag then loop l n (remove ++ [name]) total
                  else if str_eqb tag (lit "LIST") && negb (str_eqb name (lit "movie")) then
                    do r <- stripSub input level names c field;
                    let '(field, size) := r in
                    do field <- (if size =? 0 then Ok field else decrease input field (lit "size") (size / 8));
                    do n <- edit_at [name] (fun _ => Ok field) n;
                    loop l n remove (total + size)
                  else loop l n remove total
              end
        end) children n [] 0;
      let '(n, remove, total) := r in
      do s <- removeFields input remove n;
      Ok (fst s, total + snd s)
  end.
(** strip.py:152-160: the names to remove *)
Definition riff_names (level : Z) : list str :=
  (if has_level level STRIP_USELESS then [lit "nb_sample"] else []) ++
  (if has_level level STRIP_METADATA then [lit "info"] else []) ++
  (if has_level level STRIP_INDEX then [lit "index"] else []).
(** strip.py:151-165: RiffStripper.strip *)
Definition riff_strip (input : read_fun) (level : Z) (n : enode) : res (enode * Z) :=
  let has_index := [lit "headers"; lit "avi_hdr"; lit "has_index"] in
  do n <- (if has_level level STRIP_INDEX
           then match get_path n has_index with
                | Ok _ => edit_at has_index (assign (VInt 0)) n
                | Err _ => Ok n
                end
           else Ok n);
  match n with
  | EField _ => Err AttributeError
  | ESet i _ _ _ =>
      do r <- stripSub input level (riff_names level) i n;
      let '(n, size) := r in
      do n <- (if size =? 0 then Ok n else decrease input n (lit "filesize") (size / 8));
      Ok (n, size)
  end.

(** strip.py:174-176, 186-189: TarStripper.stripFile begins with the owner of the file, given as
    a text.  The rest of it is never reached: see [C66_tar_refuted]. *)
Definition tar_strip_file (file : str) (n : enode) : res enode :=
  edit_at [file; lit "uid"] (assign (VText (lit "0000000" ++ [0]))) n.

(** strip.py:40-44 and 208-233: the new file, or [None] when the stripper does not
    touch the file *)
Definition strip_file (input : read_fun) (strip : enode -> res (enode * Z)) (i : inode) : res (option (list Z)) :=
  do r <- strip (createEditor i);
  let '(n, size) := r in
  if size =? 0 then Ok None
  else do st <- writeInto input n ostream_init; Ok (Some (out st)).

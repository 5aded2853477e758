(** Model of hachoir/metadata: metadata_item.py, metadata.py, filter.py,
    register.py and the conversions of setter.py.
    Simplifications: the values are the kinds of [mval]; Python's str(), int(),
    the text handlers, parseDatetime and the table of languages are fields of
    [env]; a float is NaN, an infinity or a fraction; a datetime is its number
    of microseconds since the year 1, with the offset of its time zone; warnings
    are not modelled, and a call that raises an exception changes nothing. *)
From Coq Require Import String.
From Verif Require Export Base DictModel StreamModel Lit.
From Verif Require PrintModel HumanModel TextModel.
From Verif Require Import BitsModel FieldModel.
Open Scope Z_scope.

(** ** Python values *)
Inductive fl := FNan | FInf (neg : bool) | FNum (n : Z) (d : positive).
Inductive mval :=
| MNone | MStr (s : str) | MBytes (b : list Z) | MInt (z : Z) | MBool (b : bool) | MFloat (f : fl)
| MTimedelta (us : Z) | MDate (day : Z) | MDatetime (us : Z) (tz : option Z) | MLanguage (code : str) | MObject (n : Z).

(** Python's < and == on numbers *)
Definition fl_lt (a b : fl) : bool :=
  match a, b with
  | FNan, _ | _, FNan => false
  | FNum n d, FNum n' d' => n * Zpos d' <? n' * Zpos d
  | FInf neg, FInf neg' => neg && negb neg'
  | FInf neg, FNum _ _ => neg
  | FNum _ _, FInf neg => negb neg
  end.
Definition fl_eq (a b : fl) : bool :=
  match a, b with
  | FNum n d, FNum n' d' => n * Zpos d' =? n' * Zpos d
  | FInf neg, FInf neg' => eqb neg neg'
  | _, _ => false
  end.
Definition number (v : mval) : option fl :=
  match v with
  | MInt z => Some (FNum z 1)
  | MBool b => Some (FNum (if b then 1 else 0) 1)
  | MFloat f => Some f
  | _ => None
  end.
(** Python's ==; objects are compared by identity *)
Definition mval_eq (a b : mval) : bool :=
  match number a, number b with
  | Some x, Some y => fl_eq x y
  | _, _ =>
      match a, b with
      | MNone, MNone => true
      | MStr s, MStr t => str_eqb s t
      | MBytes s, MBytes t => str_eqb s t
      | MTimedelta x, MTimedelta y => x =? y
      | MDate x, MDate y => x =? y
      | MDatetime x None, MDatetime y None => x =? y
      | MDatetime x (Some o), MDatetime y (Some p) => x - o =? y - p
      | MLanguage s, MLanguage t => str_eqb s t
      | MObject x, MObject y => x =? y
      | _, _ => false
      end
  end.

(** ** The description of a key *)
Inductive mtype := TStr | TInt | TFloat | TTimedelta | TDate | TDatetime | TLanguage.
(** isinstance(v, t): bool is an int, datetime is a date *)
Definition isinstance (v : mval) (t : mtype) : bool :=
  match v, t with
  | MStr _, TStr | MInt _, TInt | MBool _, TInt | MFloat _, TFloat | MTimedelta _, TTimedelta
  | MDate _, TDate | MDatetime _ _, TDate | MDatetime _ _, TDatetime | MLanguage _, TLanguage => true
  | _, _ => false
  end.
Inductive mfilter := NumberFilter (min max : fl) | DurationFilter | DatetimeFilter.
Inductive handler :=
| H_humanAltitude | H_humanAudioChannel | H_humanBitRate | H_humanBitSize | H_humanComprRate | H_humanDPI | H_humanDatetime
| H_humanDuration | H_humanFilesize | H_humanFrameRate | H_humanFrequency | H_humanPixelSize.
Inductive conv := CDatetime | CLanguage | CTrackNumber | CTrackTotal.
(** what a conversion gives: an exception, None, a value, or (value, text) *)
Inductive cres := CErr | CNone | CVal (v : mval) | CPair (v : mval) (text : str).
Definition item := (mval * str)%type.
(** metadata_item.py:22-42: Data.__init__ *)
Record data := { d_key : str; d_priority : Z; d_description : str; d_handler : option handler;
                 d_type : option (list mtype); d_filter : option mfilter; d_conv : option conv; d_values : list item }.
Definition mk_data key priority description handler type filter conv : data :=
  {| d_key := key; d_priority := priority; d_description := description; d_handler := handler;
     d_type := type; d_filter := filter; d_conv := conv; d_values := [] |}.
Definition set_values (d : data) (l : list item) : data :=
  {| d_key := d_key d; d_priority := d_priority d; d_description := d_description d; d_handler := d_handler d;
     d_type := d_type d; d_filter := d_filter d; d_conv := d_conv d; d_values := l |}.

(** metadata_item.py:5-6 *)
Definition MIN_PRIORITY := 100.
Definition MAX_PRIORITY := 999.

(** The parts of Python and of hachoir used by the metadata: str() of a value,
    the text handlers, int() of a text, parseDatetime, the codes of ISO 639-2,
    and metadata/config.py. *)
Record env := { e_str : mval -> str; e_handler : handler -> mval -> res str; e_int : str -> option Z;
                e_datetime : str -> cres; e_iso639 : str -> bool; e_max_str_length : Z; e_raw_output : bool }.

(** setter.py:175-178: normalizeString *)
Definition normalizeString (e : env) (text : str) : str :=
  if e_raw_output e then text
  else TextModel.strip (fun c => existsb (Z.eqb c) [32; 9; 11; 10; 13; 0]) text.
(** tools.py:330-354: makeUnicode of any value *)
Definition makeUnicode (e : env) (v : mval) : str :=
  PrintModel.makeUnicode (match v with MStr s => s | MBytes b => b | v => e_str e v end).

(** filter.py:9-59; the two limits of the date filter are 1850-01-01 and
    2030-12-31, for datetimes both at midnight *)
Definition filter_ok (f : mfilter) (v : mval) : bool :=
  match f with
  | NumberFilter min max =>
      match number v with
      | Some x => negb (fl_lt x min) && negb (fl_lt max x)
      | None => true
      end
  | DurationFilter =>
      match v with
      | MTimedelta us => negb (us <? 1000) && negb (365 * HumanModel.us_per_day <? us)
      | _ => true
      end
  | DatetimeFilter =>
      let lo := HumanModel.datetime 1850 1 1 in
      let hi := HumanModel.datetime 2030 12 31 in
      match v with
      | MDatetime us tz => let us := us - match tz with Some o => o | None => 0 end in (lo <=? us) && (us <=? hi)
      | MDate day => (lo <=? day * HumanModel.us_per_day) && (day * HumanModel.us_per_day <=? hi)
      | _ => true
      end
  end.

(** int(v): [None] for a ValueError, [Some None] for another exception *)
Definition py_int (e : env) (v : mval) : option (option Z) :=
  match v with
  | MStr s => option_map Some (e_int e s)
  | MBytes s => option_map Some (e_int e s)
  | MInt z => Some (Some z)
  | MBool b => Some (Some (if b then 1 else 0))
  | MFloat (FNum n d) => Some (Some (Z.quot n (Zpos d)))
  | MFloat FNan => None
  | _ => Some None
  end.
Definition int_result (o : option (option Z)) : cres :=
  match o with None => CNone | Some None => CErr | Some (Some z) => CVal (MInt z) end.
(** [number.split("/", 1)] when "/" is in the text *)
Fixpoint split_slash (s : str) : option (str * str) :=
  match s with
  | [] => None
  | c :: t => if c =? 47 then Some ([], t)
              else match split_slash t with Some (a, b) => Some (c :: a, b) | None => None end
  end.
(** setter.py:132-172: setDatetime, setLanguage, setTrackTotal, setTrackNumber;
    the first component is the value that setTrackNumber gives to track_total *)
Definition convert (e : env) (c : conv) (v : mval) : option mval * cres :=
  match c with
  | CDatetime => (None, match v with
                        | MStr s => e_datetime e s
                        | MDate _ | MDatetime _ _ => CVal v
                        | _ => CNone
                        end)
  | CLanguage => let code := match v with MStr s => s | v => e_str e v end in
                 (None, if e_iso639 e code then CVal (MLanguage code) else CErr)
  | CTrackTotal => (None, int_result (py_int e v))
  | CTrackNumber =>
      match v with
      | MInt _ | MBool _ => (None, CVal v)
      | MStr s =>
          match split_slash s with
          | Some (a, b) => (Some (MStr b), int_result (py_int e (MStr a)))
          | None => (None, int_result (py_int e v))
          end
      | _ => (None, CErr)
      end
  end.

(** metadata_item.py:47-56: _createItem *)
Definition createItem (e : env) (d : data) (v : mval) (text : option str) : res item :=
  match text with
  | Some t => Ok (v, t)
  | None =>
      match v with
      | MStr s => Ok (v, s)
      | _ => match d_handler d with
             | Some h => do t <- e_handler e h v; Ok (v, t)
             | None => Ok (v, makeUnicode e v)
             end
      end
  end.
(** metadata_item.py:147-151: __contains__ *)
Definition contains (l : list item) (v : mval) : bool := existsb (fun it => mval_eq v (fst it)) l.
(** metadata_item.py:121-136: the loop on the stored texts.  [None]: no stored
    text is related to [s]. *)
Fixpoint place (s : str) (it : item) (l : list item) : option (list item) :=
  match l with
  | [] => None
  | (MStr t, x) :: l' =>
      if is_prefix t s then Some (it :: l')
      else if is_prefix s t then Some l
      else option_map (cons (MStr t, x)) (place s it l')
  | y :: l' => option_map (cons y) (place s it l')
  end.
(** What is given to add(): a value, (value, text), or another tuple. *)
Inductive arg := AVal (v : mval) | APair (v : mval) (text : option str) | ATuple.
(** metadata_item.py:72-92: the value and the text after the conversion, [None]
    when the value is dropped *)
Definition converted (e : env) (d : data) (v : mval) (text : option str) (r : cres) : res (option (mval * option str)) :=
  match r with
  | CErr => Ok None
  | CNone => match d_type d with None => Err TypeError | Some _ => Ok None end
  | CVal v => Ok (Some (v, text))
  | CPair v t => Ok (Some (match text with
                           | Some ((_ :: _) as t0) => (v, Some t0)
                           | _ => (v, Some t)
                           end))
  end.
(** metadata_item.py:98-139: the rest of add() after the removal of the blanks;
    the new list of values *)
Definition store_checked (e : env) (d : data) (v : mval) (text : option str) : res (list item) :=
  let l := d_values d in
  if match d_type d with Some ((_ :: _) as ts) => negb (existsb (isinstance v) ts) | _ => false end then Ok l
  else
    let v := match v with
             | MStr s =>
                 let s := HumanModel.normalizeNewline s in
                 MStr (if negb (e_max_str_length e =? 0) && (e_max_str_length e <? zlen s)
                       then py_upto s (e_max_str_length e) ++ lit "(...)" else s)
             | v => v
             end in
    if contains l v then Ok l
    else if match d_filter d with Some f => negb (filter_ok f v) | None => false end then Ok l
    else
      do it <- createItem e d v text;
      match v with
      | MStr s => Ok (match place s it l with Some l' => l' | None => l ++ [it] end)
      | _ => Ok (l ++ [it])
      end.
(** metadata_item.py:93-139: the rest of add() after the conversion, for a value
    not None *)
Definition store (e : env) (d : data) (v : mval) (text : option str) : res (list item) :=
  match v with
  | MStr s => match normalizeString e s with [] => Ok (d_values d) | s => store_checked e d (MStr s) text end
  | v => store_checked e d v text
  end.
(** metadata_item.py:58-139: add(); also gives the value that the conversion
    assigns to track_total before *)
Definition data_add (e : env) (d : data) (a : arg) : res (option mval * res (list item)) :=
  match a with
  | ATuple => Err ValueError
  | AVal v | APair v _ =>
      let text := match a with APair _ t => t | _ => None end in
      match v with
      | MNone => Ok (None, Ok (d_values d))
      | _ =>
          match d_conv d with
          | Some c =>
              let '(total, r) := convert e c v in
              Ok (total, do o <- converted e d v text r;
                         match o with
                         | None => Ok (d_values d)
                         | Some (v, text) => store e d v text
                         end)
          | None => Ok (None, store e d (match v with MBytes b => MStr b | v => v end) text)
          end
      end
  end.

(** ** Metadata *)
(** the dictionary of the data, in the order of the registrations *)
Record meta := { m_header : str; m_data : list data }.
Definition find_data (m : meta) (key : str) : option data := find (fun d => str_eqb key (d_key d)) (m_data m).
Definition with_values (m : meta) (key : str) (l : list item) : meta :=
  {| m_header := m_header m; m_data := map (fun d => if str_eqb key (d_key d) then set_values d l else d) (m_data m) |}.
(** metadata.py:36-46: __setattr__, without the track total *)
Definition set_plain (e : env) (m : meta) (key : str) (a : arg) : res meta :=
  match find_data m key with
  | None => Err KeyError
  | Some d => do r <- data_add e d a; do l <- snd r; Ok (with_values m key l)
  end.
(** metadata.py:36-46: __setattr__.  An exception of the nested assignment is
    caught with those of the conversion (metadata_item.py:73-78). *)
Definition setattr (e : env) (m : meta) (key : str) (a : arg) : res meta :=
  match find_data m key with
  | None => Err KeyError
  | Some d =>
      do r <- data_add e d a;
      match fst r with
      | None => do l <- snd r; Ok (with_values m key l)
      | Some total =>
          match set_plain e m (lit "track_total") (AVal total) with
          | Err _ => Ok m
          | Ok m' => do l <- snd r; Ok (with_values m' key l)
          end
      end
  end.
(** the state after a call: unchanged when it raises *)
Definition set_or_keep (e : env) (m : meta) (ka : str * arg) : meta :=
  match setattr e m (fst ka) (snd ka) with Ok m' => m' | Err _ => m end.
Definition set_all (e : env) (m : meta) (l : list (str * arg)) : meta := fold_left (set_or_keep e) l m.

(** metadata.py:51-64, 87-92: getItems, getItem, has, getValues *)
Definition getItems (m : meta) (key : str) : res (list item) :=
  match find_data m key with Some d => Ok (d_values d) | None => Err ValueError end.
Definition getItem (m : meta) (key : str) (index : Z) : option item :=
  match getItems m key with
  | Ok l => let i := if index <? 0 then index + zlen l else index in
            if i <? 0 then None else nth_error l (Z.to_nat i)
  | Err _ => None
  end.
Definition has (m : meta) (key : str) : res bool := do l <- getItems m key; Ok (1 <=? zlen l).
Definition getValues (m : meta) (key : str) : res (list mval) := do l <- getItems m key; Ok (map fst l).
(** metadata.py:66-85, 94-110: get, getText *)
Definition get (m : meta) (key : str) (default : mval) (index : Z) : res mval :=
  match getItem m key index with
  | None => match default with MNone => Err ValueError | v => Ok v end
  | Some it => Ok (fst it)
  end.
Definition getText (m : meta) (key : str) (default : option str) (index : Z) : option str :=
  match getItem m key index with Some it => Some (snd it) | None => default end.
(** metadata.py:112-115: register *)
Definition register (m : meta) (d : data) : res meta :=
  do _ <- assert_ (match find_data m (d_key d) with None => true | Some _ => false end);
  Ok {| m_header := m_header m; m_data := m_data m ++ [d] |}.
(** metadata.py:221-222: __bool__ *)
Definition meta_bool (m : meta) : bool := existsb (fun d => match d_values d with [] => false | _ => true end) (m_data m).

(** Python's sorted() on the priorities: a stable sort *)
Fixpoint insert_data (d : data) (l : list data) : list data :=
  match l with
  | [] => [d]
  | d' :: l' => if d_priority d' <? d_priority d then d' :: insert_data d l' else d :: l
  end.
Definition sorted (l : list data) : list data := fold_right insert_data [] l.
(** metadata.py:154-158, 196-200 *)
Definition clamp (priority : option Z) : Z :=
  match priority with
  | Some p => Z.min (Z.max p MIN_PRIORITY) MAX_PRIORITY
  | None => MAX_PRIORITY
  end.
(** the loop of exportPlaintext and exportDictionary: the data visited *)
Fixpoint visited (priority : Z) (l : list data) : list data :=
  match l with
  | [] => []
  | d :: l' => if priority <? d_priority d then []
               else match d_values d with [] => visited priority l' | _ => d :: visited priority l' end
  end.
Definition export_title (m : meta) (title : option str) : str :=
  match title with Some ((_ :: _) as t) => t | _ => m_header m end.
Definition data_title (human : bool) (d : data) : str := if human then d_description d else d_key d.
Definition item_text (e : env) (human : bool) (it : item) : str := if human then snd it else makeUnicode e (fst it).
(** metadata.py:134-180: exportPlaintext *)
Definition exportPlaintext (e : env) (m : meta) (priority : option Z) (human : bool) (line_prefix : str) (title : option str)
  : option (list str) :=
  let text := (export_title m title ++ lit ":") ::
              flat_map (fun d => map (fun it => line_prefix ++ data_title human d ++ lit ": " ++ item_text e human it) (d_values d))
                       (visited (clamp priority) (sorted (m_data m))) in
  if 1 <? zlen text then Some text else None.
(** metadata.py:120-132: __str__ *)
Definition meta_str (e : env) (m : meta) : res str :=
  match exportPlaintext e m None true (lit "- ") None with
  | Some text => Ok (join [10] text)
  | None => Err TypeError
  end.

(** a Python dictionary with values of any type *)
Fixpoint dput {V} (l : list (str * V)) (k : str) (v : V) : list (str * V) :=
  match l with
  | [] => [(k, v)]
  | (k', v') :: l' => if str_eqb k k' then (k, v) :: l' else (k', v') :: dput l' k v
  end.
Fixpoint dget {V} (l : list (str * V)) (k : str) : option V :=
  match l with
  | [] => None
  | (k', v) :: l' => if str_eqb k k' then Some v else dget l' k
  end.
(** metadata.py:182-219: exportDictionary; every item overwrites the one before *)
Definition exportDictionary (e : env) (m : meta) (priority : option Z) (human : bool) (title : option str)
  : list (str * list (str * str)) :=
  [(export_title m title,
    fold_left (fun t d => match d_values d with
                          | [] => t
                          | it :: l => dput t (data_title human d) (item_text e human (last (it :: l) it))
                          end)
              (visited (clamp priority) (sorted (m_data m))) [])].

(** ** Groups *)
(** metadata.py:231-237: MultipleMetadata; the groups are plain metadata *)
Record mmeta := { mm_common : meta; mm_groups : dict meta; mm_counter : pydict }.
Definition is_array (key : str) : bool := str_eqb (py_from key (-2)) (lit "[]").
(** metadata.py:253-272: addGroup; the counter is updated even when the key is refused *)
Definition addGroup (mm : mmeta) (key : str) (m : meta) (header : option str) : mmeta * res bool :=
  if negb (meta_bool m) then (mm, Ok false)
  else
    let '(key, counter) :=
      if is_array key then
        let k := py_upto key (-2) in
        let n := match pd_get (mm_counter mm) k with Some n => n + 1 | None => 1 end in
        (k ++ lit "[" ++ dec n ++ lit "]", pd_set (mm_counter mm) k n)
      else (key, mm_counter mm) in
    let m := match header with Some ((_ :: _) as h) => {| m_header := h; m_data := m_data m |} | _ => m end in
    match dict_append (mm_groups mm) key m with
    | Ok g => ({| mm_common := mm_common mm; mm_groups := g; mm_counter := counter |}, Ok true)
    | Err x => ({| mm_common := mm_common mm; mm_groups := mm_groups mm; mm_counter := counter |}, Err x)
    end.
(** metadata.py:248-251: __bool__ *)
Definition mm_bool (mm : mmeta) : bool := meta_bool (mm_common mm) || existsb meta_bool (d_vals (mm_groups mm)).
Definition group_title (human : bool) (key : str) : option str := if human then None else Some key.
(** metadata.py:274-292: exportPlaintext *)
Definition mm_exportPlaintext (e : env) (mm : mmeta) (priority : option Z) (human : bool) (line_prefix : str) : option (list str) :=
  let lines o := match o with Some t => t | None => [] end in
  let text := lines (exportPlaintext e (mm_common mm) priority human line_prefix None) ++
              flat_map (fun km => lines (exportPlaintext e (snd km) priority human line_prefix (group_title human (fst km))))
                       (dict_items (mm_groups mm)) in
  match text with [] => None | _ => Some text end.
(** metadata.py:294-308: exportDictionary *)
Definition mm_exportDictionary (e : env) (mm : mmeta) (priority : option Z) (human : bool) : list (str * list (str * str)) :=
  fold_left (fun t km => fold_left (fun t kv => dput t (fst kv) (snd kv))
                                   (exportDictionary e (snd km) priority human (group_title human (fst km))) t)
            (dict_items (mm_groups mm)) (exportDictionary e (mm_common mm) priority human None).

(** metadata.py:317-335: extractMetadata, for a registered parser class; what
    extract() does before it returns or raises is a list of assignments *)
Definition extractMetadata (e : env) (m : meta) (l : list (str * arg)) (mime_type endian : str) : meta :=
  let m := set_all e m l in
  if meta_bool m then set_or_keep e (set_or_keep e m (lit "mime_type", AVal (MStr mime_type))) (lit "endian", AVal (MStr endian))
  else m.

(** register.py:36-186: registerAllItems *)
Definition all_items : list data :=
  [
   mk_data (lit "title") 100 (lit "Title") None (Some [TStr]) None None;
   mk_data (lit "artist") 101 (lit "Artist") None (Some [TStr]) None None;
   mk_data (lit "author") 102 (lit "Author") None (Some [TStr]) None None;
   mk_data (lit "music_composer") 103 (lit "Music composer") None (Some [TStr]) None None;
   mk_data (lit "album") 200 (lit "Album") None (Some [TStr]) None None;
   mk_data (lit "duration") 201 (lit "Duration") (Some H_humanDuration) (Some [TTimedelta]) (Some DurationFilter) None;
   mk_data (lit "nb_page") 202 (lit "Nb page") None None (Some (NumberFilter (FNum 1 1) (FNum 20000 1))) None;
   mk_data (lit "music_genre") 203 (lit "Music genre") None (Some [TStr]) None None;
   mk_data (lit "language") 204 (lit "Language") None (Some [TLanguage]) None (Some CLanguage);
   mk_data (lit "track_number") 205 (lit "Track number") None (Some [TInt]) (Some (NumberFilter (FNum 1 1) (FNum 999 1))) (Some CTrackNumber);
   mk_data (lit "track_total") 206 (lit "Track total") None (Some [TInt]) (Some (NumberFilter (FNum 1 1) (FNum 999 1))) (Some CTrackTotal);
   mk_data (lit "organization") 210 (lit "Organization") None (Some [TStr]) None None;
   mk_data (lit "version") 220 (lit "Version") None None None None;
   mk_data (lit "width") 301 (lit "Image width") (Some H_humanPixelSize) (Some [TInt]) (Some (NumberFilter (FNum 1 1) (FNum 20000 1))) None;
   mk_data (lit "height") 302 (lit "Image height") (Some H_humanPixelSize) (Some [TInt]) (Some (NumberFilter (FNum 1 1) (FNum 20000 1))) None;
   mk_data (lit "nb_channel") 303 (lit "Channel") (Some H_humanAudioChannel) (Some [TInt]) (Some (NumberFilter (FNum 1 1) (FNum 8 1))) None;
   mk_data (lit "sample_rate") 304 (lit "Sample rate") (Some H_humanFrequency) (Some [TInt; TFloat]) (Some (NumberFilter (FNum 1000 1) (FNum 192000 1))) None;
   mk_data (lit "bits_per_sample") 305 (lit "Bits/sample") (Some H_humanBitSize) (Some [TInt]) (Some (NumberFilter (FNum 1 1) (FNum 64 1))) None;
   mk_data (lit "image_orientation") 306 (lit "Image orientation") None None None None;
   mk_data (lit "nb_colors") 307 (lit "Number of colors") None (Some [TInt]) (Some (NumberFilter (FNum 1 1) (FNum 16777216 1))) None;
   mk_data (lit "bits_per_pixel") 308 (lit "Bits/pixel") None (Some [TInt]) (Some (NumberFilter (FNum 1 1) (FNum 256 1))) None;
   mk_data (lit "filename") 309 (lit "File name") None (Some [TStr]) None None;
   mk_data (lit "file_size") 310 (lit "File size") (Some H_humanFilesize) (Some [TInt]) None None;
   mk_data (lit "pixel_format") 311 (lit "Pixel format") None None None None;
   mk_data (lit "compr_size") 312 (lit "Compressed file size") (Some H_humanFilesize) (Some [TInt]) None None;
   mk_data (lit "compr_rate") 313 (lit "Compression rate") (Some H_humanComprRate) (Some [TInt; TFloat]) (Some (NumberFilter (FNum 1152921504606847 1152921504606846976) (FNum 1000 1))) None;
   mk_data (lit "width_dpi") 320 (lit "Image DPI width") (Some H_humanDPI) (Some [TInt]) (Some (NumberFilter (FNum 1 1) (FNum 10000 1))) None;
   mk_data (lit "height_dpi") 321 (lit "Image DPI height") (Some H_humanDPI) (Some [TInt]) (Some (NumberFilter (FNum 1 1) (FNum 10000 1))) None;
   mk_data (lit "file_attr") 400 (lit "File attributes") None None None None;
   mk_data (lit "file_type") 401 (lit "File type") None None None None;
   mk_data (lit "subtitle_author") 402 (lit "Subtitle author") None (Some [TStr]) None None;
   mk_data (lit "creation_date") 500 (lit "Creation date") (Some H_humanDatetime) (Some [TDatetime; TDate]) (Some DatetimeFilter) (Some CDatetime);
   mk_data (lit "last_modification") 501 (lit "Last modification") (Some H_humanDatetime) (Some [TDatetime; TDate]) (Some DatetimeFilter) (Some CDatetime);
   mk_data (lit "latitude") 510 (lit "Latitude") None (Some [TFloat]) None None;
   mk_data (lit "longitude") 511 (lit "Longitude") None (Some [TFloat]) None None;
   mk_data (lit "altitude") 512 (lit "Altitude") (Some H_humanAltitude) (Some [TFloat]) None None;
   mk_data (lit "location") 530 (lit "Location") None (Some [TStr]) None None;
   mk_data (lit "city") 531 (lit "City") None (Some [TStr]) None None;
   mk_data (lit "country") 532 (lit "Country") None (Some [TStr]) None None;
   mk_data (lit "charset") 540 (lit "Charset") None (Some [TStr]) None None;
   mk_data (lit "font_weight") 550 (lit "Font weight") None None None None;
   mk_data (lit "camera_aperture") 520 (lit "Camera aperture") None None None None;
   mk_data (lit "camera_focal") 521 (lit "Camera focal") None None None None;
   mk_data (lit "camera_exposure") 522 (lit "Camera exposure") None None None None;
   mk_data (lit "camera_brightness") 530 (lit "Camera brightness") None None None None;
   mk_data (lit "camera_model") 531 (lit "Camera model") None (Some [TStr]) None None;
   mk_data (lit "camera_manufacturer") 532 (lit "Camera manufacturer") None (Some [TStr]) None None;
   mk_data (lit "compression") 600 (lit "Compression") None None None None;
   mk_data (lit "copyright") 601 (lit "Copyright") None (Some [TStr]) None None;
   mk_data (lit "url") 602 (lit "URL") None (Some [TStr]) None None;
   mk_data (lit "frame_rate") 603 (lit "Frame rate") (Some H_humanFrameRate) (Some [TInt; TFloat]) (Some (NumberFilter (FNum 1 1) (FNum 150 1))) None;
   mk_data (lit "bit_rate") 604 (lit "Bit rate") (Some H_humanBitRate) (Some [TInt; TFloat]) (Some (NumberFilter (FNum 1 1) (FNum 524288000 1))) None;
   mk_data (lit "aspect_ratio") 604 (lit "Aspect ratio") None (Some [TInt; TFloat]) None None;
   mk_data (lit "thumbnail_size") 604 (lit "Thumbnail size") (Some H_humanFilesize) (Some [TInt; TFloat]) None None;
   mk_data (lit "iso_speed_ratings") 800 (lit "ISO speed rating") None None None None;
   mk_data (lit "exif_version") 801 (lit "EXIF version") None None None None;
   mk_data (lit "date_time_original") 802 (lit "Date-time original") (Some H_humanDatetime) (Some [TDatetime; TDate]) (Some DatetimeFilter) (Some CDatetime);
   mk_data (lit "date_time_digitized") 803 (lit "Date-time digitized") (Some H_humanDatetime) (Some [TDatetime; TDate]) (Some DatetimeFilter) (Some CDatetime);
   mk_data (lit "compressed_bits_per_pixel") 804 (lit "Compressed bits per pixel") None (Some [TInt; TFloat]) None None;
   mk_data (lit "shutter_speed_value") 805 (lit "Shutter speed") None (Some [TInt; TFloat]) None None;
   mk_data (lit "aperture_value") 806 (lit "Aperture") None None None None;
   mk_data (lit "exposure_bias_value") 807 (lit "Exposure bias") None None None None;
   mk_data (lit "focal_length") 808 (lit "Focal length") None None None None;
   mk_data (lit "flashpix_version") 809 (lit "Flashpix version") None None None None;
   mk_data (lit "focal_plane_x_resolution") 810 (lit "Focal plane width") None None None None;
   mk_data (lit "focal_plane_y_resolution") 811 (lit "Focal plane height") None (Some [TFloat]) None None;
   mk_data (lit "focal_length_in_35mm_film") 812 (lit "Focal length in 35mm film") None None None None;
   mk_data (lit "os") 900 (lit "OS") None (Some [TStr]) None None;
   mk_data (lit "producer") 901 (lit "Producer") None (Some [TStr]) None None;
   mk_data (lit "comment") 902 (lit "Comment") None (Some [TStr]) None None;
   mk_data (lit "format_version") 950 (lit "Format version") None (Some [TStr]) None None;
   mk_data (lit "mime_type") 951 (lit "MIME type") None (Some [TStr]) None None;
   mk_data (lit "endian") 952 (lit "Endianness") None (Some [TStr]) None None
  ].
(** metadata.py:16-31, 225-228: RootMetadata(); [assert data.key not in self.__data] included *)
Definition root_metadata : res meta :=
  fold_left (fun m d => do m <- m; register m d) all_items (Ok {| m_header := lit "Metadata"; m_data := [] |}).
Definition root : meta := {| m_header := lit "Metadata"; m_data := all_items |}.

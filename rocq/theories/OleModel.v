(** Model of parser/misc/ole2.py: block chains of an OLE2 file and the fragments
    made of them (with field/fragment.py), and of the cluster chains of
    parser/file_system/fat.py. *)
From Verif Require Export Base StreamModel.

(** ole2.py:40-45: the special values of a SECT *)
Definition UNUSED : Z := 0xFFFFFFFF.
Definition END_OF_CHAIN : Z := 0xFFFFFFFE.
Definition BFAT_SECTOR : Z := 0xFFFFFFFD.
Definition DIFAT_SECTOR : Z := 0xFFFFFFFC.
Definition is_special (b : Z) : bool := existsb (Z.eqb b) [END_OF_CHAIN; UNUSED; BFAT_SECTOR; DIFAT_SECTOR].

(** ole2.py:159-168, 341-359: a FAT is a list of sectors; the fields of sector number
    i are named index[i*items] to index[(i+1)*items-1].  ole2.py:335-338:
    [fat[block // items]["index[%u]" % block]], [None] for a LookupError. *)
Definition fat_entry (items : Z) (fat : list (list Z)) (block : Z) : option Z :=
  match nth_error fat (Z.to_nat (block / items)) with
  | None => None
  | Some sector => nth_error sector (Z.to_nat (block mod items))
  end.

(** ole2.py:323-339: the loop of getChain: the blocks it yields and how it ends.
    [seen] is block_set. *)
Fixpoint chain_loop (fuel : nat) (items : Z) (fat : list (list Z)) (block : Z) (seen : list Z) : list Z * res unit :=
  match fuel with
  | O => ([], Err OutOfFuel)
  | S fuel =>
      if block =? END_OF_CHAIN then ([], Ok tt)
      else if is_special block then ([], Err ParserError)
      else if existsb (Z.eqb block) seen then ([], Err ParserError)
      else
        let r := match fat_entry items fat block with
                 | None => ([], Ok tt)
                 | Some next => chain_loop fuel items fat next (block :: seen)
                 end in
        (block :: fst r, snd r)
  end.
(** ole2.py:313-339: getChain; the fuel is one more than the entries of the FAT, plus one. *)
Definition getChain (items : Z) (fat : list (list Z)) (start : Z) : list Z * res unit :=
  chain_loop (S (S (length (List.concat fat)))) items fat start [].

(** ole2.py:274-311: the loop of parseProperty, on the blocks [l] of a chain that
    ends with [e]; [run] is (first, previous, size), [None] when first is None.  The
    fragments yielded (first block, size) and how it ends. *)
Fixpoint fragment_loop (sector_size : Z) (l : list Z) (e : res unit) (run : option (Z * Z * Z)) : list (Z * Z) * res unit :=
  match l with
  | block :: l =>
      match run with
      | None => fragment_loop sector_size l e (Some (block, block, sector_size))
      | Some (first, previous, size) =>
          if block =? previous + 1 then fragment_loop sector_size l e (Some (first, block, size + sector_size))
          else let r := fragment_loop sector_size l e (Some (block, block, sector_size)) in ((first, size) :: fst r, snd r)
      end
  | [] =>
      match e with
      | Err x => ([], Err x)
      | Ok _ => (match run with None => [] | Some (first, _, size) => [(first, size)] end, Ok tt)
      end
  end.
(** ole2.py:156 and 387-388: HEADER_SIZE and the address of a block, in bits *)
Definition HEADER_SIZE : Z := 64 + 68 * 8 + 109 * 32.
Definition block_address (sector_size block : Z) : Z := HEADER_SIZE + block * sector_size.
(** ole2.py:267-311: parseProperty, for a property that is not left out by its size
    (lines 268-271): address and size of each fragment *)
Definition parseProperty (sector_size items : Z) (fat : list (list Z)) (start : Z) : list (Z * Z) * res unit :=
  let '(l, e) := getChain items fat start in
  let r := fragment_loop sector_size l e None in
  (map (fun f => (block_address sector_size (fst f), snd f)) (fst r), snd r).
(** field/fragment.py:15-21, 39-40: the data of a group of fragments *)
Fixpoint group_data (read : read_fun) (fragments : list (Z * Z)) : res (list Z) :=
  match fragments with
  | [] => Ok []
  | (address, size) :: l => do d <- readBytes read address (size / 8); do r <- group_data read l; Ok (d ++ r)
  end.

(** ole2.py:375-385: createContentSize *)
Definition content_size (sector_size : Z) (fat : list (list Z)) : Z :=
  let max_block := fold_left (fun m b => if is_special b then m else Z.max b m) (List.concat fat) 0 in
  HEADER_SIZE + (max_block + 1) * sector_size.

(** ** FAT file systems *)
(** fat.py:67-86: FatEntry, the text of an entry *)
Inductive fat_text := Reserved_cluster | Free_cluster | End_of_chain | Bad_cluster | Reserved_value | Number (n : Z).
Definition FatEntry (version i : Z) : fat_text :=
  let j := (1 - i) mod 2 ^ Z.min 28 version in
  if j =? 0 then Reserved_cluster
  else if j =? 1 then Free_cluster
  else if j <? 10 then End_of_chain
  else if j =? 10 then Bad_cluster
  else if j <? 18 then Reserved_value
  else Number i.
(** [self.fat[next / 1000]]: the index is a float, field/field.py:240-241 then
    evaluates key[0] *)
Definition fat_next (next : Z) : res Z := Err TypeError.
(** fat.py:343-360: clusters(), up to the first value that it yields; [cluster] is
    what cluster_func gives *)
Definition first_clusters (version cluster : Z) : res (option Z) :=
  let max_entry := 2 ^ Z.min 28 version - 16 in
  if (1 <? cluster) && (cluster <? max_entry) then do n <- fat_next cluster; Ok (Some n)
  else Ok None.

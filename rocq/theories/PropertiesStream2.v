(** Properties C09, C11, C12, C13 (streams with a state) and C19 (the ordered
    dictionary). *)
From Verif Require Import Base StreamModel StreamSpec StreamProofs BitsModel.
From Verif Require Import FragmentModel FragmentSpec FragmentProofs.
From Verif Require Import PipeModel PipeSpec PipeProofs2 DictModel DictSpec DictProofs.
From Coq Require Import Permutation.

(** ** C09 *)
(** Every read of every history of reads answers from the concatenation of
    the fragments, whatever was discovered before.  [next = []] (one fragment
    only): the constructor does not look at the parent's size. *)
Theorem C09_fragmented_reads : forall pread pdata f next st reads,
  serves pread pdata -> Forall frag_ok (Some f :: next) ->
  0 < zlen (chain_content pdata (Some f :: next)) ->
  (next = [] -> fst f + snd f <= 8 * zlen pdata) ->
  fs_init f next = Ok st -> Forall (fun r => 0 <= fst r /\ 1 <= snd r) reads ->
  Forall2 (fun r ans => read_answer (chain_content pdata (Some f :: next)) (fst r) (snd r) ans)
          reads (snd (fs_run pread (8 * zlen pdata) st reads)).
Proof. intros. eapply frag_reads; eassumption. Qed.
Print Assumptions C09_fragmented_reads.
(** Its constructor succeeds, and whenever a size is announced it is the size
    of the concatenation. *)
Theorem C09_fragmented_size : forall pread pdata f next reads,
  serves pread pdata -> Forall frag_ok (Some f :: next) ->
  0 < zlen (chain_content pdata (Some f :: next)) ->
  (next = [] -> fst f + snd f <= 8 * zlen pdata) ->
  Forall (fun r => 0 <= fst r /\ 1 <= snd r) reads ->
  exists st, fs_init f next = Ok st /\
    forall z, fs_size (fst (fs_run pread (8 * zlen pdata) st reads)) = Some z ->
              z = 8 * zlen (chain_content pdata (Some f :: next)).
Proof. intros. eapply frag_size; eassumption. Qed.
Print Assumptions C09_fragmented_size.
(** After a read beyond the end the size is announced. *)
Theorem C09_fragmented_end : forall pread pdata f next reads st a n,
  serves pread pdata -> Forall frag_ok (Some f :: next) ->
  0 < zlen (chain_content pdata (Some f :: next)) ->
  (next = [] -> fst f + snd f <= 8 * zlen pdata) ->
  fs_init f next = Ok st -> Forall (fun r => 0 <= fst r /\ 1 <= snd r) reads ->
  In (a, n) reads -> 8 * zlen (chain_content pdata (Some f :: next)) < a + n ->
  fs_size (fst (fs_run pread (8 * zlen pdata) st reads)) = Some (8 * zlen (chain_content pdata (Some f :: next))).
Proof. intros. eapply frag_end; eassumption. Qed.
Print Assumptions C09_fragmented_end.
(** Three fragments out of order, read out of order and past the end. *)
Example C09_ex :
  let data := [10; 11; 12; 13; 14; 15; 16] in
  let f := (16, 16) in let next := [Some (0, 8); Some (40, 16)] in
  chain_content data (Some f :: next) = [12; 13; 10; 15; 16] /\
  exists st, fs_init f next = Ok st /\
    snd (fs_run (string_read data) 56 st [(20, 8); (8, 24); (36, 8); (0, 16)])
    = [Ok (4, [10; 15], false); Ok (0, [13; 10; 15], false); Ok (4, [16], true); Ok (0, [12; 13], false)].
Proof. split; [reflexivity|]. eexists. split; vm_compute; reflexivity. Qed.

(** ** C11 *)
(** Blocks have 2^bs bytes, at least [nb_min] of them are kept. *)
Theorem C11_pipe_like_file : forall nb_min bs data ops,
  (1 <= nb_min)%nat -> 0 <= bs -> Forall pipe_op_ok ops ->
  like_file data 0 ops (snd (pipe_run nb_min bs (pipe_init data) ops)).
Proof. exact pipe_like_file'. Qed.
Print Assumptions C11_pipe_like_file.
Theorem C11_pipe_small_file : forall nb_min bs data ops,
  (1 <= nb_min)%nat -> 0 <= bs ->
  blocks_of (2 ^ bs) (zlen data) <= Z.of_nat nb_min -> Forall pipe_op_ok ops ->
  snd (pipe_run nb_min bs (pipe_init data) ops) = file_run data 0 ops.
Proof. exact pipe_small_file'. Qed.
Print Assumptions C11_pipe_small_file.
Theorem C11_pipe_first_size : forall nb_min bs data ops op z,
  (1 <= nb_min)%nat -> 0 <= bs -> Forall pipe_op_ok (ops ++ [op]) ->
  p_size (fst (pipe_run nb_min bs (pipe_init data) ops)) = None ->
  p_size (fst (pipe_run nb_min bs (pipe_init data) (ops ++ [op]))) = Some z ->
  z = zlen data.
Proof. exact pipe_first_size'. Qed.
Print Assumptions C11_pipe_first_size.
(** The size stays right for sources that are a whole number of blocks... *)
Theorem C11_pipe_size_partial : forall nb_min bs data ops z,
  (1 <= nb_min)%nat -> 0 <= bs -> Forall pipe_op_ok ops -> zlen data mod 2 ^ bs = 0 ->
  p_size (fst (pipe_run nb_min bs (pipe_init data) ops)) = Some z -> z = zlen data.
Proof. exact pipe_exact_size'. Qed.
Print Assumptions C11_pipe_size_partial.
(** ... but not otherwise: a second read past the end announces a size that
    counts the last, short block as a full one. *)
Theorem C11_pipe_size_refuted : exists nb_min bs data ops z,
  (1 <= nb_min)%nat /\ 0 <= bs /\ Forall pipe_op_ok ops /\
  p_size (fst (pipe_run nb_min bs (pipe_init data) ops)) = Some z /\ z <> zlen data.
Proof.
  exists 256%nat, 2, [1; 2; 3; 4; 5], [PRead 10; PSeek 0; PRead 10], 8.
  split; [lia|]. split; [lia|]. split; [repeat constructor; cbn; lia|]. split; [vm_compute; reflexivity|vm_compute; discriminate].
Qed.
Print Assumptions C11_pipe_size_refuted.
(** Ten blocks of 2 bytes, one kept: going back fails, going on does not. *)
Example C11_ex :
  snd (pipe_run 1 1 (pipe_init [0; 1; 2; 3; 4; 5; 6; 7; 8; 9])
         [PRead 3; PSeek 7; PRead 2; PSeek 0; PRead 1; PSeek 8; PRead 5])
  = [Ok [0; 1; 2]; Ok []; Ok [7; 8]; Ok []; Err InputStreamError; Ok []; Ok [8; 9]].
Proof. vm_compute. reflexivity. Qed.

(** ** C12 *)
(** The ideal cache (PipeSpec) is a list of block numbers, least recently used
    first; what the pipe holds is exactly that. *)
Theorem C12_pipe_lru : forall nb_min bs data ops,
  (1 <= nb_min)%nat -> 0 <= bs -> Forall pipe_op_ok ops ->
  let p := fst (pipe_run nb_min bs (pipe_init data) ops) in
  let c := i_cache (fst (ideal_run nb_min (2 ^ bs) data ideal_init ops)) in
  length (p_buffers p) = c_count c /\
  (forall i, nth_error (p_buffers p) i = Some None <-> (i < p_first p)%nat) /\
  Permutation (c_live c) (seq (p_first p) (c_count c - p_first p)) /\
  p_last p = (match rev (c_live c) with [] => None | x :: _ => Some x end) /\
  circular (p_buffers p) (c_live c) /\
  (forall i b, nth_error (p_buffers p) i = Some (Some b) -> b_data b = sub data (Z.of_nat i * 2 ^ bs) (2 ^ bs)).
Proof. exact pipe_lru'. Qed.
Print Assumptions C12_pipe_lru.
Example C12_ex :
  let p := fst (pipe_run 2 1 (pipe_init [0; 1; 2; 3; 4; 5; 6; 7; 8; 9])
                  [PRead 2; PSeek 4; PRead 1; PSeek 2; PRead 1; PSeek 8; PRead 1]) in
  p_first p = 1%nat /\ p_last p = Some 4%nat /\
  c_live (i_cache (fst (ideal_run 2 2 [0; 1; 2; 3; 4; 5; 6; 7; 8; 9] ideal_init
                  [PRead 2; PSeek 4; PRead 1; PSeek 2; PRead 1; PSeek 8; PRead 1]))) = [2; 1; 3; 4]%nat.
Proof. vm_compute. auto. Qed.

(** ** C13 *)
Theorem C13_file_view : forall read data ops,
  serves read data -> 0 < zlen data -> pyfile_ok data 0 ops ->
  snd (fview_run read (zlen data) fview_init ops) = snd (pyfile_run data 0 ops).
Proof. intros. eapply file_view; eassumption. Qed.
Print Assumptions C13_file_view.
Example C13_ex :
  snd (fview_run (string_read [1; 2; 3; 4; 5]) 5 fview_init
         [VSeek (-3) 2; VRead (Some 2); VTell; VSeek 0 1; VRead None; VSeek 9 0; VRead (Some 4); VTell])
  = [VNone; VData [3; 4]; VPos 4; VNone; VData [5]; VNone; VData []; VPos 9].
Proof. vm_compute. reflexivity. Qed.

(** ** C19 *)
(** Missing for the full claim: histories where [replace] renames a key onto
    another key in use, for which the claim is false (next theorem). *)
Theorem C19_dict_history_partial : forall V (ops : list (dict_op V)),
  no_clash_run [] ops = true ->
  snd (dict_run dict_empty ops) = snd (alist_run [] ops) /\
  NoDup (map fst (fst (alist_run [] ops))).
Proof. exact @dict_history_partial. Qed.
Print Assumptions C19_dict_history_partial.
(** After replacing key [2] by the existing key [1], deleting the second
    item leaves an item that no key can reach. *)
Theorem C19_replace_clash_refuted : exists ops : list (dict_op Z),
  snd (dict_run dict_empty (ops ++ [OpItems; OpContains [1]])) =
    snd (dict_run dict_empty ops) ++ [RItems [([1], 10)]; RBool false].
Proof.
  exists [OpAppend [1] 10; OpAppend [2] 20; OpReplace [2] [1] 30; OpDel 1].
  vm_compute. reflexivity.
Qed.
Print Assumptions C19_replace_clash_refuted.
Example C19_ex :
  no_clash_run [] [OpAppend [1] 10; OpInsert (-1) [2] 20; OpReplace [1] [3] 30; OpSet [2] 5; OpDel 0; OpItems] = true /\
  snd (dict_run dict_empty [OpAppend [1] 10; OpInsert (-1) [2] 20; OpReplace [1] [3] 30; OpSet [2] 5; OpDel 0; OpItems])
  = [RNone; RNone; RNone; RNone; RNone; RItems [([3], 30)]].
Proof. vm_compute. auto. Qed.

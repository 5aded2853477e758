(** C40: searching files in a file. *)
From Coq Require Import String.
From Verif Require Import Lit.
From Verif Require Import Base BaseProofs DictModel DictProofs StreamModel StreamSpec StreamProofs SubfileModel SubfileSpec SubfileProofs.
Ltac Zify.zify_post_hook ::= Z.div_mod_to_equations.
Open Scope Z_scope.

(** ** A pattern matcher for the examples: the first magic that matches *)
Definition ex_pick (magics : list magic) (d : list Z) : option magic := find (fun g => str_eqb (g_text g) (firstn (length (g_text g)) d)) magics.
Lemma ex_picks magics : picks (ex_pick magics) magics.
Proof.
  intros d. unfold ex_pick. destruct (find _ magics) as [g|] eqn:F.
  - apply find_some in F. destruct F as [I E]. apply str_eqb_eq in E. split; [exact I|]. exists (skipn (length (g_text g)) d). rewrite E at 1. symmetry. apply firstn_skipn.
  - intros g r I E. pose proof (find_none _ _ F g I) as X. cbv beta in X. rewrite E, firstn_app, firstn_all, Nat.sub_diag in X. cbn [firstn] in X. rewrite app_nil_r in X.
    assert (str_eqb (g_text g) (g_text g) = true) by (apply str_eqb_eq; reflexivity). congruence.
Qed.

(** Every reported file has a magic of its parser at the right place, and the parser
    validated it. *)
Theorem C40_sound : forall pick guess magics data offset limit r, picks pick magics -> 0 <= offset -> (forall s, limit = Some s -> 0 <= s) ->
  main pick guess (Some magics) (string_read data) (8 * zlen data) offset limit = Ok r ->
  forall off cls, In (off, cls) r -> magic_at magics data off cls /\ 0 <= off /\ guess off cls <> None.
Proof.
  intros pick guess magics data offset limit r PK O L E. unfold main in E. pose proof (zlen_nonneg data).
  set (sz := match limit with Some s => Z.min (zlen data) (offset + s) | None => zlen data end).
  assert (SZ : match limit with Some s => Z.min (8 * zlen data) ((offset + s) * 8) | None => 8 * zlen data end = 8 * sz) by (unfold sz; destruct limit; lia). rewrite SZ in E.
  assert (0 <= sz <= zlen data) by (unfold sz; destruct limit as [s|]; [specialize (L s eq_refl)|]; lia).
  apply (search_sound pick magics PK guess data sz (Z.max (SLICE_SIZE * 8) (max_length magics * 8)) ltac:(unfold SLICE_SIZE; lia) ltac:(unfold SLICE_SIZE; lia) ltac:(assumption) (Z.to_nat (8 * sz)) (offset * 8) None r ltac:(lia) E).
Qed.
Print Assumptions C40_sound.
(** Every magic that lies within one slice is reported (if the parser validates),
    provided that no two magics overlap and no parser asks to skip its content.
    Missing: magics across two slices (refuted below), overlapping magics, and
    files inside a file that is skipped. *)
Theorem C40_complete_partial : forall pick guess magics data offset limit, picks pick magics -> (forall h, In h magics -> g_text h <> []) -> no_overlap magics data -> never_skips guess ->
  0 <= offset -> (forall s, limit = Some s -> 0 <= s) ->
  let size := match limit with Some s => Z.min (zlen data) (offset + s) | None => zlen data end in
  let slice := Z.max (64 * 1024) (max_length magics) in
  exists r, main pick guess (Some magics) (string_read data) (8 * zlen data) offset limit = Ok r /\
  forall g p, In g magics -> occurs_at (g_text g) data p -> offset <= p -> p + zlen (g_text g) <= size ->
    (p - offset) / slice = (p + zlen (g_text g) - 1 - offset) / slice ->
    0 <= 8 * p - g_offset g -> guess (8 * p - g_offset g) (g_class g) <> None -> In (8 * p - g_offset g, g_class g) r.
Proof.
  intros pick guess magics data offset limit PK NE NO NS O L size slice. unfold main. pose proof (zlen_nonneg data).
  assert (SZ : match limit with Some s => Z.min (8 * zlen data) ((offset + s) * 8) | None => 8 * zlen data end = 8 * size) by (unfold size; destruct limit; lia). rewrite SZ.
  assert (B : 0 <= size <= zlen data) by (unfold size; destruct limit as [s|]; [specialize (L s eq_refl)|]; lia).
  replace (Z.max (SLICE_SIZE * 8) (max_length magics * 8)) with (8 * slice) by (unfold slice, SLICE_SIZE; lia). assert (SL : 64 * 1024 <= slice) by (unfold slice; lia).
  replace (offset * 8) with (8 * offset) by lia.
  destruct (search_complete pick magics PK guess data size (8 * slice) ltac:(lia) ltac:(lia) B (Z.to_nat (8 * size)) NS NO NE offset O ltac:(lia)) as (r & E & C). exists r. split; [exact E|].
  intros g p G OC P EN D OP GU. apply C; auto. replace (8 * slice / 8) with slice by lia. exact D.
Qed.
Print Assumptions C40_complete_partial.
Definition ex_magics : list magic := [{| g_text := lit "PK"; g_offset := 0; g_class := 1 |}; {| g_text := lit "ustar"; g_offset := 16; g_class := 2 |}].
Definition ex_guess (off cls : Z) : option found := if off =? 80 then None else Some {| f_size := None; f_skip := false |}.
Example C40_ex : main (ex_pick ex_magics) ex_guess (Some ex_magics) (string_read (lit "--PK------PK..ustar")) (8 * 19) 0 None = Ok [(16, 1); (96, 2)].
Proof. vm_compute. reflexivity. Qed.
Example C40_ex_hyp : (forall h, In h ex_magics -> g_text h <> []) /\ never_skips ex_guess.
Proof. split; [intros h [<-|[<-|[]]]; discriminate|]. intros off cls f. unfold ex_guess. destruct (off =? 80); [discriminate|]. intros E. injection E as <-. left. reflexivity. Qed.
(** With skipping: what lies in a file that asks for it is not searched. *)
Example C40_skip_ex : main (ex_pick ex_magics) (fun off cls => Some {| f_size := Some 96; f_skip := true |}) (Some ex_magics) (string_read (lit "--PK------PK..ustar")) (8 * 19) 0 None = Ok [(16, 1)].
Proof. vm_compute. reflexivity. Qed.
(** No file is reported inside a file whose content is skipped. *)
Theorem C40_skip : forall pick guess magics read stream_size offset limit r, (forall off cls n, skips guess off cls n -> 0 <= n) ->
  main pick guess (Some magics) read stream_size offset limit = Ok r ->
  forall r1 o1 c1 r2 o2 c2 r3 n, r = r1 ++ (o1, c1) :: r2 ++ (o2, c2) :: r3 -> skips guess o1 c1 n -> o1 + n <= o2.
Proof.
  intros pick guess magics read stream_size offset limit r NN E r1 o1 c1 r2 o2 c2 r3 n ER S. unfold main in E.
  destruct (search_apart guess NN _ _ _ _ _ _ None _ ltac:(cbn; lia) E) as [A _]. exact (apart_split guess r A r1 (o1, c1) r2 (o2, c2) r3 n ER S).
Qed.
Print Assumptions C40_skip.
(** With skipping, every magic of the first slice is reported, or its file starts before
    the end of a reported file whose content is skipped.
    Missing: the slices that follow. *)
Theorem C40_skip_complete_partial : forall pick guess magics data offset limit r, picks pick magics -> (forall off cls n, skips guess off cls n -> 0 <= n) ->
  (forall h, In h magics -> g_text h <> [] /\ 0 <= g_offset h) -> no_overlap magics data ->
  0 <= offset -> (forall s, limit = Some s -> 0 <= s) ->
  let size := match limit with Some s => Z.min (zlen data) (offset + s) | None => zlen data end in
  main pick guess (Some magics) (string_read data) (8 * zlen data) offset limit = Ok r ->
  forall g p, In g magics -> occurs_at (g_text g) data p -> offset <= p -> p + zlen (g_text g) <= size -> p + zlen (g_text g) <= offset + 64 * 1024 ->
    0 <= 8 * p - g_offset g -> guess (8 * p - g_offset g) (g_class g) <> None ->
    In (8 * p - g_offset g, g_class g) r \/ exists o cls n, In (o, cls) r /\ skips guess o cls n /\ 8 * p - g_offset g < o + n.
Proof.
  intros pick guess magics data offset limit r PK NN NE NO O L size E g p G OC P EN SL OP GU. unfold main in E. pose proof (zlen_nonneg data).
  assert (SZ : match limit with Some s => Z.min (8 * zlen data) ((offset + s) * 8) | None => 8 * zlen data end = 8 * size) by (unfold size; destruct limit; lia). rewrite SZ in E.
  assert (B : 0 <= size <= zlen data) by (unfold size; destruct limit as [s|]; [specialize (L s eq_refl)|]; lia).
  set (slice := Z.max (64 * 1024) (max_length magics)).
  replace (Z.max (SLICE_SIZE * 8) (max_length magics * 8)) with (8 * slice) in E by (unfold slice, SLICE_SIZE; lia). assert (HS : 64 * 1024 <= slice) by (unfold slice; lia).
  replace (offset * 8) with (8 * offset) in E by lia.
  apply (first_slice pick magics guess data size (8 * slice) (Z.to_nat (8 * size)) offset r PK NN NO NE ltac:(lia) ltac:(lia) B O E g p G OC P EN); [|exact OP|exact GU].
  replace (8 * slice / 8) with slice by lia. lia.
Qed.
Print Assumptions C40_skip_complete_partial.
(** A file that starts where the skipped one ends is reported; one that starts inside is not. *)
Example C40_skip_end_ex : let guess := fun off cls => Some {| f_size := Some 64; f_skip := true |} in
  main (ex_pick ex_magics) guess (Some ex_magics) (string_read (lit "--PK-PK---PK--")) (8 * 14) 0 None = Ok [(16, 1); (80, 1)] /\
  skips guess 16 1 64.
Proof. split; [vm_compute; reflexivity|]. eexists. split; [reflexivity|]. split; reflexivity. Qed.

(** "Every magic is reported" fails for a magic across two slices of 64 KiB. *)
Definition straddling : list Z := repeat 0 (Z.to_nat 65535) ++ lit "PK".
Theorem C40_slices_refuted : occurs_at (lit "PK") straddling 65535 /\
  main (ex_pick ex_magics) (fun _ _ => Some {| f_size := None; f_skip := false |}) (Some ex_magics) (string_read straddling) (8 * zlen straddling) 0 None = Ok [].
Proof.
  split; [|vm_compute; reflexivity]. apply occurs_split. exists (repeat 0 (Z.to_nat 65535)), []. split; [rewrite app_nil_r; reflexivity|]. unfold zlen. rewrite repeat_length. lia.
Qed.
Print Assumptions C40_slices_refuted.
(** ... for a magic that overlaps the one before *)
Theorem C40_overlap_refuted : let g := {| g_text := lit "ABA"; g_offset := 0; g_class := 1 |} in
  occurs_at (lit "ABA") (lit "ABABA") 2 /\ main (ex_pick [g]) (fun off _ => if off =? 16 then Some {| f_size := None; f_skip := false |} else None) (Some [g]) (string_read (lit "ABABA")) 40 0 None = Ok [].
Proof. split; [|vm_compute; reflexivity]. apply occurs_split. exists (lit "AB"), []. split; reflexivity. Qed.
Print Assumptions C40_overlap_refuted.
(** ... and for the second parser with the same magic: the text is loaded once. *)
Theorem C40_same_magic_refuted : forall t o c1 c2 l, (forall g, In g l -> g_text g <> t) -> c1 <> c2 ->
  ~ In {| g_text := t; g_offset := o; g_class := c2 |} (load_magics [] ({| g_text := t; g_offset := o; g_class := c1 |} :: {| g_text := t; g_offset := o; g_class := c2 |} :: l)).
Proof.
  intros t o c1 c2 l N D I. cbn [load_magics existsb app g_text] in I. replace (str_eqb t t) with true in I by (symmetry; apply str_eqb_eq; reflexivity). cbn [orb] in I.
  apply load_magics_in in I. destruct I as [[I|[]]|I]; [congruence|]. exact (N _ I eq_refl).
Qed.
Print Assumptions C40_same_magic_refuted.
(** What is loaded: for each magic of a parser its text, and nothing else *)
Theorem C40_magics : forall l, (forall g, In g (load_magics [] l) -> In g l) /\ (forall g, In g l -> exists h, In h (load_magics [] l) /\ g_text h = g_text g).
Proof. intros l. split; [intros g I; apply load_magics_in in I; destruct I as [[]|I]; exact I|intros g I; exact (load_magics_text l [] g I)]. Qed.
Print Assumptions C40_magics.
(** "The search goes on after each file" fails if a file asks to skip its content,
    whose size is not a number of bytes, beyond the slice. *)
Theorem C40_unaligned_refuted : main (ex_pick ex_magics) (fun _ _ => Some {| f_size := Some 524292; f_skip := true |}) (Some ex_magics) (string_read (lit "PK" ++ repeat 0 (Z.to_nat 65600))) (8 * 65602) 0 None = Err InputStreamError.
Proof. vm_compute. reflexivity. Qed.
Print Assumptions C40_unaligned_refuted.
(** "Loading the parsers first is optional" fails. *)
Theorem C40_optional_refuted : forall pick guess read size offset limit, main pick guess None read size offset limit = Err AttributeError.
Proof. reflexivity. Qed.
Print Assumptions C40_optional_refuted.

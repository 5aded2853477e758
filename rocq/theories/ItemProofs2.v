(** Generators that follow a table of fields found in the file: the rules of ItemProofs.v with the place of the table carried along. *)
From Coq Require Import String.
From Verif Require Import Base BaseProofs BitsModel BitsSpec BitsProofs StreamModel StreamSpec StreamProofs DictModel DictProofs NumSpec NumRead ChunkBase GenModel GenSpec GenProofs ItemSpec ItemProofs.
Open Scope Z_scope.
Ltac Zify.zify_post_hook ::= Z.div_mod_to_equations.

Lemma bytes_of_all_cons i l : bytes_of_all (i :: l) = bytes_of i ++ bytes_of_all l.
Proof. reflexivity. Qed.
Lemma zlen_pos {A} (x : list A) : x <> [] -> 1 <= zlen x.
Proof. destruct x as [|y x]; [contradiction|]. intros _. rewrite zlen_cons. pose proof (zlen_nonneg x). lia. Qed.
Section Obey.
Context (read : read_fun) (data : list Z) (Hs : serves read data) (Hb : is_bytes data).
(** The table is in the file at the byte [p], before the bit [stop]. *)
Definition fits (stop p : Z) (l : list item) : Prop := occurs_at (bytes_of_all l) data p /\ 8 * (p + zlen (bytes_of_all l)) <= stop.
Definition obeys (stop p : Z) (pr : prog) (l : list item) (q : prog) : Prop := fits stop p l -> follows read data stop p pr l q.
Lemma fits_cons stop p i l : fits stop p (i :: l) -> occurs_at (bytes_of i) data p /\ 8 * (p + len i) <= stop /\ fits stop (p + len i) l.
Proof using Type.
  intros [O St]. rewrite bytes_of_all_cons, zlen_app in *. apply occ_app in O as [O1 O2]. pose proof (zlen_nonneg (bytes_of_all l)). unfold fits, len. split; [exact O1|]. split; [lia|]. split; [exact O2|lia].
Qed.
Lemma fits_app stop p l l' : fits stop p (l ++ l') -> fits stop p l /\ fits stop (p + zlen (bytes_of_all l)) l'.
Proof using Type.
  intros [O St]. rewrite bytes_of_all_app, zlen_app in *. apply occ_app in O as [O1 O2]. pose proof (zlen_nonneg (bytes_of_all l')). unfold fits. split; split; auto; lia.
Qed.
Lemma ob_nil stop p q : obeys stop p q [] q.
Proof using Type. intros _. apply fo_nil. Qed.
Lemma ob_plain stop p name k c s l q : plain_ok s -> k = kind_of s -> obeys stop (p + len (I name s)) (c (plain_val s)) l q -> obeys stop p (PFld name k c) (I name s :: l) q.
Proof using Type. intros K E H F. apply fits_cons in F as (_ & _ & F). apply fo_plain; auto. Qed.
Lemma ob_bits stop p pr e n bs l q q' : e <> MIDDLE_ENDIAN -> (1 <= n)%nat -> zlen (all_bits bs) = 8 * Z.of_nat n -> takes e pr bs q -> obeys stop (p + Z.of_nat n) q l q' -> obeys stop p pr (IBits e n bs :: l) q'.
Proof using Type. intros E N L T H F. apply fits_cons in F as (_ & _ & F). unfold len in F. cbn [bytes_of] in F. rewrite zlen_uint in F. apply (fo_bits read data _ _ _ _ _ _ _ q); auto. Qed.
Lemma ob_set stop p name s body c k l q : s = 8 * zlen (bytes_of_all k) -> 0 < s -> obeys (8 * p + s) p body k PRet -> obeys stop (p + zlen (bytes_of_all k)) (c (shows k p)) l q -> obeys stop p (PSet name (Some s) body c) (ISet name k :: l) q.
Proof using Type. intros E S0 Hb' H F. apply fits_cons in F as (O & _ & F). apply fo_set; auto. apply Hb'. split; [exact O|]. lia. Qed.
Lemma ob_open stop p name body c k l q : 0 < zlen (bytes_of_all k) -> obeys stop p body k PRet -> obeys stop (p + zlen (bytes_of_all k)) (c (shows k p)) l q -> obeys stop p (PSet name None body c) (ISet name k :: l) q.
Proof using Type. intros S0 Hb' H F. apply fits_cons in F as (O & St & F). apply fo_open; auto. apply Hb'. split; [exact O|]. exact St. Qed.
Lemma ob_code stop p name m c x v l q : (fits stop p (I name (SCode x v) :: l) -> m read (8 * p) = Ok (v, 8 * zlen x)) -> obeys stop (p + zlen x) (c (VNum v)) l q -> obeys stop p (PFld name (KCode m) c) (I name (SCode x v) :: l) q.
Proof using Type. intros M H F. pose proof (M F). apply fits_cons in F as (_ & _ & F). apply fo_code; auto. Qed.
Lemma ob_ask stop p c l q : obeys stop p (c stop (8 * p)) l q -> obeys stop p (PAsk c) l q.
Proof using Type. intros H F. apply fo_ask. auto. Qed.
Lemma ob_do stop p m c v l q : (fits stop p l -> m read (8 * zlen data) stop (8 * p) = Ok v) -> obeys stop p (c v) l q -> obeys stop p (PDo m c) l q.
Proof using Type. intros M H F. apply (fo_do _ _ _ _ _ _ v); auto. Qed.
(** Another generator that does the same from here on *)
Lemma ob_same stop p pr pr' l q : (forall f, run read (8 * zlen data) pr f stop (8 * p) = run read (8 * zlen data) pr' f stop (8 * p)) -> obeys stop p pr' l q -> obeys stop p pr l q.
Proof using Type. intros R H F. apply (fo_same read data _ _ _ pr'); auto. Qed.
Lemma ob_app stop p pr l q l' r : obeys stop p pr l q -> obeys stop (p + zlen (bytes_of_all l)) q l' r -> obeys stop p pr (l ++ l') r.
Proof using Type. intros H H' F. apply fits_app in F as [F F']. apply (follows_app read data _ _ _ _ q); auto. Qed.
(** Look at a field that the table has after [o] bytes. *)
Lemma ob_peek stop p o s st c l q k b x y : bytes_of_all l = x ++ plain_bytes s ++ y -> o = zlen x -> plain_ok s -> k = kind_of s -> b = 8 * o -> obeys stop p (c (plain_val s)) l q -> obeys stop p (peek b k st c) l q.
Proof using Hs Hb.
  intros E Ox K Ek Eb H F. pose proof F as F0. destruct F as [O St]. rewrite E in O, St. apply occ_app in O as [_ O]. apply occ_app in O as [O _]. rewrite !zlen_app in St. pose proof (zlen_nonneg y).
  apply (peek_ok read data Hs Hb o s st c stop p l q K); auto; [rewrite Ox; exact O|intros _; lia].
Qed.
Lemma ob_loop {A} (it : A -> list item) body ds stop p n : (length ds < n)%nat -> stop = 8 * (p + zlen (bytes_of_all (flat_map it ds))) ->
  (forall d p k, In d ds -> 0 < zlen (bytes_of_all (it d)) /\ obeys stop p (body k) (it d) k) -> obeys stop p (loop body n) (flat_map it ds) PRet.
Proof using Type. intros N E H [O St]. apply follows_loop; auto. intros d p' k D O' St'. destruct (H d p' k D) as [L Fo]. split; [exact L|]. apply Fo. split; auto. Qed.
Lemma ob_times {A} (it : A -> list item) body ds k stop p : (forall d p k, In d ds -> obeys stop p (body k) (it d) k) -> obeys stop p (times body (length ds) k) (flat_map it ds) k.
Proof using Type. intros H [O St]. apply follows_times; auto. intros d p' k' D O' St'. apply (H d p' k' D). split; auto. Qed.
Lemma obey_file pr l : data = bytes_of_all l -> obeys (8 * zlen data) 0 pr l PRet -> run read (8 * zlen data) pr true (8 * zlen data) 0 = (shows l 0, None, 8 * zlen data).
Proof using All. intros E H. apply follow_file; auto. apply H. split; [rewrite <- E; apply occ_self|rewrite <- E; lia]. Qed.
(** A file that starts with a table *)
Lemma obey_start pr l q : obeys (8 * zlen data) 0 pr l q -> occurs_at (bytes_of_all l) data 0 -> exists r, run read (8 * zlen data) pr true (8 * zlen data) 0 = puts (shows l 0) r.
Proof using All.
  intros H O. pose proof (occ_in _ _ _ O) as In'. assert (F : fits (8 * zlen data) 0 l) by (split; [exact O|lia]). pose proof (follow read data Hs Hb _ _ _ _ _ (H F) true O ltac:(destruct F; lia)) as R. change (8 * 0) with 0 in R. eexists. exact R.
Qed.
(** A generator that ends with the table, at the start of a file or not *)
Lemma obey_all pr l : obeys (8 * zlen data) 0 pr l PRet -> occurs_at (bytes_of_all l) data 0 -> run read (8 * zlen data) pr true (8 * zlen data) 0 = (shows l 0, None, 8 * zlen (bytes_of_all l)).
Proof using All.
  intros H O. pose proof (occ_in _ _ _ O) as In'. assert (F : fits (8 * zlen data) 0 l) by (split; [exact O|lia]). pose proof (follow_all read data Hs Hb _ _ _ _ true (H F) O ltac:(destruct F; lia)) as R. change (8 * 0) with 0 in R. exact R.
Qed.
End Obey.
Ltac sizes := unfold len, bytes_of_all in *; cbn [flat_map bytes_of plain_bytes map app] in *; rewrite ?app_nil_r in *; rewrite ?zlen_app, ?zlen_uint in *; change (zlen (@nil Z)) with 0 in *.
Ltac ob := first [ apply ob_nil | apply ob_plain; [first [ split; [discriminate|split; [lia|first [assumption|lia]]] | assumption ]|reflexivity|] ].

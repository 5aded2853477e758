(** What the parser of ID3 tags does on the tags of the format. *)
From Coq Require Import String.
From Verif Require Import Base BaseProofs BitsModel BitsSpec BitsProofs StreamModel StreamSpec StreamProofs StreamProofs2 DictModel DictProofs FieldModel ToolsModel NumSpec NumRead ChunkBase GenModel GenSpec GenProofs ItemSpec ItemProofs ItemProofs2 ZipSpec ZipProofs MidiSpec MidiProofs Id3Model Id3Spec Lit.
From Verif Require TextModel.
Open Scope Z_scope.
Ltac Zify.zify_post_hook ::= Z.div_mod_to_equations.

(** The charset of the code *)
Definition cs_of (c : coding) : TextModel.charset := match c with Latin => TextModel.Latin1 | Wide_le | Wide_be => TextModel.UTF16 | Wide => TextModel.UTF16BE | Utf8 => TextModel.UTF8 end.
Lemma getCharset_of c k : getCharset (coding_number c) k = k (cs_of c).
Proof. destruct c; reflexivity. Qed.
Lemma occ_one_in b x k : occurs_at [b] x k -> In b x.
Proof. intros O. destruct (occ_split _ _ _ O) as (pre & post & -> & _). apply in_or_app. right. left. reflexivity. Qed.
Section Read.
Context (read : read_fun) (data : list Z) (Hs : serves read data) (Hb : is_bytes data).
Notation obeys := (obeys read data).
Lemma mark_read c p x : occurs_at (mark c ++ x) data p -> mark c <> [] -> readBytes read (8 * p) 2 = Ok (mark c).
Proof using Hs Hb. intros O M. apply occ_app in O as [O _]. rewrite <- (rb_occ read data Hs p (mark c) O M). destruct c; try reflexivity; contradiction. Qed.
Lemma layout_fixed c x p : text_of c x <> [] -> short (text_of c x) -> occurs_at (text_of c x) data p ->
  exists l, TextModel.string_layout read (8 * zlen data) BE (8 * p) TextModel.FormatFixed (Some (cs_of c)) (Some (zlen (text_of c x))) = Ok l /\ TextModel.l_size l = 8 * zlen (text_of c x).
Proof using Hs Hb.
  intros Ne Sh O. unfold short in Sh. pose proof (zlen_pos _ Ne) as P. unfold TextModel.string_layout. pose proof (mark_read c p x O) as M.
  assert (E : negb ((1 <=? zlen (text_of c x)) && (zlen (text_of c x) <=? 65535)) = false) by lia. unfold TextModel.utf_charset.
  destruct c; cbn [cs_of]; cbn [assert_ bind]; rewrite E; cbn [bind]; try (eexists; split; [reflexivity|cbn [TextModel.l_size]; lia]); change (16 / 8) with 2; rewrite M by discriminate; cbn [bind mark]; (eexists; split; [reflexivity|cbn [TextModel.l_size]; lia]).
Qed.
Lemma first_found needle p L : needle <> [] -> 0 <= p <= L -> occurs_at needle data L -> exists i, searchBytes read (8 * zlen data) needle (8 * p) None = Ok (Some (8 * i)) /\ p <= i <= L /\ occurs_at needle data i.
Proof using Hs Hb.
  intros N P O. pose proof (occ_in _ _ _ O) as In'. pose proof (zlen_pos _ N). assert (Nd : data <> []) by (intros ->; cbn in In'; lia).
  destruct (searchBytes_correct read data needle p None Hs Nd N ltac:(lia)) as [(i & S & F1 & F2 & F3 & F4)|[_ F]].
  - exists i. split; [exact S|]. split; [|exact F3]. split; [exact F1|]. destruct (Z_le_gt_dec i L); [assumption|]. exfalso. apply (F4 L); [lia|exact O].
  - exfalso. destruct (first_le needle data L (zlen data) O ltac:(lia) p ltac:(lia)) as (k & K & _). exact (F k K).
Qed.
Lemma no_pair c x y z : narrow c = false -> ended_ok c x -> mark c ++ x <> y ++ [0; 0] ++ z.
Proof using Type.
  intros N K E. unfold ended_ok in K. rewrite N in K. destruct K as [_ K]. destruct c; try discriminate N; cbn [mark app] in E; [..|exact (K _ _ E)].
  all: destruct y as [|y1 [|y2 y]]; cbn [app] in E; try discriminate E; injection E as _ _ E; exact (K _ _ E).
Qed.
Lemma layout_ended c x p : ended_ok c x -> occurs_at (ended c x) data p ->
  exists l, TextModel.string_layout read (8 * zlen data) BE (8 * p) TextModel.FormatC (Some (cs_of c)) None = Ok l /\ TextModel.l_size l = 8 * zlen (ended c x).
Proof using Hs Hb.
  intros K O. pose proof O as O0. unfold ended in O0 |- *. rewrite app_assoc in O0. pose proof O0 as Oe. apply occ_app in Oe as [Om Oe]. set (L := zlen (mark c ++ x)) in *. pose proof (zlen_nonneg (mark c ++ x)) as L0. fold L in L0. pose proof (occ_in _ _ _ O) as [P0 _].
  assert (Ne : ending c <> []) by (unfold ending; destruct (narrow c); discriminate).
  destruct (first_found (ending c) p (p + L) Ne ltac:(lia) Oe) as (i & S & I & Oi). unfold searchBytesLength.
  assert (El : zlen (mark c ++ x ++ ending c) = L + zlen (ending c)) by (unfold L; rewrite !zlen_app; lia). rewrite El. clear El.
  unfold TextModel.string_layout, searchBytesLength.
  assert (Len : (if 1 <? zlen (ending c) then alignValue ((8 * i - 8 * p) / 8) (zlen (ending c)) else (8 * i - 8 * p) / 8) = L).
  { unfold ending in *. destruct (narrow c) eqn:Nw.
    - change (1 <? zlen [0]) with false. cbn iota. destruct (Z.eq_dec i (p + L)) as [->|D]; [lia|]. exfalso. unfold ended_ok in K. rewrite Nw in K. assert (Oi' : occurs_at [0] (mark c ++ x) (i - p)) by (apply (occ_inside data _ _ p); [exact Om|replace (p + (i - p)) with i by lia; exact Oi|lia|fold L; change (zlen [0]) with 1; lia]). apply occ_one_in in Oi'. destruct c; try discriminate Nw; exact (K Oi').
    - change (zlen [0; 0]) with 2 in *. change (1 <? 2) with true. cbn iota. assert (Hi : p + L - 1 <= i). { destruct (Z_le_gt_dec (p + L - 1) i) as [|G]; [assumption|]. exfalso. assert (Oi' : occurs_at [0; 0] (mark c ++ x) (i - p)) by (apply (occ_inside data _ _ p); [exact Om|replace (p + (i - p)) with i by lia; exact Oi|lia|fold L; change (zlen [0; 0]) with 2; lia]). destruct (occ_split _ _ _ Oi') as (y & z & E & _). exact (no_pair c x y z Nw K E). }
      assert (L mod 2 = 0). { unfold ended_ok in K. rewrite Nw in K. destruct K as [K _]. unfold L. rewrite zlen_app. destruct c; try discriminate Nw; cbn [mark]; rewrite ?zlen_cons; change (zlen (@nil Z)) with 0; lia. }
      unfold alignValue. replace ((8 * i - 8 * p) / 8) with (i - p) by lia. destruct ((i - p) mod 2 =? 0) eqn:A; cbn [negb]; lia. }
  pose proof (mark_read c p (x ++ ending c)) as M. unfold ended in O. specialize (M O).
  destruct c; cbn [cs_of]; unfold TextModel.suffix_str, TextModel.suffix_format, TextModel.utf_charset; cbn [bind]; unfold ending in *; cbn [narrow] in *; change (16 =? 8) with false in *; change (16 =? 16) with true in *; change (8 =? 8) with true in *; cbn iota; rewrite S; cbn [bind]; rewrite Len; cbn [bind]; try (eexists; split; [reflexivity|cbn [TextModel.l_size]; lia]); change (16 / 8) with 2; rewrite M by discriminate; cbn [bind mark]; (eexists; split; [reflexivity|cbn [TextModel.l_size]; lia]).
Qed.
Lemma ob_raw stop p name x k l q : x <> [] -> zlen x <= 2 ^ 64 -> obeys stop (p + zlen x) k l q -> forall n, n = zlen x -> obeys stop p (emit (lit name) (KBytes n); k) (raw name x :: l) q.
Proof using Type. intros N S H n ->. apply ob_plain; [split; assumption|reflexivity|exact H]. Qed.
Lemma occ_head stop p i l : fits data stop p (i :: l) -> occurs_at (bytes_of i) data p.
Proof using Type. intros F. apply fits_cons in F. apply F. Qed.
Lemma ob_text stop p name c x k l q : text_of c x <> [] -> short (text_of c x) -> obeys stop (p + zlen (text_of c x)) k l q ->
  obeys stop p (text_field name TextModel.FormatFixed (cs_of c) (Some (zlen (text_of c x))) k) (raw name (text_of c x) :: l) q.
Proof using Hs Hb.
  intros N S H. unfold text_field. eapply (ob_do read data) with (v := VNum (8 * zlen (text_of c x))).
  - intros F. apply occ_head in F. destruct (layout_fixed c x p N S F) as (y & -> & <-). reflexivity.
  - cbn [num]. unfold short in S. apply ob_raw; [exact N|change (2 ^ 64) with 18446744073709551616; lia|exact H|lia].
Qed.
Lemma ob_cstring stop p name c x k l q : ended_ok c x -> zlen (ended c x) <= 2 ^ 64 -> obeys stop (p + zlen (ended c x)) k l q -> obeys stop p (CString name (cs_of c) k) (raw name (ended c x) :: l) q.
Proof using Hs Hb.
  intros K Sz H F. pose proof (occ_head _ _ _ _ F) as O. cbn [bytes_of plain_bytes raw] in O. destruct (layout_ended c x p K O) as (y & Y & Sy). revert F. change (obeys stop p (CString name (cs_of c) k) (raw name (ended c x) :: l) q). unfold CString, text_field. eapply (ob_do read data) with (v := VNum (8 * zlen (ended c x))).
  - intros _. rewrite Y, <- Sy. reflexivity.
  - cbn [num]. apply ob_raw; [unfold ended, ending; destruct (narrow c), (mark c), x; discriminate|exact Sz|exact H|lia].
Qed.
Lemma ob_rest stop p c (y : str) l q : stop = 8 * (p + zlen y) -> (y = [] -> l = [] /\ q = PRet) -> (y <> [] -> obeys stop p (c (zlen y)) l q) -> obeys stop p (rest_of c) l q.
Proof using Type.
  intros E N H. unfold rest_of. apply ob_ask. cbv zeta. replace ((stop - 8 * p) / 8) with (zlen y) by lia. destruct y as [|b y].
  - destruct (N eq_refl) as [-> ->]. apply ob_nil.
  - destruct (zlen (b :: y) =? 0) eqn:Z; [rewrite zlen_cons in Z; pose proof (zlen_nonneg y); lia|]. apply H. discriminate.
Qed.
Lemma ob_rest_text stop p c x : stop = 8 * (p + zlen (text_of c x)) -> short (text_of c x) -> obeys stop p (Text (cs_of c)) (rest_text c x) PRet.
Proof using Hs Hb.
  intros E S. unfold Text. apply (ob_rest _ _ _ (text_of c x)); [exact E|intros N; unfold rest_text; rewrite N; auto|]. intros N. unfold rest_text. destruct (text_of c x) as [|b y] eqn:T; [contradiction|]. rewrite <- T in *. apply ob_text; [exact N|exact S|apply ob_nil].
Qed.
Lemma ob_rest_data stop p name (x : str) : stop = 8 * (p + zlen x) -> zlen x <= 2 ^ 64 -> obeys stop p (rest_of (fun size => emit (lit name) (KBytes size); PRet)) (rest_data name x) PRet.
Proof using Type.
  intros E S. apply (ob_rest _ _ _ x); [exact E|intros ->; auto|]. intros N. unfold rest_data. destruct x as [|b y] eqn:T; [contradiction|]. rewrite <- T in *. apply ob_raw; [exact N|exact S|apply ob_nil|reflexivity].
Qed.
Lemma len_rest_text c x : zlen (bytes_of_all (rest_text c x)) = zlen (text_of c x).
Proof using Type. unfold rest_text. destruct (text_of c x); [reflexivity|]. cbn [bytes_of_all flat_map]. rewrite app_nil_r. reflexivity. Qed.
Lemma len_rest_data n x : zlen (bytes_of_all (rest_data n x)) = zlen x.
Proof using Type. unfold rest_data. destruct x; [reflexivity|]. cbn [bytes_of_all flat_map]. rewrite app_nil_r. reflexivity. Qed.
Lemma coding_byte c : byte (coding_number c).
Proof using Type. unfold byte. destruct c; cbn; lia. Qed.
(** The parser of a content *)
Definition parser_of (k : content) : option prog :=
  match k with
  | Words _ _ => Some ID3_StringCharset
  | Remark _ _ _ _ => Some ID3_Comment
  | Titled _ _ _ => Some ID3_StringTitle
  | Link _ => Some ID3_String
  | Object _ _ _ _ _ => Some ID3_GEOB
  | Picture _ _ _ _ _ => Some ID3_Picture24
  | Picture22 _ _ _ _ _ => Some ID3_Picture23
  | Peak _ | Private _ => Some ID3_Private
  | Other _ => None
  end.
Ltac lens := unfold charset, raw, txt, be, len in *; repeat rewrite ?bytes_of_all_cons, ?bytes_of_all_app, ?zlen_app, ?len_rest_text, ?len_rest_data in *; cbn [bytes_of plain_bytes bytes_of_all flat_map] in *; rewrite ?zlen_uint in *; change (Z.of_nat 1) with 1 in *; change (zlen (@nil Z)) with 0 in *; rewrite ?zlen_app in *.
Ltac nonneg := repeat match goal with |- context [zlen ?x] => lazymatch goal with H : 0 <= zlen x |- _ => fail | _ => pose proof (zlen_nonneg x) end | H' : context [zlen ?x] |- _ => lazymatch goal with H : 0 <= zlen x |- _ => fail | _ => pose proof (zlen_nonneg x) end end.
Lemma ob_charset stop p c l q k : obeys stop (p + 1) (k (VNum (coding_number c))) l q -> obeys stop p (PFld (lit "charset") (KNum 8 BE) k) (charset c :: l) q.
Proof using Type. intros H. unfold charset, be. apply ob_plain; [split; [discriminate|split; [lia|apply coding_byte]]|reflexivity|exact H]. Qed.
Lemma ob_with_charset stop p c l q k : obeys stop (p + 1) (k (cs_of c)) l q -> obeys stop p (with_charset k) (charset c :: l) q.
Proof using Type. intros H. unfold with_charset. apply ob_charset. cbn [num]. rewrite getCharset_of. exact H. Qed.
Lemma ob_word stop p name x k l q n : n = zlen x -> x <> [] -> short x -> obeys stop (p + zlen x) (k (VBytes x)) l q -> obeys stop p (PFld (lit name) (KText n) k) (txt name x :: l) q.
Proof using Type. intros -> N S H. unfold txt. apply ob_plain; [split; assumption|reflexivity|exact H]. Qed.
Lemma ob_u8 stop p name v k l q : byte v -> obeys stop (p + 1) k l q -> obeys stop p (u8 name k) (be 1 name v :: l) q.
Proof using Type. intros V H. unfold be. apply ob_plain; [split; [discriminate|split; [lia|exact V]]|reflexivity|exact H]. Qed.
Lemma ended_pos c x : 1 <= zlen (ended c x).
Proof using Type. pose proof (zlen_pos (ended c x)). unfold ended, ending in *. assert (mark c ++ x ++ (if narrow c then [0] else [0; 0]) <> []) by (destruct (narrow c), (mark c), x; discriminate). specialize (H H0). lia. Qed.
Lemma content_obeys tag k P stop p : content_ok tag k -> parser_of k = Some P -> zlen (bytes_of_all (content_items k)) < 2 ^ 32 -> stop = 8 * (p + zlen (bytes_of_all (content_items k))) -> obeys stop p P (content_items k) PRet.
Proof using Hs Hb.
  intros K E Sz St. change (2 ^ 32) with 4294967296 in Sz. assert (B : 4294967296 <= 2 ^ 64) by (vm_compute; discriminate).
  destruct k as [c x|c lang title x|c title x|x|c mime name descr x|c mime type descr x|c format type descr x|x|x|x]; try discriminate E; injection E as <-; cbn [content_items content_ok app] in *; lens; nonneg.
  - destruct K as (_ & _ & S). unfold ID3_StringCharset. apply ob_charset. apply (ob_rest _ _ _ (text_of c x)); [lia|intros N; unfold rest_text; rewrite N; auto|]. intros N. cbn [num]. rewrite getCharset_of. unfold rest_text. destruct (text_of c x) as [|b y] eqn:T; [contradiction|]. rewrite <- T in *. apply ob_text; [exact N|exact S|apply ob_nil].
  - destruct K as (_ & L & T & S). unfold ID3_Comment. apply ob_charset. apply ob_word; [lia|intros ->; discriminate L|unfold short; lia|]. cbn [num]. rewrite getCharset_of. apply ob_cstring; [exact T|lia|]. apply ob_rest_text; [lia|exact S].
  - destruct K as (_ & T & S). unfold ID3_StringTitle. apply ob_charset. apply ob_ask. cbn [num]. rewrite getCharset_of. pose proof (ended_pos c title). replace (8 * (p + 1) =? stop) with false by lia. apply ob_cstring; [exact T|lia|]. apply ob_rest_text; [lia|exact S].
  - destruct K as (_ & N & S). unfold ID3_String. apply ob_ask. apply ob_word; [lia|exact N|exact S|apply ob_nil].
  - destruct K as (_ & _ & M & N & D & S). unfold ID3_GEOB. apply ob_with_charset. do 3 (apply ob_cstring; [assumption|lia|]). apply ob_rest_text; [lia|exact S].
  - destruct K as (_ & _ & M & Ty & D). unfold ID3_Picture24. apply ob_with_charset. apply ob_cstring; [assumption|lia|]. apply ob_u8; [exact Ty|]. apply ob_cstring; [assumption|lia|]. apply ob_rest_data; [lia|lia].
  - destruct K as (_ & F & Ty & D). unfold ID3_Picture23. apply ob_with_charset. apply ob_word; [lia|intros ->; discriminate F|unfold short; lia|]. apply ob_u8; [exact Ty|]. apply ob_cstring; [assumption|lia|]. apply ob_rest_data; [lia|lia].
  - destruct K as (_ & N & S). unfold ID3_Private. apply ob_ask. eapply (ob_do read data) with (v := VBytes (lit "PeakValue")).
    + intros F. apply occ_head in F. cbn [bytes_of plain_bytes] in F. change 9 with (zlen (lit "PeakValue")). rewrite (rb_occ read data Hs p _ F) by discriminate. reflexivity.
    + cbn [bytes]. change (zlen (lit "PeakValue")) with 9 in *. change (str_eqb (lit "PeakValue") (lit "PeakValue")) with true. cbn iota zeta. apply ob_word; [reflexivity|discriminate|vm_compute; discriminate|]. change (zlen (lit "PeakValue")) with 9. apply ob_word; [lia|exact N|exact S|apply ob_nil].
  - destruct K as (_ & N & S & Nb). unfold ID3_Private. apply ob_ask. eapply (ob_do read data) with (v := VBytes (firstn 9 x)).
    + intros F. apply occ_head in F. cbn [bytes_of plain_bytes] in F. rewrite <- (firstn_skipn 9 x) in F. apply occ_app in F as [F _]. assert (L9 : zlen (firstn 9 x) = 9) by (unfold zlen in *; rewrite firstn_length; lia). rewrite <- L9 at 1. rewrite (rb_occ read data Hs p _ F); [reflexivity|]. intros Z. rewrite Z in L9. discriminate L9.
    + cbn [bytes]. destruct (str_eqb (firstn 9 x) (lit "PeakValue")) eqn:Eq; [exfalso; apply Nb; apply str_eqb_eq in Eq; exists (skipn 9 x); rewrite <- Eq; symmetry; apply firstn_skipn|]. cbv zeta. apply ob_word; [lia|intros ->; cbn in N; lia|exact S|apply ob_nil].
Qed.
Lemma tag_plain t : Forall tag_char t -> tag_value t = t.
Proof using Type.
  intros F. unfold tag_value, TextModel.strip. assert (L : forall t, Forall tag_char t -> TextModel.lstrip (fun c => c =? 0) t = t). { intros t' F'. destruct F' as [|c t' C F']; [reflexivity|]. cbn [TextModel.lstrip]. unfold tag_char in C. replace (c =? 0) with false by lia. reflexivity. }
  rewrite (L t F). rewrite L by (apply Forall_rev, F). apply rev_involutive.
Qed.
Lemma content_found tag k : content_ok tag k -> tag <> [] -> content_parser tag = Ok (parser_of k).
Proof using Type.
  intros K N. unfold content_parser. assert (S : In tag special \/ ~ In tag special) by (destruct (in_dec (list_eq_dec Z.eq_dec) tag special); auto).
  assert (Nf : ~ In tag special -> find (fun h => str_eqb (fst h) tag) handler = None).
  { intros Ni. destruct (find _ handler) as [h|] eqn:F; [|reflexivity]. exfalso. apply find_some in F as [I E]. apply str_eqb_eq in E. apply Ni. rewrite <- E. unfold special. unfold handler in I. cbn [In] in I. repeat (destruct I as [<-|I]; [cbn [fst map In]; tauto|]). destruct I. }
  destruct k; cbn [content_ok parser_of] in *.
  - destruct K as ((t & ->) & Ni & _). rewrite (Nf Ni). reflexivity.
  - destruct K as ([<-|[<-|[]]] & _); reflexivity.
  - destruct K as ([-> |[-> _]] & _); reflexivity.
  - destruct K as (-> & _). reflexivity.
  - destruct K as (-> & _). reflexivity.
  - destruct K as (-> & _). reflexivity.
  - destruct K as (-> & _). reflexivity.
  - destruct K as (-> & _). reflexivity.
  - destruct K as (-> & _). reflexivity.
  - destruct K as (Ni & Nt & _). rewrite (Nf Ni). destruct tag as [|c t]; [contradiction|]. destruct (c =? 84) eqn:C; [|reflexivity]. exfalso. apply (Nt t). f_equal. lia.
Qed.
Lemma safe_sum v : 0 <= v < 2 ^ 28 -> fold_left (fun x y => x * 128 + y) (tl (safe_size v)) (hd 0 (safe_size v)) = v.
Proof using Type. intros V. change (2 ^ 28) with 268435456 in V. unfold safe_size. cbn [tl hd fold_left]. lia. Qed.
Lemma safe_read v p : 0 <= v < 2 ^ 28 -> occurs_at (safe_size v) data p -> (do b <- readBytes read (8 * p) 4; Ok (fold_left (fun x y => x * 128 + y) (tl b) (hd 0 b), 32)) = Ok (v, 8 * zlen (safe_size v)).
Proof using Hs.
  intros V O. change 4 with (zlen (safe_size v)) at 1. rewrite (rb_occ read data Hs p _ O) by discriminate. cbn [bind]. rewrite safe_sum by exact V. reflexivity.
Qed.
Lemma ob_safe stop p name v c l q : 0 <= v < 2 ^ 28 -> obeys stop (p + 4) (c (VNum v)) l q -> obeys stop p (PFld (lit name) ID3_Size c) (I (lit name) (SCode (safe_size v) v) :: l) q.
Proof using Hs. intros V H. apply ob_code; [|exact H]. intros F. apply safe_read; [exact V|]. exact (occ_head _ _ _ _ F). Qed.
(** Look ahead in a field set without a size *)
Lemma ob_ahead stop p first o s c l q k x y : bytes_of_all l = x ++ plain_bytes s ++ y -> o = 8 * zlen x -> first <= 8 * zlen (x ++ plain_bytes s) -> plain_ok s -> k = kind_of s -> obeys stop p (c (plain_val s)) l q -> obeys stop p (ahead first o k c) l q.
Proof using Hs Hb.
  intros E -> Fi K -> H. unfold ahead. eapply (ob_do read data); [|exact H]. intros [O St]. rewrite E in O, St. apply occ_app in O as [_ O]. apply occ_app in O as [O _]. rewrite !zlen_app in St. rewrite zlen_app in Fi. pose proof (zlen_nonneg y).
  destruct (plain_read read data Hs Hb s (p + zlen x) K O) as (z & Z1 & Z2 & V). replace (8 * p + 8 * zlen x) with (8 * (p + zlen x)) by lia. replace (stop <? 8 * p + first) with false by lia. rewrite Z1. cbn [bind]. replace (stop <? 8 * (p + zlen x) + z) with false by lia. exact V.
Qed.
Lemma ob_ahead_size stop p first o v c l q x y : bytes_of_all l = x ++ safe_size v ++ y -> o = 8 * zlen x -> first <= 8 * zlen x + 32 -> 0 <= v < 2 ^ 28 -> obeys stop p (c (VNum v)) l q -> obeys stop p (ahead first o ID3_Size c) l q.
Proof using Hs Hb.
  intros E -> Fi V H. unfold ahead. eapply (ob_do read data); [|exact H]. intros [O St]. rewrite E in O, St. apply occ_app in O as [_ O]. apply occ_app in O as [O _]. rewrite !zlen_app in St. change (zlen (safe_size v)) with 4 in St. pose proof (zlen_nonneg y).
  replace (8 * p + 8 * zlen x) with (8 * (p + zlen x)) by lia. replace (stop <? 8 * p + first) with false by lia. unfold fsize, fval, ID3_Size. rewrite (safe_read v _ V O). cbn [bind fst snd]. change (8 * zlen (safe_size v)) with 32. change (0 <=? 32) with true. cbn [bind]. replace (stop <? 8 * (p + zlen x) + 32) with false by lia. reflexivity.
Qed.
(** Frames *)
Definition size_max (ver : Z) : Z := if ver =? 2 then 2 ^ 24 else if ver =? 3 then 2 ^ 32 else 2 ^ 28.
Definition head_bytes (ver : Z) (a f r k : bool) : list Z := if ver =? 2 then [] else bytes_of (flags_item a f r k).
Lemma ver_cases ver : 2 <= ver <= 4 -> ver = 2 \/ ver = 3 \/ ver = 4.
Proof using Type. lia. Qed.
Lemma head_len_ok ver tag v a f r k : 2 <= ver <= 4 -> zlen tag = (if ver =? 2 then 3 else 4) -> zlen (bytes_of_all (head2 ver tag v a f r k)) = head_len ver.
Proof using Type.
  intros V T. unfold head2, head_len, size_item. destruct (ver_cases ver V) as [->|[->| ->]]; cbn [Z.eqb Pos.eqb app] in *; rewrite !bytes_of_all_cons, !zlen_app; unfold txt, be; cbn [bytes_of plain_bytes bytes_of_all flat_map flags_item]; rewrite ?zlen_uint, T; reflexivity.
Qed.
Lemma ob_flags stop p (a f r k : bool) c l q : obeys stop (p + 2) (c (VNum (if k then 1 else 0))) l q ->
  obeys stop p (bit "tag_alter" (bit "file_alter" (bit "rd_only" (emit (lit "padding[]") (KNum 5 BE); have compressed := (lit "compressed") (KNum 1 BE); bit "encrypted" (bit "group" (emit (lit "padding[]") (KNum 5 BE); c compressed))))))
    (flags_item a f r k :: l) q.
Proof using Type.
  intros H. unfold flags_item. eapply (ob_bits read data); [discriminate|lia|reflexivity| |exact H]. unfold flag, high, bit. do 8 (apply ta_cons; [cbn; lia|reflexivity|]). destruct k; apply ta_nil.
Qed.
Lemma chunk_fields_obey stop p ver tag v a f r k body : 2 <= ver <= 4 -> zlen tag = (if ver =? 2 then 3 else 4) -> 0 <= v < size_max ver -> (ver = 2 -> k = false) ->
  obeys stop (p + head_len ver) (chunk_content tag v k) body PRet -> obeys stop p (Chunk_fields ver) (head2 ver tag v a f r k ++ body) PRet.
Proof using Hs Hb.
  intros V T S K H. unfold Chunk_fields, head2, size_item, size_max, head_len, chunk_size_kind in *. assert (Nt : tag <> []) by (intros ->; destruct (ver =? 2); discriminate T).
  destruct (ver_cases ver V) as [->|[->| ->]]; cbn [Z.eqb Pos.eqb app] in *.
  - change (3 <=? 2) with false. cbn iota. apply ob_word; [lia|exact Nt|unfold short; lia|]. apply ob_plain; [split; [discriminate|split; [lia|exact S]]|reflexivity|]. cbn [plain_val num bytes]. rewrite (K eq_refl) in H. replace (p + zlen tag + len _) with (p + 6) by (unfold len; cbn [bytes_of plain_bytes]; rewrite zlen_uint; lia). exact H.
  - change (3 <=? 3) with true. change (4 <=? 3) with false. cbn iota. apply ob_word; [lia|exact Nt|unfold short; lia|]. apply ob_plain; [split; [discriminate|split; [lia|exact S]]|reflexivity|]. cbn [plain_val num bytes]. apply ob_flags. replace (negb (num (VNum (if k then 1 else 0)) =? 0)) with k by (destruct k; reflexivity). replace (p + zlen tag + len _ + 2) with (p + 10) by (unfold len; cbn [bytes_of plain_bytes]; rewrite zlen_uint; lia). exact H.
  - change (3 <=? 4) with true. change (4 <=? 4) with true. cbn iota. apply ob_word; [lia|exact Nt|unfold short; lia|]. apply ob_safe; [exact S|]. cbn [plain_val num bytes]. apply ob_flags. replace (negb (num (VNum (if k then 1 else 0)) =? 0)) with k by (destruct k; reflexivity). replace (p + zlen tag + 4 + 2) with (p + 10) by lia. exact H.
Qed.
Lemma chunk_obeys stop p ver tag v a f r k body next last l q : 2 <= ver <= 4 -> zlen tag = (if ver =? 2 then 3 else 4) -> 0 <= v < size_max ver -> (ver = 2 -> k = false) -> v = zlen (bytes_of_all body) ->
  (forall stop p, stop = 8 * (p + v) -> obeys stop p (chunk_content tag v k) body PRet) -> obeys stop (p + head_len ver + v) (if v =? 0 then last else next) l q ->
  obeys stop p (Chunk ver last next) (ISet (lit "field[]") (head2 ver tag v a f r k ++ body) :: l) q.
Proof using Hs Hb.
  intros V T S K Ev Hc Hn. unfold Chunk.
  assert (Ob : obeys stop p (PSet (lit "field[]") (Some ((v + if 3 <=? ver then 10 else 6) * 8)) (Chunk_fields ver) (fun l => match GenModel.get (lit "size") l with Some v => if num v =? 0 then last else next | None => PErr MissingField end)) (ISet (lit "field[]") (head2 ver tag v a f r k ++ body) :: l) q).
  { assert (Lh : (if 3 <=? ver then 10 else 6) = head_len ver) by (unfold head_len; destruct (ver_cases ver V) as [->|[->| ->]]; reflexivity). rewrite Lh. assert (L : zlen (bytes_of_all (head2 ver tag v a f r k ++ body)) = head_len ver + v) by (rewrite bytes_of_all_app, zlen_app, head_len_ok by assumption; lia). assert (0 < head_len ver) by (unfold head_len; destruct (ver =? 2); lia).
    apply ob_set; [lia|lia| |].
    - apply chunk_fields_obey; try assumption. apply Hc. lia.
    - assert (G : GenModel.get (lit "size") (shows (head2 ver tag v a f r k ++ body) p) = Some (VNum v)) by (unfold head2, size_item; destruct (ver =? 2), (ver =? 3); reflexivity). rewrite G. cbn [num]. rewrite L. replace (p + (head_len ver + v)) with (p + head_len ver + v) by lia. exact Hn. }
  assert (B : forall i l', bytes_of_all (ISet (lit "field[]") (txt "tag" tag :: i :: l') :: l) = tag ++ bytes_of i ++ (bytes_of_all l' ++ bytes_of_all l)) by (intros; rewrite bytes_of_all_cons; change (bytes_of (ISet (lit "field[]") (txt "tag" tag :: i :: l'))) with (tag ++ bytes_of i ++ bytes_of_all l'); rewrite <- !app_assoc; reflexivity).
  unfold size_max, chunk_size_kind in *.
  destruct (ver_cases ver V) as [->|[->| ->]]; cbn [Z.eqb Pos.eqb] in *; unfold head2, size_item in *; cbn [Z.eqb Pos.eqb app] in *.
  - change (3 <=? 2) with false in *. cbn iota in *. eapply (ob_ahead _ _ _ _ (SNum 3 BIG_ENDIAN v)); [apply B|lia|rewrite zlen_app, T; nonneg; lia|split; [discriminate|split; [lia|exact S]]|reflexivity|]. exact Ob.
  - change (3 <=? 3) with true in *. change (4 <=? 3) with false in *. cbn iota in *. eapply (ob_ahead _ _ _ _ (SNum 4 BIG_ENDIAN v)); [apply B|lia|rewrite zlen_app, T; nonneg; lia|split; [discriminate|split; [lia|exact S]]|reflexivity|]. exact Ob.
  - change (3 <=? 4) with true in *. change (4 <=? 4) with true in *. cbn iota in *. eapply ob_ahead_size with (v := v); [apply B|lia|lia|exact S|]. exact Ob.
Qed.
Lemma frame2_obeys stop p ver f next last l q : 2 <= ver <= 4 -> frame2_ok ver f -> obeys stop (p + len (frame2_item ver f)) next l q -> obeys stop p (Chunk ver last next) (frame2_item ver f :: l) q.
Proof using Hs Hb.
  intros V (Tc & T & S & C & Fl) H. unfold frame2_item, frame2_items in *. set (k := f_content f) in *. set (v := zlen (content_bytes k)) in *.
  assert (Ev : v = zlen (bytes_of_all [content_item k])) by (rewrite bytes_of_all_cons; unfold bytes_of_all; cbn [flat_map]; rewrite app_nil_r; destruct k; reflexivity).
  assert (Tl : zlen (f_tag f) = (if ver =? 2 then 3 else 4)) by exact T. assert (Nt : f_tag f <> []) by (intros N; rewrite N in T; destruct (ver =? 2); discriminate T). assert (Sm : size_max ver <= 2 ^ 32) by (unfold size_max; destruct (ver =? 2), (ver =? 3); vm_compute; discriminate). fold (size_max ver) in S.
  assert (L : len (ISet (lit "field[]") (head2 ver (f_tag f) v (f_alter f) (f_file f) (f_ro f) (f_packed f) ++ [content_item k])) = head_len ver + v).
  { unfold len. change (bytes_of (ISet (lit "field[]") ?x)) with (bytes_of_all x). rewrite bytes_of_all_app, zlen_app, head_len_ok by assumption. lia. }
  rewrite L in H. apply chunk_obeys; try assumption; [lia|intros E; apply Fl; lia| |replace (v =? 0) with false by lia; replace (p + head_len ver + v) with (p + (head_len ver + v)) by lia; exact H].
  intros stop' p' E. unfold chunk_content. replace (v =? 0) with false by lia.
  assert (Oth : forall x, k = Other x -> obeys stop' p' (emit (lit "content") (KBytes v); PRet) [content_item k] PRet).
  { intros x Ex. unfold v in *. rewrite Ex in *. cbn [content_bytes content_item] in *. apply ob_raw; [intros ->; cbn in S; lia|change (2 ^ 64) with 18446744073709551616; change (2 ^ 32) with 4294967296 in Sm; lia|apply ob_nil|reflexivity]. }
  destruct (f_packed f) eqn:Pk.
  - destruct C as (x & Ex). exact (Oth x Ex).
  - rewrite tag_plain by exact Tc. rewrite (content_found (f_tag f) k C Nt). destruct (parser_of k) as [P|] eqn:Pk'.
    + assert (Ei : content_item k = ISet (lit "content") (content_items k)) by (destruct k; try reflexivity; discriminate Pk'). assert (Eb : v = zlen (bytes_of_all (content_items k))) by (unfold v; destruct k; try reflexivity; discriminate Pk'). rewrite Ei. apply ob_set; [lia|lia| |apply ob_nil]. apply (content_obeys (f_tag f)); [exact C|exact Pk'|lia|lia].
    + destruct k; try discriminate Pk'. eapply Oth. reflexivity.
Qed.
Lemma zeros_len n : zlen (repeat 0 n) = Z.of_nat n.
Proof using Type. unfold zlen. rewrite repeat_length. reflexivity. Qed.
Lemma padding_obeys stop p ver n next : 2 <= ver <= 4 -> Z.of_nat n < 2 ^ 32 -> stop = 8 * (p + zlen (bytes_of_all (padding_items ver (Some n)))) -> obeys stop p (Chunk ver seek_end next) (padding_items ver (Some n)) PRet.
Proof using Hs Hb.
  intros V N E. unfold padding_items in *. set (tag := repeat 0 (if ver =? 2 then 3%nat else 4%nat)) in *. assert (T : zlen tag = (if ver =? 2 then 3 else 4)) by (unfold tag; rewrite zeros_len; destruct (ver =? 2); reflexivity).
  rewrite bytes_of_all_cons, zlen_app, len_rest_data, zeros_len in E. change (bytes_of (ISet (lit "field[]") ?x)) with (bytes_of_all x) in E. rewrite head_len_ok in E by assumption.
  rewrite <- (app_nil_r (head2 ver tag 0 false false false false)). apply chunk_obeys; try assumption.
  - unfold size_max. destruct (ver =? 2), (ver =? 3); vm_compute; split; congruence.
  - reflexivity.
  - reflexivity.
  - intros stop' p' _. unfold chunk_content. apply ob_nil.
  - change (0 =? 0) with true. cbn iota. unfold seek_end. apply ob_ask. replace (stop <? 8 * (p + head_len ver + 0)) with false by lia. destruct n as [|n].
    + replace (8 * (p + head_len ver + 0) <? stop) with false by lia. apply ob_nil.
    + replace (8 * (p + head_len ver + 0) <? stop) with true by lia. cbn [when]. unfold rest_data. cbn [repeat]. apply ob_raw; [discriminate| |apply ob_nil|].
      * change (0 :: repeat 0 n) with (repeat 0 (S n)). rewrite zeros_len. change (2 ^ 64) with 18446744073709551616. change (2 ^ 32) with 4294967296 in N. lia.
      * change (0 :: repeat 0 n) with (repeat 0 (S n)). rewrite zeros_len. lia.
Qed.
Lemma frame2_len ver f : 2 <= ver <= 4 -> frame2_ok ver f -> 6 < len (frame2_item ver f).
Proof using Type.
  intros V (_ & T & S & _ & _). unfold len, frame2_item, frame2_items. change (bytes_of (ISet (lit "field[]") ?x)) with (bytes_of_all x). rewrite bytes_of_all_app, zlen_app, head_len_ok by assumption. rewrite bytes_of_all_cons, zlen_app. change (zlen (bytes_of_all [])) with 0.
  replace (zlen (bytes_of (content_item (f_content f)))) with (zlen (content_bytes (f_content f))) by (destruct (f_content f); reflexivity). unfold head_len. destruct (ver =? 2); lia.
Qed.
Lemma frames2_obey ver pad : 2 <= ver <= 4 -> match pad with Some n => Z.of_nat n < 2 ^ 32 | None => True end -> forall fs n stop p, Forall (frame2_ok ver) fs -> (List.length fs < n)%nat -> stop = 8 * (p + zlen (bytes_of_all (map (frame2_item ver) fs ++ padding_items ver pad))) ->
  obeys stop p (loop (Chunk ver seek_end) n) (map (frame2_item ver) fs ++ padding_items ver pad) PRet.
Proof using Hs Hb.
  intros V Np fs. induction fs as [|f fs IH]; intros n stop p K N E; (destruct n as [|n]; [cbn [List.length] in N; lia|]); cbn [loop]; apply ob_ask.
  - cbn [map app] in *. destruct pad as [m|].
    + assert (0 < zlen (bytes_of_all (padding_items ver (Some m)))). { unfold padding_items. rewrite bytes_of_all_cons, zlen_app. change (bytes_of (ISet (lit "field[]") ?x)) with (bytes_of_all x). rewrite head_len_ok; [|exact V|rewrite zeros_len; destruct (ver =? 2); reflexivity]. pose proof (zlen_nonneg (bytes_of_all (rest_data "padding[]" (repeat 0 m)))). unfold head_len. destruct (ver =? 2); lia. }
      replace (stop <=? 8 * p) with false by lia. apply padding_obeys; assumption.
    + cbn [padding_items] in *. change (zlen (bytes_of_all [])) with 0 in E. replace (stop <=? 8 * p) with true by lia. apply ob_nil.
  - pose proof (Forall_inv K) as K1. pose proof (Forall_inv_tail K) as K2. cbn [map app] in *. rewrite bytes_of_all_cons, zlen_app in E. pose proof (frame2_len ver f V K1) as L. unfold len in L. pose proof (zlen_nonneg (bytes_of_all (map (frame2_item ver) fs ++ padding_items ver pad))). replace (stop <=? 8 * p) with false by lia. apply frame2_obeys; [exact V|exact K1|]. apply IH; [exact K2|cbn [List.length] in N; lia|unfold len; lia].
Qed.
Lemma tag2_len t : zlen (bytes_of_all (tag2_items t)) = 10 + tag2_size t.
Proof using Type. unfold tag2_items, tag2_size. rewrite bytes_of_all_app, zlen_app. f_equal. Qed.
Lemma frames_count ver fs : 2 <= ver <= 4 -> Forall (frame2_ok ver) fs -> Z.of_nat (List.length fs) <= zlen (bytes_of_all (map (frame2_item ver) fs)).
Proof using Type. intros V. induction 1 as [|f fs K _ IH]; [cbn; lia|]. cbn [map List.length]. rewrite bytes_of_all_cons, zlen_app. pose proof (frame2_len ver f V K) as L. unfold len in L. lia. Qed.
Lemma tag2_obeys stop p t k l q : tag2_ok t -> obeys stop (p + zlen (bytes_of_all (tag2_items t))) k l q -> obeys stop p (ID3v2 k) (ISet (lit "id3v2") (tag2_items t) :: l) q.
Proof using Hs Hb.
  intros (V & Fr & Sz) H. pose proof (zlen_nonneg (bytes_of_all (tag2_body t))) as S0. fold (tag2_size t) in S0.
  assert (B : bytes_of_all (ISet (lit "id3v2") (tag2_items t) :: l) = lit "ID3" ++ uint BIG_ENDIAN 1 (g_ver t) ++ uint BIG_ENDIAN 1 0 ++ bytes_of (IBits BIG_ENDIAN 1 [flag "unsync" false; flag "ext" false; flag "exp" (g_exp t); high 5 "padding[]" 0]) ++ safe_size (tag2_size t) ++ (bytes_of_all (tag2_body t) ++ bytes_of_all l)).
  { rewrite bytes_of_all_cons. change (bytes_of (ISet (lit "id3v2") ?x)) with (bytes_of_all x). unfold tag2_items. rewrite bytes_of_all_app. rewrite !bytes_of_all_cons. unfold txt, be. cbn [bytes_of plain_bytes bytes_of_all flat_map app]. rewrite <- ?app_assoc. reflexivity. }
  assert (Kv : negb (known_version (g_ver t) 0) = false) by (unfold known_version; lia).
  unfold ID3v2. eapply (ob_ahead _ _ _ _ (SText (lit "ID3"))) with (x := []); [exact B|reflexivity|vm_compute; discriminate|split; [discriminate|vm_compute; discriminate]|reflexivity|].
  eapply (ob_ahead _ _ _ _ (SNum 1 BIG_ENDIAN (g_ver t))) with (x := lit "ID3"); [exact B|reflexivity|rewrite zlen_app; cbn [plain_bytes]; rewrite zlen_uint; vm_compute; discriminate|split; [discriminate|split; [lia|change (2 ^ (8 * Z.of_nat 1)) with 256; lia]]|reflexivity|].
  eapply (ob_ahead _ _ _ _ (SNum 1 BIG_ENDIAN 0)) with (x := lit "ID3" ++ uint BIG_ENDIAN 1 (g_ver t)); [rewrite B, <- app_assoc; reflexivity|rewrite zlen_app, zlen_uint; reflexivity|rewrite !zlen_app; cbn [plain_bytes]; rewrite !zlen_uint; vm_compute; discriminate|split; [discriminate|split; [lia|change (2 ^ (8 * Z.of_nat 1)) with 256; lia]]|reflexivity|].
  cbn [plain_val num bytes]. change (str_eqb (lit "ID3") (lit "ID3")) with true. cbn [negb orb]. rewrite Kv.
  eapply ob_ahead_size with (x := lit "ID3" ++ uint BIG_ENDIAN 1 (g_ver t) ++ uint BIG_ENDIAN 1 0 ++ bytes_of (IBits BIG_ENDIAN 1 [flag "unsync" false; flag "ext" false; flag "exp" (g_exp t); high 5 "padding[]" 0])); [rewrite B, <- !app_assoc; reflexivity|rewrite !zlen_app; cbn [bytes_of]; rewrite !zlen_uint; reflexivity|rewrite !zlen_app; cbn [bytes_of]; rewrite !zlen_uint; vm_compute; discriminate|lia|].
  cbn [num]. pose proof (tag2_len t) as L. apply ob_set; [lia|lia| |exact H].
  unfold ID3v2_fields, tag2_items. cbn [app]. apply ob_word; [reflexivity|discriminate|vm_compute; discriminate|]. apply ob_plain; [split; [discriminate|split; [lia|change (2 ^ (8 * Z.of_nat 1)) with 256; lia]]|reflexivity|]. apply ob_plain; [split; [discriminate|split; [lia|change (2 ^ (8 * Z.of_nat 1)) with 256; lia]]|reflexivity|]. cbn [plain_val num bytes]. change (str_eqb (lit "ID3") (lit "ID3")) with true. cbn [negb]. rewrite Kv.
  eapply (ob_bits read data); [discriminate|lia|reflexivity| |].
  - unfold flag, high, bit. do 4 (apply ta_cons; [cbn; lia|reflexivity|]). apply ta_nil.
  - apply ob_safe; [lia|]. apply ob_ask. assert (Ps : p + zlen (lit "ID3") + len (I (lit "ver_major") (SNum 1 BIG_ENDIAN (g_ver t))) + len (I (lit "ver_minor") (SNum 1 BIG_ENDIAN 0)) + Z.of_nat 1 + 4 = p + 10) by (unfold len; cbn [bytes_of plain_bytes]; rewrite !zlen_uint; change (zlen (lit "ID3")) with 3; lia). rewrite Ps.
    apply frames2_obey.
    + exact V.
    + unfold tag2_size, tag2_body in Sz. destruct (g_padding t) as [n|]; [|exact Logic.I]. cbn [padding_items] in Sz. rewrite bytes_of_all_app, bytes_of_all_cons, !zlen_app, len_rest_data, zeros_len in Sz. nonneg. change (2 ^ 28) with 268435456 in Sz. change (2 ^ 32) with 4294967296. lia.
    + exact Fr.
    + pose proof (frames_count (g_ver t) (g_frames t) V Fr) as Fc. assert (zlen (bytes_of_all (map (frame2_item (g_ver t)) (g_frames t))) <= tag2_size t) by (unfold tag2_size, tag2_body; rewrite bytes_of_all_app, zlen_app; pose proof (zlen_nonneg (bytes_of_all (padding_items (g_ver t) (g_padding t)))); lia). lia.
    + unfold tag2_size, tag2_body in *. lia.
Qed.
(** ID3v1 *)
Lemma tag1_len t : tag1_ok t -> zlen (bytes_of_all (tag1_items t)) = 128.
Proof using Type.
  intros (K1 & K2 & K3 & K4 & _ & K). unfold tag1_items. rewrite !bytes_of_all_app, !zlen_app. destruct (t_comment t) as [x|x n]; cbn [app]; rewrite !bytes_of_all_cons, !zlen_app; unfold txt, be; cbn [bytes_of plain_bytes bytes_of_all flat_map]; rewrite ?zlen_uint, ?zlen_app, K1, K2, K3, K4; [rewrite K|destruct K as [-> _]]; reflexivity.
Qed.
Lemma tag1_split t : tag1_ok t -> tag1_usual t -> exists x y b, bytes_of_all (tag1_items t) = x ++ [b; t_genre t] ++ y /\ zlen x = 126 /\ match t_comment t with Plain1 _ => b = 0 | Track1 _ n => b = n end.
Proof using Type.
  intros (K1 & K2 & K3 & K4 & G & K) (_ & U). assert (Ug : forall n, byte n -> uint BIG_ENDIAN 1 n = [n]) by (intros n Bn; apply uint1; exact Bn). unfold tag1_items. destruct (t_comment t) as [x|x n]; cbn [app]; unfold txt, be; rewrite !bytes_of_all_cons; cbn [bytes_of plain_bytes bytes_of_all flat_map]; rewrite ?Ug by (try exact G; unfold byte; change (2 ^ 8) with 256; lia).
  - destruct U as (y & ->). rewrite zlen_app in K. change (zlen [0]) with 1 in K. exists (lit "TAG" ++ t_song t ++ t_author t ++ t_album t ++ t_year t ++ y), [], 0. split; [rewrite <- !app_assoc; reflexivity|]. split; [rewrite !zlen_app, K1, K2, K3, K4; change (zlen (lit "TAG")) with 3; lia|reflexivity].
  - exists (lit "TAG" ++ t_song t ++ t_author t ++ t_album t ++ t_year t ++ x ++ [0]), [], n. split; [rewrite <- !app_assoc; reflexivity|]. split; [rewrite !zlen_app, K1, K2, K3, K4; destruct K as [-> _]; reflexivity|reflexivity].
Qed.
Lemma tag1_obeys stop p t k l q : tag1_ok t -> tag1_usual t -> obeys stop (p + 128) k l q -> obeys stop p (ID3v1 k) (ISet (lit "id3v1") (tag1_items t) :: l) q.
Proof using Hs Hb.
  intros K U H. pose proof (tag1_len t K) as L. unfold ID3v1. apply ob_set; [lia|lia| |rewrite L; exact H]. intros F. pose proof F as [O _]. revert F. change (obeys (8 * p + 128 * 8) p ID3v1_fields (tag1_items t) PRet).
  destruct (tag1_split t K U) as (x & y & b & E & Lx & Eb). rewrite E in O. apply occ_app in O as [_ O]. apply occ_app in O as [O _]. rewrite Lx in O.
  pose proof K as (K1 & K2 & K3 & K4 & G & Kc). destruct U as [Ug U]. unfold ID3v1_fields. apply ob_ask. unfold tag1_items. cbn [app].
  apply ob_word; [reflexivity|discriminate|vm_compute; discriminate|]. cbn [bytes]. change (str_eqb (lit "TAG") (lit "TAG")) with true. cbn [negb].
  do 4 (apply ob_word; [lia|intros N; rewrite N in *; discriminate|unfold short; lia|]).
  eapply (ob_do read data) with (v := VBytes [b; t_genre t]); [intros _; replace (8 * p + 126 * 8) with (8 * (p + 126)) by lia; change 2 with (zlen [b; t_genre t]); rewrite (rb_occ read data Hs _ _ O) by discriminate; reflexivity|]. cbn [bytes]. unfold getVersion. cbn [nth]. replace (t_genre t =? 32) with false by lia. cbn [negb].
  destruct (t_comment t) as [c|c n].
  - subst b. change (0 =? 0) with true. cbn iota. cbn [app]. apply ob_word; [lia|intros ->; discriminate Kc|unfold short; lia|]. apply ob_u8; [exact G|apply ob_nil].
  - subst b. destruct Kc as [Kc Kn]. replace (n =? 0) with false by lia. cbn [app]. apply ob_word; [rewrite zlen_app, Kc; reflexivity|destruct c; discriminate|unfold short; rewrite zlen_app, Kc; vm_compute; discriminate|]. apply ob_u8; [unfold byte; change (2 ^ 8) with 256; lia|]. apply ob_u8; [exact G|apply ob_nil].
Qed.
End Read.

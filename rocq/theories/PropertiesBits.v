(** Property theorems C14-C18: conversions, alignment, binary searches. *)
From Verif Require Import Base BaseProofs BitsModel BitsSpec BitsSpec2 BitsProofs BitsProofs2 ToolsModel ToolsProofs.

(** ** C14 *)
Theorem C14_long2raw : forall v e size,
  0 <= v -> e <> MIDDLE_ENDIAN ->
  exists d n, long2raw v e size = Ok d /\ is_bytes d /\ str2long d e = Ok v /\
    bytes_needed v n /\ zlen d = Z.max n (match size with Some s => s | None => 0 end).
Proof. exact long2raw_spec. Qed.
Print Assumptions C14_long2raw.
Theorem C14_raw_roundtrip : forall d e,
  is_bytes d -> e <> MIDDLE_ENDIAN ->
  exists v, str2long d e = Ok v /\ 0 <= v < 256 ^ zlen d /\ long2raw v e (Some (zlen d)) = Ok d.
Proof. exact raw_roundtrip. Qed.
Print Assumptions C14_raw_roundtrip.
Theorem C14_negative : forall v e size, v < 0 -> long2raw v e size = Err AssertionError.
Proof. exact long2raw_negative. Qed.
Print Assumptions C14_negative.
Theorem C14_middle : forall v size, 0 <= v -> long2raw v MIDDLE_ENDIAN size = Err AssertionError.
Proof. exact long2raw_middle. Qed.
Print Assumptions C14_middle.
Example C14_ex : long2raw 0x1219 BIG_ENDIAN (Some 4) = Ok [0; 0; 0x12; 0x19]
  /\ str2long [0x19; 0x12; 0; 0] LITTLE_ENDIAN = Ok 0x1219 /\ long2raw 0 BIG_ENDIAN None = Ok [].
Proof. vm_compute. auto. Qed.

(** ** C15 *)
Theorem C15_long2bin_layout : forall size v e (classic : bool),
  0 <= size -> 0 <= v -> e <> MIDDLE_ENDIAN ->
  long2bin size v e classic =
  Ok (spaced (map (fun g => if classic then rev g else g)
        (groups8 (map bit_char (match e with LITTLE_ENDIAN => rev (low_bits (Z.to_nat size) v)
                                           | _ => low_bits (Z.to_nat size) v end))))).
Proof. exact long2bin_spec. Qed.
Print Assumptions C15_long2bin_layout.
Theorem C15_bin2long_long2bin : forall size v,
  1 <= size -> 0 <= v ->
  (do t <- long2bin size v BIG_ENDIAN false; bin2long t LITTLE_ENDIAN) = Ok (v mod 2 ^ size) /\
  (do t <- long2bin size v LITTLE_ENDIAN false; bin2long t BIG_ENDIAN) = Ok (v mod 2 ^ size).
Proof. exact bin2long_long2bin. Qed.
Print Assumptions C15_bin2long_long2bin.
Theorem C15_byte2bin : forall n,
  byte2bin n true = map bit_char (bits_be [n]) /\ byte2bin n false = map bit_char (bits_le [n]).
Proof. exact byte2bin_bits. Qed.
Print Assumptions C15_byte2bin.
Theorem C15_str2bin : forall value classic,
  str2bin value classic = spaced (map (fun c => byte2bin c classic) value).
Proof. exact str2bin_spec. Qed.
Print Assumptions C15_str2bin.
Theorem C15_str2hex_decodes : forall v, is_bytes v -> unhex (str2hex v []) = Some v.
Proof. exact str2hex_unhex. Qed.
Print Assumptions C15_str2hex_decodes.
Theorem C15_str2hex_injective : forall v w, is_bytes v -> is_bytes w -> str2hex v [] = str2hex w [] -> v = w.
Proof. exact str2hex_inj. Qed.
Print Assumptions C15_str2hex_injective.
Theorem C15_countBits : forall v,
  0 <= v -> exists b, countBits v = Ok b /\ 1 <= b /\ v < 2 ^ b /\
                      forall b', 1 <= b' -> v < 2 ^ b' -> b <= b'.
Proof. exact countBits_spec. Qed.
Print Assumptions C15_countBits.
Example C15_ex : countBits 44100 = Ok 16 /\ (do t <- long2bin 12 2573 LITTLE_ENDIAN false; bin2long t BIG_ENDIAN) = Ok 2573
  /\ unhex (str2hex [0xF0; 0x0A] []) = Some [0xF0; 0x0A].
Proof. vm_compute. auto. Qed.

(** ** C16 *)
Theorem C16_strswapmid : forall d,
  zlen d mod 2 = 0 -> exists d', strswapmid d = Ok d' /\ d' = swap_words d /\ zlen d' = zlen d /\ strswapmid d' = Ok d.
Proof. exact strswapmid_involutive. Qed.
Print Assumptions C16_strswapmid.
Theorem C16_strswapmid_odd : forall d, zlen d mod 2 <> 0 -> strswapmid d = Err AssertionError.
Proof. exact strswapmid_odd. Qed.
Print Assumptions C16_strswapmid_odd.
Theorem C16_swap16 : forall a b, is_byte a -> is_byte b -> swap16 (a * 256 + b) = b * 256 + a.
Proof. exact swap16_spec. Qed.
Print Assumptions C16_swap16.
Theorem C16_swap32 : forall a b c d, is_byte a -> is_byte b -> is_byte c -> is_byte d ->
  swap32 (((a * 256 + b) * 256 + c) * 256 + d) = ((d * 256 + c) * 256 + b) * 256 + a.
Proof. exact swap32_spec. Qed.
Print Assumptions C16_swap32.
Theorem C16_swap16_involutive : forall v, 0 <= v < 2 ^ 16 -> 0 <= swap16 v < 2 ^ 16 /\ swap16 (swap16 v) = v.
Proof. exact swap16_involutive. Qed.
Print Assumptions C16_swap16_involutive.
Theorem C16_swap32_involutive : forall v, 0 <= v < 2 ^ 32 -> 0 <= swap32 v < 2 ^ 32 /\ swap32 (swap32 v) = v.
Proof. exact swap32_involutive. Qed.
Print Assumptions C16_swap32_involutive.
Example C16_ex : strswapmid [1; 2; 3; 4] = Ok [2; 1; 4; 3] /\ swap32 0x12345678 = 0x78563412.
Proof. vm_compute. auto. Qed.

(** ** C17 *)
Theorem C17_paddingSize : forall v a, 1 <= a ->
  0 <= paddingSize v a < a /\ (v + paddingSize v a) mod a = 0 /\
  forall p, 0 <= p -> (v + p) mod a = 0 -> paddingSize v a <= p.
Proof. exact paddingSize_spec. Qed.
Print Assumptions C17_paddingSize.
Theorem C17_alignValue : forall v a, 1 <= a ->
  v <= alignValue v a /\ alignValue v a mod a = 0 /\
  forall m, v <= m -> m mod a = 0 -> alignValue v a <= m.
Proof. exact alignValue_spec. Qed.
Print Assumptions C17_alignValue.
Theorem C17_align_is_padding : forall v a, alignValue v a = v + paddingSize v a.
Proof. exact alignValue_padding. Qed.
Print Assumptions C17_align_is_padding.
Example C17_ex : paddingSize 14 4 = 2 /\ alignValue 14 4 = 16 /\ alignValue 16 4 = 16.
Proof. vm_compute. auto. Qed.

(** ** C18 *)
Theorem C18_binarySearch : forall A (seq : list A) (cmp : A -> Z), sorted_for seq cmp ->
  (exists i x, binarySearch seq cmp = Ok (Some (Z.of_nat i)) /\ nth_error seq i = Some x /\ cmp x = 0)
  \/ (binarySearch seq cmp = Ok None /\ forall x, In x seq -> cmp x <> 0).
Proof. exact @binarySearch_spec. Qed.
Print Assumptions C18_binarySearch.
Theorem C18_lowerBound : forall A (seq : list A) (p : A -> bool), downward_closed seq p ->
  exists r, lowerBound seq p = Ok r /\ 0 <= r <= zlen seq /\
    (forall i x, nth_error seq i = Some x -> Z.of_nat i < r -> p x = true) /\
    (forall i x, nth_error seq i = Some x -> r <= Z.of_nat i -> p x = false).
Proof. exact @lowerBound_spec. Qed.
Print Assumptions C18_lowerBound.
Example C18_ex : binarySearch [1; 4; 9; 16; 25] (fun x => 16 - x) = Ok (Some 3)
  /\ binarySearch [1; 4; 9; 16; 25] (fun x => 15 - x) = Ok None
  /\ lowerBound [1; 4; 9; 16; 25] (fun x => x <=? 9) = Ok 3.
Proof. vm_compute. auto. Qed.
Example C18_sorted_ex : sorted_for [1; 4; 9] (fun x => 4 - x) /\ downward_closed [1; 4; 9] (fun x => x <=? 4).
Proof.
  split; intros [|[|[|[|i]]]] [|[|[|[|j]]]] x y Hij Hx Hy; cbn in Hx, Hy; try discriminate;
    try (injection Hx as <-); try (injection Hy as <-); cbn; try lia; auto.
Qed.

(** Properties of the IBM floating point decoders: C79. *)
From Verif Require Import BaseFacts IdsBytes MachineModel MachineProofs HriFloatModel HriFloatSpec HriFloatProofs.

(** ** Every buffer decodes, when long has 4 bytes. *)
Lemma r4_zero_fraction h buff s e : (4 <= List.length buff)%nat -> bytes_ok buff -> fields (be_val (firstn 4 buff)) s e 0 ->
  r4_from_buff 4 h buff = Ok (if e =? 0 then s * 2 ^ 31
    else let E := 4 * (e - 64) + 126 in
         if 255 <=? E then s * 2 ^ 31 + 0x7F7FFFFF else if E <=? 0 then s * 2 ^ 31 else s * 2 ^ 31 + E * 2 ^ 23).
Proof.
  intros L B FS. unfold r4_from_buff. destruct (first_word h buff L B) as (four & E0 & -> & E1 & E2). rewrite E0. cbn [bind]. rewrite E1. cbn [bind]. rewrite E2. set (W := be_val (firstn 4 buff)) in *.
  destruct (field_reads W s e 0 FS) as (-> & -> & -> & ->). destruct FS as [_ _ _ Rs Re _ EW]. rewrite Z.add_0_r. destruct (Z.eqb_spec e 0) as [->|N].
  - rewrite Z.mul_0_l, Z.eqb_refl. f_equal. lia.
  - destruct (Z.eqb_spec (e * 2 ^ 24) 0); [lia|]. rewrite Z.eqb_refl. cbn [negb bind]. rewrite times4_eq. rewrite Z.land_0_l. cbv zeta.
    replace (4 * (e - 64) - 1 + 127) with (4 * (e - 64) + 126) by lia. f_equal.
    destruct (Z.leb_spec 255 (4 * (e - 64) + 126)).
    + change 0x7F7FFFFF with (254 * 2 ^ 23 + 0x7FFFFF). rewrite lor_disjoint by lia. apply Z.mod_small. lia.
    + destruct (Z.leb_spec (4 * (e - 64) + 126) 0); [apply Z.mod_small; lia|]. rewrite ieee_word by lia. lia.
Qed.
Lemma r8_zero_fraction h buff s e : (8 <= List.length buff)%nat -> bytes_ok buff -> fields (be_val (firstn 4 buff)) s e 0 -> 0 < e ->
  r8_from_buff 4 h buff = Ok (s * 2 ^ 31 + (4 * (e - 64) + 1023) * 2 ^ 20, be_val (firstn 4 (skipn 4 buff)) / 16).
Proof.
  intros L B FS PE. unfold r8_from_buff. destruct (two_words h buff L B) as (E0 & E1 & W0 & W1). rewrite E0, E1. cbn [bind]. cbv zeta in W0, W1. rewrite W0, W1. cbn [bind]. clear W0 W1. set (W := be_val (firstn 4 buff)) in *.
  set (X := be_val (firstn 4 (skipn 4 buff))). assert (RX : 0 <= X < 2 ^ 32).
  { pose proof (be_val_range (firstn 4 (skipn 4 buff)) (bytes_ok_firstn 4 _ (bytes_ok_skipn 4 buff B))) as R. rewrite firstn_length, skipn_length, Nat.min_l in R by lia. exact R. }
  destruct (field_reads W s e 0 FS) as (-> & -> & -> & ->). destruct FS as [_ _ _ Rs Re _ _]. destruct (Z.eqb_spec (e * 2 ^ 24 + 0) 0); [lia|].
  cbn [fst]. rewrite Z.eqb_refl. cbn [negb bind]. rewrite times4_eq. destruct (rightshift4_ok (0, X)) as [LR VR]; [split; cbn [fst snd]; lia|].
  destruct (rightshift 4 (0, X) 4) as [f0 f1] eqn:ER. unfold val, low_ok in *. cbn [fst snd] in *. assert (f0 = 0 /\ f1 = X / 16) as [-> ->] by lia.
  destruct (Z.leb_spec 2047 (4 * (e - 64) + 1023)); [lia|]. destruct (Z.leb_spec (4 * (e - 64) + 1023) 0); [lia|]. do 2 f_equal; [|apply Z.mod_small; lia].
  rewrite Z.land_0_l, Z.lor_0_r, Z.shiftl_mul_pow2 by lia. rewrite lor_disjoint by lia. apply Z.mod_small. lia.
Qed.
Lemma word_range n buff : (n <= List.length buff)%nat -> bytes_ok buff -> 0 <= be_val (firstn n buff) < 256 ^ Z.of_nat n.
Proof.
  intros L B. pose proof (be_val_range (firstn n buff) (bytes_ok_firstn n _ B)) as R. rewrite firstn_length, Nat.min_l in R by lia. exact R.
Qed.
Theorem C79_total h buff : bytes_ok buff ->
  ((4 <= List.length buff)%nat -> exists B, r4_from_buff 4 h buff = Ok B) /\
  ((8 <= List.length buff)%nat -> exists hi lo, r8_from_buff 4 h buff = Ok (hi, lo)).
Proof.
  intros B. split; intros L.
  - pose proof (fields_of _ (word_range 4 buff L B)) as FS. set (W := be_val (firstn 4 buff)) in *. destruct (Z.eq_dec (W mod 2 ^ 24) 0) as [E|N].
    + rewrite E in FS. eexists. apply (r4_zero_fraction h buff _ _ L B FS).
    + destruct (r4_spec h buff _ _ _ L B FS) as (V & E & _); [lia|]. now exists V.
  - assert (L4 : (4 <= List.length buff)%nat) by lia. pose proof (fields_of _ (word_range 4 buff L4 B)) as FS. set (W := be_val (firstn 4 buff)) in *. destruct (Z.eq_dec (W mod 2 ^ 24) 0) as [E|N].
    + rewrite E in FS. destruct (Z.eq_dec ((W / 2 ^ 24) mod 128) 0) as [E0|N0].
      * rewrite E0 in FS. unfold r8_from_buff. destruct (two_words h buff L B) as (E1 & E2 & W0 & W1). rewrite E1, E2. cbn [bind]. cbv zeta in W0, W1. rewrite W0, W1. cbn [bind]. fold W.
        destruct (field_reads _ _ _ _ FS) as (-> & _). cbn. eauto.
      * eexists _, _. apply (r8_zero_fraction h buff _ _ L B FS). lia.
    + destruct (r8_spec h buff _ _ _ L B FS) as (hi & lo & k & E & _); [lia|]. now exists hi, lo.
Qed.
Print Assumptions C79_total.

(** ** Singles: exact in the range of normal floats, saturating outside. *)
Lemma ibm32_fields W s e f : fields W s e f -> ibm32 W = (if s =? 0 then 1 else -1) * (f * 2 ^ (4 * e + 120)).
Proof. intros FS. unfold ibm32. rewrite (sgn_fields _ _ _ _ FS). destruct FS as [_ <- <- _ _ _ _]. reflexivity. Qed.
Lemma abs_signed (s x : Z) : 0 <= x -> Z.abs ((if s =? 0 then 1 else -1) * x) = x.
Proof. intros H. destruct (s =? 0); lia. Qed.
(** The exponent of the value decides. *)
Lemma ibm_scaled e f k : 0 <= e -> 0 <= k -> f * 2 ^ (4 * e + 120) * 2 ^ k = f * 2 ^ k * 2 ^ (4 * e + 120).
Proof. intros. lia. Qed.
Lemma pow_gap a b x : 0 <= a -> 0 <= b -> 2 ^ 23 <= x -> 2 ^ a <= 2 ^ b -> 2 ^ (a + 23) <= x * 2 ^ b.
Proof. intros A B X L. rewrite Z.pow_add_r by lia. assert (0 < 2 ^ a) by (apply Z.pow_pos_nonneg; lia). nia. Qed.
Lemma k_range f k : 0 < f < 2 ^ 24 -> 0 <= k -> f * 2 ^ k < 2 ^ 24 -> k < 24.
Proof. intros F K H. destruct (Z.le_gt_cases 24 k); [|lia]. assert (2 ^ 24 <= 2 ^ k) by (apply Z.pow_le_mono_r; lia). nia. Qed.
(** [F = f * 2^k] normalised: the number is F * 2^(4e+120-k). *)
Lemma ibm_norm e f k : 0 <= e -> 0 <= k < 24 -> f * 2 ^ (4 * e + 120) = f * 2 ^ k * 2 ^ (4 * e + 120 - k).
Proof. intros H K. rewrite <- Z.mul_assoc, <- Z.pow_add_r by lia. do 2 f_equal. lia. Qed.
Lemma norm_below F n m : 0 <= n -> F < 2 ^ 24 -> n + 24 <= m -> F * 2 ^ n < 2 ^ m.
Proof. intros N B H. replace m with (24 + n + (m - 24 - n)) by lia. rewrite !Z.pow_add_r by lia. assert (0 < 2 ^ n) by (apply Z.pow_pos_nonneg; lia). assert (0 < 2 ^ (m - 24 - n)) by (apply Z.pow_pos_nonneg; lia). nia. Qed.
Lemma norm_above F n m : 0 <= n -> 2 ^ 23 <= F -> 0 <= m -> m <= n + 23 -> 2 ^ m <= F * 2 ^ n.
Proof.
  intros N B P H. apply (Z.le_trans _ (2 ^ (n + 23))); [apply Z.pow_le_mono_r; lia|]. rewrite Z.pow_add_r by lia. assert (0 < 2 ^ n) by (apply Z.pow_pos_nonneg; lia). nia.
Qed.
Theorem C79_single_exact h buff : (4 <= List.length buff)%nat -> bytes_ok buff ->
  2 ^ 274 <= Z.abs (ibm32 (be_val (firstn 4 buff))) < 2 ^ 528 ->
  exists B, r4_from_buff 4 h buff = Ok B /\ finite32 B /\ ieee32 B = ibm32 (be_val (firstn 4 buff)).
Proof.
  intros L B R. pose proof (fields_of _ (word_range 4 buff L B)) as FS. set (W := be_val (firstn 4 buff)) in *. set (s := W / 2 ^ 31) in *. set (e := (W / 2 ^ 24) mod 128) in *. set (f := W mod 2 ^ 24) in *.
  assert (EI := ibm32_fields _ _ _ _ FS). rewrite EI in R. assert (P0 : 0 < 2 ^ (4 * e + 120)) by (apply Z.pow_pos_nonneg; [lia|]; destruct FS; lia).
  rewrite abs_signed in R by (destruct FS; nia).
  assert (F0 : 0 < f). { destruct (Z.eq_dec f 0) as [E|N]; [|destruct FS; lia]. exfalso. rewrite E in R. cbn [Z.mul] in R. assert (0 < 2 ^ 274) by reflexivity. lia. }
  destruct (r4_spec h buff s e f L B FS F0) as (V & E & k & K & RK & RES). cbv zeta in RES. exists V. split; [exact E|].
  destruct FS as [_ _ _ Rs Re Rf _]. assert (K24 := k_range f k ltac:(lia) K (proj2 RK)).
  rewrite (ibm_norm e f k) in R, EI by lia.
  assert (E1 : ~ 255 <= 4 * (e - 64) - 1 - k + 127). { intros C. assert (2 ^ 528 <= f * 2 ^ k * 2 ^ (4 * e + 120 - k)) by (apply norm_above; lia). lia. }
  assert (E2 : ~ 4 * (e - 64) - 1 - k + 127 <= 0). { intros C. assert (f * 2 ^ k * 2 ^ (4 * e + 120 - k) < 2 ^ 274) by (apply norm_below; lia). lia. }
  destruct (Z.leb_spec 255 (4 * (e - 64) - 1 - k + 127)); [contradiction|]. destruct (Z.leb_spec (4 * (e - 64) - 1 - k + 127) 0); [contradiction|].
  subst V. destruct (ieee32_word s (4 * (e - 64) - 1 - k + 127) (f * 2 ^ k - 2 ^ 23)) as [FI VI]; [lia|lia|lia|]. split; [exact FI|]. rewrite VI, EI. destruct (Z.eqb_spec (4 * (e - 64) - 1 - k + 127) 0); [lia|].
  f_equal. replace (2 ^ 23 + (f * 2 ^ k - 2 ^ 23)) with (f * 2 ^ k) by lia. do 2 f_equal. lia.
Qed.
Print Assumptions C79_single_exact.
(** Beyond: the largest float, or zero, of the same sign. *)
Theorem C79_single_saturates h buff : (4 <= List.length buff)%nat -> bytes_ok buff -> let W := be_val (firstn 4 buff) in W mod 2 ^ 24 <> 0 ->
  exists B, r4_from_buff 4 h buff = Ok B /\ finite32 B /\ sgn32 B = sgn32 W /\
    (2 ^ 528 <= Z.abs (ibm32 W) -> ieee32 B = sgn32 W * ((2 ^ 24 - 1) * 2 ^ 504)) /\
    (Z.abs (ibm32 W) < 2 ^ 274 -> ieee32 B = 0).
Proof.
  intros L B W NZ. pose proof (fields_of _ (word_range 4 buff L B)) as FS. fold W in FS. set (s := W / 2 ^ 31) in *. set (e := (W / 2 ^ 24) mod 128) in *. set (f := W mod 2 ^ 24) in *.
  assert (EI := ibm32_fields _ _ _ _ FS). assert (P0 : 0 < 2 ^ (4 * e + 120)) by (apply Z.pow_pos_nonneg; [lia|]; destruct FS; lia).
  assert (F0 : 0 < f) by (destruct FS; lia). assert (ABS : Z.abs (ibm32 W) = f * 2 ^ (4 * e + 120)) by (rewrite EI; apply abs_signed; nia).
  destruct (r4_spec h buff s e f L B FS F0) as (V & E & k & K & RK & RES). cbv zeta in RES. exists V. split; [exact E|]. rewrite (sgn_fields _ _ _ _ FS), ABS.
  destruct FS as [_ _ _ Rs Re Rf _]. assert (K24 := k_range f k ltac:(lia) K (proj2 RK)). rewrite (ibm_norm e f k) by lia.
  assert (SG : forall E M, 0 <= E < 255 -> 0 <= M < 2 ^ 23 -> sgn32 (s * 2 ^ 31 + E * 2 ^ 23 + M) = if s =? 0 then 1 else -1).
  { intros E' M HE HM. unfold sgn32. destruct (Z.ltb_spec (s * 2 ^ 31 + E' * 2 ^ 23 + M) (2 ^ 31)), (Z.eqb_spec s 0); try reflexivity; lia. }
  destruct (Z.leb_spec 255 (4 * (e - 64) - 1 - k + 127)) as [H1|H1].
  { subst V. change 0x7F7FFFFF with (254 * 2 ^ 23 + (2 ^ 23 - 1)). rewrite Z.add_assoc. destruct (ieee32_word s 254 (2 ^ 23 - 1)) as [FI VI]; [lia|lia|lia|]. split; [exact FI|]. split; [apply SG; lia|]. split.
    - intros _. rewrite VI. reflexivity.
    - intros C. exfalso. assert (2 ^ 274 <= f * 2 ^ k * 2 ^ (4 * e + 120 - k)) by (apply norm_above; lia). lia. }
  destruct (Z.leb_spec (4 * (e - 64) - 1 - k + 127) 0) as [H2|H2].
  { subst V. replace (s * 2 ^ 31) with (s * 2 ^ 31 + 0 * 2 ^ 23 + 0) by lia. destruct (ieee32_word s 0 0) as [FI VI]; [lia|lia|lia|]. split; [exact FI|]. split; [apply SG; lia|]. split.
    - intros C. exfalso. assert (f * 2 ^ k * 2 ^ (4 * e + 120 - k) < 2 ^ 528) by (apply norm_below; lia). lia.
    - intros _. rewrite VI. cbn. lia. }
  subst V. destruct (ieee32_word s (4 * (e - 64) - 1 - k + 127) (f * 2 ^ k - 2 ^ 23)) as [FI VI]; [lia|lia|lia|]. split; [exact FI|]. split; [apply SG; lia|]. split; intros C; exfalso.
  - assert (f * 2 ^ k * 2 ^ (4 * e + 120 - k) < 2 ^ 528) by (apply norm_below; lia). lia.
  - assert (2 ^ 274 <= f * 2 ^ k * 2 ^ (4 * e + 120 - k)) by (apply norm_above; lia). lia.
Qed.
Print Assumptions C79_single_saturates.

(** ** Doubles: truncated to 53 bits, never further from the number than one unit
    in the last place, towards zero. *)
Lemma be_val_8 buff : (8 <= List.length buff)%nat -> be_val (firstn 8 buff) = be_val (firstn 4 buff) * 2 ^ 32 + be_val (firstn 4 (skipn 4 buff)).
Proof.
  intros L. do 8 (destruct buff as [|? buff]; [cbn in L; lia|]). cbn [firstn skipn]. cbn [be_val List.length]. lia.
Qed.
Theorem C79_double h buff : (8 <= List.length buff)%nat -> bytes_ok buff -> let W := be_val (firstn 8 buff) in be_val (firstn 4 buff) mod 2 ^ 24 <> 0 ->
  exists hi lo, r8_from_buff 4 h buff = Ok (hi, lo) /\ let B := hi * 2 ^ 32 + lo in
    finite64 B /\ sgn64 B = sgn64 W /\ ieee64 B <= ibm64 W /\ 2 ^ 52 * (ibm64 W - ieee64 B) < ieee64 B.
Proof.
  intros L B W NZ. assert (L4 : (4 <= List.length buff)%nat) by lia. pose proof (fields_of _ (word_range 4 buff L4 B)) as FS. assert (EW := be_val_8 buff L). fold W in EW. set (U := be_val (firstn 4 buff)) in *.
  set (X := be_val (firstn 4 (skipn 4 buff))) in *. assert (RX : 0 <= X < 2 ^ 32).
  { apply (word_range 4 (skipn 4 buff)); [rewrite skipn_length; lia|now apply bytes_ok_skipn]. }
  set (s := U / 2 ^ 31) in *. set (e := (U / 2 ^ 24) mod 128) in *. set (f := U mod 2 ^ 24) in *.
  assert (F0 : 0 < f) by (destruct FS; lia).
  destruct (r8_spec h buff s e f L B FS F0) as (hi & lo & k & E & K0 & K & RES). cbv zeta in RES. fold X in RES. destruct RES as (RF & RV & RE). exists hi, lo. split; [exact E|]. cbv zeta.
  set (F := (f * 2 ^ 32 + X) * 2 ^ k) in *. set (EX := 4 * (e - 64) - k + 1023) in *. destruct FS as [_ _ _ Rs Re Rf EU].
  assert (W1 : W = s * 2 ^ 63 + e * 2 ^ 56 + (f * 2 ^ 32 + X)) by lia.
  assert (IB : ibm64 W = (f * 2 ^ 32 + X) * 2 ^ (4 * e + 788)).
  { unfold ibm64. replace (W mod 2 ^ 56) with (f * 2 ^ 32 + X) by lia. replace ((W / 2 ^ 56) mod 128) with e by lia. reflexivity. }
  assert (K56 : k <= 56).
  { destruct (Z.le_gt_cases k 56); [assumption|]. exfalso. assert (2 ^ 57 <= 2 ^ k) by (apply Z.pow_le_mono_r; lia). subst F. nia. }
  assert (B1 : (((hi * 2 ^ 32 + lo) / 2 ^ 52) mod 2048) = EX) by lia. assert (B2 : (hi * 2 ^ 32 + lo) mod 2 ^ 52 = F / 16 - 2 ^ 52) by lia.
  split; [split; [lia|rewrite B1; lia]|]. split.
  { unfold sgn64. destruct (Z.ltb_spec (hi * 2 ^ 32 + lo) (2 ^ 63)), (Z.ltb_spec W (2 ^ 63)); try reflexivity; lia. }
  assert (IE : ieee64 (hi * 2 ^ 32 + lo) = (F / 16) * 2 ^ (EX + 25)).
  { unfold ieee64. rewrite B1, B2. destruct (Z.eqb_spec EX 0); [lia|]. f_equal. lia. }
  assert (IB' : ibm64 W = F * 2 ^ (EX + 21)).
  { rewrite IB. subst F. rewrite <- Z.mul_assoc, <- Z.pow_add_r by lia. do 2 f_equal. lia. }
  rewrite IE, IB'. replace (EX + 25) with (4 + (EX + 21)) by lia. rewrite Z.pow_add_r by lia. change (2 ^ 4) with 16. assert (PP : 0 < 2 ^ (EX + 21)) by (apply Z.pow_pos_nonneg; lia). set (P := 2 ^ (EX + 21)) in *.
  clearbody P F. clear - RF PP. assert (H1 : F / 16 * 16 <= F) by lia. assert (H2 : 2 ^ 52 * (F - F / 16 * 16) < F / 16 * 16) by lia. nia.
Qed.
Print Assumptions C79_double.

(** ** A zero fraction with a non-zero exponent is zero, and is not decoded as such. *)
Theorem C79_refuted_zero_fraction h buff : (4 <= List.length buff)%nat -> bytes_ok buff -> let W := be_val (firstn 4 buff) in
  W mod 2 ^ 24 = 0 -> 33 <= (W / 2 ^ 24) mod 128 <= 96 -> ibm32 W = 0 /\ exists B, r4_from_buff 4 h buff = Ok B /\ finite32 B /\ ieee32 B <> 0 /\ ieee32 B <> ibm32 W.
Proof.
  intros L B W Z0 R. pose proof (fields_of _ (word_range 4 buff L B)) as FS. fold W in FS. rewrite Z0 in FS. assert (I0 : ibm32 W = 0) by (unfold ibm32; rewrite Z0; lia). split; [exact I0|].
  pose proof (r4_zero_fraction h buff _ _ L B FS) as E. set (s := W / 2 ^ 31) in *. set (e := (W / 2 ^ 24) mod 128) in *. destruct FS as [_ _ _ Rs _ _ _].
  destruct (Z.eqb_spec e 0); [lia|]. cbv zeta in E. destruct (Z.leb_spec 255 (4 * (e - 64) + 126)); [lia|]. destruct (Z.leb_spec (4 * (e - 64) + 126) 0); [lia|].
  eexists. split; [exact E|]. replace (s * 2 ^ 31 + (4 * (e - 64) + 126) * 2 ^ 23) with (s * 2 ^ 31 + (4 * (e - 64) + 126) * 2 ^ 23 + 0) by lia.
  destruct (ieee32_word s (4 * (e - 64) + 126) 0) as [FI VI]; [lia|lia|lia|]. split; [exact FI|]. rewrite I0, VI. destruct (Z.eqb_spec (4 * (e - 64) + 126) 0); [lia|]. assert (0 < 2 ^ (4 * (e - 64) + 126 + 250)) by (apply Z.pow_pos_nonneg; lia). destruct (s =? 0); lia.
Qed.
Print Assumptions C79_refuted_zero_fraction.

(** ** Where long has 8 bytes (64 bit Linux), the decoders read beyond the four
    bytes they copied, whatever the number. *)
Theorem C79_refuted_long64 buff : (8 <= List.length buff)%nat -> r4_from_buff 8 LE buff = UB /\ r8_from_buff 8 LE buff = UB.
Proof.
  intros L. split.
  - unfold r4_from_buff. rewrite bytes_at_ok by lia. cbn [bind]. change (check_endianess LE) with false. cbv iota. unfold long_at, bytes_at. rewrite rev_length, firstn_length, skipn_O, Nat.min_l by lia. reflexivity.
  - unfold r8_from_buff. rewrite !bytes_at_ok by lia. cbn [bind]. change (check_endianess LE) with false. cbv iota.
    assert (LEN : List.length (rev (firstn 4 (skipn 0 buff)) ++ rev (firstn 4 (skipn 4 buff))) = 8%nat) by (rewrite app_length, !rev_length, !firstn_length, !skipn_length; lia).
    unfold long_at at 1. rewrite bytes_at_ok by (rewrite LEN; lia). cbn [bind]. unfold long_at, bytes_at. rewrite LEN. reflexivity.
Qed.
Print Assumptions C79_refuted_long64.

(** 0x42640000 is 100, 0xC2640000 is -100; 1/10 as a double is 0x401999999999999A. *)
Example C79_case : r4_from_buff 4 LE [0x42; 0x64; 0; 0] = Ok 0x42C80000 /\ ieee32 0x42C80000 = 100 * 2 ^ 400 /\ ibm32 0x42640000 = 100 * 2 ^ 400 /\
  r4_from_buff 4 BE [0xC2; 0x64; 0; 0] = Ok 0xC2C80000 /\ r8_from_buff 4 LE [0x40; 0x19; 0x99; 0x99; 0x99; 0x99; 0x99; 0x9A] = Ok (0x3FB99999, 0x9999999A).
Proof. repeat split; vm_compute; reflexivity. Qed.
Example C79_case_out : r4_from_buff 4 LE [0x7F; 0xFF; 0xFF; 0xFF] = Ok 0x7F7FFFFF /\ r4_from_buff 4 LE [0x81; 0; 0; 1] = Ok 0x80000000 /\ r4_from_buff 4 LE [0x41; 0; 0; 0] = Ok 0x41000000 /\ r4_from_buff 8 LE [0x42; 0x64; 0; 0; 0; 0; 0; 0] = UB.
Proof. repeat split; vm_compute; reflexivity. Qed.
